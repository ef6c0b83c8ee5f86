(** OptSpec.v — vocabulary for the theorems about optimizers. *)
From Verif Require Import Base EnvModel IdxProof OptModel.

(** What the integer tables say about shell number [i]. *)
Record view := mkview {
  v_l : Z -> Z;        (* angular momentum *)
  v_np : Z -> Z;       (* primitives *)
  v_nc : Z -> Z;       (* contractions *)
  v_exp : Z -> Z;      (* address of the exponents in env *)
  v_coef : Z -> Z;     (* address of the coefficients in env, contraction-major *)
  v_xyz : Z -> Z }.    (* address of the centre's coordinates in env *)

Definition has_shells (atm bas : arr Z) (nbas : Z) (V : view) : Prop :=
  forall i, 0 <= i < nbas ->
    (exists a, rd bas (8 * i + 0) = Some a /\ rd atm (6 * a + 1) = Some (v_xyz V i)) /\
    rd bas (8 * i + 1) = Some (v_l V i) /\
    rd bas (8 * i + 2) = Some (v_np V i) /\
    rd bas (8 * i + 3) = Some (v_nc V i) /\
    rd bas (8 * i + 5) = Some (v_exp V i) /\
    rd bas (8 * i + 6) = Some (v_coef V i).

(** The data the table points to lies in env.  An exponent list does not start at
    address 0: with no primitive the code reads the number before it. *)
Definition shells_ok (nbas : Z) (V : view) (esize : Z) : Prop :=
  forall i, 0 <= i < nbas ->
    0 <= v_l V i <= 15 /\ 0 <= v_np V i /\ 0 <= v_nc V i /\
    1 <= v_exp V i /\ v_exp V i + v_np V i <= esize /\
    0 <= v_coef V i /\ v_coef V i + v_np V i * v_nc V i <= esize /\
    0 <= v_xyz V i /\ v_xyz V i + 3 <= esize.

(** env has its 20 reserved numbers, all numbers are set, [ev] are their values. *)
Definition env_is {F} (env : arr F) (ev : Z -> F) : Prop :=
  20 <= asize env /\ forall x, 0 <= x < asize env -> rd env x = Some (ev x).

Definition good_basis {F} (B : basis F) : Prop :=
  0 <= b_nbas B /\
  (exists c, rd (b_atm B) 1 = Some c) /\         (* there is an atom *)
  exists V ev, has_shells (b_atm B) (b_bas B) (b_nbas B) V /\
    shells_ok (b_nbas B) V (asize (b_env B)) /\ env_is (b_env B) ev.

(** ** What callers may do with a variable [CINTOpt *v]
    A variable that holds a live optimizer also has the basis it was made for and
    the parts that a filling routine has been called for. *)
Inductive avar (F : Type) :=
| AUndef
| ANull
| ALive (B : basis F) (log pair non0 : bool).
Arguments AUndef {F}. Arguments ANull {F}. Arguments ALive {F}.

(** the kinds whose optimizers hold pair data *)
Definition has_pair (k : kind) : bool :=
  match k with K1e | K2c2e | Kgrids => false | K2e | K3c2e | K3c1e | Kstg => true end.

Definition is_live {F} (a : avar F) : Prop := match a with ALive _ _ _ _ => True | _ => False end.

(** One call, and what the caller knows afterwards: create only over a variable
    that does not hold a live optimizer; fill only a live optimizer, with the basis it
    was created for, and no part twice; delete anything that was ever assigned. *)
Inductive allowed {F} : op F -> avar F -> avar F -> Z -> Prop :=
| A_init v B a : good_basis B -> ~ is_live a -> allowed (OInit v B) a (ALive B false false false) v
| A_no v a : ~ is_live a -> allowed (ONo v) a ANull v
| A_all v k ng B a : good_basis B -> ng_ok ng -> ~ is_live a -> allowed (OAll v k ng B) a (ALive B true (has_pair k) true) v
| A_log v B p n : allowed (OLog v B) (ALive B false p n) (ALive B true p n) v
| A_non0 v B l p : allowed (ONon0 v B) (ALive B l p false) (ALive B l p true) v
| A_ij v ng B l n : allowed (OIj v ng B) (ALive B l false n) (ALive B true true n) v
| A_delpair v B l p n : allowed (ODelPair v) (ALive B l p n) (ALive B l false n) v
| A_delpair_null v : allowed (ODelPair v) ANull ANull v
| A_del v B l p n : allowed (ODel v) (ALive B l p n) ANull v
| A_del_null v : allowed (ODel v) ANull ANull v.

Inductive calls_ok {F} : list (op F) -> (Z -> avar F) -> (Z -> avar F) -> Prop :=
| C_nil f : calls_ok [] f f
| C_cons c l v f f1 f2 : allowed c (f v) (f1 v) v -> (forall w, w <> v -> f1 w = f w) ->
    calls_ok l f1 f2 -> calls_ok (c :: l) f f2.
