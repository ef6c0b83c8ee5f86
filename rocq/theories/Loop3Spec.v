(** Loop3Spec.v — what the two- and three-centre, three- and four-centre one-electron and
    one-electron primitive loops have to compute. *)
From Verif Require Import Base BasSpec CtrModel LoopSpec Loop2eModel Loop3Model.

Section Loop3Spec.
  Context {F : Type} (zero : F) (add mul : F -> F -> F).

  (** The loop ran without error and added [V] to the caller's batch [T] (stored it if the
      caller's flag said "empty"); [any]: something contributed; it returned the caller's
      flag, unless it gave up [early]. *)
  Definition adds (m : mem F) (rows n_comp : Z) (early : bool) (any : Prop) (T V : Z -> Z -> F)
      (res : option (mem F * bool)) : Prop :=
    exists m' ret, res = Some (m', ret) /\
      (early = false -> ret = negb (flg m' 5%nat)) /\ (early = true -> ret = false) /\
      accumulated add m m' rows n_comp any T V.
  (** ... for the loops that never add: it stored [V] and returned 1 iff something contributed. *)
  Definition makes (m : mem F) (rows n_comp : Z) (any : Prop) (V : Z -> Z -> F)
      (res : option (mem F * bool)) : Prop :=
    exists m' ret, res = Some (m', ret) /\ produced m m' ret rows n_comp any V.

  (** The caller's view of two outcomes is the same. *)
  Definition same_added (rows n_comp : Z) (r1 r2 : option (mem F * bool)) : Prop :=
    exists m1 m2 ret1 ret2, r1 = Some (m1, ret1) /\ r2 = Some (m2, ret2) /\ ret1 = ret2 /\
      flg m1 5%nat = flg m2 5%nat /\
      (flg m1 5%nat = false -> forall r c, 0 <= r < rows -> 0 <= c < n_comp ->
         rd (buf m1 5%nat) (c * rows + r) = rd (buf m2 5%nat) (c * rows + r)) /\
      (forall x, ~ (0 <= x < rows * n_comp) -> acell (buf m1 5%nat) x = acell (buf m2 5%nat) x).
  Definition same_made (rows n_comp : Z) (r1 r2 : option (mem F * bool)) : Prop :=
    exists m1 m2 ret1 ret2, r1 = Some (m1, ret1) /\ r2 = Some (m2, ret2) /\ ret1 = ret2 /\
      (ret1 = true -> forall r c, 0 <= r < rows -> 0 <= c < n_comp ->
         rd (buf m1 5%nat) (c * rows + r) = rd (buf m2 5%nat) (c * rows + r)).

  Variables (n_comp nf : Z) (si sj sk : shl F).
  Notation ci := (s_ctr si). Notation cj := (s_ctr sj). Notation ck := (s_ctr sk).

  Definition rows3 : Z := nf * (ci * cj * ck).
  Definition rows2 : Z := nf * (ci * cj).
  (** Scratch: only levels that are not aliased need a buffer of their own. *)
  Definition scratch3 : list (nat * Z) :=
    needs (negb (ci =? 1)) 0 (nf * n_comp) ++ needs (negb (cj =? 1)) 1 (nf * n_comp * ci) ++
    needs (negb (ck =? 1)) 2 (nf * n_comp * ci * cj) ++ needs (negb (n_comp =? 1)) 3 (nf * n_comp * ci * cj * ck).
  Definition scratch3_special (own : nat) : list (nat * Z) :=
    needs (negb (Nat.eqb own 0)) 0 (nf * n_comp) ++ needs (negb (n_comp =? 1)) own (nf * n_comp * ci * cj * ck).
  (** Scratch buffers of the loop the contraction pattern selects. *)
  Definition scratch3_any : list (nat * Z) :=
    match ci =? 1, cj =? 1, ck =? 1 with
    | true, true, true => scratch3_special 0
    | false, true, true => scratch3_special 1
    | true, false, true => scratch3_special 2
    | _, _, _ => scratch3
    end.
  Definition scratch2 : list (nat * Z) :=
    needs (negb (ci =? 1)) 0 (nf * n_comp) ++ needs (negb (cj =? 1)) 1 (nf * n_comp * ci) ++
    needs (negb (n_comp =? 1)) 2 (nf * n_comp * ci * cj).
  Definition scratch4 (sl : shl F) : list (nat * Z) :=
    needs (negb (ci =? 1)) 0 (nf * n_comp) ++ needs (negb (cj =? 1)) 1 (nf * n_comp * ci) ++
    needs (negb (ck =? 1)) 2 (nf * n_comp * ci * cj) ++ needs (negb (s_ctr sl =? 1)) 3 (nf * n_comp * ci * cj * ck) ++
    needs (negb (n_comp =? 1)) 4 (nf * n_comp * ci * cj * ck * s_ctr sl).

  (** Primitives that pass every screening test. *)
  Definition kept_3c2e (q : triples F) (ip jp kp : Z) : bool :=
    negb (t_empty q) && (negb (t_skip q ip jp) && t_g0 q ip jp kp).
  Definition kept_3c1e (q : triples1 F) (ip jp kp : Z) : bool := negb (u_skip q ip jp kp).
  Definition kept_4c1e (q : quartets1 F) (ip jp kp lp : Z) : bool :=
    negb (v_skip_kl q kp lp) && negb (v_skip q ip jp kp lp).
  Definition kept_1e (q : pairs1 F) (ip jp : Z) : bool := negb (w_empty q) && negb (w_skip q ip jp).

  (** Batches of the primitives. *)
  Definition prim_3c2e (q : triples F) (ip jp kp x : Z) : F := mul (t_e q ip jp) (t_base q ip jp kp x).
  Definition prim_3c1e (q : triples1 F) (ip jp kp x : Z) : F :=
    mul (u_e q ip jp kp) (mul (u_d q ip jp kp) (u_base q ip jp kp 0 x)).
  (** nuclear attraction: sum over the quadrature roots *)
  Definition prim_3c1e_nuc (q : triples1 F) (ip jp kp x : Z) : F :=
    mul (u_e q ip jp kp) (mul (u_d q ip jp kp)
      (lsum zero add (u_roots q) (fun i => mul (u_w q ip jp kp i) (u_base q ip jp kp i x)))).
  Definition prim_4c1e (q : quartets1 F) (ip jp kp lp x : Z) : F :=
    mul (v_e q ip jp kp lp) (v_base q ip jp kp lp x).
  (** one-electron: overlap type, 1/r at the RINV origin, sum over the nuclei *)
  Definition prim_1e (int1e_type : Z) (q : pairs1 F) (ip jp x : Z) : F :=
    mul (w_e q ip jp)
      (match int1e_type with
       | 0 => w_ovlp q ip jp x
       | 1 => w_nuc q ip jp (-1) x
       | _ => lsum zero add (w_natm q) (fun ia => w_nuc q ip jp ia x)
       end).
End Loop3Spec.
