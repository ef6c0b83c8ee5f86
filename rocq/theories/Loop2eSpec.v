(** Loop2eSpec.v — what the two-electron primitive loops have to compute. *)
From Verif Require Import Base BasSpec CtrModel LoopSpec Loop2eModel.

Section Loop2eSpec.
  Context {F : Type} (zero : F) (add mul : F -> F -> F).

  (** A shell as the loops see it: coefficient matrix [cf] (contraction, primitive) in an
      array, sparse lists built by CINTOpt_non0coeff_byshell. *)
  Definition shell_of (isz : F -> bool) (s : shl F) (cf : Z -> Z -> F) : Prop :=
    exists c, coeffs c (s_np s) (s_ctr s) cf /\ mk_shell isz (s_np s) (s_ctr s) c = Some s.

  Variables (n_comp nf : Z) (si sj sk sl : shl F).
  Notation ci := (s_ctr si). Notation cj := (s_ctr sj).
  Notation ck := (s_ctr sk). Notation cl := (s_ctr sl).

  (** Primitive quartets that pass every screening test. *)
  Definition survives (q : quartets F) (ip jp kp lp : Z) : bool :=
    negb (pair_empty q) &&
    (negb (skip_kl q kp lp) && (negb (skip_ij q ip jp kp lp) && g0 q ip jp kp lp)).

  Definition rows4 : Z := nf * (ci * cj * ck * cl).

  (** Scratch buffers of the general loops: only levels that are not aliased need one. *)
  Definition scratch_general : list (nat * Z) :=
    needs (negb (ci =? 1)) 0 (nf * n_comp) ++ needs (negb (cj =? 1)) 1 (nf * n_comp * ci) ++
    needs (negb (ck =? 1)) 2 (nf * n_comp * ci * cj) ++ needs (negb (cl =? 1)) 3 (nf * n_comp * ci * cj * ck) ++
    needs (negb (n_comp =? 1)) 4 (nf * n_comp * ci * cj * ck * cl).
  (** Scratch buffers of the specialised loops: gout and, if there are several components,
      the buffer [own] of the contracted batch. *)
  Definition scratch_special (own : nat) : list (nat * Z) :=
    needs (negb (Nat.eqb own 0)) 0 (nf * n_comp) ++ needs (negb (n_comp =? 1)) own (nf * n_comp * ci * cj * ck * cl).
  (** Scratch buffers of the loop the contraction pattern selects. *)
  Definition scratch_any : list (nat * Z) :=
    match ci =? 1, cj =? 1, ck =? 1, cl =? 1 with
    | true, true, true, true => scratch_special 0
    | false, true, true, true => scratch_special 1
    | true, false, true, true => scratch_special 2
    | true, true, false, true => scratch_special 3
    | true, true, true, false => scratch_special 4
    | _, _, _, _ => scratch_general
    end.

  (** Row [r], component [c] of the contracted batch. *)
  Definition value4 (cfi cfj cfk cfl : Z -> Z -> F) (q : quartets F) (common : F) (r c : Z) : F :=
    batch4 zero add mul (s_np si) (s_np sj) (s_np sk) (s_np sl) (survives q) cfi cfj cfk cfl
      (fun ip jp kp lp x => mul (mul (e_ij q ip jp) (e_kl q kp lp)) (base q ip jp kp lp x))
      common nf n_comp ci cj ck r c.

  (** The loop ran without error, added [value4] to the caller's batch (stored it if the
      caller's flag said "empty"), cleared the flag iff something survived, left
      everything else of the caller's buffer alone and returned the right value. *)
  Definition contracts (cfi cfj cfk cfl : Z -> Z -> F) (q : quartets F) (common : F) (T : Z -> Z -> F)
      (m : mem F) (res : option (mem F * bool)) : Prop :=
    exists m' ret, res = Some (m', ret) /\
      (pair_empty q = false -> ret = negb (flg m' 5%nat)) /\
      accumulated add m m' rows4 n_comp
        (some4 (s_np si) (s_np sj) (s_np sk) (s_np sl) (survives q)) T (value4 cfi cfj cfk cfl q common).

  (** The caller's view of two outcomes is the same. *)
  Definition same_outcome (r1 r2 : option (mem F * bool)) : Prop :=
    exists m1 m2 ret1 ret2, r1 = Some (m1, ret1) /\ r2 = Some (m2, ret2) /\ ret1 = ret2 /\
      flg m1 5%nat = flg m2 5%nat /\
      (flg m1 5%nat = false -> forall r c, 0 <= r < rows4 -> 0 <= c < n_comp ->
         rd (buf m1 5%nat) (c * rows4 + r) = rd (buf m2 5%nat) (c * rows4 + r)) /\
      (forall x, ~ (0 <= x < rows4 * n_comp) -> acell (buf m1 5%nat) x = acell (buf m2 5%nat) x).
End Loop2eSpec.
