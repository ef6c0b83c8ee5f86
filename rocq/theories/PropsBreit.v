(** PropsBreit.v — property C50 (the Breit driver).  Statements only. *)
From Verif Require Import Base BasModel BasSpec BasProof OutSpec BreitModel BreitProof.
From Coq Require Import Ring.

(** C50.  For every quartet of shells of every basis table, every choice of ring for the values
    (the complex numbers are one), every value and flag of the three ingredients that only ever
    report "all zero" when all their values are, and every layout of the caller's array that has room
    for the block: the block holds one half of (- Gaunt - gauge_r1 + gauge_r2) element by element,
    nothing else changes, and the returned flag is non-zero iff one of the three was. *)
Section C50.
  Context {F : Type} (zero one : F) (add mul sub : F -> F -> F) (opp : F -> F).
  Hypothesis RT : ring_theory zero one add mul sub opp eq.
  Variable half : F.
  Hypothesis Half : add half half = one.

  (** a zero flag is only returned for an all-zero block of [n] values *)
  Definition flag_honest (n : Z) (q : ingredient (F:=F)) : Prop :=
    i_flag q = 0 -> forall i, 0 <= i < n -> i_val q i = zero.

  Definition spinors (s : shell) : Z := spinor_fns s * sh_nctr s.

  Theorem C50_breit (bas : arr Z) (b : list shell) (p0 p1 p2 p3 : nat) (s0 s1 s2 s3 : shell)
      (gaunt r1 r2 : ingredient (F:=F)) (out : arr F) (dims : option (arr Z)) (n0 n1 n2 n3 : Z) :
    stores bas b ->
    nth_error b p0 = Some s0 -> nth_error b p1 = Some s1 -> nth_error b p2 = Some s2 -> nth_error b p3 = Some s3 ->
    let c0 := spinors s0 in let c1 := spinors s1 in let c2 := spinors s2 in let c3 := spinors s3 in
    0 <= c0 <= n0 -> 0 <= c1 <= n1 -> 0 <= c2 <= n2 -> 0 <= c3 <= n3 ->
    let N := c0 * c1 * c2 * c3 in
    flag_honest N gaunt -> flag_honest N r1 -> flag_honest N r2 ->
    dims_are dims 3 [n0; n1; n2; n3] [c0; c1; c2; c3] ->
    0 <= asize out -> room (asize out) 1 n0 n1 n2 n3 c0 c1 c2 c3 ->
    exists out' f,
      int2e_breit add mul sub opp half bas (Z.of_nat p0, Z.of_nat p1, Z.of_nat p2, Z.of_nat p3)
        out dims gaunt r1 r2 = Some (out', f) /\
      stored_block out out' 1 n0 n1 n2 n3 c0 c1 c2 c3 (fun _ i j k l =>
        let q := place c0 c1 c2 c3 0 i j k l in
        mul half (add (sub (opp (i_val gaunt q)) (i_val r1 q)) (i_val r2 q))) /\
      (f <> 0 <-> i_flag gaunt <> 0 \/ i_flag r1 <> 0 \/ i_flag r2 <> 0).
  Proof.
    intros Hb E0 E1 E2 E3 c0 c1 c2 c3 L0 L1 L2 L3 N Hg H1 H2 Hd Hz Hs.
    unfold int2e_breit.
    destruct (shell_sizes bas b p0 s0 Hb E0) as [_ [_ [_ ->]]].
    destruct (shell_sizes bas b p1 s1 Hb E1) as [_ [_ [_ ->]]].
    destruct (shell_sizes bas b p2 s2 Hb E2) as [_ [_ [_ ->]]].
    destruct (shell_sizes bas b p3 s3 Hb E3) as [_ [_ [_ ->]]]. cbn [bind].
    fold (spinors s0) (spinors s1) (spinors s2) (spinors s3).
    exact (breit_total zero one add mul sub opp half RT c0 c1 c2 c3 gaunt r1 r2 n0 n1 n2 n3 out dims
             L0 L1 L2 L3 Hg H1 H2 Hd Hz Hs).
  Qed.
End C50.
Print Assumptions C50_breit.

(** Two p1/2 shells and two s shells over the integers doubled (half = 1 stands in for the scale), a
    strided output: the second gauge integral alone is non-zero, so the first pass is skipped. *)
Section Ex.
  Let bas : arr Z := of_fun 16 (fun i => nth (Z.to_nat i) [0;1;1;1;1;0;0;0; 0;0;1;1;0;0;0;0] 0).
  Let zero_block : ingredient (F:=Z) := mking (fun _ => 0) 0.
  Let some_block : ingredient (F:=Z) := mking (fun i => 10 + i) 5.
  Example C50_ex :
    match int2e_breit Z.add Z.mul Z.sub Z.opp 1 bas (0, 1, 1, 0) (uninit 90) (Some (of_fun 3 (fun i => nth (Z.to_nat i) [3;2;5] 0)))
            zero_block zero_block some_block with
    | Some (o, f) => f = 1 /\ rd o 0 = Some 10 /\ rd o 1 = Some 11 /\ rd o 2 = None /\ rd o 3 = Some 12 /\
        rd o 6 = Some 14 /\ rd o 30 = Some 18
    | None => False
    end.
  Proof. vm_compute. repeat split; reflexivity. Qed.
  (** all three present *)
  Example C50_ex2 :
    match int2e_breit Z.add Z.mul Z.sub Z.opp 1 bas (0, 1, 1, 0) (uninit 16) None
            some_block (mking (fun i => i * i) 1) some_block with
    | Some (o, f) => f = 1 /\ rd o 3 = Some (- 13 - 9 + 13) /\ rd o 15 = Some (- 25 - 225 + 25)
    | None => False
    end.
  Proof. vm_compute. repeat split; reflexivity. Qed.
End Ex.
