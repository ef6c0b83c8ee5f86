(** Whole2Batch.v — the two-electron primitive computations add multiples of a fixed batch; the batch is
    the documented integral. *)
From Coq Require Import Reals Lra QArith String.
From Coquelicot Require Import Coquelicot.
From Verif Require Import Base BasModel BasSpec EnvModel IdxModel IdxSpec CtrModel Loop2eModel Loop3Model OptModel OptSpec OptProof OptPair OutModel TabModel
  OpSpec RecModel RecRModel RecSpec GaussInt Gauss2Int Rec1Real Rec2RModel Rec2Real Rec2Spec
  IntgModel IntgSpec IntgTab IntgStmt IntgCheck IntgStep IntgSem IntgFinal IntgAll IntgEx IntgOvlp IntgReal QuadSpec OperSpec OperModel OperKeep OperNuc Oper2e GiaoProof
  WholeModel WholeSim WholeBatch Whole2Model Whole2Sim Whole2Zero Whole2Spec.
Local Open Scope R_scope.

(** ** From values to batches *)
Definition kept_run (run : qrun) : R -> bool -> arr R -> arr R -> option (arr R * arr R) := fun fac empty g gout =>
  r <- run fac empty g gout ;; let '(b, s) := r in if b : bool then Some s else None.
Section BatchQ.
  Variables (len gsz : Z) (run : qrun) (b : bool) (E : R) (PD : Z -> C -> C -> Prop).
  Hypothesis HE : E <> 0.
  Hypothesis Hu : forall n ph D ph' D', PD n ph D -> PD n ph' D' -> ph = ph' /\ D = D'.
  Hypothesis Hn : forall n ph D, PD n ph D -> ph <> RtoC 0.
  Hypothesis H : forall c0 empty g gout, holds gsz g -> (len <= asize gout)%Z -> filled gout ->
    exists g' gout', run (c0 * E) empty g gout = Some (b, (g', gout')) /\ holds gsz g' /\ (b = true -> Frame (fun q => 0 <= q < len)%Z gout gout' /\
      forall n, (0 <= n < len)%Z -> exists v old ph D, rd gout' n = Some (old + v) /\ (if empty then old = 0 else rd gout n = Some old) /\
        PD n ph D /\ (ph * RtoC v = RtoC c0 * D)%C).
  Definition qbatch : Z -> R := batch len gsz (kept_run run) E.
  Lemma kept_H : b = true -> forall c0 empty g gout, holds gsz g -> (len <= asize gout)%Z -> filled gout ->
    exists g' gout', kept_run run (c0 * E) empty g gout = Some (g', gout') /\ holds gsz g' /\ Frame (fun q => 0 <= q < len)%Z gout gout' /\
      forall n, (0 <= n < len)%Z -> exists v old ph D, rd gout' n = Some (old + v) /\ (if empty then old = 0 else rd gout n = Some old) /\
        PD n ph D /\ (ph * RtoC v = RtoC c0 * D)%C.
  Proof.
    intros Hb c0 empty g gout Hg Hs Hf. destruct (H c0 empty g gout Hg Hs Hf) as (g' & go & R1 & R2 & R3). destruct (R3 Hb) as (R4 & R5).
    exists g', go. split; [|repeat (split; [assumption|]); exact R5]. unfold kept_run. rewrite R1, Hb. reflexivity.
  Qed.
  Lemma qbatch_is n : b = true -> (0 <= n < len)%Z -> exists ph D, PD n ph D /\ (ph * RtoC (E * qbatch n) = D)%C.
  Proof. intros Hb. exact (batch_is len gsz (kept_run run) E PD HE Hu Hn (kept_H Hb) n). Qed.
  Lemma qbatch_adds fac : adds_at len gsz b qbatch fac run.
  Proof.
    intros empty g gout Hg Hs Hf. destruct (H (fac / E) empty g gout Hg Hs Hf) as (g' & go & R1 & R2 & R3).
    replace (fac / E * E) with fac in R1 by (field; exact HE). exists g', go. split; [exact R1|]. split; [exact R2|]. intros Hb.
    destruct (batch_adds len gsz (kept_run run) E PD HE Hu Hn (kept_H Hb) fac empty g gout Hg Hs Hf) as (g2 & go2 & Q1 & Q2 & Q3 & Q4).
    unfold kept_run in Q1. rewrite R1, Hb in Q1. cbn in Q1. injection Q1 as <- <-. split; [exact Q3|exact Q4].
  Qed.
End BatchQ.

(** ** The catalogue *)
Definition two_fam (fam : gfam) : Prop := fam = F2e \/ fam = F3c2e \/ fam = F2c2e.
(** the number of components as the drivers compute it: CINT3c2e_drv leaves out ncomp_e2 *)
Definition ncomp_of (fam : gfam) (ng : ngT) : Z := match fam with F3c2e => POS_E1 ng * TENSOR ng | _ => POS_E1 ng * POS_E2 ng * TENSOR ng end%Z.
Definition whole2_ok (t : ent) : bool :=
  match en_fam (t_e t) with
  | F2e | F3c2e | F2c2e =>
    eqf (en_cart (t_e t)) (en_sph (t_e t)) &&
    match ent_ng t with Some ng => (ncomp_of (en_fam (t_e t)) ng =? Z.of_nat (length (g_rows (t_f t))))%Z && (0 <? ncomp_of (en_fam (t_e t)) ng)%Z | None => false end &&
    Nat.eqb (length (comps t)) (length (g_rows (t_f t)))
  | _ => true
  end.
Lemma whole2_checked : forallb whole2_ok catalogue = true.
Proof. vm_cast_no_check (eq_refl true). Qed.
Lemma whole2 t : In t catalogue -> two_fam (en_fam (t_e t)) ->
  en_cart (t_e t) = en_sph (t_e t) /\ length (comps t) = length (g_rows (t_f t)) /\
  forall ng, ent_ng t = Some ng -> (ncomp_of (en_fam (t_e t)) ng = Z.of_nat (length (g_rows (t_f t))))%Z /\ (1 <= ncomp_of (en_fam (t_e t)) ng)%Z.
Proof.
  intros Ht Hf. pose proof (proj1 (forallb_forall _ _) whole2_checked t Ht) as C1. unfold whole2_ok in C1.
  assert (C2 : eqf (en_cart (t_e t)) (en_sph (t_e t)) &&
    match ent_ng t with Some ng => (ncomp_of (en_fam (t_e t)) ng =? Z.of_nat (length (g_rows (t_f t))))%Z && (0 <? ncomp_of (en_fam (t_e t)) ng)%Z | None => false end &&
    Nat.eqb (length (comps t)) (length (g_rows (t_f t))) = true) by (destruct Hf as [E|[E|E]]; rewrite E in *; exact C1).
  clear C1 Hf. apply andb_true_iff in C2. destruct C2 as [C2 C5]. apply andb_true_iff in C2. destruct C2 as [C2 C4].
  split; [apply eqf_eq; exact C2|]. split; [apply Nat.eqb_eq; exact C5|]. intros ng En. rewrite En in C4. lia.
Qed.

(** ** Positions in a batch of four centres *)
Lemma digit_inj (N a b a' b' : Z) : (0 <= b < N)%Z -> (0 <= b' < N)%Z -> (a * N + b = a' * N + b')%Z -> a = a' /\ b = b'.
Proof. intros H H' E. apply (Z.div_mod_unique N); [lia..|]. lia. Qed.
Lemma digit_bound (N M a b : Z) : (0 <= b < N)%Z -> (0 <= a < M)%Z -> (0 <= a * N + b < M * N)%Z.
Proof. nia. Qed.
Lemma digit_split (N M n : Z) : (0 <= N)%Z -> (0 <= n < M * N)%Z -> exists a b, n = (a * N + b)%Z /\ (0 <= b < N)%Z /\ (0 <= a < M)%Z.
Proof.
  intros HN0 Hn. assert (HN : (0 < N)%Z) by (destruct (Z.eq_dec N 0) as [->|]; lia). exists (n / N)%Z, (n mod N)%Z. pose proof (Z.div_mod n N ltac:(lia)). pose proof (Z.mod_pos_bound n N HN).
  split; [lia|]. split; [lia|]. split; [apply Z.div_pos; lia|apply Z.div_lt_upper_bound; lia].
Qed.
Lemma nth_at {T} (l : list T) x : (0 <= x < Z.of_nat (length l))%Z -> exists n v, x = Z.of_nat n /\ nth_error l n = Some v.
Proof.
  intros H. exists (Z.to_nat x). destruct (nth_error l (Z.to_nat x)) as [v|] eqn:E; [|apply nth_error_None in E; lia].
  exists v. split; [lia|reflexivity].
Qed.
Lemma nth_in {T} (l : list T) n v : nth_error l n = Some v -> (0 <= Z.of_nat n < Z.of_nat (length l))%Z.
Proof. intros E. assert (n < length l)%nat by (apply nth_error_Some; congruence). lia. Qed.

Section Pos4.
  Variables (t : ent) (l : centre -> Z) (f : Z * positive) (Dv : triple -> triple -> triple -> triple -> poly -> C -> Prop).
  Let nc := Z.of_nat (length (g_rows (t_f t))).
  Let L c := Z.of_nat (length (cart_list (l c))).
  Definition pos4 (i j k n kk : nat) : Z :=
    ((((Z.of_nat j * Z.of_nat (length (cart_list (l CL))) + Z.of_nat n) * Z.of_nat (length (cart_list (l CK))) + Z.of_nat k)
       * Z.of_nat (length (cart_list (l CI))) + Z.of_nat i) * Z.of_nat (length (g_rows (t_f t))) + Z.of_nat kk)%Z.
  Definition at4 (i j k n kk : nat) ti tj tk tl s1 s2 q : Prop :=
    nth_error (cart_list (l CI)) i = Some ti /\ nth_error (cart_list (l CJ)) j = Some tj /\ nth_error (cart_list (l CK)) k = Some tk /\
    nth_error (cart_list (l CL)) n = Some tl /\ nth_error (comps t) kk = Some (s1, s2, q).
  Definition PD4 (p : Z) (ph D : C) : Prop := exists (i j k n kk : nat) ti tj tk tl s1 s2 q,
    at4 i j k n kk ti tj tk tl s1 s2 q /\ p = pos4 i j k n kk /\ ph = cval (cqmul (qfac f) (phase (t_e t) s1 s2)) /\ Dv ti tj tk tl q D.
  Hypothesis Hlen : length (comps t) = length (g_rows (t_f t)).
  Lemma pos4_inj i j k n kk ti tj tk tl s1 s2 q i' j' k' n' kk' ti' tj' tk' tl' s1' s2' q' :
    at4 i j k n kk ti tj tk tl s1 s2 q -> at4 i' j' k' n' kk' ti' tj' tk' tl' s1' s2' q' -> pos4 i j k n kk = pos4 i' j' k' n' kk' ->
    i = i' /\ j = j' /\ k = k' /\ n = n' /\ kk = kk'.
  Proof.
    intros (F1 & F2 & F3 & F4 & F5) (G1 & G2 & G3 & G4 & G5) E. unfold pos4 in E. rewrite <- Hlen in E.
    apply nth_in in F1, F2, F3, F4, F5, G1, G2, G3, G4, G5.
    destruct (digit_inj _ _ _ _ _ F5 G5 E) as [E1 E2]. destruct (digit_inj _ _ _ _ _ F1 G1 E1) as [E3 E4].
    destruct (digit_inj _ _ _ _ _ F3 G3 E3) as [E5 E6]. destruct (digit_inj _ _ _ _ _ F4 G4 E5) as [E7 E8]. lia.
  Qed.
  Definition len4 : Z := (Z.of_nat (length (cart_list (l CJ))) * Z.of_nat (length (cart_list (l CL))) * Z.of_nat (length (cart_list (l CK)))
    * Z.of_nat (length (cart_list (l CI))) * Z.of_nat (length (g_rows (t_f t))))%Z.
  Lemma pos4_range i j k n kk ti tj tk tl s1 s2 q : at4 i j k n kk ti tj tk tl s1 s2 q -> (0 <= pos4 i j k n kk < len4)%Z.
  Proof.
    intros (F1 & F2 & F3 & F4 & F5). apply nth_in in F1, F2, F3, F4, F5. rewrite Hlen in F5. unfold pos4, len4.
    repeat (apply digit_bound; [assumption|]). exact F2.
  Qed.
  Lemma pos4_onto p : (0 <= p < len4)%Z -> exists i j k n kk ti tj tk tl s1 s2 q, at4 i j k n kk ti tj tk tl s1 s2 q /\ p = pos4 i j k n kk.
  Proof.
    unfold len4. intros Hp. rewrite <- Hlen in Hp.
    destruct (digit_split _ _ p (Nat2Z.is_nonneg _) Hp) as (p1 & kk & -> & Bkk & B1). 
    destruct (digit_split _ _ p1 (Nat2Z.is_nonneg _) B1) as (p2 & i & -> & Bi & B2).
    destruct (digit_split _ _ p2 (Nat2Z.is_nonneg _) B2) as (p3 & k & -> & Bk & B3).
    destruct (digit_split _ _ p3 (Nat2Z.is_nonneg _) B3) as (j & n & -> & Bn & Bj).
    destruct (nth_at _ _ Bkk) as (kk' & [[s1 s2] q] & -> & Ekk). destruct (nth_at _ _ Bi) as (i' & ti & -> & Ei). destruct (nth_at _ _ Bk) as (k' & tk & -> & Ek).
    destruct (nth_at _ _ Bn) as (n' & tl & -> & Enn). destruct (nth_at _ _ Bj) as (j' & tj & -> & Ej).
    exists i', j', k', n', kk', ti, tj, tk, tl, s1, s2, q. split; [repeat split; assumption|]. unfold pos4. rewrite Hlen. reflexivity.
  Qed.
  Hypothesis Hdv : forall ti tj tk tl q D D', Dv ti tj tk tl q D -> Dv ti tj tk tl q D' -> D = D'.
  Lemma PD4_at i j k n kk ti tj tk tl s1 s2 q ph D : at4 i j k n kk ti tj tk tl s1 s2 q ->
    PD4 (pos4 i j k n kk) ph D -> ph = cval (cqmul (qfac f) (phase (t_e t) s1 s2)) /\ Dv ti tj tk tl q D.
  Proof.
    intros F (i' & j' & k' & n' & kk' & ti' & tj' & tk' & tl' & s1' & s2' & q' & F' & F4 & F5 & F6).
    destruct (pos4_inj _ _ _ _ _ _ _ _ _ _ _ _ _ _ _ _ _ _ _ _ _ _ _ _ F F' F4) as (<- & <- & <- & <- & <-).
    destruct F as (E1 & E2 & E3 & E4 & E5). destruct F' as (G1 & G2 & G3 & G4 & G5).
    rewrite E1 in G1. rewrite E2 in G2. rewrite E3 in G3. rewrite E4 in G4. rewrite E5 in G5.
    injection G1 as <-. injection G2 as <-. injection G3 as <-. injection G4 as <-. injection G5 as <- <- <-. split; assumption.
  Qed.
  Lemma PD4_unique p ph D ph' D' : PD4 p ph D -> PD4 p ph' D' -> ph = ph' /\ D = D'.
  Proof.
    intros (i & j & k & n & kk & ti & tj & tk & tl & s1 & s2 & q & F & -> & F5 & F6) H2.
    destruct (PD4_at _ _ _ _ _ _ _ _ _ _ _ _ _ _ F H2) as [-> H3]. split; [exact F5|exact (Hdv _ _ _ _ _ _ _ F6 H3)].
  Qed.
  Lemma PD4_ne p ph D : In t catalogue -> factor (t_e t) = Some f -> PD4 p ph D -> ph <> RtoC 0.
  Proof.
    intros Ht Ef (i & j & k & n & kk & ti & tj & tk & tl & s1 & s2 & q & F & _ & -> & F6). rewrite <- cmul1. apply factor_ne; assumption.
  Qed.
End Pos4.

(** ** The two-electron primitives *)
Section Prim2.
  Variables (ev : Z -> R) (rys : Z -> R -> nodes) (srys : Z -> R -> R -> nodes) (t : ent) (ng : ngT) (l ctrs : centre -> Z) (f : Z * positive).
  Notation fam := (en_fam (t_e t)).
  Notation e := (env_2e ev t ng l ctrs).
  Notation nc := (Z.of_nat (length (g_rows (t_f t)))).
  Notation len := (nf e * nc)%Z.
  Hypothesis Ht : In t catalogue.
  Hypothesis Hfam : two_fam fam.
  Hypothesis Hex : ~ In (en_name (t_e t)) except_names.
  Hypothesis En : ent_ng t = Some ng.
  Hypothesis Ef : factor (t_e t) = Some f.
  Hypothesis Hl : (forall c, 0 <= l c <= 15)%Z.
  Hypothesis Hul : (forall c, used fam c = false -> l c = 0)%Z.
  Hypothesis Hnr : (nrys_roots e <= 32)%Z.
  Hypothesis Hrys : forall m y n, (0 <= n < m)%Z -> 0 <= y -> 0 <= fst (rys m y) n.
  Hypothesis Hsr : forall m y z n, (0 <= n < m)%Z -> 0 <= y -> 0 <= fst (srys m y z) n.
  Variables (idx idx' : arr Z) (gsz : Z).
  Hypothesis Hidx : (3 * nf e <= asize idx)%Z.
  Hypothesis Eidx : index_fun fam e idx = Some idx'.
  Hypothesis Hgsz : ((2 ^ GSHIFT ng + 1) * (3 * g_size e) <= gsz)%Z.
  Hypothesis Hgsz4 : (4 * g_size e <= gsz)%Z.

  Lemma len_4 : len = len4 t l.
  Proof.
    assert (Hf4 : four_fam fam) by (unfold four_fam; unfold two_fam in Hfam; tauto).
    destruct (two_facts t ng Ht Hf4 En) as (_ & Hng & _).
    destruct (idx_four fam (Rltb (ev 8%Z) 0) ng l ctrs idx Hf4 Hng Hl Hul Hidx) as (_ & _ & _ & Hnf & _).
    unfold env_2e, len4. rewrite Hnf. rewrite !len_cart_list by (apply Hl). ring.
  Qed.

  Section One.
    Variables (a : centre -> R) (A : centre -> Z -> R) (rij rkl : Z -> R) (cutoff : R).
    Hypothesis HP : partners fam A.
    Hypothesis Hp : 0 < a CI + a CJ.
    Hypothesis Hq : 0 < a CK + a CL.
    Notation run := (eri_run rys srys ev t ng l ctrs a A rij rkl cutoff idx').
    Notation a0 := ((a CI + a CJ) * (a CK + a CL) / (a CI + a CJ + (a CK + a CL))).
    Notation E := (eri_const * (overlap_factor (a CI) (a CJ) (A CI) (A CJ) * overlap_factor (a CK) (a CL) (A CK) (A CL))).
    Definition D_eri (ti tj tk tl : triple) (q : poly) (D : C) : Prop := value (term2 a A (common_orig ev) (powers4 ti tj tk tl) (op_of (ev 8%Z))) q D.
    (** the short-range integral is not computed *)
    Definition goes : bool :=
      let tx := ev 8%Z * ev 8%Z / (ev 8%Z * ev 8%Z + a0) * (a0 * dist2 rij rkl) in
      negb (Rltb (ev 8%Z) 0 && (Rltb cutoff tx || Rltb 40 tx)).
    Lemma Rltb_iff x y : Rltb x y = true <-> x < y.
    Proof. unfold Rltb. destruct (Rlt_dec x y); split; intros; [assumption|reflexivity|discriminate|contradiction]. Qed.
    Lemma goes_false : goes = false <-> ev 8%Z < 0 /\ (cutoff < ev 8%Z * ev 8%Z / (ev 8%Z * ev 8%Z + a0) * (a0 * dist2 rij rkl) \/
      40 < ev 8%Z * ev 8%Z / (ev 8%Z * ev 8%Z + a0) * (a0 * dist2 rij rkl)).
    Proof. unfold goes. rewrite negb_false_iff, andb_true_iff, orb_true_iff, !Rltb_iff. reflexivity. Qed.
    Lemma E_ne : E <> 0.
    Proof.
      unfold eri_const, overlap_factor. pose proof PI_RGT_0. pose proof (sqrt_lt_R0 PI H).
      assert (0 < PI * PI * PI * 2 / sqrt PI).
      { apply Rdiv_lt_0_compat; [|assumption]. apply Rmult_lt_0_compat; [apply Rmult_lt_0_compat; [apply Rmult_lt_0_compat|]|]; lra. }
      apply Rgt_not_eq. apply Rmult_lt_0_compat; [assumption|]. apply Rmult_lt_0_compat; apply exp_pos.
    Qed.

    Definition is_batch4 (B : Z -> R) : Prop := forall (i j k n kk : nat) ti tj tk tl s1 s2 q, at4 t l i j k n kk ti tj tk tl s1 s2 q ->
      exists D, D_eri ti tj tk tl q D /\ (cval (cqmul (qfac f) (phase (t_e t) s1 s2)) * RtoC (E * B (pos4 t l i j k n kk)) = D)%C.

    Lemma eri_adds : (forall ax, (0 <= ax < 3)%Z -> rij ax = (a CI * A CI ax + a CJ * A CJ ax) / (a CI + a CJ)) ->
      (forall ax, (0 <= ax < 3)%Z -> rkl ax = (a CK * A CK ax + a CL * A CL ax) / (a CK + a CL)) ->
      rules_2e rys srys (nrys_roots e) (rys_order e) (ev 8%Z) a0 (a0 * dist2 rij rkl) ->
      (forall fac, adds_at len gsz goes (qbatch len gsz run E) fac run) /\ (goes = true -> is_batch4 (qbatch len gsz run E)).
    Proof.
      intros Hrij Hrkl HR. destruct (whole2 t Ht Hfam) as (_ & Hlen & _).
      pose (PD := PD4 t l f D_eri).
      assert (Hdv : forall ti tj tk tl q D D', D_eri ti tj tk tl q D -> D_eri ti tj tk tl q D' -> D = D').
      { intros ti tj tk tl q D D' H1 H2. eapply value_unique; [|exact H1|exact H2]. intros m v w. apply term2_unique. }
      assert (Hu : forall n ph D ph' D', PD n ph D -> PD n ph' D' -> ph = ph' /\ D = D') by (intros; eapply (PD4_unique t l f D_eri Hlen Hdv); eassumption).
      assert (Hn : forall n ph D, PD n ph D -> ph <> RtoC 0) by (intros n ph D HPD; exact (PD4_ne t l f D_eri n ph D Ht Ef HPD)).
      assert (HH : forall c0 empty g gout, holds gsz g -> (len <= asize gout)%Z -> filled gout ->
        exists g' gout', run (c0 * E) empty g gout = Some (goes, (g', gout')) /\ holds gsz g' /\ (goes = true -> Frame (fun q => 0 <= q < len)%Z gout gout' /\
        forall n, (0 <= n < len)%Z -> exists v old ph D, rd gout' n = Some (old + v) /\ (if empty then old = 0 else rd gout n = Some old) /\
          PD n ph D /\ (ph * RtoC v = RtoC c0 * D)%C)).
      { intros c0 empty g gout Hg Hs Hfl.
        destruct (eri_operator t ng (Rltb (ev 8%Z) 0) l ctrs a A (common_orig ev) rij rkl rys srys (ev 8%Z) cutoff c0 idx g gout empty Ht Hfam Hex En Hl Hul HP Hp Hq Hrij Hrkl
          Hnr Hrys Hsr HR Hidx ltac:(rewrite (proj2 Hg); exact Hgsz) ltac:(rewrite (proj2 Hg); exact Hgsz4) (proj1 Hg) Hs ltac:(intros _; exact Hfl))
          as (idx2 & b & g1 & R1 & R2 & R3 & R4).
        assert (idx2 = idx') as -> by (unfold env_2e in Eidx; congruence).
        assert (Hb : b = goes).
        { destruct b, goes eqn:Eg; try reflexivity.
          - exact (proj2 R3 (proj1 goes_false Eg)).
          - rewrite (proj2 goes_false (proj1 R3 eq_refl)) in Eg. exact Eg. }
        subst b.
        assert (Hg1 : holds gsz g1).
        { assert (Hf4 : four_fam fam) by (unfold four_fam; unfold two_fam in Hfam; tauto).
          destruct (two_facts t ng Ht Hf4 En) as (_ & Hng & _ & _ & _).
          pose proof (setup_of fam (Rltb (ev 8%Z) 0) ng l ctrs A Hfam Hng ltac:(intros c; specialize (Hl c); lia) HP) as HSet. cbv zeta in HSet.
          pose proof (g0_2e_keeps _ _ (fun bc => setup_keeps _ _ _ _ _ _ _ _ bc HSet) _ _ _ _ _ _ _ _ _ _ _ _ _ _ _ R2) as HG. cbn [snd] in HG.
          split; [exact (grow_filled _ _ HG (proj1 Hg))|]. rewrite <- (proj2 Hg). exact (proj1 HG). }
        replace (c0 * (2 * (PI * PI * PI) / sqrt PI) * (overlap_factor (a CI) (a CJ) (A CI) (A CJ) * overlap_factor (a CK) (a CL) (A CK) (A CL))) with (c0 * E) in R2
          by (unfold eri_const, Rdiv; ring).
        unfold eri_run. unfold env_2e at 1 2. rewrite R2. cbn [bind].
        destruct goes.
        2:{ exists g1, gout. split; [reflexivity|]. split; [exact Hg1|discriminate]. }
        destruct (R4 eq_refl) as (go & f' & Q1 & Q2 & Q3 & Q4). assert (f' = f) as -> by congruence.
        destruct (gout_run _ _ _ _ _ _ _ gsz Hg1 Q1) as (g2 & Q7 & Q8). fold e in Q7. rewrite Q7. cbn [bind].
        exists g2, go. split; [reflexivity|]. split; [exact Q8|]. intros _. split; [exact Q3|].
        intros p Hpl. rewrite len_4 in Hpl. destruct (pos4_onto t l Hlen p Hpl) as (i & j & k & n & kk & ti & tj & tk & tl & s1 & s2 & q & F & ->).
        pose proof F as (F1 & F2 & F3 & F4 & F5). destruct (Q4 i j k n kk ti tj tk tl s1 s2 q F1 F2 F3 F4 F5) as (v & old & V & V1 & V2 & V3 & V4).
        exists v, old, (cval (cqmul (qfac f) (phase (t_e t) s1 s2))), V. split; [exact V1|]. split; [exact V2|]. split; [|exact V4].
        exists i, j, k, n, kk, ti, tj, tk, tl, s1, s2, q. split; [exact F|]. split; [reflexivity|]. split; [reflexivity|exact V3]. }
      split; [exact (qbatch_adds len gsz run goes E PD E_ne Hu Hn HH)|].
      intros Hgo i j k n kk ti tj tk tl s1 s2 q F.
      destruct (qbatch_is len gsz run goes E PD E_ne Hu Hn HH (pos4 t l i j k n kk) Hgo) as (ph & D & HD & Hv).
      { rewrite len_4. exact (pos4_range t l Hlen _ _ _ _ _ _ _ _ _ _ _ _ F). }
      destruct (PD4_at t l f D_eri Hlen _ _ _ _ _ _ _ _ _ _ _ _ _ _ F HD) as [-> HD']. exists D. split; [exact HD'|exact Hv].
    Qed.

    (** a primitive whose factor is 0, wherever the pair data put its centre *)
    Lemma eri_adds0 B : adds_at len gsz goes B 0 run.
    Proof.
      intros empty g gout Hg Hs Hfl. destruct (whole2 t Ht Hfam) as (_ & Hlen & _).
      destruct (eri_zero t ng (Rltb (ev 8%Z) 0) l ctrs a A (common_orig ev) rij rkl rys srys (ev 8%Z) cutoff idx idx' g gout empty Ht Hfam Hex En Hl Hul HP Hp Hq
          Hnr Hrys Hsr Hidx Eidx ltac:(rewrite (proj2 Hg); exact Hgsz) ltac:(rewrite (proj2 Hg); exact Hgsz4) (proj1 Hg) Hs ltac:(intros _; exact Hfl))
          as (b & g1 & R2 & R3 & R4 & R5 & R6).
      assert (Hg1 : holds gsz g1) by (split; [exact R3|rewrite R4; exact (proj2 Hg)]).
      assert (Hb : b = goes).
      { destruct b, goes eqn:Eg; try reflexivity.
        - exact (proj2 R5 (proj1 goes_false Eg)).
        - rewrite (proj2 goes_false (proj1 R5 eq_refl)) in Eg. exact Eg. }
      subst b. unfold eri_run. unfold env_2e at 1 2. rewrite R2. cbn [bind].
      destruct goes.
      2:{ exists g1, gout. split; [reflexivity|]. split; [exact Hg1|discriminate]. }
      destruct (R6 eq_refl) as (go & Q1 & Q2 & Q3).
      destruct (gout_run _ _ _ _ _ _ _ gsz Hg1 Q1) as (g2 & Q7 & Q8). fold e in Q7. rewrite Q7. cbn [bind].
      exists g2, go. split; [reflexivity|]. split; [exact Q8|].
      intros _. split; [exact Q2|]. intros p Hpl. rewrite len_4 in Hpl.
      destruct (pos4_onto t l Hlen p Hpl) as (i & j & k & n & kk & ti & tj & tk & tl & s1 & s2 & q & F & ->).
      destruct F as (F1 & F2 & F3 & F4 & F5). destruct (Q3 i j k n kk ti tj tk tl s1 s2 q F1 F2 F3 F4 F5) as (old & V1 & V2).
      exists old. split; [|exact V2]. rewrite Rmult_0_l, Rplus_0_r. exact V1.
    Qed.
  End One.
End Prim2.

Lemma goes_near ev a rij rkl cutoff : goes ev a rij rkl cutoff = true <-> near_enough (ev 8%Z) (a CI + a CJ) (a CK + a CL) rij rkl cutoff.
Proof.
  unfold near_enough. cbv zeta. destruct (goes ev a rij rkl cutoff) eqn:EG.
  - split; [|reflexivity]. intros _. destruct (Rlt_dec (ev 8%Z) 0) as [L|L]; [right|left; lra].
    assert (N : ~ (goes ev a rij rkl cutoff = false)) by (rewrite EG; discriminate). rewrite goes_false in N.
    split; apply Rnot_lt_le; intros X; apply N; (split; [exact L|]); [left|right]; exact X.
  - split; [discriminate|]. apply goes_false in EG. destruct EG as [L X]. intros [Y|[Y1 Y2]]; [lra|].
    destruct X as [X|X]; [apply Rle_not_lt in Y1|apply Rle_not_lt in Y2]; contradiction.
Qed.
Lemma near_ext w p q P P' Q c : (forall ax, (0 <= ax < 3)%Z -> P ax = P' ax) -> near_enough w p q P Q c <-> near_enough w p q P' Q c.
Proof. intros H. unfold near_enough, dist2. rewrite (H 0%Z), (H 1%Z), (H 2%Z) by lia. reflexivity. Qed.
