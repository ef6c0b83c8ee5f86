(** WholeBatch.v — the primitive computations add multiples of a fixed batch; the batch is the
    documented integral. *)
From Coq Require Import Reals Lra QArith String.
From Coquelicot Require Import Coquelicot.
From Verif Require Import Base BasModel BasSpec EnvModel IdxModel IdxSpec CtrModel Loop2eModel Loop3Model OptModel OptSpec OptProof OptPair OutModel TabModel
  OpSpec RecModel RecRModel RecSpec GaussInt Gauss2Int Rec1Real Rec2RModel Rec2Real Rec2Spec
  IntgModel IntgSpec IntgTab IntgStmt IntgCheck IntgStep IntgSem IntgFinal IntgAll IntgEx IntgOvlp IntgReal QuadSpec OperSpec OperModel OperKeep OperNuc GiaoProof WholeModel WholeSim.
Local Open Scope R_scope.

(** ** From values to batches *)
Section BatchOf.
  Variables (len gsz : Z) (run : R -> bool -> arr R -> arr R -> option (arr R * arr R)) (E : R) (PD : Z -> C -> C -> Prop).
  Hypothesis HE : E <> 0.
  Hypothesis Hu : forall n ph D ph' D', PD n ph D -> PD n ph' D' -> ph = ph' /\ D = D'.
  Hypothesis Hn : forall n ph D, PD n ph D -> ph <> RtoC 0.
  Hypothesis Hsz : (0 <= gsz)%Z.
  Hypothesis H : forall c0 empty g gout, holds gsz g -> (len <= asize gout)%Z -> filled gout ->
    exists g' gout', run (c0 * E) empty g gout = Some (g', gout') /\ holds gsz g' /\ Frame (fun q => 0 <= q < len)%Z gout gout' /\
      forall n, (0 <= n < len)%Z -> exists v old ph D, rd gout' n = Some (old + v) /\ (if empty then old = 0 else rd gout n = Some old) /\
        PD n ph D /\ (ph * RtoC v = RtoC c0 * D)%C.
  Definition batch (n : Z) : R :=
    match run (1 * E) true (of_fun gsz (fun _ => 0)) (of_fun len (fun _ => 0)) with
    | Some (_, go) => match rd go n with Some v => v / E | None => 0 end
    | None => 0
    end.
  Lemma filled_of n (f : Z -> R) : filled (of_fun n f).
  Proof. intros q Hq. exists (f q). apply rd_of_fun. exact Hq. Qed.
  Lemma batch_is n : (0 <= n < len)%Z -> exists ph D, PD n ph D /\ (ph * RtoC (E * batch n) = D)%C.
  Proof.
    intros Hnl. destruct (H 1 true (of_fun gsz (fun _ => 0)) (of_fun len (fun _ => 0))) as (g' & go & Er & _ & _ & Hv).
    - split; [apply filled_of|reflexivity].
    - cbn. lia.
    - apply filled_of.
    - destruct (Hv n Hnl) as (v & old & ph & D & R1 & R2 & R3 & R4). exists ph, D. split; [exact R3|].
      unfold batch. rewrite Er, R1, R2. rewrite Rplus_0_l. replace (E * (v / E)) with v by (field; exact HE). rewrite R4. ring.
  Qed.
  Lemma batch_adds : adds_batch len gsz batch run.
  Proof.
    intros fac empty g gout Hg Hs Hf. destruct (H (fac / E) empty g gout Hg Hs Hf) as (g' & go & Er & Hg' & Fr & Hv).
    replace (fac / E * E) with fac in Er by (field; exact HE). exists g', go. repeat (split; [assumption|]).
    intros n Hnl. destruct (Hv n Hnl) as (v & old & ph & D & R1 & R2 & R3 & R4). exists old. split; [|exact R2].
    destruct (batch_is n Hnl) as (ph' & D' & B1 & B2). destruct (Hu n _ _ _ _ R3 B1) as [<- <-].
    rewrite R1. f_equal. f_equal.
    assert (X : (ph * RtoC (v - fac * batch n))%C = RtoC 0).
    { rewrite RtoC_minus, RtoC_mult. replace (ph * (RtoC v - RtoC fac * RtoC (batch n)))%C with (ph * RtoC v - RtoC fac * (ph * RtoC (batch n)))%C by ring.
      rewrite R4, <- B2. rewrite RtoC_mult. unfold Rdiv. rewrite RtoC_mult, RtoC_inv by exact HE.
      assert (RtoC E <> RtoC 0). { intros X. apply HE. injection X as X. exact X. }
      field. assumption. }
    destruct (Req_dec (v - fac * batch n) 0) as [E0|E0]; [lra|]. exfalso. revert X. apply Cmult_neq_0; [exact (Hn n ph D R3)|].
    intros X. apply E0. injection X as X. exact X.
  Qed.
End BatchOf.

(** what the operator routines leave in the buffer is still full of numbers *)
Lemma keeps_sum (p q : Z) n : keeps (for_ 0 n (fun ix m => v <- rd m (p + ix)%Z ;; w <- rd m (q + ix)%Z ;; wr m (p + ix)%Z (v + w))).
Proof.
  apply keeps_for. intros ix m m' E. destruct (rd m (p + ix)) as [v|]; cbn in E; [|discriminate].
  destruct (rd m (q + ix)) as [w|]; cbn in E; [|discriminate]. exact (keeps_wr1 (p + ix)%Z (v + w) m m' E).
Qed.
Lemma ops_keep (x : gin R) K os : forall st st', run_ops Rplus Rmult Rminus IZR x K os st = Some st' -> filled (snd st) -> filled (snd st') /\ asize (snd st') = asize (snd st).
Proof.
  induction os as [|o os IH]; intros [p m] st' E Hf; cbn [run_ops] in E.
  - injection E as <-. split; [exact Hf|reflexivity].
  - destruct (run_op Rplus Rmult Rminus IZR x K o (p, m)) as [st1|] eqn:E1; cbn [bind] in E; [|discriminate].
    assert (H1 : filled (snd st1) /\ asize (snd st1) = asize m).
    { assert (G : forall c : arr R -> option (arr R), keeps c -> forall p' , (m1 <- c m ;; Some (p', m1)) = Some st1 -> filled (snd st1) /\ asize (snd st1) = asize m).
      { intros c Hc p' Ec. destruct (c m) as [m1|] eqn:Em; cbn in Ec; [|discriminate]. injection Ec as <-. split; [exact (keeps_filled c m m1 Hc Em Hf)|exact (proj1 (Hc _ _ Em))]. }
      destruct o; cbn [run_op] in E1.
      - exact (G _ (keeps_op_D _ _ _ _ _ _ _ _ _) p E1).
      - exact (G _ (keeps_op_X _ _ _ _ _ _ _ _ _ _) p E1).
      - injection E1 as <-. split; [exact Hf|reflexivity].
      - exact (G _ (keeps_sum _ _ _) p E1). }
    destruct H1 as [H1 H2]. destruct (IH st1 st' E H1) as [H3 H4]. split; [exact H3|]. cbn [snd]. congruence.
Qed.
Lemma gout_run x f idx empty g gout gout' gsz : holds gsz g -> run_gout 0 1 Rplus Rmult Rminus IZR x f empty idx g gout = Some gout' ->
  exists g', f_gout_run x f idx empty g gout = Some (g', gout') /\ holds gsz g'.
Proof.
  intros [Hf Hs] E. unfold f_gout_run. rewrite E. cbn [bind]. unfold run_gout in E.
  destruct (run_ops _ _ _ _ _ _ _ _) as [st|] eqn:Eo; cbn [bind] in E |- *; [|discriminate].
  destruct (ops_keep _ _ _ _ _ Eo Hf) as [H1 H2]. exists (snd st). split; [reflexivity|]. split; [exact H1|]. rewrite H2. exact Hs.
Qed.

(** ** The catalogue *)
Definition eqf (a b : option (Z * positive)) : bool :=
  match a, b with Some (x, p), Some (y, q) => (x =? y)%Z && Pos.eqb p q | _, _ => false end.
Lemma eqf_eq a b : eqf a b = true -> a = b.
Proof.
  destruct a as [[x p]|], b as [[y q]|]; cbn; try discriminate. intros E. apply andb_true_iff in E. destruct E as [E1 E2].
  apply Z.eqb_eq in E1. apply Pos.eqb_eq in E2. congruence.
Qed.
Definition comps (t : ent) : list (spin * spin * poly) := components (t_d t) (sis (en_c2s1 (t_e t))) (sis (en_c2s2 (t_e t))).
Definition whole1_ok (t : ent) : bool :=
  match en_fam (t_e t) with
  | F1e | F1rinv | F1nuc =>
    eqf (factor (t_e t)) (en_cart (t_e t)) && eqf (factor (t_e t)) (en_sph (t_e t)) &&
    match ent_ng t with Some ng => (POS_E1 ng * TENSOR ng =? Z.of_nat (length (g_rows (t_f t))))%Z && (0 <? POS_E1 ng * TENSOR ng)%Z && (0 <=? IINC ng)%Z && (0 <=? JINC ng)%Z && (0 <=? POS_E2 ng)%Z && (POS_E2 ng <? 33)%Z && (0 <=? GSHIFT ng)%Z && (IINC ng + JINC ng <? 32)%Z && (0 <=? KINC ng)%Z && (0 <=? LINC ng)%Z | None => false end &&
    Nat.eqb (length (comps t)) (length (g_rows (t_f t)))
  | _ => true
  end.
Lemma whole1_checked : forallb whole1_ok catalogue = true.
Proof. vm_cast_no_check (eq_refl true). Qed.

Lemma whole1 t : In t catalogue -> en_fam (t_e t) = F1e \/ en_fam (t_e t) = F1rinv \/ en_fam (t_e t) = F1nuc ->
  factor (t_e t) = en_cart (t_e t) /\ factor (t_e t) = en_sph (t_e t) /\ length (comps t) = length (g_rows (t_f t)) /\
  forall ng, ent_ng t = Some ng -> (POS_E1 ng * TENSOR ng = Z.of_nat (length (g_rows (t_f t))))%Z /\ (1 <= POS_E1 ng * TENSOR ng)%Z /\ (0 <= IINC ng)%Z /\ (0 <= JINC ng)%Z /\ (0 <= POS_E2 ng <= 32)%Z /\ (0 <= GSHIFT ng)%Z /\ (IINC ng + JINC ng < 32)%Z /\ (0 <= KINC ng)%Z /\ (0 <= LINC ng)%Z.
Proof.
  intros Ht Hf. pose proof (proj1 (forallb_forall _ _) whole1_checked t Ht) as C1. unfold whole1_ok in C1.
  assert (C2 : eqf (factor (t_e t)) (en_cart (t_e t)) && eqf (factor (t_e t)) (en_sph (t_e t)) &&
    match ent_ng t with Some ng => (POS_E1 ng * TENSOR ng =? Z.of_nat (length (g_rows (t_f t))))%Z && (0 <? POS_E1 ng * TENSOR ng)%Z && (0 <=? IINC ng)%Z && (0 <=? JINC ng)%Z && (0 <=? POS_E2 ng)%Z && (POS_E2 ng <? 33)%Z && (0 <=? GSHIFT ng)%Z && (IINC ng + JINC ng <? 32)%Z && (0 <=? KINC ng)%Z && (0 <=? LINC ng)%Z | None => false end &&
    Nat.eqb (length (comps t)) (length (g_rows (t_f t))) = true) by (destruct Hf as [E|[E|E]]; rewrite E in C1; exact C1).
  clear C1 Hf. apply andb_true_iff in C2. destruct C2 as [C2 C5]. apply andb_true_iff in C2. destruct C2 as [C2 C4].
  apply andb_true_iff in C2. destruct C2 as [C2 C3].
  split; [apply eqf_eq; exact C2|]. split; [apply eqf_eq; exact C3|]. split; [apply Nat.eqb_eq; exact C5|].
  intros ng En. rewrite En in C4. lia.
Qed.

(** ** Positions in a batch of two centres *)
Section Pos2.
  Variables (t : ent) (li lj : Z) (f : Z * positive) (Dv : triple -> triple -> poly -> C -> Prop).
  Let nc := Z.of_nat (length (g_rows (t_f t))).
  Definition pos2 (i j k : nat) : Z := ((Z.of_nat j * Z.of_nat (length (cart_list li)) + Z.of_nat i) * nc + Z.of_nat k)%Z.
  Definition PD2 (n : Z) (ph D : C) : Prop := exists (i j k : nat) ti tj s1 s2 q,
    nth_error (cart_list li) i = Some ti /\ nth_error (cart_list lj) j = Some tj /\ nth_error (comps t) k = Some (s1, s2, q) /\
    n = pos2 i j k /\ ph = cval (cqmul (qfac f) (phase (t_e t) s1 s2)) /\ Dv ti tj q D.
  Hypothesis Hlen : length (comps t) = length (g_rows (t_f t)).
  Lemma pos2_inj i j k i' j' k' : (i < length (cart_list li))%nat -> (i' < length (cart_list li))%nat -> (k < length (comps t))%nat -> (k' < length (comps t))%nat ->
    pos2 i j k = pos2 i' j' k' -> i = i' /\ j = j' /\ k = k'.
  Proof.
    unfold pos2, nc. rewrite <- Hlen. generalize (length (cart_list li)) (length (comps t)). intros L N Hi Hi' Hk Hk' E.
    assert (E1 : (Z.of_nat j * Z.of_nat L + Z.of_nat i = Z.of_nat j' * Z.of_nat L + Z.of_nat i')%Z /\ Z.of_nat k = Z.of_nat k').
    { apply (Z.div_mod_unique (Z.of_nat N)); [lia..|]. lia. }
    destruct E1 as [E1 E2].
    assert (E3 : (Z.of_nat j = Z.of_nat j')%Z /\ Z.of_nat i = Z.of_nat i').
    { apply (Z.div_mod_unique (Z.of_nat L)); [lia..|]. lia. }
    lia.
  Qed.
  Lemma pos2_onto n : (0 <= li)%Z -> (0 <= lj)%Z -> (0 <= n < CINTlen_cart li * CINTlen_cart lj * nc)%Z ->
    exists i j k ti tj s1 s2 q, nth_error (cart_list li) i = Some ti /\ nth_error (cart_list lj) j = Some tj /\ nth_error (comps t) k = Some (s1, s2, q) /\ n = pos2 i j k.
  Proof.
    intros Hi Hj Hn. rewrite (len_cart_list li Hi), (len_cart_list lj Hj) in Hn. unfold pos2, nc in *. rewrite <- Hlen in *.
    set (L := Z.of_nat (length (cart_list li))) in *. set (M := Z.of_nat (length (cart_list lj))) in *. set (N := Z.of_nat (length (comps t))) in *.
    assert (HN : (0 < N)%Z) by nia. assert (HL : (0 < L)%Z) by nia.
    pose proof (Z.mod_pos_bound n N HN) as Bk. pose proof (Z.div_mod n N ltac:(lia)) as Dn.
    set (r := (n / N)%Z) in *. assert (Br : (0 <= r < L * M)%Z). { split; [apply Z.div_pos; lia|apply Z.div_lt_upper_bound; nia]. }
    pose proof (Z.mod_pos_bound r L HL) as Bi. pose proof (Z.div_mod r L ltac:(lia)) as Dr.
    assert (Bj : (0 <= r / L < M)%Z). { split; [apply Z.div_pos; lia|apply Z.div_lt_upper_bound; nia]. }
    destruct (nth_error (cart_list li) (Z.to_nat (r mod L))) as [ti|] eqn:E1; [|apply nth_error_None in E1; lia].
    destruct (nth_error (cart_list lj) (Z.to_nat (r / L))) as [tj|] eqn:E2; [|apply nth_error_None in E2; lia].
    destruct (nth_error (comps t) (Z.to_nat (n mod N))) as [[[s1 s2] q]|] eqn:E3; [|apply nth_error_None in E3; lia].
    exists (Z.to_nat (r mod L)), (Z.to_nat (r / L)), (Z.to_nat (n mod N)), ti, tj, s1, s2, q. repeat (split; [assumption|]).
    rewrite !Z2Nat.id by lia. nia.
  Qed.
  Hypothesis Hdv : forall ti tj q D D', Dv ti tj q D -> Dv ti tj q D' -> D = D'.
  Lemma PD2_at i j k ti tj s1 s2 q ph D : nth_error (cart_list li) i = Some ti -> nth_error (cart_list lj) j = Some tj -> nth_error (comps t) k = Some (s1, s2, q) ->
    PD2 (pos2 i j k) ph D -> ph = cval (cqmul (qfac f) (phase (t_e t) s1 s2)) /\ Dv ti tj q D.
  Proof.
    intros E1 E2 E3 (i' & j' & k' & ti' & tj' & s1' & s2' & q' & F1 & F2 & F3 & F4 & F5 & F6).
    destruct (pos2_inj i j k i' j' k') as (<- & <- & <-); try (apply nth_error_Some; congruence); [exact F4|].
    rewrite E1 in F1. rewrite E2 in F2. rewrite E3 in F3. injection F1 as <-. injection F2 as <-. injection F3 as <- <- <-. split; assumption.
  Qed.
  Lemma PD2_unique n ph D ph' D' : PD2 n ph D -> PD2 n ph' D' -> ph = ph' /\ D = D'.
  Proof.
    intros (i & j & k & ti & tj & s1 & s2 & q & F1 & F2 & F3 & -> & F5 & F6) H2.
    destruct (PD2_at _ _ _ _ _ _ _ _ _ _ F1 F2 F3 H2) as [-> H3]. split; [exact F5|exact (Hdv _ _ _ _ _ F6 H3)].
  Qed.
  Lemma PD2_ne n ph D : In t catalogue -> factor (t_e t) = Some f -> PD2 n ph D -> ph <> RtoC 0.
  Proof.
    intros Ht Ef (i & j & k & ti & tj & s1 & s2 & q & F1 & F2 & F3 & _ & -> & F6). rewrite <- cmul1. apply factor_ne; assumption.
  Qed.
End Pos2.

(** ** The one-electron primitives *)
Section Prim1e.
  Variables (V : view) (ev : Z -> R) (at_ : Z -> Z -> Z) (rys : Z -> R -> nodes) (t : ent) (ng : ngT) (i j : Z) (f : Z * positive).
  Notation e := (env_1e V ng i j).
  Notation nc := (Z.of_nat (length (g_rows (t_f t)))).
  Notation len := (nf e * nc)%Z.
  Hypothesis Ht : In t catalogue.
  Hypothesis En : ent_ng t = Some ng.
  Hypothesis Ef : factor (t_e t) = Some f.
  Hypothesis Hli : (0 <= v_l V i <= 15)%Z.
  Hypothesis Hlj : (0 <= v_l V j <= 15)%Z.
  Variables (idx idx' : arr Z) (gsz : Z).
  Hypothesis Hidx : (3 * nf e <= asize idx)%Z.
  Hypothesis Eidx : CINTg1e_index_xyz e idx = Some idx'.
  Hypothesis Hgsz : ((2 ^ GSHIFT ng + 1) * (3 * g_size e) <= gsz)%Z.
  Notation a ip jp := (prim_exps V ev i j ip jp).
  Notation A := (prim_centres V ev i j).
  Notation E ip jp := (pair_eij (square3 (fun ax => ctr V ev i ax - ctr V ev j ax)) (ex V ev i ip) (ex V ev j jp)).

  Definition is_batch (ip jp : Z) (Dv : triple -> triple -> poly -> C -> Prop) (B : Z -> R) : Prop :=
    forall (n m k : nat) ti tj s1 s2 q, nth_error (cart_list (v_l V i)) n = Some ti -> nth_error (cart_list (v_l V j)) m = Some tj ->
      nth_error (comps t) k = Some (s1, s2, q) ->
      exists D, Dv ti tj q D /\ (cval (cqmul (qfac f) (phase (t_e t) s1 s2)) * RtoC (E ip jp * B (pos2 t (v_l V i) n m k)) = D)%C.

  Lemma E_ne ip jp : E ip jp <> 0.
  Proof. apply Rgt_not_eq. apply exp_pos. Qed.

  Lemma fam_1 : en_fam (t_e t) = F1e \/ en_fam (t_e t) = F1rinv \/ en_fam (t_e t) = F1nuc -> (1 <= nrys_roots e <= 32)%Z /\ (0 < g_size e)%Z /\ (nrys_roots e <= g_size e)%Z /\ (3 * g_size e <= gsz)%Z.
  Proof.
    intros Hf. destruct (whole1 t Ht Hf) as (_ & _ & _ & W). destruct (W ng En) as (_ & _ & NI & NJ & NE & NG & NS & _).
    assert (Hn : (1 <= nrys_roots e <= 32)%Z).
    { unfold env_1e, init_int1e. cbn [nrys_roots]. destruct (0 <? POS_E2 ng)%Z eqn:E0; [lia|].
      pose proof (Z.quot_pos (v_l V i + IINC ng + (v_l V j + JINC ng)) 2 ltac:(lia) ltac:(lia)).
      assert (Z.quot (v_l V i + IINC ng + (v_l V j + JINC ng)) 2 < 31)%Z; [|lia].
      rewrite Z.quot_div_nonneg by lia. apply Z.div_lt_upper_bound; lia. }
    assert (Hg : (nrys_roots e <= g_size e)%Z).
    { revert Hn. unfold env_1e, init_int1e. cbn [nrys_roots g_size]. intros Hn. destruct (_ >? _)%Z; nia. }
    split; [exact Hn|]. split; [lia|]. split; [exact Hg|].
    assert (0 <= 2 ^ GSHIFT ng)%Z by (apply Z.pow_nonneg; lia). nia.
  Qed.

  Lemma batch_1e (run : R -> bool -> arr R -> arr R -> option (arr R * arr R)) ip jp (Dv : triple -> triple -> poly -> C -> Prop) :
    en_fam (t_e t) = F1e \/ en_fam (t_e t) = F1rinv \/ en_fam (t_e t) = F1nuc ->
    (forall ti tj q D D', Dv ti tj q D -> Dv ti tj q D' -> D = D') ->
    (forall c0 empty g gout, holds gsz g -> (len <= asize gout)%Z -> filled gout ->
      exists g' gout', run (c0 * E ip jp) empty g gout = Some (g', gout') /\ holds gsz g' /\ Frame (fun q => 0 <= q < len)%Z gout gout' /\
      forall (n m k : nat) ti tj s1 s2 q, nth_error (cart_list (v_l V i)) n = Some ti -> nth_error (cart_list (v_l V j)) m = Some tj ->
        nth_error (comps t) k = Some (s1, s2, q) ->
        exists v old D, rd gout' (pos2 t (v_l V i) n m k) = Some (old + v) /\ (if empty then old = 0 else rd gout (pos2 t (v_l V i) n m k) = Some old) /\
          Dv ti tj q D /\ (cval (cqmul (qfac f) (phase (t_e t) s1 s2)) * RtoC v)%C = (RtoC c0 * D)%C) ->
    let B := batch len gsz run (E ip jp) in adds_batch len gsz B run /\ is_batch ip jp Dv B.
  Proof.
    intros Hf Hdv H B. destruct (whole1 t Ht Hf) as (_ & _ & Hlen & _). destruct (fam_1 Hf) as (_ & Hg0 & _ & Hg3).
    pose (PD := PD2 t (v_l V i) (v_l V j) f Dv).
    assert (Hu : forall n ph D ph' D', PD n ph D -> PD n ph' D' -> ph = ph' /\ D = D') by (intros; eapply (PD2_unique t _ _ f Dv Hlen Hdv); eassumption).
    assert (Hn : forall n ph D, PD n ph D -> ph <> RtoC 0) by (intros n ph D HPD; exact (PD2_ne t _ _ f Dv n ph D Ht Ef HPD)).
    assert (HH : forall c0 empty g gout, holds gsz g -> (len <= asize gout)%Z -> filled gout ->
      exists g' gout', run (c0 * E ip jp) empty g gout = Some (g', gout') /\ holds gsz g' /\ Frame (fun q => 0 <= q < len)%Z gout gout' /\
      forall n, (0 <= n < len)%Z -> exists v old ph D, rd gout' n = Some (old + v) /\ (if empty then old = 0 else rd gout n = Some old) /\
        PD n ph D /\ (ph * RtoC v = RtoC c0 * D)%C).
    { intros c0 empty g gout Hg Hs Hfl. destruct (H c0 empty g gout Hg Hs Hfl) as (g' & go & R1 & R2 & R3 & R4).
      exists g', go. repeat (split; [assumption|]). intros n Hnl.
      destruct (pos2_onto t (v_l V i) (v_l V j) Dv Hlen n ltac:(lia) ltac:(lia) Hnl) as (n' & m' & k' & ti & tj & s1 & s2 & q & F1 & F2 & F3 & ->).
      destruct (R4 n' m' k' ti tj s1 s2 q F1 F2 F3) as (v & old & D & V1 & V2 & V3 & V4).
      exists v, old, (cval (cqmul (qfac f) (phase (t_e t) s1 s2))), D. repeat (split; [assumption|]). split; [|exact V4].
      exists n', m', k', ti, tj, s1, s2, q. repeat (split; [assumption|]). split; [reflexivity|]. split; [reflexivity|exact V3]. }
    split.
    - exact (batch_adds len gsz run (E ip jp) PD (E_ne ip jp) Hu Hn HH).
    - intros n m k ti tj s1 s2 q F1 F2 F3.
      assert (Hr : (0 <= pos2 t (v_l V i) n m k < len)%Z).
      { assert (n < length (cart_list (v_l V i)))%nat by (apply nth_error_Some; congruence).
        assert (m < length (cart_list (v_l V j)))%nat by (apply nth_error_Some; congruence).
        assert (k < length (comps t))%nat by (apply nth_error_Some; congruence).
        unfold pos2. change (nf e) with (CINTlen_cart (v_l V i) * CINTlen_cart (v_l V j))%Z.
        rewrite (len_cart_list (v_l V i)), (len_cart_list (v_l V j)) by lia. rewrite <- Hlen.
        set (x := Z.of_nat n). set (y := Z.of_nat m). set (z := Z.of_nat k).
        set (X := Z.of_nat (length (cart_list (v_l V i)))). set (Y := Z.of_nat (length (cart_list (v_l V j)))). set (N := Z.of_nat (length (comps t))).
        assert (0 <= x < X /\ 0 <= y < Y /\ 0 <= z < N)%Z as (Hx & Hy & Hz) by (unfold x, y, z, X, Y, N; lia). clearbody x y z X Y N.
        assert (y * X + x < X * Y)%Z by nia. assert (0 <= y * X + x)%Z by nia. nia. }
      destruct (batch_is len gsz run (E ip jp) PD (E_ne ip jp) Hu Hn HH _ Hr) as (ph & D & HD & Hv).
      destruct (PD2_at t _ _ f Dv Hlen _ _ _ _ _ _ _ _ _ _ F1 F2 F3 HD) as [-> HD']. exists D. split; [exact HD'|exact Hv].
  Qed.

  (** overlap-type *)
  Definition D_ovlp (ip jp : Z) (ti tj : triple) (q : poly) (D : C) : Prop :=
    D = den (a ip jp) A (common_orig ev) overlap [0%Z] (powers ti tj) q.
  Lemma ovlp_batch ip jp ia : en_fam (t_e t) = F1e -> 0 < ex V ev i ip -> 0 < ex V ev j jp ->
    let B := batch len gsz (run_1e V ev at_ rys t ng i j 0 idx' ip jp ia) (E ip jp) in
    adds_batch len gsz B (run_1e V ev at_ rys t ng i j 0 idx' ip jp ia) /\ is_batch ip jp (D_ovlp ip jp) B.
  Proof.
    intros Hf Ha Hb B. apply batch_1e; [auto|unfold D_ovlp; congruence|].
    intros c0 empty g gout Hg Hs Hfl.
    destruct (overlap_real t ng (v_l V i) (v_l V j) (v_nc V i) (v_nc V j) c0 (a ip jp) A (common_orig ev) idx g gout empty Ht Hf En Hli Hlj Ha Hb Hidx) as
      (idx2 & g' & go & f' & R1 & R2 & R3 & R4 & R5 & R6).
    - rewrite (proj2 Hg). exact Hgsz.
    - exact (proj1 Hg).
    - exact Hs.
    - intros _. exact Hfl.
    - assert (idx2 = idx') as -> by (unfold env_1e in Eidx; rewrite Eidx in R1; congruence). assert (f' = f) as -> by congruence.
      assert (Hg' : holds gsz g').
      { split; [exact (keeps_filled _ _ _ (keeps_ovlp _ _ _ _ _ _) R2 (proj1 Hg))|]. rewrite <- (proj2 Hg). exact (proj1 (keeps_ovlp _ _ _ _ _ _ _ _ R2)). }
      destruct (gout_run _ _ _ _ _ _ _ gsz Hg' R3) as (g2 & R7 & R8).
      exists g2, go. split; [|split; [exact R8|split; [exact R5|]]].
      + unfold run_1e. cbn [Z.eqb]. change (ctr V ev i) with (A CI). change (ctr V ev j) with (A CJ).
        change (ex V ev i ip) with (a ip jp CI). change (ex V ev j jp) with (a ip jp CJ). unfold env_1e at 1. rewrite R2. cbn [bind]. exact R7.
      + intros n m k ti tj s1 s2 q F1 F2 F3. destruct (R6 n m k ti tj s1 s2 q F1 F2 F3) as (v & old & V1 & V2 & V3).
        exists v, old, (den (a ip jp) A (common_orig ev) overlap [0%Z] (powers ti tj) q). repeat (split; [assumption|]). split; [reflexivity|exact V3].
  Qed.

  (** nuclear attraction and 1/r *)
  Definition D_nuc (ip jp ia : Z) (ti tj : triple) (q : poly) (D : C) : Prop :=
    exists W, value (term1 (a ip jp) A (common_orig ev) (powers ti tj) (nuc_op (n_zeta (nucleus_of at_ ev ia))) (n_xyz (nucleus_of at_ ev ia))) q W /\
      D = (RtoC (n_chg (nucleus_of at_ ev ia)) * W)%C.
  (** what CINTrys_roots is used for: for every argument y >= 0, roots (as t^2/(1-t^2)) and weights of a Gauss rule
      for the moments of exp(-y t^2) on [0,1] *)
  Definition roots_ok : Prop := forall y, 0 <= y ->
    rule (nrys_roots e) y 0 (fun n => t2_of (fst (rys (nrys_roots e) y) n)) (snd (rys (nrys_roots e) y)) /\
    forall n, (0 <= n < nrys_roots e)%Z -> 0 <= fst (rys (nrys_roots e) y) n.
  Lemma nuc_batch ip jp ia ty : (ty <> 0)%Z -> en_fam (t_e t) = F1nuc \/ en_fam (t_e t) = F1rinv -> ~ In (en_name (t_e t)) except_names -> roots_ok ->
    0 < ex V ev i ip -> 0 < ex V ev j jp ->
    let B := batch len gsz (run_1e V ev at_ rys t ng i j ty idx' ip jp ia) (E ip jp) in
    adds_batch len gsz B (run_1e V ev at_ rys t ng i j ty idx' ip jp ia) /\ is_batch ip jp (D_nuc ip jp ia) B.
  Proof.
    intros Hty Hf Hex HR Ha Hb B.
    assert (Hf' : en_fam (t_e t) = F1e \/ en_fam (t_e t) = F1rinv \/ en_fam (t_e t) = F1nuc) by tauto.
    destruct (fam_1 Hf') as (Hnr & Hg0 & Hng & Hg3).
    apply batch_1e; [exact Hf'| |].
    - intros ti tj q D D' (W & H1 & ->) (W' & H2 & ->). f_equal. eapply value_unique; [|exact H1|exact H2]. intros m v w. apply term1_unique.
    - intros c0 empty g gout Hg Hs Hfl.
      set (nu := nucleus_of at_ ev ia). set (p := ex V ev i ip + ex V ev j jp).
      set (x := p * nuc_mod p (n_zeta nu) * nuc_mod p (n_zeta nu) *
        square3 (fun ax => n_xyz nu ax - pair_rij (ex V ev i ip) (ex V ev j jp) (ctr V ev i) (ctr V ev j) ax)).
      assert (Hx : 0 <= x).
      { unfold x. rewrite (Rmult_assoc p). apply Rmult_le_pos; [apply Rmult_le_pos|].
        - unfold p. lra.
        - pose proof (Rle_0_sqr (nuc_mod p (n_zeta nu))) as Q. exact Q.
        - unfold square3. set (a1 := _ - _). set (a2 := _ - _). set (a3 := _ - _).
          pose proof (Rle_0_sqr a1). pose proof (Rle_0_sqr a2). pose proof (Rle_0_sqr a3). unfold Rsqr in *. lra. }
      destruct (HR x Hx) as [HR1 HR2].
      destruct (rys (nrys_roots e) x) as [u w] eqn:Er. cbn [fst snd] in HR1, HR2.
      pose proof (put_w_ok (g_size e) 0 (nrys_roots e) w g w ltac:(lia) ltac:(lia) ltac:(lia) ltac:(rewrite (proj2 Hg); lia) ltac:(intros k Hk; lia)) as HP.
      apply wp_exists in HP. destruct HP as (g1 & P1 & P2 & P3).
      assert (Hg1 : holds gsz g1).
      { split; [exact (keeps_filled _ _ _ (keeps_put _ _ _ _) P1 (proj1 Hg))|]. rewrite <- (proj2 Hg). exact (proj1 P2). }
      destruct (nuc_operator t ng (v_l V i) (v_l V j) (v_nc V i) (v_nc V j) c0 (n_chg nu) (n_zeta nu) u w (n_xyz nu) (a ip jp) A (common_orig ev) idx g1 gout empty
        Ht Hf Hex En Hli Hlj Ha Hb) as (idx2 & g' & go & f' & R1 & R2 & R3 & R4 & R5 & R6).
      + intros n Hn. change (0 <= n < nrys_roots e)%Z in Hn. split; [exact (HR2 n Hn)|]. pose proof (P3 n ltac:(lia)) as Q. etransitivity; [exact Q|]. destruct (Z.ltb_spec n 0); [lia|]. rewrite Z.sub_0_r. destruct (n <? 0)%Z; reflexivity.
      + replace (_ * _ * _) with x; [exact HR1|]. unfold x, p, square3, pair_rij, dist2. unfold prim_exps, prim_centres. field. lra.
      + exact Hidx.
      + rewrite (proj2 Hg1). exact Hgsz.
      + exact (proj1 Hg1).
      + exact Hs.
      + intros _. exact Hfl.
      + assert (idx2 = idx') as -> by (unfold env_1e in Eidx; rewrite Eidx in R1; congruence). assert (f' = f) as -> by congruence.
        assert (Hg' : holds gsz g').
        { split; [exact (keeps_filled _ _ _ (keeps_nuc _ _ _ _ _ _ _ _ _ _) R2 (proj1 Hg1))|]. rewrite <- (proj2 Hg1). exact (proj1 (keeps_nuc _ _ _ _ _ _ _ _ _ _ _ _ R2)). }
        destruct (gout_run _ _ _ _ _ _ _ gsz Hg' R3) as (g2 & R7 & R8).
        exists g2, go. split; [|split; [exact R8|split; [exact R5|]]].
        * unfold run_1e. destruct (Z.eqb_spec ty 0) as [?|_]; [contradiction|]. unfold g1e_nuc_run.
          destruct (Z.ltb_spec 32 (nrys_roots e)) as [?|_]; [lia|]. fold nu p x. rewrite Er. rewrite P1. cbn [bind].
          replace (E ip jp) with (overlap_factor (a ip jp CI) (a ip jp CJ) (A CI) (A CJ)).
          -- change (ctr V ev i) with (A CI). change (ctr V ev j) with (A CJ).
             change (ex V ev i ip) with (a ip jp CI). change (ex V ev j jp) with (a ip jp CJ). unfold env_1e at 1. rewrite R2. cbn [bind]. exact R7.
          -- unfold pair_eij, square3, overlap_factor, dist2, prim_exps, prim_centres. f_equal. f_equal. field. lra.
        * intros n m k ti tj s1 s2 q F1 F2 F3. destruct (R6 n m k ti tj s1 s2 q F1 F2 F3) as (v & old & W & V1 & V2 & V3 & V4).
          exists v, old, (RtoC (n_chg nu) * W)%C. repeat (split; [assumption|]). split; [exists W; split; [exact V3|reflexivity]|].
          rewrite V4, RtoC_mult. ring.
  Qed.
End Prim1e.
