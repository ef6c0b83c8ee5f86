(** WholeSim.v — a primitive loop with the real computation inside does to the contraction buffers
    what the loop with abstract batches does. *)
From Coq Require Import Reals Lra FunctionalExtensionality.
From Verif Require Import Base FblasModel CtrModel Loop2eModel Loop3Model IntgStep IntgReal WholeModel.
Local Open Scope Z_scope.

Section Sim.
  Context {A B : Type} (P : A -> Prop) (Q : B -> Prop).
  Definition sim (fa : A -> option A) (fb : A * B -> option (A * B)) : Prop :=
    forall a b a', P a -> Q b -> fa a = Some a' -> P a' /\ exists b', fb (a, b) = Some (a', b') /\ Q b'.
  Lemma sim_forN n : forall lo fa fb, (forall i, lo <= i < lo + Z.of_nat n -> sim (fa i) (fb i)) -> sim (forN n lo fa) (forN n lo fb).
  Proof.
    induction n as [|n IH]; intros lo fa fb H a b a' HP HQ E; cbn [forN] in *.
    - injection E as <-. split; [exact HP|]. exists b. split; [reflexivity|exact HQ].
    - destruct (fa lo a) as [a1|] eqn:E1; cbn [bind] in E; [|discriminate].
      destruct (H lo ltac:(lia) a b a1 HP HQ E1) as (HP1 & b1 & F1 & HQ1). rewrite F1. cbn [bind].
      exact (IH (lo + 1) fa fb (fun i Hi => H i ltac:(lia)) a1 b1 a' HP1 HQ1 E).
  Qed.
  Lemma sim_for lo hi fa fb : (forall i, lo <= i < hi -> sim (fa i) (fb i)) -> sim (for_ lo hi fa) (for_ lo hi fb).
  Proof. intros H. apply sim_forN. intros i Hi. apply H. lia. Qed.
End Sim.

Lemma arr_ext {F} (a b : arr F) : asize a = asize b -> (forall q, acell a q = acell b q) -> a = b.
Proof. destruct a as [n f], b as [m h]; cbn. intros -> H. f_equal. apply functional_extensionality. exact H. Qed.

Lemma keeps_opt {F T} (o : option T) (f : T -> arr F -> option (arr F)) : (forall v, keeps (f v)) -> keeps (fun m => v <- o ;; f v m).
Proof. intros H m m' E. destruct o; cbn in E; [exact (H _ _ _ E)|discriminate]. Qed.
Lemma keeps_upd2 {F} q p (f : F -> F) : keeps (fun m : arr F => v <- rd m q ;; wr m p (f v)).
Proof. exact (keeps_upd q p f). Qed.

(** every buffer of [m] holds numbers and has its size *)
Definition sized (sz : nat -> Z) (m : mem R) : Prop := forall t, filled (buf m t) /\ asize (buf m t) = sz t.
Lemma sized_set sz m t a : sized sz m -> filled a -> asize a = sz t -> sized sz (set_buf m t a).
Proof. intros H Ha Hs t'. cbn. destruct (Nat.eqb_spec t' t) as [->|]; [split; assumption|apply H]. Qed.
Lemma sized_flg sz m t b : sized sz m -> sized sz (set_flg m t b).
Proof. intros H t'. exact (H t'). Qed.
Lemma sized_flags sz m : sized sz m -> sized sz (set_flags m).
Proof. intros H t'. exact (H t'). Qed.
Lemma sized_reset sz m : sized sz m -> sized sz (reset_flags m).
Proof. intros H t'. exact (H t'). Qed.
Lemma sized_keeps sz m t c a : sized sz m -> keeps c -> c (buf m t) = Some a -> sized sz (set_buf m t a).
Proof.
  intros H Hc E. apply sized_set; [exact H|exact (keeps_filled _ _ _ Hc E (proj1 (H t)))|].
  rewrite <- (proj2 (H t)). exact (proj1 (Hc _ _ E)).
Qed.

Lemma keeps_p2c0 (gp c : arr R) p nf np nc : keeps (fun gc => CINTprim_to_ctr_0 Rmult gc gp c p nf np nc).
Proof. unfold CINTprim_to_ctr_0. apply keeps_for. intros i. apply keeps_opt. intros c0. apply keeps_for. intros n. apply keeps_opt. intros x. apply keeps_wr1. Qed.
Lemma keeps_p2c1 (gp c : arr R) p nf np k (si : arr Z) so : keeps (fun gc => CINTprim_to_ctr_1 Rplus Rmult gc gp c p nf np k si so).
Proof.
  unfold CINTprim_to_ctr_1. apply keeps_for. intros i. apply keeps_opt. intros j. apply keeps_opt. intros c0. apply keeps_for. intros n.
  apply keeps_opt. intros x. apply (keeps_upd (nf * j + n) (nf * j + n) (fun old => (old + c0 * x)%R)).
Qed.
Lemma sized_p2c sz s p dst dfl src ngp m m' : sized sz m -> PRIM2CTR Rplus Rmult s p dst dfl src ngp m = Some m' -> sized sz m'.
Proof.
  intros H E. unfold PRIM2CTR in E. destruct (1 <? s_ctr s).
  2:{ cbn in E. injection E as <-. apply sized_flg. exact H. }
  destruct (flg m dfl).
  - destruct (CINTprim_to_ctr_0 _ _ _ _ _ _ _) as [a|] eqn:Ea; cbn in E; [|discriminate]. injection E as <-.
    apply sized_flg. exact (sized_keeps sz m dst _ a H (keeps_p2c0 _ _ _ _ _ _) Ea).
  - destruct (rd (s_non0 s) p) as [k|]; cbn in E; [|discriminate].
    destruct (CINTprim_to_ctr_1 _ _ _ _ _ _ _ _ _) as [a|] eqn:Ea; cbn in E; [|discriminate]. injection E as <-.
    apply sized_flg. exact (sized_keeps sz m dst _ a H (keeps_p2c1 _ _ _ _ _ _ _ _) Ea).
Qed.
Lemma sized_enter sz s p fac y m r : sized sz m -> enter Rmult s p fac y m = Some r -> sized sz (snd r).
Proof.
  intros H E. unfold enter in E. destruct (s_ctr s =? 1).
  - destruct (rd (s_c s) p); cbn in E; [|discriminate]. injection E as <-. exact H.
  - injection E as <-. apply sized_flg. exact H.
Qed.

(** ** One batch *)
Definition holds (sz : Z) (g : arr R) : Prop := filled g /\ asize g = sz.
(** [adds_batch len B run]: the run adds fac * B to gout (stores it if empty) *)
Definition adds_batch (len gsz : Z) (B : Z -> R) (run : R -> bool -> arr R -> arr R -> option (arr R * arr R)) : Prop :=
  forall fac empty g gout, holds gsz g -> len <= asize gout -> filled gout ->
  exists g' gout', run fac empty g gout = Some (g', gout') /\ holds gsz g' /\ Frame (fun q => 0 <= q < len) gout gout' /\
    forall n, 0 <= n < len -> exists old, rd gout' n = Some (old + fac * B n)%R /\ (if empty then old = 0%R else rd gout n = Some old).

Section Step.
  Variables (sz : nat -> Z) (len gsz : Z).
  Hypothesis Hlen : 0 <= len.
  Lemma f_gout_cells m dst empty v m' : len <= asize (buf m dst) -> f_gout Rplus m dst empty len v = Some m' ->
    exists a, m' = set_buf m dst a /\ Frame (fun q => 0 <= q < len) (buf m dst) a /\
      forall n, 0 <= n < len -> exists old, rd a n = Some (old + v n)%R /\ (if empty then old = 0%R else rd (buf m dst) n = Some old).
  Proof.
    intros Hs E. unfold f_gout in E. destruct (for_ _ _ _ _) as [a|] eqn:Ea; cbn in E; [|discriminate]. injection E as <-.
    exists a. split; [reflexivity|].
    set (a0 := buf m dst) in *.
    assert (W : forall k lo b b', lo = len - Z.of_nat k -> 0 <= lo ->
      (asize b = asize a0 /\ (forall q, ~ (0 <= q < lo) -> acell b q = acell a0 q) /\
       forall n, 0 <= n < lo -> exists old, rd b n = Some (old + v n)%R /\ (if empty then old = 0%R else rd a0 n = Some old)) ->
      forN k lo (fun n a => if empty then wr a n (v n) else old <- rd a n ;; wr a n (old + v n)%R) b = Some b' ->
      (asize b' = asize a0 /\ (forall q, ~ (0 <= q < len) -> acell b' q = acell a0 q) /\
       forall n, 0 <= n < len -> exists old, rd b' n = Some (old + v n)%R /\ (if empty then old = 0%R else rd a0 n = Some old))).
    { induction k as [|k IH]; intros lo b b' Hlo H0 (S1 & S2 & S3) Hf; cbn [forN] in Hf.
      - injection Hf as <-. replace len with lo by lia. split; [exact S1|]. split; [exact S2|exact S3].
      - destruct (if empty then _ else _) as [b1|] eqn:Eb; cbn [bind] in Hf; [|discriminate].
        refine (IH (lo + 1) b1 b' ltac:(lia) ltac:(lia) _ Hf). clear Hf IH.
        assert (Hin : exists old, b1 = mkarr (asize b) (fun j => if j =? lo then Some (old + v lo)%R else acell b j) /\
                       (if empty then old = 0%R else rd a0 lo = Some old)).
        { destruct empty.
          - exists 0%R. split; [|reflexivity]. rewrite Rplus_0_l. rewrite wr_some in Eb by lia. injection Eb as <-. reflexivity.
          - destruct (rd b lo) as [old|] eqn:Er; cbn [bind] in Eb; [|discriminate]. exists old. rewrite wr_some in Eb by lia. injection Eb as <-.
            split; [reflexivity|]. apply rd_spec in Er. apply rd_spec. rewrite <- S1. split; [lia|]. rewrite <- (S2 lo) by lia. exact (proj2 Er). }
        destruct Hin as (old & -> & Hold). split; [exact S1|]. split.
        + intros q Hq. cbn. replace (q =? lo) with false by lia. apply S2. lia.
        + intros n Hn. destruct (Z.eq_dec n lo) as [->|Hne].
          * exists old. split; [|exact Hold]. apply rd_spec. cbn. rewrite Z.eqb_refl. split; [lia|reflexivity].
          * destruct (S3 n ltac:(lia)) as (o & R1 & R2). exists o. split; [|exact R2]. apply rd_spec in R1. apply rd_spec. cbn.
            replace (n =? lo) with false by lia. exact R1. }
    unfold for_ in Ea. destruct (W (Z.to_nat (len - 0)) 0 a0 a ltac:(lia) ltac:(lia)) as (S1 & S2 & S3).
    - split; [reflexivity|]. split; [reflexivity|]. intros; lia.
    - exact Ea.
    - split; [split; [exact S1|exact S2]|exact S3].
  Qed.

  Lemma gout_sim (run : prun) ip jp ia B fac dst empty : sz dst >= len -> adds_batch len gsz B (run ip jp ia) ->
    sim (sized sz) (holds gsz) (fun m => f_gout Rplus m dst empty len (fun n => fac * B n)%R) (gout_step run ip jp ia fac dst empty).
  Proof.
    intros Hd Hr m g m' Hm Hg E. destruct (Hm dst) as [Hf Hs].
    destruct (f_gout_cells m dst empty _ m' ltac:(lia) E) as (a & -> & Fa & Va).
    destruct (Hr fac empty g (buf m dst) Hg ltac:(lia) Hf) as (g' & go & Er & Hg' & Fg & Vg).
    assert (Ea : go = a).
    { apply arr_ext; [rewrite (proj1 Fg), (proj1 Fa); reflexivity|]. intros q.
      destruct (Z_lt_dec q 0) as [H|H]; [rewrite (proj2 Fg), (proj2 Fa) by lia; reflexivity|].
      destruct (Z_lt_dec q len) as [H'|H']; [|rewrite (proj2 Fg), (proj2 Fa) by lia; reflexivity].
      destruct (Va q ltac:(lia)) as (o1 & R1 & O1). destruct (Vg q ltac:(lia)) as (o2 & R2 & O2).
      assert (o1 = o2) as -> by (destruct empty; congruence).
      apply rd_spec in R1. apply rd_spec in R2. rewrite (proj2 R1), (proj2 R2). reflexivity. }
    subst go. split.
    - apply sized_set; [exact Hm| |rewrite (proj1 Fa); exact Hs].
      intros q Hq. destruct (Z_lt_dec q len) as [H'|H'].
      + destruct (Va q ltac:(lia)) as (o & R1 & _). eauto.
      + rewrite (proj1 Fa) in Hq. destruct (Hf q Hq) as (v & Hv). exists v. apply rd_spec in Hv. apply rd_spec. rewrite (proj1 Fa), (proj2 Fa) by lia. exact Hv.
    - exists g'. split; [|exact Hg']. unfold gout_step. rewrite Er. reflexivity.
  Qed.
End Step.

(** ** The one-electron loop *)
Section Loop1e.
  Variables (sz : nat -> Z) (gsz : Z) (run : prun) (B : Z -> Z -> Z -> Z -> R) (ty natm n_comp nf : Z) (si sj : shl R).
  Variables (common : R) (empty : bool) (skip : Z -> Z -> bool) (ee : Z -> Z -> R).
  Notation len := (nf * n_comp).
  Definition ia_ok (ia : Z) : Prop := match ty with 0 => ia = 0 | 1 => ia = -1 | _ => 0 <= ia < natm end.
  Hypothesis Hlen : 0 <= len.
  Hypothesis Hrun : forall ip jp ia, 0 <= ip < s_np si -> 0 <= jp < s_np sj -> ia_ok ia -> adds_batch len gsz (B ip jp ia) (run ip jp ia).
  Notation q := (mkp1 empty skip ee natm (fun ip jp => B ip jp 0) B).

  Lemma make_sim ip jp fac dst e0 : 0 <= ty <= 2 -> 0 <= ip < s_np si -> 0 <= jp < s_np sj -> sz dst >= len ->
    sim (sized sz) (holds gsz) (fun m => make_g1e_gout Rplus Rmult q ty len ip jp m dst e0 fac) (make_g1e_gout_run run ty natm ip jp fac dst e0).
  Proof.
    intros Ht Hi Hj Hd. assert (Hty : ty = 0 \/ ty = 1 \/ ty = 2) by lia. unfold make_g1e_gout, make_g1e_gout_run. unfold ia_ok in Hrun.
    destruct Hty as [E|[E|E]]; rewrite E in *; cbn [w_ovlp w_nuc w_natm].
    - apply (gout_sim sz len gsz Hlen run ip jp 0 (B ip jp 0)); [exact Hd|exact (Hrun ip jp 0 Hi Hj eq_refl)].
    - apply (gout_sim sz len gsz Hlen run ip jp (-1) (B ip jp (-1))); [exact Hd|exact (Hrun ip jp (-1) Hi Hj eq_refl)].
    - apply sim_for. intros ia Hia. apply (gout_sim sz len gsz Hlen run ip jp ia (B ip jp ia)); [exact Hd|exact (Hrun ip jp ia Hi Hj Hia)].
  Qed.

  Lemma loop1e_sim m g m' hv : 0 <= ty <= 2 -> (let gj := alias n_comp 5 2 in let gi := alias (s_ctr sj) gj 1 in sz (alias (s_ctr si) gi 0) >= len) ->
    sized sz m -> holds gsz g ->
    CINT1e_loop Rplus Rmult ty n_comp nf si sj common q m = Some (m', hv) ->
    CINT1e_loop_run run ty natm n_comp nf si sj common empty skip ee m g = Some (m', hv).
  Proof.
    intros Ht Hd Hm Hg E. unfold CINT1e_loop, CINT1e_loop_run in *. cbn [w_empty] in E. case_eq empty; intros Hemp; rewrite Hemp in E; [exact E|].
    cbv zeta in E, Hd |- *. set (gj := alias n_comp 5 2) in *. set (gi := alias (s_ctr sj) gj 1) in *. set (gg := alias (s_ctr si) gi 0) in *.
    match type of E with (bind (for_ 0 (s_np sj) ?fa ?m0) _ = _) => set (FA := fa) in *; set (M0 := m0) in * end.
    match goal with |- (bind (for_ 0 (s_np sj) ?fb _) _ = _) => set (FB := fb) end.
    assert (S : sim (sized sz) (holds gsz) (for_ 0 (s_np sj) FA) (for_ 0 (s_np sj) FB)).
    { apply sim_for. intros jp Hjp m1 g1 m2 Hm1 Hg1 E1. unfold FA, FB in *.
      destruct (enter Rmult sj jp common gi m1) as [[fac1j m3]|] eqn:En; cbn [bind] in E1 |- *; [|discriminate].
      pose proof (sized_enter sz _ _ _ _ _ _ Hm1 En) as Hm3. cbn [snd] in Hm3.
      match type of E1 with (bind (for_ 0 (s_np si) ?fa _) _ = _) => set (FA1 := fa) in * end.
      match goal with |- context[for_ 0 (s_np si) ?fb _] => set (FB1 := fb) in * end.
      assert (S1 : sim (sized sz) (holds gsz) (for_ 0 (s_np si) FA1) (for_ 0 (s_np si) FB1)).
      { apply sim_for. intros ip Hip m4 g4 m5 Hm4 Hg4 E4. unfold FA1, FB1 in *. cbn [w_skip w_e] in E4.
        destruct (skip ip jp).
        - injection E4 as <-. split; [exact Hm4|]. exists g4. split; [reflexivity|exact Hg4].
        - destruct (if s_ctr si =? 1 then _ else _) as [fac1i|] eqn:Ef; cbn [bind] in E4 |- *; [|discriminate].
          destruct (make_g1e_gout Rplus Rmult _ ty len ip jp m4 gg (flg m4 gg) fac1i) as [m6|] eqn:Em; cbn [bind] in E4; [|discriminate].
          destruct (make_sim ip jp fac1i gg (flg m4 gg) Ht Hip Hjp Hd m4 g4 m6 Hm4 Hg4 Em) as (Hm6 & g6 & Eg & Hg6).
          rewrite Eg. cbn [bind]. rewrite E4. cbn [bind]. split; [exact (sized_p2c sz _ _ _ _ _ _ _ _ Hm6 E4)|].
          exists g6. split; [reflexivity|exact Hg6]. }
      destruct (for_ 0 (s_np si) FA1 m3) as [m4|] eqn:Ei; cbn [bind] in E1; [|discriminate].
      destruct (S1 m3 g1 m4 Hm3 Hg1 Ei) as (Hm4 & g4 & Eg & Hg4). rewrite Eg. cbn [bind]. rewrite E1. cbn [bind].
      split; [|exists g4; split; [reflexivity|exact Hg4]].
      destruct (negb (flg m4 gi)); [exact (sized_p2c sz _ _ _ _ _ _ _ _ Hm4 E1)|injection E1 as <-; exact Hm4]. }
    destruct (for_ 0 (s_np sj) FA M0) as [m1|] eqn:Ej; cbn [bind] in E; [|discriminate].
    destruct (S M0 g m1 (sized_flags sz m Hm) Hg Ej) as (Hm1 & g1 & Eg & Hg1).
    change (s_np sj) with (s_np sj) in Eg. fold M0. rewrite Eg. cbn [bind]. exact E.
  Qed.
End Loop1e.
