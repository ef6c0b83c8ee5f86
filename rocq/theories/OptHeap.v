(** OptHeap.v — lifetimes of the blocks of optimizers. *)
From Verif Require Import Base EnvModel BasSpec IdxProof OutModel OptModel OptSpec OptProof OptIdx.
From Coq Require Import Permutation FinFun.

Lemma NoDup_app2 {A} (a b : list A) : NoDup a -> NoDup b -> (forall x, In x a -> In x b -> False) -> NoDup (a ++ b).
Proof.
  intros Ha Hb D. induction Ha as [|x a Hx Ha IH]; [exact Hb|]. cbn. constructor.
  - intros H. apply in_app_or in H. destruct H as [H|H]; [exact (Hx H)|exact (D x (or_introl eq_refl) H)].
  - apply IH. intros y Hy. apply D. right. exact Hy.
Qed.
Lemma NoDup_app_l {A} (a b : list A) : NoDup (a ++ b) -> NoDup a.
Proof.
  induction a as [|x a IH]; intros H; [constructor|]. inversion H as [|? ? N R]; subst. constructor; [|apply IH, R].
  intros Hx. apply N, in_or_app. left. exact Hx.
Qed.
Lemma NoDup_app_r {A} (a b : list A) : NoDup (a ++ b) -> NoDup b.
Proof. induction a as [|x a IH]; intros H; [exact H|]. inversion H; subst. apply IH. assumption. Qed.
Lemma NoDup_app_disj {A} (a b : list A) x : NoDup (a ++ b) -> In x a -> In x b -> False.
Proof.
  induction a as [|y a IH]; intros H Ha Hb; [destruct Ha|]. inversion H as [|? ? N R]; subst.
  destruct Ha as [->|Ha]; [apply N, in_or_app; right; exact Hb|exact (IH R Ha Hb)].
Qed.

(** block numbers handed out between two moments *)
Definition zrange (lo hi : Z) : list Z := map (fun k => lo + Z.of_nat k) (seq 0 (Z.to_nat (hi - lo))).

Lemma zrange_In lo hi x : In x (zrange lo hi) <-> lo <= x < hi.
Proof.
  unfold zrange. rewrite in_map_iff. split.
  - intros (k & <- & Hk). apply in_seq in Hk. lia.
  - intros H. exists (Z.to_nat (x - lo)). split; [lia|]. apply in_seq. lia.
Qed.
Lemma zrange_nil lo : zrange lo lo = [].
Proof. unfold zrange. rewrite Z.sub_diag. reflexivity. Qed.
Lemma zrange_one lo : zrange lo (lo + 1) = [lo].
Proof. unfold zrange. replace (lo + 1 - lo) with 1 by lia. change (Z.to_nat 1) with 1%nat. cbn [seq map]. f_equal. lia. Qed.
Lemma zrange_app lo mid hi : lo <= mid <= hi -> zrange lo mid ++ zrange mid hi = zrange lo hi.
Proof.
  intros H. unfold zrange. replace (Z.to_nat (hi - lo)) with (Z.to_nat (mid - lo) + Z.to_nat (hi - mid))%nat by lia.
  rewrite seq_app, map_app. f_equal. rewrite <- (map_map Z.of_nat (fun z => lo + z)), <- (map_map Z.of_nat (fun z => mid + z)).
  replace (0 + Z.to_nat (mid - lo))%nat with (Z.to_nat (mid - lo)) by lia.
  generalize (Z.to_nat (hi - mid)). intros n. remember (Z.to_nat (mid - lo)) as m.
  rewrite !map_map. replace m with (m + 0)%nat at 1 by lia. generalize 0%nat as a.
  induction n as [|n IH]; intros a; [reflexivity|]. cbn [seq map]. f_equal; [lia|].
  replace (S (m + a)) with (m + S a)%nat by lia. apply IH.
Qed.
Lemma zrange_NoDup lo hi : NoDup (zrange lo hi).
Proof. unfold zrange. apply Injective_map_NoDup; [intros a b; lia|apply seq_NoDup]. Qed.
Lemma zrange_zseq n : zrange 0 n = zseq n.
Proof. unfold zrange, zseq. rewrite Z.sub_0_r. apply map_ext. intros; lia. Qed.

Section Heap.
  Context {F : Type} (O : fops F).
  Notation heap := (@heap F). Notation block := (@block F).

  (** [L] are different blocks of [h], and the block numbers to come are free *)
  Definition wf (h : heap) (L : list Z) : Prop :=
    NoDup L /\ (forall x, In x L -> x < hnext h) /\ (forall x, hnext h <= x -> hblk h x = None).

  (** from [h], owning [L], to [h'], owning [L'] *)
  Definition step (h : heap) (L : list Z) (h' : heap) (L' : list Z) : Prop :=
    wf h L -> hnext h <= hnext h' /\
    (forall x, ~ In x L -> x < hnext h -> hblk h' x = hblk h x) /\
    (forall x, hnext h' <= x -> hblk h' x = None) /\
    exists fr, hfrees h' = fr ++ hfrees h /\ Permutation (fr ++ L') (L ++ zrange (hnext h) (hnext h')) /\
      forall x, In x fr -> hblk h' x = None.

  Lemma wf_step h L h' L' : wf h L -> step h L h' L' -> wf h' L'.
  Proof.
    intros HW S. destruct (S HW) as (S1 & S2 & S3 & fr & S4 & S5 & S6). destruct HW as (W1 & W2 & W3).
    assert (ND : NoDup (L ++ zrange (hnext h) (hnext h'))).
    { apply NoDup_app2; [exact W1|apply zrange_NoDup|]. intros x Hx Hy. apply zrange_In in Hy. specialize (W2 x Hx). lia. }
    split; [|split; [|exact S3]].
    - apply (Permutation_NoDup (Permutation_sym S5)) in ND. apply NoDup_app_r in ND. exact ND.
    - intros x Hx. assert (In x (L ++ zrange (hnext h) (hnext h'))).
      { eapply Permutation_in; [exact S5|]. apply in_or_app. right. exact Hx. }
      apply in_app_or in H. destruct H as [H|H]; [specialize (W2 x H); lia|apply zrange_In in H; lia].
  Qed.

  Lemma step_refl h L : step h L h L.
  Proof.
    intros (W1 & W2 & W3). split; [lia|]. split; [reflexivity|]. split; [exact W3|]. exists [].
    rewrite zrange_nil, app_nil_r. split; [reflexivity|]. split; [reflexivity|]. intros x [].
  Qed.

  Lemma step_trans h L h1 L1 h2 L2 : step h L h1 L1 -> step h1 L1 h2 L2 -> step h L h2 L2.
  Proof.
    intros A B HW. assert (HW1 := wf_step _ _ _ _ HW A).
    destruct (A HW) as (A1 & A2 & A3 & f1 & A4 & A5 & A6). destruct (B HW1) as (B1 & B2 & B3 & f2 & B4 & B5 & B6).
    destruct HW as (W1 & W2 & W3).
    assert (ND : NoDup (f1 ++ L1)).
    { eapply Permutation_NoDup; [exact (Permutation_sym A5)|]. apply NoDup_app2; [exact W1|apply zrange_NoDup|].
      intros x Hx Hy. apply zrange_In in Hy. specialize (W2 x Hx). lia. }
    split; [lia|]. split; [|split; [exact B3|]].
    - intros x Hx Hlt. rewrite B2; [apply A2; assumption| |lia]. intros Hin.
      assert (H : In x (L ++ zrange (hnext h) (hnext h1))).
      { eapply Permutation_in; [exact A5|]. apply in_or_app. right. exact Hin. }
      apply in_app_or in H. destruct H as [H|H]; [exact (Hx H)|apply zrange_In in H; lia].
    - exists (f2 ++ f1). split; [rewrite B4, A4, app_assoc; reflexivity|]. split.
      + rewrite <- (zrange_app (hnext h) (hnext h1) (hnext h2)) by lia.
        rewrite (app_assoc L). rewrite <- A5. rewrite <- !app_assoc.
        transitivity (f1 ++ (f2 ++ L2)).
        * rewrite !app_assoc. apply Permutation_app_tail. apply Permutation_app_comm.
        * apply Permutation_app_head. exact B5.
      + intros x Hx. apply in_app_or in Hx. destruct Hx as [Hx|Hx]; [apply B6, Hx|].
        rewrite B2; [apply A6, Hx| |].
        * intros Hin. eapply NoDup_app_disj; [exact ND|exact Hx|exact Hin].
        * assert (H : In x (L ++ zrange (hnext h) (hnext h1))).
          { eapply Permutation_in; [exact A5|]. apply in_or_app. left. exact Hx. }
          apply in_app_or in H. destruct H as [H|H]; [specialize (W2 x H); lia|apply zrange_In in H; lia].
  Qed.

  Lemma wf_sub h L R : wf h (L ++ R) -> wf h L.
  Proof.
    intros (W1 & W2 & W3). split; [eapply NoDup_app_l; exact W1|]. split; [|exact W3].
    intros x Hx. apply W2. apply in_or_app. left. exact Hx.
  Qed.
  Lemma step_frame h L h' L' R : step h L h' L' -> step h (L ++ R) h' (L' ++ R).
  Proof.
    intros A HW. destruct (A (wf_sub _ _ _ HW)) as (A1 & A2 & A3 & fr & A4 & A5 & A6).
    split; [exact A1|]. split; [intros x Hx; apply A2; intros H; apply Hx, in_or_app; left; exact H|]. split; [exact A3|].
    exists fr. split; [exact A4|]. split; [|exact A6].
    rewrite app_assoc, A5, <- !app_assoc. apply Permutation_app_head. apply Permutation_app_comm.
  Qed.
  Lemma wf_perm h L M : Permutation L M -> wf h L -> wf h M.
  Proof.
    intros P (W1 & W2 & W3). split; [eapply Permutation_NoDup; eassumption|]. split; [|exact W3].
    intros x Hx. apply W2. eapply Permutation_in; [exact (Permutation_sym P)|exact Hx].
  Qed.
  Lemma step_perm h L M h' L' M' : Permutation L M -> Permutation L' M' -> step h L h' L' -> step h M h' M'.
  Proof.
    intros P P' A HW. destruct (A (wf_perm _ _ _ (Permutation_sym P) HW)) as (A1 & A2 & A3 & fr & A4 & A5 & A6).
    split; [exact A1|]. split; [intros x Hx; apply A2; intros H; apply Hx; eapply Permutation_in; eassumption|]. split; [exact A3|].
    exists fr. split; [exact A4|]. split; [|exact A6]. rewrite <- P, <- P'. exact A5.
  Qed.
  Lemma step_keep h L h' L' x : wf h L -> step h L h' L' -> ~ In x L -> x < hnext h -> hblk h' x = hblk h x.
  Proof. intros HW A. destruct (A HW) as (_ & A2 & _). apply A2. Qed.

  (** the primitive steps *)
  Lemma step_malloc b h : step h [] (snd (malloc b h)) [hnext h].
  Proof.
    intros (W1 & W2 & W3). cbn [snd malloc hnext hblk hfrees]. split; [lia|].
    split; [intros x _ Hx; replace (x =? hnext h) with false by lia; reflexivity|].
    split; [intros x Hx; replace (x =? hnext h) with false by lia; apply W3; lia|].
    exists []. rewrite zrange_one. split; [reflexivity|]. split; [reflexivity|intros x []].
  Qed.
  Lemma step_store (h : heap) x b h' : store_blk h x b = Some h' -> step h [x] h' [x].
  Proof.
    unfold store_blk. destruct (hblk h x) eqn:E; [|discriminate]. intros [= <-] (W1 & W2 & W3).
    cbn [hnext hblk hfrees]. split; [lia|].
    split; [intros y Hy _; replace (y =? x) with false; [reflexivity|]; symmetry; apply Z.eqb_neq; intros ->; apply Hy; left; reflexivity|].
    split; [intros y Hy; specialize (W2 x (or_introl eq_refl)); replace (y =? x) with false by lia; apply W3; lia|].
    exists []. rewrite zrange_nil. split; [reflexivity|]. split; [reflexivity|intros y []].
  Qed.
  Lemma step_free (h : heap) x h' : free_ h x 0 = Some h' -> step h [x] h' [].
  Proof.
    unfold free_. rewrite Z.eqb_refl. destruct (hblk h x) eqn:E; [|discriminate]. intros [= <-] (W1 & W2 & W3).
    cbn [hnext hblk hfrees]. split; [lia|].
    split; [intros y Hy _; replace (y =? x) with false; [reflexivity|]; symmetry; apply Z.eqb_neq; intros ->; apply Hy; left; reflexivity|].
    split; [intros y Hy; specialize (W2 x (or_introl eq_refl)); replace (y =? x) with false by lia; apply W3; lia|].
    exists [x]. rewrite zrange_nil. split; [reflexivity|]. split; [reflexivity|]. intros y [->|[]]. rewrite Z.eqb_refl. reflexivity.
  Qed.
  Lemma free_runs (h : heap) x b : hblk h x = Some b -> exists h', free_ h x 0 = Some h'.
  Proof. intros E. unfold free_. rewrite Z.eqb_refl, E. eexists. reflexivity. Qed.
  Lemma store_runs (h : heap) x b b' : hblk h x = Some b -> exists h', store_blk h x b' = Some h' /\ hblk h' x = Some b'.
  Proof. intros E. unfold store_blk. rewrite E. eexists. split; [reflexivity|]. cbn [hblk]. rewrite Z.eqb_refl. reflexivity. Qed.
  Lemma malloc_blk b (h : heap) : hblk (snd (malloc b h)) (hnext h) = Some b.
  Proof. cbn. rewrite Z.eqb_refl. reflexivity. Qed.

  (** ** the parts of an optimizer *)
  Definition part (h : heap) (fld : option Z) (L : list Z) (Q : arr ptr -> block -> Prop) : Prop :=
    match fld with
    | None => L = []
    | Some x => exists base t b, L = [x; base] /\ hblk h x = Some (BPtr base t) /\ rd t 0 = Some (Off 0) /\
                  hblk h base = Some b /\ Q t b
    end.

  Lemma part_keep h h' fld L Q : (forall x, In x L -> hblk h' x = hblk h x) -> part h fld L Q -> part h' fld L Q.
  Proof.
    intros K. unfold part. destruct fld as [x|]; [|trivial]. intros (base & t & b & -> & P1 & P2 & P3 & P4).
    exists base, t, b. split; [reflexivity|]. rewrite !K by (cbn; auto). auto.
  Qed.
  Lemma part_mono h fld L (Q Q' : arr ptr -> block -> Prop) : (forall t b, Q t b -> Q' t b) -> part h fld L Q -> part h fld L Q'.
  Proof.
    intros K. unfold part. destruct fld as [x|]; [|trivial]. intros (base & t & b & -> & P1 & P2 & P3 & P4).
    exists base, t, b. auto 10.
  Qed.

  Lemma free_part h x L Q : wf h L -> part h (Some x) L Q -> exists h', free_table h x = Some h' /\ step h L h' [].
  Proof.
    intros HW (base & t & b & -> & P1 & P2 & P3 & P4). unfold free_table. rewrite P1, P2. cbn [bind free_cell].
    destruct (free_runs h base b P3) as [h1 E1]. rewrite E1. cbn [bind].
    assert (S1 : step h [x; base] h1 [x]).
    { apply (step_perm h [base; x] _ h1 [x] _ (perm_swap _ _ _) (Permutation_refl _)). apply (step_frame h [base] h1 [] [x]).
      apply step_free, E1. }
    assert (N : x <> base). { intros ->. destruct HW as (W1 & _). inversion W1 as [|? ? HN _]; subst. apply HN. left; reflexivity. }
    assert (E2 : hblk h1 x = Some (BPtr base t)).
    { rewrite <- P1. apply (step_keep h [base] h1 []).
      - destruct HW as (W1 & W2 & W3). split; [inversion W1; assumption|]. split; [intros y [<-|[]]; apply W2; cbn; auto|exact W3].
      - apply step_free, E1.
      - intros [H|[]]; congruence.
      - destruct HW as (_ & W2 & _). apply W2. left; reflexivity. }
    destruct (free_runs h1 x _ E2) as [h2 E3]. exists h2. split; [exact E3|].
    eapply step_trans; [exact S1|]. apply step_free, E3.
  Qed.

  Lemma free_opt_part h fld L Q : wf h L -> part h fld L Q ->
    exists h', match fld with None => Some h | Some x => free_table h x end = Some h' /\ step h L h' [].
  Proof.
    intros HW HP. destruct fld as [x|]; [eapply free_part; eassumption|]. exists h. split; [reflexivity|].
    cbn in HP. subst. apply step_refl.
  Qed.

  Definition Blog (B : basis F) (t : arr ptr) (b : block) : Prop :=
    exists lm, b = BFlt lm /\ forall V ev, has_shells (b_atm B) (b_bas B) (b_nbas B) V -> shells_ok (b_nbas B) V (asize (b_env B)) ->
      env_is (b_env B) ev -> logm_table O (b_nbas B) V ev t lm.
  Definition Bany (t : arr ptr) (b : block) : Prop := True.
  Definition no_prims (B : basis F) : Prop :=
    forall V, has_shells (b_atm B) (b_bas B) (b_nbas B) V -> Zsum (b_nbas B) (v_np V) = 0.

  (** an optimizer at [s] made for basis [B], owning the blocks [L] *)
  Definition is_opt (h : heap) (s : Z) (B : basis F) (l p n x : bool) (L : list Z) : Prop :=
    exists o Ll Lp Li Ln Ls,
      hblk h s = Some (BOpt o) /\
      part h (o_logm o) Ll (Blog B) /\ part h (o_pair o) Lp Bany /\ part h (o_idx o) Li Bany /\
      part h (o_non0 o) Ln Bany /\ part h (o_sidx o) Ls Bany /\
      (o_non0 o = None <-> o_sidx o = None) /\
      (l = false -> o_logm o = None) /\ (p = false -> o_pair o = None) /\ (n = false -> o_non0 o = None) /\
      (l = true -> o_logm o = None -> no_prims B) /\ (x = false -> o_idx o = None) /\
      L = s :: Ll ++ Lp ++ Li ++ Ln ++ Ls.

  Lemma wf_tail h x R : wf h (x :: R) -> wf h R.
  Proof.
    intros (W1 & W2 & W3). split; [inversion W1; assumption|]. split; [|exact W3]. intros y Hy. apply W2. right. exact Hy.
  Qed.
  Lemma wf_nil h R : wf h R -> wf h [].
  Proof. intros (W1 & W2 & W3). split; [constructor|]. split; [intros x []|exact W3]. Qed.

  (** new blocks, then an update of the structure *)
  Lemma fill h s R b0 h2 N b : wf h (s :: R) -> hblk h s = Some b0 -> step h [] h2 N ->
    exists h3, store_blk h2 s b = Some h3 /\ hblk h3 s = Some b /\ step h (s :: R) h3 (s :: N ++ R) /\
      (forall x, In x R -> hblk h3 x = hblk h x) /\ (forall x, In x N -> hblk h3 x = hblk h2 x).
  Proof.
    intros HW E S.
    assert (W0 : wf h []) by (eapply wf_nil; exact HW).
    assert (K : forall x, x < hnext h -> hblk h2 x = hblk h x).
    { intros x Hx. apply (step_keep h [] h2 N); [exact W0|exact S|intros []|exact Hx]. }
    assert (Hlt : forall x, In x (s :: R) -> x < hnext h) by apply HW.
    destruct (store_runs h2 s b0 b) as (h3 & E3 & B3). { rewrite K; [exact E|apply Hlt; left; reflexivity]. }
    exists h3. split; [exact E3|]. split; [exact B3|].
    assert (S1 : step h (s :: R) h2 (s :: N ++ R)).
    { apply (step_perm h (s :: R) _ h2 (N ++ s :: R)); [reflexivity|symmetry; apply Permutation_middle|].
      apply (step_frame h [] h2 N (s :: R) S). }
    assert (S2 : step h2 (s :: N ++ R) h3 (s :: N ++ R)) by (apply (step_frame h2 [s] h3 [s] (N ++ R)); eapply step_store; exact E3).
    assert (W2 := wf_step _ _ _ _ HW S1).
    assert (K2 : forall x, In x (N ++ R) -> hblk h3 x = hblk h2 x).
    { intros x Hx. apply (step_keep h2 [s] h3 [s]).
      - apply (wf_sub h2 [s] (N ++ R)). exact W2.
      - eapply step_store; exact E3.
      - intros [<-|[]]. destruct W2 as (ND & _). inversion ND; subst. contradiction.
      - apply W2. right. exact Hx. }
    split; [eapply step_trans; eassumption|]. split; intros x Hx.
    - rewrite K2 by (apply in_or_app; right; exact Hx). apply K. apply Hlt. right. exact Hx.
    - apply K2. apply in_or_app. left. exact Hx.
  Qed.

  (** two blocks at once; [tb] is the number of the table, [db] of the data *)
  Lemma malloc2 b1 b2 h : let h2 := snd (malloc b2 (snd (malloc b1 h))) in
    step h [] h2 [hnext h; hnext h + 1] /\ hblk h2 (hnext h) = Some b1 /\ hblk h2 (hnext h + 1) = Some b2 /\ hnext h2 = hnext h + 2.
  Proof.
    cbv zeta. split; [|split; [|split]].
    - eapply step_trans; [apply (step_malloc b1 h)|].
      apply (step_perm _ ([] ++ [hnext h]) _ _ ([hnext h + 1] ++ [hnext h])); [reflexivity|apply perm_swap|].
      apply step_frame. apply (step_malloc b2 (snd (malloc b1 h))).
    - cbn [snd malloc hblk hnext]. replace (hnext h =? hnext h + 1) with false by lia. rewrite Z.eqb_refl. reflexivity.
    - cbn [snd malloc hblk hnext]. rewrite Z.eqb_refl. reflexivity.
    - cbn [snd malloc hnext]. lia.
  Qed.

  Lemma get_opt_eq (h : heap) s o : hblk h s = Some (BOpt o) -> get_opt h s = Some o.
  Proof. intros E. unfold get_opt. rewrite E. reflexivity. Qed.

  Lemma init_ok nbas h B : wf h [] -> let '(s, h') := CINTinit_2e_optimizer nbas h in
    step h [] h' [s] /\ is_opt h' s B false false false false [s].
  Proof.
    intros HW. unfold CINTinit_2e_optimizer. pose proof (step_malloc (BOpt (mkopt None None None nbas None None)) h) as S.
    pose proof (malloc_blk (BOpt (mkopt None None None nbas None None)) h) as E. unfold malloc in *. cbn [snd] in *.
    split; [exact S|]. exists (mkopt None None None nbas None None), [], [], [], [], []. cbn [o_logm o_pair o_idx o_non0 o_sidx part].
    split; [exact E|]. split; [reflexivity|]. split; [reflexivity|]. split; [reflexivity|]. split; [reflexivity|]. split; [reflexivity|].
    split; [tauto|]. split; [reflexivity|]. split; [reflexivity|]. split; [reflexivity|]. split; [discriminate|]. split; reflexivity.
  Qed.

  Ltac kp K := eapply part_keep; [|eassumption]; intros; apply K; repeat (rewrite in_app_iff); tauto.

  Lemma set_log_ok h s B l p n x L : good_basis B -> wf h L -> is_opt h s B l p n x L ->
    (forall o, hblk h s = Some (BOpt o) -> o_logm o = None) ->
    exists h' L', h_set_log_maxc O B h s = Some h' /\ step h L h' L' /\ is_opt h' s B true p n x L'.
  Proof.
    intros (Gn & Ga & V & ev & G1 & G2 & G3) HW (o & Ll & Lp & Li & Ln & Ls & E & P1 & P2 & P3 & P4 & P5 & P6 & P7 & P8 & P9 & P10 & P11 & ->) Hl.
    unfold h_set_log_maxc. rewrite (get_opt_eq _ _ _ E). cbn [bind]. specialize (Hl o E).
    pose proof (set_log_maxc_ok O _ _ _ _ V ev Gn G1 G2 G3) as HR. apply wp_exists in HR. destruct HR as (r & ER & HR). rewrite ER. cbn [bind].
    rewrite Hl in P1. cbn in P1. subst Ll. destruct r as [[t lm]|].
    - destruct HR as (R1 & R2 & R3).
      destruct (malloc2 (BPtr (hnext h + 1) t) (BFlt lm) h) as (S2 & M1 & M2 & _).
      set (o' := mkopt (o_idx o) (o_non0 o) (o_sidx o) (o_nbas o) (Some (hnext h)) (o_pair o)).
      destruct (fill h s _ _ _ _ (BOpt o') HW E S2) as (h3 & E3 & B3 & S3 & K1 & K2).
      eexists h3, _. split; [exact E3|]. split; [exact S3|].
      exists o', [hnext h; hnext h + 1], Lp, Li, Ln, Ls. cbn [o_logm o_pair o_idx o_non0 o_sidx o'].
      split; [exact B3|].
      split. { exists (hnext h + 1), t, (BFlt lm). split; [reflexivity|]. rewrite !K2 by (cbn; auto).
               split; [exact M1|]. split; [exact R3|]. split; [exact M2|].
               exists lm. split; [reflexivity|]. intros V' ev' H1 H2 H3.
               pose proof (set_log_maxc_ok O _ _ _ _ V' ev' Gn H1 H2 H3) as HR'. rewrite ER in HR'. apply HR'. }
      split; [kp K1|]. split; [kp K1|]. split; [kp K1|]. split; [kp K1|].
      split; [exact P6|]. split; [discriminate|]. split; [exact P8|]. split; [exact P9|]. split; [discriminate|]. split; [exact P11|]. reflexivity.
    - exists h, (s :: Lp ++ Li ++ Ln ++ Ls). split; [reflexivity|]. split; [apply step_refl|].
      exists o, [], Lp, Li, Ln, Ls. rewrite Hl. cbn [part].
      split; [exact E|]. split; [reflexivity|]. split; [exact P2|]. split; [exact P3|]. split; [exact P4|]. split; [exact P5|].
      split; [exact P6|]. split; [discriminate|]. split; [exact P8|]. split; [exact P9|]. split; [|split; [exact P11|reflexivity]].
      intros _ _ V' HV'. assert (S' : shells_ok (b_nbas B) V' (asize (b_env B))).
      { intros i Hi. destruct (G1 i Hi) as ((a & A1 & A2) & A3 & A4 & A5 & A6 & A7). destruct (HV' i Hi) as ((a' & C1 & C2) & C3 & C4 & C5 & C6 & C7).
        specialize (G2 i Hi). replace a' with a in C2 by congruence. replace (v_l V' i) with (v_l V i) by congruence.
        replace (v_np V' i) with (v_np V i) by congruence. replace (v_nc V' i) with (v_nc V i) by congruence.
        replace (v_exp V' i) with (v_exp V i) by congruence. replace (v_coef V' i) with (v_coef V i) by congruence.
        replace (v_xyz V' i) with (v_xyz V i) by congruence. exact G2. }
      pose proof (set_log_maxc_ok O _ _ _ _ V' ev Gn HV' S' G3) as HR'. rewrite ER in HR'. exact HR'.
  Qed.

  Lemma setij_heap_ok h s B l n x L ng : good_basis B -> wf h L -> is_opt h s B l false n x L ->
    exists h' L', h_setij O ng B h s = Some h' /\ step h L h' L' /\ is_opt h' s B true true n x L'.
  Proof.
    intros HG HW HO. unfold h_setij.
    assert (H1 : exists h1 L1, (o <- get_opt h s ;; match o_logm o with None => h_set_log_maxc O B h s | Some _ => Some h end) = Some h1 /\
              step h L h1 L1 /\ is_opt h1 s B true false n x L1).
    { assert (HO' := HO). destruct HO as (o & Ll & Lp & Li & Ln & Ls & E & P1 & P2 & P3 & P4 & P5 & P6 & P7 & P8 & P9 & P10 & P11 & ->).
      rewrite (get_opt_eq _ _ _ E). cbn [bind]. destruct (o_logm o) as [xl|] eqn:El.
      - exists h, (s :: Ll ++ Lp ++ Li ++ Ln ++ Ls). split; [reflexivity|]. split; [apply step_refl|].
        exists o, Ll, Lp, Li, Ln, Ls. rewrite El. split; [exact E|]. split; [exact P1|]. split; [exact P2|]. split; [exact P3|]. split; [exact P4|]. split; [exact P5|].
        split; [exact P6|]. split; [discriminate|]. split; [exact P8|]. split; [exact P9|]. split; [discriminate|]. split; [exact P11|reflexivity].
      - eapply set_log_ok; [exact HG|exact HW|exact HO'|]. intros o' Eo. congruence. }
    destruct H1 as (h1 & L1 & R1 & S1 & O1). clear HO.
    assert (W1 := wf_step _ _ _ _ HW S1).
    destruct (get_opt h s) as [o0|] eqn:E0; [|discriminate R1]. cbn [bind] in R1 |- *. rewrite R1. cbn [bind].
    destruct HG as (Gn & Ga & V & ev & G1 & G2 & G3).
    destruct O1 as (o & Ll & Lp & Li & Ln & Ls & E & P1 & P2 & P3 & P4 & P5 & P6 & P7 & P8 & P9 & P10 & P11 & ->).
    rewrite (get_opt_eq _ _ _ E). cbn [bind]. rewrite (P8 eq_refl) in P2. cbn in P2. subst Lp.
    assert (HL : exists lmt, get_logm h1 o = Some lmt /\
        (Zsum (b_nbas B) (v_np V) = 0 \/ exists t lm, lmt = Some (t, lm) /\ logm_table O (b_nbas B) V ev t lm)).
    { unfold get_logm. destruct (o_logm o) as [xl|] eqn:El.
      - destruct P1 as (base & t & b & -> & Q1 & Q2 & Q3 & lm & -> & Q4). rewrite Q1, Q3. eexists. split; [reflexivity|].
        right. exists t, lm. split; [reflexivity|]. apply Q4; assumption.
      - eexists. split; [reflexivity|]. left. apply (P10 eq_refl eq_refl). exact G1. }
    destruct HL as (lmt & -> & HL). cbn [bind].
    pose proof (setij_ok O _ _ _ _ V ev Gn G1 G2 G3 ng lmt HL) as HR. apply wp_exists in HR. destruct HR as (r & -> & HR). cbn [bind].
    destruct r as [[t pd]|].
    - destruct HR as (_ & R2 & _).
      destruct (malloc2 (BPtr (hnext h1 + 1) t) (BPair pd) h1) as (S2 & M1 & M2 & _).
      set (o' := mkopt (o_idx o) (o_non0 o) (o_sidx o) (o_nbas o) (o_logm o) (Some (hnext h1))).
      destruct (fill h1 s _ _ _ _ (BOpt o') W1 E S2) as (h3 & E3 & B3 & S3 & K1 & K2).
      eexists h3, (s :: Ll ++ [hnext h1; hnext h1 + 1] ++ Li ++ Ln ++ Ls). split; [exact E3|].
      split.
      { eapply step_trans; [exact S1|]. eapply step_perm; [reflexivity| |exact S3]. constructor. cbn [app].
        rewrite !(Permutation_middle Ll). reflexivity. }
      exists o', Ll, [hnext h1; hnext h1 + 1], Li, Ln, Ls. cbn [o_logm o_pair o_idx o_non0 o_sidx o'].
      split; [exact B3|]. split; [kp K1|].
      split. { exists (hnext h1 + 1), t, (BPair pd). split; [reflexivity|]. rewrite !K2 by (cbn; auto).
               split; [exact M1|]. split; [exact R2|]. split; [exact M2|exact I]. }
      split; [kp K1|]. split; [kp K1|]. split; [kp K1|].
      split; [exact P6|]. split; [discriminate|]. split; [discriminate|]. split; [exact P9|]. split; [exact P10|]. split; [exact P11|]. reflexivity.
    - exists h1, (s :: Ll ++ [] ++ Li ++ Ln ++ Ls). split; [reflexivity|]. split; [exact S1|].
      exists o, Ll, [], Li, Ln, Ls. rewrite (P8 eq_refl). cbn [part].
      split; [exact E|]. split; [exact P1|]. split; [reflexivity|]. split; [exact P3|]. split; [exact P4|]. split; [exact P5|].
      split; [exact P6|]. split; [discriminate|]. split; [discriminate|]. split; [exact P9|]. split; [exact P10|]. split; [exact P11|reflexivity].
  Qed.

  Lemma non0_heap_ok h s B l p x L : good_basis B -> wf h L -> is_opt h s B l p false x L ->
    exists h' L', h_set_non0coeff O B h s = Some h' /\ step h L h' L' /\ is_opt h' s B l p true x L'.
  Proof.
    intros (Gn & Ga & V & ev & G1 & G2 & G3) HW (o & Ll & Lp & Li & Ln & Ls & E & P1 & P2 & P3 & P4 & P5 & P6 & P7 & P8 & P9 & P10 & P11 & ->).
    unfold h_set_non0coeff. rewrite (get_opt_eq _ _ _ E). cbn [bind].
    assert (N1 := P9 eq_refl). assert (N2 := proj1 P6 N1). rewrite N1 in P4. rewrite N2 in P5. cbn in P4, P5. subst Ln Ls.
    pose proof (set_non0coeff_ok O _ _ _ _ V ev Gn G1 G2 G3) as HR. apply wp_exists in HR. destruct HR as (r & -> & HR). cbn [bind].
    destruct r as [[[tn pn] [ts ps]]|].
    - destruct HR as (_ & R2 & R3 & _).
      set (h2 := snd (malloc (BPtr (hnext h + 1 + 2) ts) (snd (malloc (BPtr (hnext h + 2) tn) h)))).
      destruct (malloc2 (BPtr (hnext h + 2) tn) (BPtr (hnext h + 1 + 2) ts) h) as (S2 & M1 & M2 & M3). fold h2 in S2, M1, M2, M3.
      destruct (malloc2 (BInt pn) (BInt ps) h2) as (S3 & M4 & M5 & _). rewrite M3 in S3, M4, M5.
      set (h4 := snd (malloc (BInt ps) (snd (malloc (BInt pn) h2)))) in *.
      assert (W0 : wf h []) by (eapply wf_nil; exact HW).
      assert (W2 := wf_step _ _ _ _ W0 S2).
      assert (S4 : step h [] h4 ([hnext h + 2; hnext h + 2 + 1] ++ [hnext h; hnext h + 1])).
      { eapply step_trans; [exact S2|]. apply (step_frame h2 [] h4 _ [hnext h; hnext h + 1] S3). }
      assert (K0 : forall x, x < hnext h + 2 -> hblk h4 x = hblk h2 x).
      { intros y Hy. apply (step_keep h2 [] h4 _ y (wf_nil _ _ W2) S3); [intros []|lia]. }
      assert (S5 : step h [] h4 ([hnext h; hnext h + 2] ++ [hnext h + 1; hnext h + 1 + 2])).
      { eapply step_perm; [reflexivity| |exact S4]. replace (hnext h + 2 + 1) with (hnext h + 1 + 2) by lia.
        cbn [app]. set (a := hnext h). set (b := a + 2). set (c := a + 1). set (d := c + 2).
        transitivity ([a; c] ++ [b; d]); [apply (Permutation_app_comm [b; d] [a; c])|]. constructor. apply perm_swap. }
      set (o' := mkopt (o_idx o) (Some (hnext h)) (Some (hnext h + 1)) (o_nbas o) (o_logm o) (o_pair o)).
      destruct (fill h s _ _ _ _ (BOpt o') HW E S5) as (h5 & E5 & B5 & S6 & K1 & K2).
      eexists h5, (s :: Ll ++ Lp ++ Li ++ [hnext h; hnext h + 2] ++ [hnext h + 1; hnext h + 1 + 2]). split; [exact E5|].
      split.
      { eapply step_perm; [reflexivity| |exact S6]. constructor. rewrite !app_nil_r.
        rewrite (app_assoc Lp), (app_assoc Ll), <- !app_assoc.
        transitivity ((Ll ++ Lp ++ Li) ++ [hnext h; hnext h + 2] ++ [hnext h + 1; hnext h + 1 + 2]).
        - rewrite app_assoc. apply Permutation_app_comm.
        - rewrite <- !app_assoc. reflexivity. }
      exists o', Ll, Lp, Li, [hnext h; hnext h + 2], [hnext h + 1; hnext h + 1 + 2]. cbn [o_logm o_pair o_idx o_non0 o_sidx o'].
      split; [exact B5|]. split; [kp K1|]. split; [kp K1|]. split; [kp K1|].
      split. { exists (hnext h + 2), tn, (BInt pn). split; [reflexivity|]. rewrite !K2 by (cbn; auto).
               rewrite (K0 (hnext h)) by lia. split; [exact M1|]. split; [exact R2|]. split; [exact M4|exact I]. }
      split. { exists (hnext h + 1 + 2), ts, (BInt ps). split; [reflexivity|]. rewrite !K2 by (cbn; auto).
               rewrite (K0 (hnext h + 1)) by lia. split; [exact M2|]. split; [exact R3|].
               replace (hnext h + 1 + 2) with (hnext h + 2 + 1) by lia. split; [exact M5|exact I]. }
      split; [split; discriminate|]. split; [exact P7|]. split; [exact P8|]. split; [discriminate|]. split; [exact P10|]. split; [exact P11|]. reflexivity.
    - exists h, (s :: Ll ++ Lp ++ Li ++ [] ++ []). split; [reflexivity|]. split; [apply step_refl|].
      exists o, Ll, Lp, Li, [], []. rewrite N1, N2. cbn [part].
      split; [exact E|]. split; [exact P1|]. split; [exact P2|]. split; [exact P3|]. split; [reflexivity|]. split; [reflexivity|].
      split; [tauto|]. split; [exact P7|]. split; [exact P8|]. split; [discriminate|]. split; [exact P10|]. split; [exact P11|reflexivity].
  Qed.

  Lemma idx_heap_ok h s B l p n L k ng : good_basis B -> ng_ok ng -> wf h L -> is_opt h s B l p n false L ->
    exists h' L', h_gen_idx O k ng B h s = Some h' /\ step h L h' L' /\ is_opt h' s B l p n true L'.
  Proof.
    intros (Gn & Ga & V & ev & G1 & G2 & G3) Hng HW (o & Ll & Lp & Li & Ln & Ls & E & P1 & P2 & P3 & P4 & P5 & P6 & P7 & P8 & P9 & P10 & P11 & ->).
    unfold h_gen_idx. rewrite (get_opt_eq _ _ _ E). cbn [bind]. assert (Hi := P11 eq_refl). rewrite Hi in P3. cbn in P3. subst Li.
    pose proof (gen_idx_ok O _ _ _ _ V ev Gn G1 G2 G3 Ga k ng Hng) as HR. apply wp_exists in HR. destruct HR as ([t b] & -> & HR). cbn [bind].
    destruct HR as (R2 & _).
    destruct (malloc2 (BInt b) (BPtr (hnext h) t) h) as (S2 & M1 & M2 & _).
    assert (S5 : step h [] (snd (malloc (BPtr (hnext h) t) (snd (malloc (BInt b) h)))) [hnext h + 1; hnext h]).
    { eapply step_perm; [reflexivity| |exact S2]. apply perm_swap. }
    set (o' := mkopt (Some (hnext h + 1)) (o_non0 o) (o_sidx o) (o_nbas o) (o_logm o) (o_pair o)).
    destruct (fill h s _ _ _ _ (BOpt o') HW E S5) as (h5 & E5 & B5 & S6 & K1 & K2).
    eexists h5, (s :: Ll ++ Lp ++ [hnext h + 1; hnext h] ++ Ln ++ Ls). split; [exact E5|].
    split.
    { eapply step_perm; [reflexivity| |exact S6]. constructor. cbn [app]. rewrite (app_assoc Ll Lp (Ln ++ Ls)), (app_assoc Ll Lp (_ :: _)).
      rewrite !(Permutation_middle (Ll ++ Lp)). reflexivity. }
    exists o', Ll, Lp, [hnext h + 1; hnext h], Ln, Ls. cbn [o_logm o_pair o_idx o_non0 o_sidx o'].
    split; [exact B5|]. split; [kp K1|]. split; [kp K1|].
    split. { exists (hnext h), t, (BInt b). split; [reflexivity|]. rewrite !K2 by (cbn; auto).
             split; [exact M2|]. split; [exact R2|]. split; [exact M1|exact I]. }
    split; [kp K1|]. split; [kp K1|].
    split; [exact P6|]. split; [exact P7|]. split; [exact P8|]. split; [exact P9|]. split; [exact P10|]. split; [discriminate|]. reflexivity.
  Qed.

  Lemma NoDup_mid {A} (a b c : list A) x : NoDup (a ++ b ++ c) -> In x b -> ~ In x (a ++ c).
  Proof.
    intros ND Hb Hx. apply in_app_or in Hx. destruct Hx as [Hx|Hx].
    - eapply NoDup_app_disj; [exact ND|exact Hx|apply in_or_app; left; exact Hb].
    - apply NoDup_app_r in ND. eapply NoDup_app_disj; eassumption.
  Qed.

  Lemma del_pair_ok h s B l p n x L : wf h L -> is_opt h s B l p n x L ->
    exists h' L', CINTdel_pairdata_optimizer h (Some s) = Some h' /\ step h L h' L' /\ is_opt h' s B l false n x L'.
  Proof.
    intros HW (o & Ll & Lp & Li & Ln & Ls & E & P1 & P2 & P3 & P4 & P5 & P6 & P7 & P8 & P9 & P10 & P11 & ->).
    unfold CINTdel_pairdata_optimizer. rewrite (get_opt_eq _ _ _ E). cbn [bind]. destruct (o_pair o) as [xp|] eqn:Ep.
    - set (R := Ll ++ Li ++ Ln ++ Ls).
      assert (PL : Permutation (s :: Ll ++ Lp ++ Li ++ Ln ++ Ls) (Lp ++ s :: R)).
      { rewrite <- Permutation_middle. constructor. unfold R. rewrite !app_assoc. do 3 apply Permutation_app_tail. apply Permutation_app_comm. }
      assert (HW' := wf_perm _ _ _ PL HW).
      destruct (free_part h xp Lp Bany (wf_sub _ _ _ HW') P2) as (h1 & E1 & S1). rewrite E1. cbn [bind].
      assert (S1' : step h (Lp ++ s :: R) h1 (s :: R)) by (apply (step_frame h Lp h1 [] (s :: R) S1)).
      assert (W1 := wf_step _ _ _ _ HW' S1').
      assert (K : forall y, In y (s :: R) -> hblk h1 y = hblk h y).
      { intros y Hy. apply (step_keep h Lp h1 [] y (wf_sub _ _ _ HW') S1).
        - intros Hp. destruct HW' as (ND & _). eapply NoDup_app_disj; eassumption.
        - apply HW'. apply in_or_app. right. exact Hy. }
      set (o' := mkopt (o_idx o) (o_non0 o) (o_sidx o) (o_nbas o) (o_logm o) None).
      assert (E1' : hblk h1 s = Some (BOpt o)) by (rewrite K by (left; reflexivity); exact E).
      destruct (store_runs h1 s _ (BOpt o') E1') as (h2 & E2 & B2).
      assert (S2 : step h1 (s :: R) h2 (s :: R)) by (apply (step_frame h1 [s] h2 [s] R); eapply step_store; exact E2).
      assert (K2 : forall y, In y R -> hblk h2 y = hblk h y).
      { intros y Hy. rewrite <- K by (right; exact Hy). apply (step_keep h1 [s] h2 [s] y).
        - apply (wf_sub h1 [s] R W1).
        - eapply step_store; exact E2.
        - intros [<-|[]]. destruct W1 as (ND & _). inversion ND; subst. contradiction.
        - apply W1. right. exact Hy. }
      exists h2, (s :: R). split; [exact E2|]. split.
      { eapply step_perm; [apply Permutation_sym; exact PL|reflexivity|]. eapply step_trans; [exact S1'|exact S2]. }
      exists o', Ll, [], Li, Ln, Ls. cbn [o_logm o_pair o_idx o_non0 o_sidx o']. unfold R in K2.
      split; [exact B2|]. split; [kp K2|]. split; [reflexivity|]. split; [kp K2|]. split; [kp K2|]. split; [kp K2|].
      split; [exact P6|]. split; [exact P7|]. split; [reflexivity|]. split; [exact P9|]. split; [exact P10|]. split; [exact P11|reflexivity].
    - cbn in P2. subst Lp. exists h, (s :: Ll ++ [] ++ Li ++ Ln ++ Ls). split; [reflexivity|]. split; [apply step_refl|].
      exists o, Ll, [], Li, Ln, Ls. rewrite Ep. cbn [part].
      split; [exact E|]. split; [exact P1|]. split; [reflexivity|]. split; [exact P3|]. split; [exact P4|]. split; [exact P5|].
      split; [exact P6|]. split; [exact P7|]. split; [reflexivity|]. split; [exact P9|]. split; [exact P10|]. split; [exact P11|reflexivity].
  Qed.

  (** freeing one part and keeping the rest *)
  Lemma drop h fld A R Q : wf h (A ++ R) -> part h fld A Q ->
    exists h', match fld with None => Some h | Some x => free_table h x end = Some h' /\ step h (A ++ R) h' R /\
      wf h' R /\ forall y, In y R -> hblk h' y = hblk h y.
  Proof.
    intros HW HP. destruct (free_opt_part h fld A Q (wf_sub _ _ _ HW) HP) as (h' & E & S). exists h'. split; [exact E|].
    assert (S' : step h (A ++ R) h' R) by (apply (step_frame h A h' [] R S)). split; [exact S'|]. split; [eapply wf_step; eassumption|].
    intros y Hy. apply (step_keep h A h' [] y (wf_sub _ _ _ HW) S).
    - intros Hp. destruct HW as (ND & _). eapply NoDup_app_disj; eassumption.
    - apply HW. apply in_or_app. right. exact Hy.
  Qed.

  Lemma del_ok h s B l p n x L : wf h L -> is_opt h s B l p n x L ->
    exists h', CINTdel_2e_optimizer h (Some s) = Some (h', None) /\ step h L h' [].
  Proof.
    intros HW (o & Ll & Lp & Li & Ln & Ls & E & P1 & P2 & P3 & P4 & P5 & P6 & P7 & P8 & P9 & P10 & P11 & ->).
    unfold CINTdel_2e_optimizer. rewrite (get_opt_eq _ _ _ E). cbn [bind].
    assert (PL : Permutation (s :: Ll ++ Lp ++ Li ++ Ln ++ Ls) (Li ++ Ls ++ Ln ++ Ll ++ s :: Lp)).
    { transitivity (s :: (Li ++ Ls ++ Ln ++ Ll) ++ Lp).
      - constructor. rewrite (app_assoc Ll Lp), (Permutation_app_comm (Ll ++ Lp) (Li ++ Ln ++ Ls)), <- !app_assoc.
        apply Permutation_app_head. rewrite (app_assoc Ln), (Permutation_app_comm Ln Ls), <- app_assoc. reflexivity.
      - rewrite Permutation_middle, <- !app_assoc. reflexivity. }
    assert (W0 := wf_perm _ _ _ PL HW).
    destruct (drop h (o_idx o) Li _ _ W0 P3) as (h1 & -> & S1 & W1 & K1). cbn [bind].
    assert (P5' : part h1 (o_sidx o) Ls Bany) by kp K1.
    destruct (drop h1 (o_sidx o) Ls _ _ W1 P5') as (h2 & E2 & S2 & W2 & K2).
    assert (K12 : forall y, In y (Ln ++ Ll ++ s :: Lp) -> hblk h2 y = hblk h y).
    { intros y Hy. rewrite K2 by exact Hy. apply K1. apply in_or_app. right. exact Hy. }
    assert (P4' : part h2 (o_non0 o) Ln Bany) by kp K12.
    destruct (drop h2 (o_non0 o) Ln _ _ W2 P4') as (h3 & E3 & S3 & W3 & K3).
    assert (E23 : match o_non0 o with None => Some h1
           | Some xn => match o_sidx o with None => None | Some y => h <- free_table h1 y ;; free_table h xn end end = Some h3).
    { destruct (o_non0 o) as [xn|] eqn:En.
      - destruct (o_sidx o) as [y|] eqn:Es; [|destruct P6 as [_ P6]; discriminate (P6 eq_refl)]. rewrite E2. cbn [bind]. exact E3.
      - rewrite (proj1 P6 eq_refl) in E2. congruence. }
    rewrite E23. cbn [bind].
    assert (K13 : forall y, In y (Ll ++ s :: Lp) -> hblk h3 y = hblk h y).
    { intros y Hy. rewrite K3 by exact Hy. apply K12. apply in_or_app. right. exact Hy. }
    assert (P1' : part h3 (o_logm o) Ll (Blog B)) by kp K13.
    destruct (drop h3 (o_logm o) Ll _ _ W3 P1') as (h4 & -> & S4 & W4 & K4). cbn [bind].
    assert (K14 : forall y, In y (s :: Lp) -> hblk h4 y = hblk h y).
    { intros y Hy. rewrite K4 by exact Hy. apply K13. apply in_or_app. right. exact Hy. }
    unfold CINTdel_pairdata_optimizer. rewrite (get_opt_eq h4 s o) by (rewrite K14 by (left; reflexivity); exact E). cbn [bind].
    assert (P2' : part h4 (o_pair o) Lp Bany).
    { eapply part_keep; [|exact P2]. intros y Hy. apply K14. right. exact Hy. }
    assert (SS : step h (s :: Ll ++ Lp ++ Li ++ Ln ++ Ls) h4 (s :: Lp)).
    { eapply step_perm; [apply Permutation_sym; exact PL|reflexivity|].
      eapply step_trans; [exact S1|]. eapply step_trans; [exact S2|]. eapply step_trans; [exact S3|exact S4]. }
    assert (W4' : wf h4 (Lp ++ [s])) by (eapply wf_perm; [|exact W4]; apply Permutation_cons_append).
    destruct (drop h4 (o_pair o) Lp _ _ W4' P2') as (h5 & E5 & S5 & W5 & K5).
    assert (B5 : hblk h5 s = Some (BOpt o)).
    { rewrite K5, K14 by (left; reflexivity). exact E. }
    assert (SS5 : step h (s :: Ll ++ Lp ++ Li ++ Ln ++ Ls) h5 [s]).
    { eapply step_trans; [exact SS|]. eapply step_perm; [apply Permutation_sym, Permutation_cons_append|reflexivity|exact S5]. }
    destruct (o_pair o) as [xp|] eqn:Ep.
    - rewrite E5. cbn [bind].
      destruct (store_runs h5 s _ (BOpt (mkopt (o_idx o) (o_non0 o) (o_sidx o) (o_nbas o) (o_logm o) None)) B5) as (h6 & E6 & B6).
      rewrite E6. cbn [bind]. destruct (free_runs h6 s _ B6) as (h7 & E7). rewrite E7. cbn [bind].
      exists h7. split; [reflexivity|]. eapply step_trans; [exact SS5|]. eapply step_trans; [eapply step_store; exact E6|apply step_free; exact E7].
    - injection E5 as <-. cbn [bind]. destruct (free_runs h4 s _ B5) as (h7 & E7). rewrite E7. cbn [bind].
      exists h7. split; [reflexivity|]. eapply step_trans; [exact SS5|apply step_free; exact E7].
  Qed.

  Lemma all_ok k ng B h : good_basis B -> ng_ok ng -> wf h [] ->
    exists h' s L', CINTall_optimizer O k ng B h = Some (h', Some s) /\ step h [] h' L' /\ is_opt h' s B true (has_pair k) true true L'.
  Proof.
    intros HG Hng HW. unfold CINTall_optimizer. pose proof (init_ok (b_nbas B) h B HW) as HI.
    destruct (CINTinit_2e_optimizer (b_nbas B) h) as [s h1]. destruct HI as (S1 & O1). assert (W1 := wf_step _ _ _ _ HW S1).
    assert (H2 : exists h2 L2, match k with K1e | K2c2e | Kgrids => h_set_log_maxc O B h1 s | K2e | K3c2e | K3c1e | Kstg => h_setij O ng B h1 s end = Some h2
                 /\ step h1 [s] h2 L2 /\ is_opt h2 s B true (has_pair k) false false L2).
    { assert (HL : forall o, hblk h1 s = Some (BOpt o) -> o_logm o = None).
      { destruct O1 as (o1 & Ll & Lp & Li & Ln & Ls & E & _ & _ & _ & _ & _ & _ & P7 & _). intros o Eo. rewrite E in Eo. injection Eo as <-. apply P7. reflexivity. }
      destruct k; cbn [has_pair]; try (eapply set_log_ok; eassumption); eapply setij_heap_ok; eassumption. }
    destruct H2 as (h2 & L2 & -> & S2 & O2). cbn [bind]. assert (W2 := wf_step _ _ _ _ W1 S2).
    destruct (non0_heap_ok _ _ _ _ _ _ _ HG W2 O2) as (h3 & L3 & -> & S3 & O3). cbn [bind]. assert (W3 := wf_step _ _ _ _ W2 S3).
    destruct (idx_heap_ok _ _ _ _ _ _ _ k ng HG Hng W3 O3) as (h4 & L4 & -> & S4 & O4). cbn [bind].
    exists h4, s, L4. split; [reflexivity|]. split; [|exact O4].
    eapply step_trans; [exact S1|]. eapply step_trans; [exact S2|]. eapply step_trans; [exact S3|exact S4].
  Qed.

  Lemma is_opt_keep h h' s B l p n x L : (forall y, In y L -> hblk h' y = hblk h y) -> is_opt h s B l p n x L -> is_opt h' s B l p n x L.
  Proof.
    intros K (o & Ll & Lp & Li & Ln & Ls & E & P1 & P2 & P3 & P4 & P5 & P6 & P7 & P8 & P9 & P10 & P11 & ->).
    assert (K' : forall y, In y (Ll ++ Lp ++ Li ++ Ln ++ Ls) -> hblk h' y = hblk h y) by (intros y Hy; apply K; right; exact Hy).
    exists o, Ll, Lp, Li, Ln, Ls. split; [rewrite K by (left; reflexivity); exact E|].
    split; [kp K'|]. split; [kp K'|]. split; [kp K'|]. split; [kp K'|]. split; [kp K'|].
    split; [exact P6|]. split; [exact P7|]. split; [exact P8|]. split; [exact P9|]. split; [exact P10|]. split; [exact P11|reflexivity].
  Qed.

  (** ** all variables together *)
  Definition var_ok (h : heap) (a : avar F) (c : var) (L : list Z) : Prop :=
    match a with
    | AUndef => c = Undef /\ L = []
    | ANull => c = Holds None /\ L = []
    | ALive B l p n => good_basis B /\ exists s x, c = Holds (Some s) /\ is_opt h s B l p n x L
    end.

  Definition inv (st : @state F) (f : Z -> avar F) : Prop :=
    let h := s_heap st in
    exists vs own, NoDup vs /\ (forall v, ~ In v vs -> own v = []) /\
      0 <= hnext h /\ Permutation (hfrees h ++ flat_map own vs) (zseq (hnext h)) /\
      (forall x, ~ In x (flat_map own vs) -> hblk h x = None) /\
      forall v, var_ok h (f v) (s_var st v) (own v).

  Lemma var_ok_keep h h' a c L : (forall y, In y L -> hblk h' y = hblk h y) -> var_ok h a c L -> var_ok h' a c L.
  Proof.
    intros K. unfold var_ok. destruct a as [| |B l p n]; [trivial|trivial|].
    intros (G & s & x & E & H). split; [exact G|]. exists s, x. split; [exact E|]. eapply is_opt_keep; eassumption.
  Qed.

  Lemma flat_map_ext_in {A B} (f g : A -> list B) l : (forall x, In x l -> f x = g x) -> flat_map f l = flat_map g l.
  Proof. intros H. induction l as [|a l IH]; [reflexivity|]. cbn. rewrite H by (left; reflexivity). f_equal. apply IH. intros x Hx. apply H. right. exact Hx. Qed.

  (** a step of one variable *)
  Lemma inv_step st f v h' a' c' : inv st f ->
    (forall L, wf (s_heap st) L -> var_ok (s_heap st) (f v) (s_var st v) L ->
       exists L', step (s_heap st) L h' L' /\ var_ok h' a' c' L') ->
    forall f' sv', f' v = a' -> (forall w, w <> v -> f' w = f w) -> sv' v = c' -> (forall w, w <> v -> sv' w = s_var st w) ->
    inv (mkstate h' sv') f'.
  Proof.
    intros (vs & own & I1 & I2 & I3 & I4 & I5 & I6) HS f' sv' Hf Hf' Hs Hs'. set (h := s_heap st) in *.
    assert (HV : exists vs', NoDup (v :: vs') /\ (forall w, ~ In w (v :: vs') -> own w = []) /\ Permutation (flat_map own vs) (own v ++ flat_map own vs')).
    { destruct (in_dec Z.eq_dec v vs) as [Hi|Hi].
      - apply in_split in Hi. destruct Hi as (l1 & l2 & ->). exists (l1 ++ l2). split; [|split].
        + eapply Permutation_NoDup; [|exact I1]. symmetry. apply Permutation_middle.
        + intros w Hw. apply I2. intros H. apply Hw. apply in_app_or in H. cbn in *. rewrite in_app_iff. tauto.
        + rewrite !flat_map_app. cbn [flat_map]. rewrite app_assoc, (Permutation_app_comm (flat_map own l1) (own v)), <- app_assoc. reflexivity.
      - exists vs. split; [constructor; assumption|]. split; [intros w Hw; apply I2; intros H; apply Hw; right; exact H|].
        rewrite (I2 v Hi). reflexivity. }
    destruct HV as (vs' & V1 & V2 & V3).
    assert (HWall : wf h (own v ++ flat_map own vs')).
    { assert (P : Permutation (hfrees h ++ own v ++ flat_map own vs') (zseq (hnext h))) by (rewrite <- V3; exact I4).
      assert (ND : NoDup (hfrees h ++ own v ++ flat_map own vs')).
      { eapply Permutation_NoDup; [exact (Permutation_sym P)|]. rewrite <- zrange_zseq. apply zrange_NoDup. }
      assert (RG : forall x, In x (own v ++ flat_map own vs') -> 0 <= x < hnext h).
      { intros x Hx. apply zrange_In. rewrite zrange_zseq. eapply Permutation_in; [exact P|]. apply in_or_app. right. exact Hx. }
      split; [eapply NoDup_app_r; exact ND|]. split; [intros x Hx; apply RG, Hx|].
      intros x Hx. apply I5. intros Hin. assert (0 <= x < hnext h); [|lia]. apply RG. eapply Permutation_in; [exact V3|exact Hin]. }
    destruct (HS (own v) (wf_sub _ _ _ HWall) (I6 v)) as (L' & S & HO).
    assert (S' := step_frame _ _ _ _ (flat_map own vs') S).
    destruct (S' HWall) as (A1 & A2 & A3 & fr & A4 & A5 & A6). assert (W' := wf_step _ _ _ _ HWall S').
    set (own' := fun w => if w =? v then L' else own w).
    assert (EV : flat_map own' (v :: vs') = L' ++ flat_map own vs').
    { cbn [flat_map]. unfold own' at 1. rewrite Z.eqb_refl. f_equal. apply flat_map_ext_in. intros w Hw. unfold own'.
      replace (w =? v) with false; [reflexivity|]. symmetry. apply Z.eqb_neq. intros ->. inversion V1; subst. contradiction. }
    assert (KP : forall w, w <> v -> forall y, In y (own w) -> hblk h' y = hblk h y).
    { intros w Hw y Hy. assert (Hin : In y (flat_map own vs')).
      { destruct (in_dec Z.eq_dec w (v :: vs')) as [Hi|Hi]; [|rewrite (V2 w Hi) in Hy; destruct Hy].
        destruct Hi as [->|Hi]; [congruence|]. apply in_flat_map. exists w. split; assumption. }
      apply (step_keep h (own v) h' L' y (wf_sub _ _ _ HWall) S).
      - intros Hv. destruct HWall as (ND & _). eapply NoDup_app_disj; eassumption.
      - apply HWall. apply in_or_app. right. exact Hin. }
    exists (v :: vs'), own'. cbn [s_heap s_var]. split; [exact V1|]. split; [|split; [|split; [|split]]].
    - intros w Hw. unfold own'. replace (w =? v) with false; [apply V2, Hw|]. symmetry. apply Z.eqb_neq. intros ->. apply Hw. left. reflexivity.
    - lia.
    - rewrite EV, A4. rewrite <- app_assoc. rewrite (Permutation_app_comm (hfrees h) (L' ++ flat_map own vs')), app_assoc, A5.
      rewrite <- !zrange_zseq, <- (zrange_app 0 (hnext h) (hnext h')) by lia. rewrite (zrange_zseq (hnext h)), <- I4, V3.
      rewrite <- app_assoc, (Permutation_app_comm (zrange (hnext h) (hnext h')) (hfrees h)), app_assoc. apply Permutation_app_tail. apply Permutation_app_comm.
    - rewrite EV. intros x Hx. destruct (Z_lt_le_dec x (hnext h')) as [Hlt|Hge]; [|apply A3, Hge].
      destruct (in_dec Z.eq_dec x ((own v ++ flat_map own vs') ++ zrange (hnext h) (hnext h'))) as [Hi|Hi].
      + apply (Permutation_in _ (Permutation_sym A5)) in Hi. apply in_app_or in Hi. destruct Hi as [Hi|Hi]; [apply A6, Hi|contradiction].
      + rewrite in_app_iff in Hi. rewrite A2; [|tauto|].
        * apply I5. intros H. apply Hi. left. eapply Permutation_in; [exact V3|exact H].
        * destruct (Z_lt_le_dec x (hnext h)) as [|Hge]; [assumption|]. exfalso. apply Hi. right. apply zrange_In. lia.
    - intros w. destruct (Z.eq_dec w v) as [->|N].
      + unfold own'. rewrite Z.eqb_refl, Hf, Hs. exact HO.
      + unfold own'. replace (w =? v) with false by (symmetry; apply Z.eqb_neq; exact N). rewrite Hf', Hs' by exact N.
        eapply var_ok_keep; [|apply I6]. apply KP, N.
  Qed.

  Lemma not_live h a c L : ~ is_live a -> var_ok h a c L -> L = [].
  Proof. destruct a as [| |B l p n]; cbn; [tauto|tauto|]. intros H. destruct (H I). Qed.

  Lemma exec_ok c v st f f' : inv st f -> allowed c (f v) (f' v) v -> (forall w, w <> v -> f' w = f w) ->
    exists st', exec O c st = Some st' /\ inv st' f'.
  Proof.
    intros HI HA Hf. remember (f v) as a eqn:Ea. remember (f' v) as a' eqn:Ea'.
    assert (HI0 := HI). destruct HI as (vs & own & I1 & I2 & I3 & I4 & I5 & I6).
    assert (W : wf (s_heap st) (own v)).
    { assert (ND : NoDup (hfrees (s_heap st) ++ flat_map own vs)).
      { eapply Permutation_NoDup; [exact (Permutation_sym I4)|]. rewrite <- zrange_zseq. apply zrange_NoDup. }
      assert (SUB : forall x, In x (own v) -> In x (flat_map own vs)).
      { intros x Hx. destruct (in_dec Z.eq_dec v vs) as [Hi|Hi]; [|rewrite (I2 v Hi) in Hx; destruct Hx]. apply in_flat_map. exists v. tauto. }
      assert (RG : forall x, In x (flat_map own vs) -> 0 <= x < hnext (s_heap st)).
      { intros x Hx. apply zrange_In. rewrite zrange_zseq. eapply Permutation_in; [exact I4|]. apply in_or_app. right. exact Hx. }
      split; [|split].
      - destruct (in_dec Z.eq_dec v vs) as [Hi|Hi]; [|rewrite (I2 v Hi); constructor]. apply in_split in Hi. destruct Hi as (l1 & l2 & ->).
        apply NoDup_app_r in ND. rewrite flat_map_app in ND. apply NoDup_app_r in ND. cbn [flat_map] in ND. eapply NoDup_app_l; exact ND.
      - intros x Hx. apply RG, SUB, Hx.
      - intros x Hx. apply I5. intros H. specialize (RG x H). lia. }
    assert (OK := I6 v). rewrite <- Ea in OK.
    destruct HA as [v B a G NL|v a NL|v k ng B a G Hng NL|v B p n|v B l p|v ng B l n|v B l p n|v|v B l p n|v]; cbn [exec].
    - (* init *)
      pose proof (not_live _ _ _ _ NL OK) as E0. rewrite E0 in W.
      pose proof (init_ok (b_nbas B) (s_heap st) B W) as HN.
      destruct (CINTinit_2e_optimizer (b_nbas B) (s_heap st)) as [x h'] eqn:EI. eexists. split; [reflexivity|].
      eapply (inv_step st f v h' _ (Holds (Some x)) HI0); [|exact (eq_sym Ea')|exact Hf|unfold set_var; rewrite Z.eqb_refl; reflexivity|].
      + intros L WL OL. rewrite <- Ea in OL. pose proof (not_live _ _ _ _ NL OL) as ->. exists [x]. split; [apply HN|].
        split; [exact G|]. exists x, false. split; [reflexivity|]. apply HN.
      + intros w Hw. unfold set_var. replace (w =? v) with false by (symmetry; apply Z.eqb_neq; exact Hw). reflexivity.
    - (* none *)
      eexists. split; [reflexivity|].
      eapply (inv_step st f v (s_heap st) _ (Holds None) HI0); [|exact (eq_sym Ea')|exact Hf|unfold set_var; rewrite Z.eqb_refl; reflexivity|].
      + intros L WL OL. rewrite <- Ea in OL. pose proof (not_live _ _ _ _ NL OL) as ->. exists []. split; [apply step_refl|]. split; reflexivity.
      + intros w Hw. unfold set_var. replace (w =? v) with false by (symmetry; apply Z.eqb_neq; exact Hw). reflexivity.
    - (* all *)
      pose proof (not_live _ _ _ _ NL OK) as E0. rewrite E0 in W.
      destruct (all_ok k ng B _ G Hng W) as (h' & s & L' & EA & SA & OA). rewrite EA. cbn [bind]. eexists. split; [reflexivity|].
      eapply (inv_step st f v h' _ (Holds (Some s)) HI0); [|exact (eq_sym Ea')|exact Hf|unfold set_var; rewrite Z.eqb_refl; reflexivity|].
      + intros L WL OL. rewrite <- Ea in OL. pose proof (not_live _ _ _ _ NL OL) as ->. exists L'. split; [exact SA|].
        split; [exact G|]. exists s, true. split; [reflexivity|exact OA].
      + intros w Hw. unfold set_var. replace (w =? v) with false by (symmetry; apply Z.eqb_neq; exact Hw). reflexivity.
    - (* log *)
      destruct OK as (G & s & x & Es & OO). unfold read_var. rewrite Es. cbn [bind].
      assert (HL : forall h L, is_opt h s B false p n x L -> forall o, hblk h s = Some (BOpt o) -> o_logm o = None).
      { intros h L (o1 & ? & ? & ? & ? & ? & E & _ & _ & _ & _ & _ & _ & P7 & _) o Eo. rewrite E in Eo. injection Eo as <-. apply P7. reflexivity. }
      destruct (set_log_ok _ _ _ _ _ _ _ _ G W OO (HL _ _ OO)) as (h' & L' & EA & SA & OA). rewrite EA. cbn [bind]. eexists. split; [reflexivity|].
      eapply (inv_step st f v h' _ (s_var st v) HI0); [|exact (eq_sym Ea')|exact Hf|reflexivity|reflexivity].
      intros L WL OL. rewrite <- Ea in OL. destruct OL as (_ & s1 & x1 & Es1 & O1). rewrite Es in Es1. injection Es1 as <-.
      assert (HL1 : forall o, hblk (s_heap st) s = Some (BOpt o) -> o_logm o = None) by (eapply HL; exact OO).
      destruct (set_log_ok _ _ _ _ _ _ _ _ G WL O1 HL1) as (h1 & L1 & EA1 & SA1 & OA1). rewrite EA in EA1. injection EA1 as <-.
      exists L1. split; [exact SA1|]. split; [exact G|]. exists s, x1. split; [exact Es|exact OA1].
    - (* non0 *)
      destruct OK as (G & s & x & Es & OO). unfold read_var. rewrite Es. cbn [bind].
      destruct (non0_heap_ok _ _ _ _ _ _ _ G W OO) as (h' & L' & EA & SA & OA). rewrite EA. cbn [bind]. eexists. split; [reflexivity|].
      eapply (inv_step st f v h' _ (s_var st v) HI0); [|exact (eq_sym Ea')|exact Hf|reflexivity|reflexivity].
      intros L WL OL. rewrite <- Ea in OL. destruct OL as (_ & s1 & x1 & Es1 & O1). rewrite Es in Es1. injection Es1 as <-.
      destruct (non0_heap_ok _ _ _ _ _ _ _ G WL O1) as (h1 & L1 & EA1 & SA1 & OA1). rewrite EA in EA1. injection EA1 as <-.
      exists L1. split; [exact SA1|]. split; [exact G|]. exists s, x1. split; [exact Es|exact OA1].
    - (* ij *)
      destruct OK as (G & s & x & Es & OO). unfold read_var. rewrite Es. cbn [bind].
      destruct (setij_heap_ok _ _ _ _ _ _ _ ng G W OO) as (h' & L' & EA & SA & OA). rewrite EA. cbn [bind]. eexists. split; [reflexivity|].
      eapply (inv_step st f v h' _ (s_var st v) HI0); [|exact (eq_sym Ea')|exact Hf|reflexivity|reflexivity].
      intros L WL OL. rewrite <- Ea in OL. destruct OL as (_ & s1 & x1 & Es1 & O1). rewrite Es in Es1. injection Es1 as <-.
      destruct (setij_heap_ok _ _ _ _ _ _ _ ng G WL O1) as (h1 & L1 & EA1 & SA1 & OA1). rewrite EA in EA1. injection EA1 as <-.
      exists L1. split; [exact SA1|]. split; [exact G|]. exists s, x1. split; [exact Es|exact OA1].
    - (* del pair *)
      destruct OK as (G & s & x & Es & OO). unfold read_var. rewrite Es. cbn [bind].
      destruct (del_pair_ok _ _ _ _ _ _ _ _ W OO) as (h' & L' & EA & SA & OA). rewrite EA. cbn [bind]. eexists. split; [reflexivity|].
      eapply (inv_step st f v h' _ (s_var st v) HI0); [|exact (eq_sym Ea')|exact Hf|reflexivity|reflexivity].
      intros L WL OL. rewrite <- Ea in OL. destruct OL as (_ & s1 & x1 & Es1 & O1). rewrite Es in Es1. injection Es1 as <-.
      destruct (del_pair_ok _ _ _ _ _ _ _ _ WL O1) as (h1 & L1 & EA1 & SA1 & OA1). rewrite EA in EA1. injection EA1 as <-.
      exists L1. split; [exact SA1|]. split; [exact G|]. exists s, x1. split; [exact Es|exact OA1].
    - (* del pair of NULL *)
      destruct OK as (Es & E0). unfold read_var. rewrite Es. cbn [bind CINTdel_pairdata_optimizer]. eexists. split; [reflexivity|].
      eapply (inv_step st f v (s_heap st) _ (s_var st v) HI0); [|exact (eq_sym Ea')|exact Hf|reflexivity|reflexivity].
      intros L WL OL. rewrite <- Ea in OL. exists L. split; [apply step_refl|exact OL].
    - (* del *)
      destruct OK as (G & s & x & Es & OO). unfold read_var. rewrite Es. cbn [bind].
      destruct (del_ok _ _ _ _ _ _ _ _ W OO) as (h' & EA & SA). rewrite EA. cbn [bind]. eexists. split; [reflexivity|].
      eapply (inv_step st f v h' _ (Holds None) HI0); [|exact (eq_sym Ea')|exact Hf|unfold set_var; rewrite Z.eqb_refl; reflexivity|].
      + intros L WL OL. rewrite <- Ea in OL. destruct OL as (_ & s1 & x1 & Es1 & O1). rewrite Es in Es1. injection Es1 as <-.
        destruct (del_ok _ _ _ _ _ _ _ _ WL O1) as (h1 & EA1 & SA1). rewrite EA in EA1. injection EA1 as <-.
        exists []. split; [exact SA1|]. split; reflexivity.
      + intros w Hw. unfold set_var. replace (w =? v) with false by (symmetry; apply Z.eqb_neq; exact Hw). reflexivity.
    - (* del of NULL *)
      destruct OK as (Es & E0). unfold read_var. rewrite Es. cbn [bind CINTdel_2e_optimizer]. eexists. split; [reflexivity|].
      eapply (inv_step st f v (s_heap st) _ (Holds None) HI0); [|exact (eq_sym Ea')|exact Hf|unfold set_var; rewrite Z.eqb_refl; reflexivity|].
      + intros L WL OL. rewrite <- Ea in OL. destruct OL as (_ & ->). exists []. split; [apply step_refl|]. split; reflexivity.
      + intros w Hw. unfold set_var. replace (w =? v) with false by (symmetry; apply Z.eqb_neq; exact Hw). reflexivity.
  Qed.

  Lemma execs_ok l f f' : calls_ok l f f' -> forall st, inv st f -> exists st', execs O l st = Some st' /\ inv st' f'.
  Proof.
    intros H. induction H as [f|c l v f f1 f2 HA Hf HC IH]; intros st HI; cbn [execs].
    - exists st. split; [reflexivity|exact HI].
    - destruct (exec_ok c v st f f1 HI HA Hf) as (st1 & E1 & I1). rewrite E1. cbn [bind]. apply IH, I1.
  Qed.

  Lemma start_inv : inv start (fun _ => AUndef).
  Proof.
    exists [], (fun _ => []). split; [constructor|]. split; [reflexivity|]. split; [cbn; lia|]. split; [cbn; reflexivity|].
    split; [reflexivity|]. intros v. split; reflexivity.
  Qed.

  Lemma lifecycle l f : calls_ok l (fun _ => AUndef) f ->
    exists st, execs O l start = Some st /\
      (forall v, f v = ANull -> s_var st v = Holds None) /\
      NoDup (hfrees (s_heap st)) /\
      (forall x, In x (hfrees (s_heap st)) -> 0 <= x < hnext (s_heap st) /\ hblk (s_heap st) x = None) /\
      ((forall v, ~ is_live (f v)) -> Permutation (hfrees (s_heap st)) (zseq (hnext (s_heap st))) /\ forall x, hblk (s_heap st) x = None).
  Proof.
    intros H. destruct (execs_ok _ _ _ H start start_inv) as (st & E & vs & own & I1 & I2 & I3 & I4 & I5 & I6).
    assert (ND : NoDup (hfrees (s_heap st) ++ flat_map own vs)).
    { eapply Permutation_NoDup; [exact (Permutation_sym I4)|]. rewrite <- zrange_zseq. apply zrange_NoDup. }
    exists st. split; [exact E|]. split; [|split; [|split]].
    - intros v Hv. specialize (I6 v). rewrite Hv in I6. apply I6.
    - eapply NoDup_app_l; exact ND.
    - intros x Hx. split.
      + apply zrange_In. rewrite zrange_zseq. eapply Permutation_in; [exact I4|]. apply in_or_app. left. exact Hx.
      + apply I5. intros Hin. eapply NoDup_app_disj; eassumption.
    - intros HN. assert (E0 : flat_map own vs = []).
      { assert (forall l, flat_map own l = []); [|auto]. intros l0. induction l0 as [|v l0 IH]; [reflexivity|]. cbn.
        rewrite IH, (not_live _ _ _ _ (HN v) (I6 v)). reflexivity. }
      rewrite E0 in I4, I5. rewrite app_nil_r in I4. split; [exact I4|]. intros x. apply I5. intros [].
  Qed.
End Heap.
