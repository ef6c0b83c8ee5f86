(** Loop3Proof.v — the remaining primitive loops contract correctly. *)
From Verif Require Import Base BasSpec BasProof FblasModel FblasSpec FblasProof CtrModel CtrSpec CtrProof
  LoopSpec LoopProof Loop2eModel Loop2eProof Loop3Model Loop3Spec.
From Coq Require Import ZifyBool ZifyNat Ring Ring_theory.

(** ** Composite batch writers *)
Section Gout.
  Context {F : Type} (zero one : F) (add mul sub : F -> F -> F) (opp : F -> F).
  Hypothesis Rth : ring_theory zero one add mul sub opp (@eq F).
  Add Ring G1 : Rth.
  Notation sum := (lsum zero add).

  Lemma Wrote_mono (m m' : mem F) dst len w w' :
    Wrote m m' dst len w -> (forall n, 0 <= n < len -> w n = w' n) -> Wrote m m' dst len w'.
  Proof.
    intros (A & B & C & D & E) H. repeat split; auto. intros n Hn. rewrite D, H by exact Hn. reflexivity.
  Qed.
  Lemma Wrote_trans (m m1 m2 : mem F) dst len w1 w2 :
    Wrote m m1 dst len w1 -> Wrote m1 m2 dst len w2 -> Wrote m m2 dst len w2.
  Proof.
    intros (A & B & C & D & E) (A' & B' & C' & D' & E'). repeat split; intros.
    - rewrite A'. apply A.
    - rewrite B' by assumption. apply B. assumption.
    - lia.
    - apply D'. assumption.
    - rewrite E' by assumption. apply E. assumption.
  Qed.
  Lemma Wrote_id (m : mem F) dst len b :
    (forall n, 0 <= n < len -> acell (buf m dst) n = Some (b n)) -> Wrote m m dst len b.
  Proof. intros H. repeat split; auto. Qed.

  (** Several sources written one after the other; only the first one may overwrite. *)
  Lemma gout_multi N len (g : Z -> mem F -> nat -> bool -> F -> option (mem F)) v :
    1 <= N -> (forall i, 0 <= i < N -> gout_ok add mul (g i) len (v i)) ->
    gout_ok add mul (fun m dst e f => for_ 0 N (fun i m => g i m dst (e && (i =? 0)) f) m) len
      (fun n => sum N (fun i => v i n)).
  Proof.
    intros HN Hg m dst f Hl. split.
    - apply wp_for with (I := fun k m' => (k = 0 -> m' = m) /\
        (0 < k -> Wrote m m' dst len (fun n => mul f (sum k (fun i => v i n))))).
      + lia.
      + split; [reflexivity|lia].
      + intros k m1 Hk [H1 H2]. destruct (k =? 0) eqn:E; cbn [andb].
        * assert (k = 0) by lia. subst k. rewrite (H1 eq_refl).
          destruct (Hg 0 ltac:(lia) m dst f Hl) as [W _]. eapply wp_mono; [exact W|].
          intros m2 K. split; [lia|]. intros _. eapply Wrote_mono; [exact K|].
          intros n _. cbv beta. rewrite lsum_succ, lsum_0 by lia. ring.
        * assert (0 < k) by lia. specialize (H2 H). pose proof H2 as (A & B & C & D & E').
          destruct (Hg k ltac:(lia) m1 dst f ltac:(lia)) as [_ W].
          eapply wp_mono; [apply (W (fun n => mul f (sum k (fun i => v i n)))); exact D|].
          intros m2 K. split; [lia|]. intros _. eapply Wrote_mono; [eapply Wrote_trans; [exact H2|exact K]|].
          intros n _. cbv beta. rewrite lsum_succ by lia. ring.
      + intros m1 [_ H2]. apply H2. lia.
    - intros b Hb.
      apply wp_for with (I := fun k m' => Wrote m m' dst len (fun n => add (b n) (mul f (sum k (fun i => v i n))))).
      + lia.
      + eapply Wrote_mono; [apply Wrote_id; exact Hb|]. intros n _. cbv beta. rewrite lsum_0 by lia. ring.
      + intros k m1 Hk K. pose proof K as (A & B & C & D & E'). cbn [andb].
        destruct (Hg k ltac:(lia) m1 dst f ltac:(lia)) as [_ W].
        eapply wp_mono; [apply (W _ D)|].
        intros m2 K2. eapply Wrote_mono; [eapply Wrote_trans; [exact K|exact K2]|].
        intros n _. cbv beta. rewrite lsum_succ by lia. ring.
      + auto.
  Qed.

  Lemma gout_ext_op (g g' : mem F -> nat -> bool -> F -> option (mem F)) len v v' :
    gout_ok add mul g len v -> (forall m dst e f, g m dst e f = g' m dst e f) ->
    (forall n, 0 <= n < len -> v n = v' n) -> gout_ok add mul g' len v'.
  Proof.
    intros H Hg Hv m dst f Hl. destruct (H m dst f Hl) as [A B]. split; [rewrite <- Hg|intros b Hb; rewrite <- Hg].
    - eapply wp_mono; [exact A|]. intros m' K. eapply Wrote_mono; [exact K|]. intros n Hn. cbv beta. rewrite Hv by exact Hn. reflexivity.
    - eapply wp_mono; [apply (B b Hb)|]. intros m' K. eapply Wrote_mono; [exact K|].
      intros n Hn. cbv beta. rewrite Hv by exact Hn. reflexivity.
  Qed.

  Lemma gout_ovlp_ok q len ip jp kp :
    gout_ok add mul (fun m dst e f => gout_ovlp add mul q len ip jp kp m dst e f) len
      (fun n => mul (u_d q ip jp kp) (u_base q ip jp kp 0 n)).
  Proof.
    apply (gout_ext zero one add mul (fun _ => false) ltac:(discriminate) len
      (fun f n => mul (mul f (u_d q ip jp kp)) (u_base q ip jp kp 0 n))). intros. ring.
  Qed.

  Lemma for_pair_flag N (body : Z -> mem F -> bool -> option (mem F)) : forall k m e, 0 <= k ->
    for_ k N (fun i (st : mem F * bool) => let '(m, r) := st in m <- body i m r ;; Some (m, false)) (m, e) =
    (m <- for_ k N (fun i m => body i m (e && (i =? k))) m ;; Some (m, if k <? N then false else e)).
  Proof.
    intros k m e Hk. unfold for_.
    assert (G : forall n k m e, forN n k (fun i (st : mem F * bool) => let '(m, r) := st in m <- body i m r ;; Some (m, false)) (m, e) =
       (m <- forN n k (fun i m => body i m (e && (i =? k))) m ;; Some (m, if (0 <? n)%nat then false else e))).
    { induction n as [|n IH]; intros k0 m0 e0; cbn [forN].
      - reflexivity.
      - rewrite Z.eqb_refl, andb_true_r. destruct (body k0 m0 e0) as [m1|]; cbn [bind]; [|reflexivity].
        rewrite IH. 
        replace (forN n (k0 + 1) (fun i m => body i m (false && (i =? k0 + 1))) m1)
          with (forN n (k0 + 1) (fun i m => body i m (e0 && (i =? k0))) m1).
        + destruct (forN n (k0 + 1) _ m1); cbn [bind]; [|reflexivity]. destruct n; reflexivity.
        + assert (Gn : forall k1 mm, k0 < k1 -> forN n k1 (fun i m => body i m (e0 && (i =? k0))) mm =
               forN n k1 (fun i m => body i m (false && (i =? k0 + 1))) mm).
          { clear. induction n as [|n IH]; intros k1 mm Hk; cbn [forN]; [reflexivity|].
            replace (k1 =? k0) with false by lia. rewrite andb_false_r. cbn [andb].
            destruct (body k1 mm false); cbn [bind]; [|reflexivity]. apply IH. lia. }
          apply Gn. lia. }
    rewrite G. replace (0 <? Z.to_nat (N - k))%nat with (k <? N) by lia. reflexivity.
  Qed.

  Lemma gout_nuc_ok q len ip jp kp : 1 <= u_roots q ->
    gout_ok add mul (fun m dst e f => gout_nuc add mul q len ip jp kp m dst e f) len
      (fun n => mul (u_d q ip jp kp) (sum (u_roots q) (fun i => mul (u_w q ip jp kp i) (u_base q ip jp kp i n)))).
  Proof.
    intros HN.
    eapply gout_ext_op.
    - apply (gout_multi (u_roots q) len
        (fun i m dst e f => f_gout add m dst e len (fun n => mul (mul (mul f (u_d q ip jp kp)) (u_w q ip jp kp i)) (u_base q ip jp kp i n)))
        (fun i n => mul (u_d q ip jp kp) (mul (u_w q ip jp kp i) (u_base q ip jp kp i n))) HN).
      intros i Hi. apply (gout_ext zero one add mul (fun _ => false) ltac:(discriminate) len
        (fun f n => mul (mul (mul f (u_d q ip jp kp)) (u_w q ip jp kp i)) (u_base q ip jp kp i n))). intros. ring.
    - intros m dst e f. unfold gout_nuc.
      rewrite (for_pair_flag (u_roots q) (fun i m rys_empty => f_gout add m dst rys_empty len
        (fun n => mul (mul (mul f (u_d q ip jp kp)) (u_w q ip jp kp i)) (u_base q ip jp kp i n))) 0 m e) by lia.
      destruct (for_ 0 (u_roots q) _ m); reflexivity.
    - intros n Hn. cbv beta. apply (sum_scale zero one add mul sub opp Rth).
  Qed.

  Lemma make_g1e_gout_ok int1e_type q len ip jp : 0 <= int1e_type <= 2 ->
    (int1e_type = 2 -> 1 <= w_natm q) ->
    gout_ok add mul (fun m dst e f => make_g1e_gout add mul q int1e_type len ip jp m dst e f) len
      (fun n => match int1e_type with
       | 0 => w_ovlp q ip jp n
       | 1 => w_nuc q ip jp (-1) n
       | _ => sum (w_natm q) (fun ia => w_nuc q ip jp ia n)
       end).
  Proof.
    intros Ht Hn. assert (int1e_type = 0 \/ int1e_type = 1 \/ int1e_type = 2) as [->|[->| ->]] by lia;
      cbn [make_g1e_gout].
    - apply (f_gout_ok zero one add mul (fun _ => false) ltac:(discriminate)).
    - apply (f_gout_ok zero one add mul (fun _ => false) ltac:(discriminate)).
    - apply (gout_multi (w_natm q) len (fun ia m dst e f => f_gout add m dst e len (fun n => mul f (w_nuc q ip jp ia n)))
        (fun ia n => w_nuc q ip jp ia n)); [auto|].
      intros ia _. apply (f_gout_ok zero one add mul (fun _ => false) ltac:(discriminate)).
  Qed.
End Gout.

(** ** Finishing a loop that only stores *)
Section FinishLocal.
  Context {F : Type} (zero one : F) (add mul sub : F -> F -> F) (opp : F -> F).
  Hypothesis Rth : ring_theory zero one add mul sub opp (@eq F).
  Add Ring G2 : Rth.

  Lemma finish_local ig sz lvl own n_comp rows go (op : mem F -> option (mem F)) any b m :
    (own < 5)%nat -> 1 <= n_comp -> 0 <= rows -> go = alias n_comp 5 own -> (lvl <= 5)%nat ->
    Acc zero add ig sz lvl go go (rows * n_comp) op any b ->
    MInv ig sz m -> flg m go = true -> rows * n_comp <= asize (buf m 5%nat) ->
    (n_comp <> 1 -> rows * n_comp <= asize (buf m own)) ->
    wp (m <- op m ;;
        m <- (if (1 <? n_comp) && negb (flg m go) then DMAT go rows n_comp m else Some m) ;;
        Some (m, negb (flg m go)))
       (fun r => produced m (fst r) (snd r) rows n_comp (any = true) (fun r c => b (r * n_comp + c))).
  Proof.
    intros Hown Hn Hr Hgo Hlvl Hop HM Hf H5 Ho. unfold alias in Hgo.
    assert (HS : Slot zero m go go (rows * n_comp) false (fun _ => zero)).
    { unfold Slot. rewrite Hf. split; [|split; [reflexivity|split; [discriminate|reflexivity]]].
      destruct (n_comp =? 1) eqn:E; subst go; [exact H5|apply Ho; lia]. }
    apply wp_bind. eapply wp_mono; [exact (Hop m _ _ HM HS)|].
    intros m' (A & B & C). cbn [orb] in A. destruct A as (A1 & A2 & A3 & A4).
    destruct C as (C1 & C2 & C3 & C4). apply wp_bind.
    rewrite A2, negb_involutive.
    destruct (n_comp =? 1) eqn:En.
    - assert (n_comp = 1) by lia. subst n_comp go. change (1 <? 1) with false. cbn [andb wp fst snd].
      rewrite A2, negb_involutive. unfold produced. rewrite Z.mul_1_r in *.
      split; [tauto|]. split; [apply C1|]. split; [exact C4|].
      intros E r c Hr' Hc'. apply rd_spec. split; [rewrite C1; nia|].
      assert (c = 0) by lia. subst c. replace (0 * rows + r) with r by lia.
      rewrite A3 by (auto; lia). f_equal. replace (r * 1 + 0) with r by lia. ring.
    - subst go. replace (1 <? n_comp) with true by lia. cbn [andb].
      assert (E5b : buf m' 5%nat = buf m 5%nat) by (apply C2; lia).
      destruct any.
      + assert (Hsrc : holds (buf m' own) n_comp n_comp rows (fun j i => add zero (b (i * n_comp + j)))).
        { intros i j Hi Hj. apply rd_spec. split; [nia|]. rewrite A3 by (auto; nia).
          f_equal. f_equal. f_equal. lia. }
        unfold DMAT. rewrite E5b. apply wp_bind.
        destruct (transpose_ok rows n_comp (buf m' own) (buf m 5%nat) (fun i j => add zero (b (i * n_comp + j))) Hr ltac:(lia) Hsrc H5)
            as [a [Ea (Sa & Sb & Sc)]].
        rewrite Ea. cbn [wp fst snd]. unfold produced. cbn [set_buf flg buf Nat.eqb]. rewrite A2. cbn [negb].
        repeat split; auto.
        * intros x Hx. apply Sc. intros i j Hi Hj ->. nia.
        * intros _ r c Hr' Hc'. replace (c * rows + r) with (r + rows * c) by lia.
             rewrite Sb by lia. f_equal. ring.
      + cbn [wp fst snd]. unfold produced. rewrite E5b, A2. cbn [negb].
        repeat split; auto; discriminate.
  Qed.

  Lemma produced_ext (m m' : mem F) ret rows nc (P P' : Prop) V V' : (P <-> P') ->
    (forall r c, 0 <= r < rows -> 0 <= c < nc -> V r c = V' r c) ->
    produced m m' ret rows nc P V -> produced m m' ret rows nc P' V'.
  Proof.
    intros HP HV (A1 & A2 & A3 & A4). unfold produced. rewrite <- HP. repeat split; try tauto; auto.
    intros E r c Hr Hc. rewrite (A4 E r c Hr Hc), (HV r c Hr Hc). reflexivity.
  Qed.
End FinishLocal.

(** ** Three nested levels *)
Section Three.
  Context {F : Type} (zero one : F) (add mul sub : F -> F -> F) (opp : F -> F).
  Hypothesis Rth : ring_theory zero one add mul sub opp (@eq F).
  Variable isz : F -> bool.
  Hypothesis isz_zero : forall c, isz c = true -> c = zero.
  Add Ring T1 : Rth.
  Notation sum := (lsum zero add).
  Notation Acc := (Acc zero add).

  Variables (n_comp nf : Z) (si sj sk : shl F) (cfi cfj cfk : Z -> Z -> F).
  Hypothesis Hi : shell_ok isz si cfi.
  Hypothesis Hj : shell_ok isz sj cfj.
  Hypothesis Hk : shell_ok isz sk cfk.
  Hypothesis Hnf : 0 <= nf.
  Hypothesis Hnc : 1 <= n_comp.
  Variable common : F.
  Notation ci := (s_ctr si).
  Notation cj := (s_ctr sj).
  Notation ck := (s_ctr sk).
  Let len0 := nf * n_comp.
  Variables (skip keep : Z -> Z -> Z -> bool) (ev : Z -> Z -> Z -> F) (v : Z -> Z -> Z -> Z -> F).

  Definition kp3 ip jp kp := negb (skip ip jp kp) && keep ip jp kp.
  Definition J3i jp kp (ic x : Z) :=
    sum (s_np si) (fun ip => if kp3 ip jp kp then mul (cfi ic ip) (mul (ev ip jp kp) (v ip jp kp x)) else zero).
  Definition J3j kp (ic jc x : Z) := sum (s_np sj) (fun jp => mul (cfj jc jp) (J3i jp kp ic x)).
  Definition J3k (ic jc kc x : Z) := sum (s_np sk) (fun kp => mul (cfk kc kp) (J3j kp ic jc x)).
  Definition any3i jp kp := anyN (s_np si) (fun ip => kp3 ip jp kp).
  Definition any3j kp := anyN (s_np sj) (fun jp => any3i jp kp).
  Definition any3 := anyN (s_np sk) any3j.

  Lemma J3_contract ic jc kc x :
    J3k ic jc kc x = contract3 zero add mul (s_np si) (s_np sj) (s_np sk) kp3 cfi cfj cfk
      (fun ip jp kp x => mul (ev ip jp kp) (v ip jp kp x)) ic jc kc x.
  Proof.
    unfold J3k, J3j, J3i, contract3.
    apply lsum_ext. intros kp _. rewrite (sum_in zero one add mul sub opp Rth).
    apply lsum_ext. intros jp _. rewrite !(sum_in zero one add mul sub opp Rth).
    apply lsum_ext. intros ip _. destruct (kp3 ip jp kp); ring.
  Qed.
  Lemma any3_some : any3 = true <-> some3 (s_np si) (s_np sj) (s_np sk) kp3.
  Proof.
    unfold any3, some3. rewrite anyN_true. split.
    - intros [kp [Hkp H]]. apply anyN_true in H. destruct H as [jp [Hjp H]]. apply anyN_true in H.
      destruct H as [ip [Hip H]]. exists ip, jp, kp. auto.
    - intros (ip & jp & kp & Hip & Hjp & Hkp & H). exists kp. split; [exact Hkp|].
      apply anyN_true. exists jp. split; [exact Hjp|]. apply anyN_true. exists ip. auto.
  Qed.
  Definition bfull3 (x : Z) : F :=
    mul common (J3k ((x / len0) mod ci) ((x / (len0 * ci)) mod cj) (x / (len0 * ci * cj)) (x mod len0)).
  Lemma bfull3_batch r c : 0 <= r < nf * (ci * cj * ck) -> 0 <= c < n_comp ->
    bfull3 (r * n_comp + c) = batch3 zero add mul (s_np si) (s_np sj) (s_np sk) kp3 cfi cfj cfk
      (fun ip jp kp x => mul (ev ip jp kp) (v ip jp kp x)) common nf n_comp ci cj r c.
  Proof.
    intros Hr Hc. unfold bfull3, batch3. rewrite J3_contract.
    pose proof (shell_ctr1 isz si cfi Hi) as C1. pose proof (shell_ctr1 isz sj cfj Hj) as C2.
    pose proof (shell_ctr1 isz sk cfk Hk) as C3.
    assert (0 < nf) by nia. assert (0 < ci * cj) by nia.
    unfold len0. f_equal. f_equal.
    - replace (nf * n_comp) with (nf * n_comp * 1) by lia. rewrite row_div by lia. f_equal. f_equal. lia.
    - rewrite row_div by nia. reflexivity.
    - replace (nf * n_comp * ci * cj) with (nf * n_comp * (ci * cj)) by lia. rewrite row_div by nia. f_equal. lia.
    - apply row_mod; lia.
  Qed.

  (** *** Specialised versions (f_gout only) *)
  Variable sz : nat -> Z.
  Let L0 : 0 <= len0. Proof. unfold len0. nia. Qed.
  Definition i3 (ob ofl : nat) jp kp (fac1j : F) : mem F -> option (mem F) :=
    for_ 0 (s_np si) (fun ip m =>
      if skip ip jp kp then Some m else
      c <- rd (s_c si) ip ;;
      if keep ip jp kp then
        m <- f_gout add m ob (flg m ofl) len0 (fun n => mul (mul (mul fac1j c) (ev ip jp kp)) (v ip jp kp n)) ;;
        Some (set_flg m ofl false)
      else Some m).
  Lemma i3_acc ig lvl ob ofl jp kp fac : (ofl = 0%nat -> ig = false) ->
    Acc ig sz lvl ob ofl len0 (i3 ob ofl jp kp fac) (any3i jp kp) (fun n => mul fac (J3i jp kp 0 n)).
  Proof.
    intros H. apply (plain_inner zero one add mul sub opp Rth isz isz_zero ig sz lvl ob ofl len0 si cfi
      (fun ip => skip ip jp kp) (fun ip => keep ip jp kp) (fun ip n => v ip jp kp n) fac
      (fun ip => ev ip jp kp) (fun ip c => mul (mul fac c) (ev ip jp kp))); auto.
  Qed.
  Definition pl3_j (inner : Z -> F -> mem F -> option (mem F)) (fac1k : F) : mem F -> option (mem F) :=
    for_ 0 (s_np sj) (fun jp m => c <- rd (s_c sj) jp ;; inner jp (mul fac1k c) m).
  Definition pl3_k (inner : Z -> F -> mem F -> option (mem F)) : mem F -> option (mem F) :=
    for_ 0 (s_np sk) (fun kp m => c <- rd (s_c sk) kp ;; inner kp (mul common c) m).
  Lemma pl3_j_acc ig lvl ob ofl len inner any J fac :
    (forall p f, Acc ig sz lvl ob ofl len (inner p f) (any p) (fun n => mul f (J p n))) ->
    Acc ig sz lvl ob ofl len (pl3_j inner fac) (anyN (s_np sj) any)
      (fun n => mul fac (sum (s_np sj) (fun p => mul (cfj 0 p) (J p n)))).
  Proof.
    intros H. apply (plain_for zero one add mul sub opp Rth isz isz_zero ig sz lvl ob ofl len sj cfj (fun _ => false) inner any J fac); auto.
  Qed.
  Lemma pl3_k_acc ig lvl ob ofl len inner any J :
    (forall p f, Acc ig sz lvl ob ofl len (inner p f) (any p) (fun n => mul f (J p n))) ->
    Acc ig sz lvl ob ofl len (pl3_k inner) (anyN (s_np sk) any)
      (fun n => mul common (sum (s_np sk) (fun p => mul (cfk 0 p) (J p n)))).
  Proof.
    intros H. apply (plain_for zero one add mul sub opp Rth isz isz_zero ig sz lvl ob ofl len sk cfk (fun _ => false) inner any J common); auto.
  Qed.
  Definition op111 (go : nat) := pl3_k (fun kp => pl3_j (fun jp => i3 go go jp kp)).
  Lemma op111_acc go : ci = 1 -> cj = 1 -> ck = 1 ->
    Acc false sz 0 go go (len0 * ci * cj * ck) (op111 go) any3 bfull3.
  Proof.
    intros E1 E2 E3. replace (len0 * ci * cj * ck) with len0 by (rewrite E1, E2, E3; lia).
    eapply Acc_ext; [|intros m; reflexivity|].
    - apply pl3_k_acc. intros kp f'. apply pl3_j_acc. intros jp f''. apply i3_acc. auto.
    - intros n Hn. cbv beta. unfold bfull3. rewrite E1, E2, !Z.mul_1_r, !Z.mod_1_r.
      rewrite Z.div_small, Z.mod_small by lia. reflexivity.
  Qed.
  Definition n3i (go : nat) jp kp (fac1j : F) : mem F -> option (mem F) :=
    for_ 0 (s_np si) (fun ip m =>
      if skip ip jp kp then Some m else
      if keep ip jp kp then
        m <- f_gout add m 0%nat true len0 (fun n => mul (mul fac1j (ev ip jp kp)) (v ip jp kp n)) ;;
        PRIM2CTR add mul si ip go go 0%nat len0 m
      else Some m).
  Lemma n3i_acc go jp kp fac : 1 < ci -> (0 < go)%nat -> len0 <= sz 0%nat ->
    Acc true sz 1 go go (len0 * ci) (n3i go jp kp fac) (any3i jp kp)
      (fun n => mul fac (J3i jp kp (n / len0) (n mod len0))).
  Proof.
    intros Hc Hgo Hsz.
    apply (Acc_for_scaled zero one add mul sub opp Rth isz isz_zero); [apply Hi|].
    intros ip Hip. unfold kp3.
    destruct (skip ip jp kp) eqn:Es; cbn [negb andb].
    - eapply Acc_ext; [apply (Acc_skip zero one add mul sub opp Rth)|reflexivity|]. intros n _. cbv beta. ring.
    - destruct (keep ip jp kp) eqn:Ek.
      + pose proof (inner_step zero one add mul sub opp Rth isz isz_zero sz si cfi ip go 0%nat len0
          (fun n => v ip jp kp n) fac (ev ip jp kp)
          (fun c => mul (mul fac c) (ev ip jp kp)) (mul fac (ev ip jp kp)) Hi Hip L0) as K.
        replace (negb (ci =? 1)) with true in K by lia.
        eapply Acc_inv; [apply K|].
        * intros _. exact Hsz.
        * unfold alias. replace (ci =? 1) with false by lia. reflexivity.
        * exact Hgo.
        * reflexivity.
        * reflexivity.
        * intros m [M1 _]. replace (ci =? 1) with false by lia. cbn [bind]. rewrite M1 by reflexivity. reflexivity.
      + eapply Acc_ext; [apply (Acc_skip zero one add mul sub opp Rth)|reflexivity|]. intros n _. cbv beta. ring.
  Qed.
  Definition opn11 (go : nat) := pl3_k (fun kp => pl3_j (fun jp => n3i go jp kp)).
  Lemma opn11_acc go : 1 < ci -> cj = 1 -> ck = 1 -> (0 < go)%nat -> len0 <= sz 0%nat ->
    Acc true sz 1 go go (len0 * ci * cj * ck) (opn11 go) any3 bfull3.
  Proof.
    intros E1 E2 E3 Hgo Hsz.
    replace (len0 * ci * cj * ck) with (len0 * ci) by (rewrite E2, E3; lia).
    eapply Acc_ext; [|intros m; reflexivity|].
    - apply pl3_k_acc. intros kp f'. apply pl3_j_acc. intros jp f''. apply n3i_acc; auto.
    - intros n Hn. cbv beta. unfold bfull3. rewrite E2, !Z.mul_1_r, !Z.mod_1_r.
      rewrite (Z.div_small n (len0 * ci)) by lia. rewrite (Z.mod_small (n / len0)); [reflexivity|].
      assert (0 < len0) by nia. split; [apply Z.div_pos; lia|apply Z.div_lt_upper_bound; lia].
  Qed.
  Definition c3j (go : nat) kp (fac1k : F) : mem F -> option (mem F) :=
    for_ 0 (s_np sj) (fun jp m =>
      m <- i3 0 1 jp kp fac1k (set_flg m 1%nat true) ;;
      if negb (flg m 1%nat) then PRIM2CTR add mul sj jp go go 0%nat len0 m else Some m).
  Definition op1n1 (go : nat) := pl3_k (fun kp => c3j go kp).
  Lemma op1n1_acc go : ci = 1 -> 1 < cj -> ck = 1 -> (2 <= go)%nat -> len0 <= sz 0%nat ->
    Acc false sz 2 go go (len0 * ci * cj * ck) (op1n1 go) any3 bfull3.
  Proof.
    intros E1 E2 E3 Hgo Hsz.
    replace (len0 * ci * cj * ck) with (len0 * cj) by (rewrite E1, E3; lia).
    eapply Acc_ext; [|intros m; reflexivity|].
    - apply pl3_k_acc. intros kp f'.
      apply (ctr_for zero one add mul sub opp Rth isz isz_zero false sz 2 0 sj cfj go 0 1 len0 (fun _ => false)
               (fun jp => i3 0 1 jp kp f') (fun jp => any3i jp kp) (fun jp n => J3i jp kp 0 n) f'); auto; try lia.
      intros jp _ _. apply i3_acc. auto.
    - intros n Hn. cbv beta. unfold bfull3. rewrite E1, !Z.mul_1_r, !Z.mod_1_r.
      rewrite (Z.div_small n (len0 * cj)) by lia. rewrite (Z.mod_small (n / len0)); [reflexivity|].
      assert (0 < len0) by nia. split; [apply Z.div_pos; lia|apply Z.div_lt_upper_bound; lia].
  Qed.

  (** the general loop *)
  Variable gop : Z -> Z -> Z -> mem F -> nat -> bool -> F -> option (mem F).
  Hypothesis Hgop : forall ip jp kp, gout_ok add mul (gop ip jp kp) len0 (v ip jp kp).
  Variable f1 : Z -> Z -> Z -> F -> F -> F.
  Variable f2 : Z -> Z -> Z -> F -> F.
  Hypothesis Hf1 : forall ip jp kp fac c, f1 ip jp kp fac c = mul (mul fac c) (ev ip jp kp).
  Hypothesis Hf2 : forall ip jp kp fac, f2 ip jp kp fac = mul fac (ev ip jp kp).
  Let gk := alias n_comp 5 3.
  Let gj := alias ck gk 2.
  Let gi := alias cj gj 1.
  Let gg := alias ci gi 0.
  Definition b3i jp kp (fac1j : F) : mem F -> option (mem F) :=
    for_ 0 (s_np si) (fun ip m =>
      if skip ip jp kp then Some m else
      fac1i <- (if ci =? 1 then c <- rd (s_c si) ip ;; Some (f1 ip jp kp fac1j c)
                else Some (f2 ip jp kp fac1j)) ;;
      if keep ip jp kp then
        m <- gop ip jp kp m gg (flg m gg) fac1i ;;
        PRIM2CTR add mul si ip gi gi gg len0 m
      else Some m).
  Definition b3j kp (fac1k : F) : mem F -> option (mem F) :=
    for_ 0 (s_np sj) (fun jp m =>
      r <- enter mul sj jp fac1k gi m ;;
      let '(fac1j, m) := r in
      m <- b3i jp kp fac1j m ;;
      if negb (flg m gi) then PRIM2CTR add mul sj jp gj gj gi (len0 * ci) m else Some m).
  Definition loop3 : mem F -> option (mem F) :=
    for_ 0 (s_np sk) (fun kp m =>
      r <- enter mul sk kp common gj m ;;
      let '(fac1k, m) := r in
      m <- b3j kp fac1k m ;;
      if negb (flg m gj) then PRIM2CTR add mul sk kp gk gk gj (len0 * ci * cj) m else Some m).

  Hypothesis Hz0 : ci <> 1 -> len0 <= sz 0%nat.
  Hypothesis Hz1 : cj <> 1 -> len0 * ci <= sz 1%nat.
  Hypothesis Hz2 : ck <> 1 -> len0 * ci * cj <= sz 2%nat.
  Let C1 := shell_ctr1 isz si cfi Hi.
  Let C2 := shell_ctr1 isz sj cfj Hj.
  Let C3 := shell_ctr1 isz sk cfk Hk.
  Let Gk : (3 <= gk)%nat. Proof. unfold gk, alias. destruct (n_comp =? 1); lia. Qed.
  Let Gj : (2 <= gj)%nat. Proof. unfold gj, alias. destruct (ck =? 1); lia. Qed.
  Let Gi : (1 <= gi)%nat. Proof. unfold gi, alias. destruct (cj =? 1); lia. Qed.
  Let Li : 0 <= len0 * ci. Proof. nia. Qed.
  Let Lj : 0 <= len0 * ci * cj. Proof. nia. Qed.

  Lemma b3i_acc jp kp fac :
    Acc (negb (ci =? 1)) sz 1 gi gi (len0 * ci) (b3i jp kp fac) (any3i jp kp)
      (fun n => mul fac (J3i jp kp (n / len0) (n mod len0))).
  Proof.
    apply (inner_for_g zero one add mul sub opp Rth isz isz_zero (fun ip => gop ip jp kp) sz si cfi gi gg len0
             (fun ip => skip ip jp kp) (fun ip => keep ip jp kp) (fun ip n => v ip jp kp n) fac
             (fun ip => ev ip jp kp) (fun ip c => f1 ip jp kp fac c) (fun ip => f2 ip jp kp fac)); auto.
  Qed.
  Lemma b3j_acc kp fac :
    Acc (negb (ci =? 1)) sz 2 gj gj (len0 * ci * cj) (b3j kp fac) (any3j kp)
      (fun n => mul fac (J3j kp ((n mod (len0 * ci)) / len0) (n / (len0 * ci)) ((n mod (len0 * ci)) mod len0))).
  Proof.
    apply (level_for zero one add mul sub opp Rth isz isz_zero (negb (ci =? 1)) sz 1 sj cfj gj gi (len0 * ci)
             (fun _ => false) (fun jp f => b3i jp kp f) (fun jp => any3i jp kp)
             (fun jp n => J3i jp kp (n / len0) (n mod len0)) fac); auto.
    - lia.
    - intros jp f _ _. apply b3i_acc.
  Qed.
  Lemma loop3_acc :
    Acc (negb (ci =? 1)) sz 3 gk gk (len0 * ci * cj * ck) loop3 any3 bfull3.
  Proof.
    eapply Acc_ext; [|intros m; reflexivity|].
    - apply (level_for zero one add mul sub opp Rth isz isz_zero (negb (ci =? 1)) sz 2 sk cfk gk gj (len0 * ci * cj)
             (fun _ => false) (fun kp f => b3j kp f) (fun kp => any3j kp)
             (fun kp n => J3j kp ((n mod (len0 * ci)) / len0) (n / (len0 * ci)) ((n mod (len0 * ci)) mod len0)) common); auto.
      + lia.
      + intros kp f _ _. apply b3j_acc.
    - intros n Hn. cbv beta. unfold bfull3. f_equal. unfold J3k. apply lsum_ext. intros kp _. f_equal.
      assert (0 < len0) by nia. assert (0 < len0 * ci) by nia.
      rewrite (mod_mul_mod n (len0 * ci) cj), (mod_mul_mod n len0 ci) by lia.
      rewrite (mod_mul_div n (len0 * ci) cj), (mod_mul_div n len0 ci) by lia.
      reflexivity.
  Qed.

End Three.

(** ** Two nested levels *)
Section Two.
  Context {F : Type} (zero one : F) (add mul sub : F -> F -> F) (opp : F -> F).
  Hypothesis Rth : ring_theory zero one add mul sub opp (@eq F).
  Variable isz : F -> bool.
  Hypothesis isz_zero : forall c, isz c = true -> c = zero.
  Add Ring T2 : Rth.
  Notation sum := (lsum zero add).
  Notation Acc := (Acc zero add).

  Variables (n_comp nf : Z) (si sj : shl F) (cfi cfj : Z -> Z -> F).
  Hypothesis Hi : shell_ok isz si cfi.
  Hypothesis Hj : shell_ok isz sj cfj.
  Hypothesis Hnf : 0 <= nf.
  Hypothesis Hnc : 1 <= n_comp.
  Variable common : F.
  Notation ci := (s_ctr si).
  Notation cj := (s_ctr sj).
  Let len0 := nf * n_comp.
  Variables (skip keep : Z -> Z -> bool) (ev : Z -> Z -> F) (v : Z -> Z -> Z -> F).

  Definition kp2 ip jp := negb (skip ip jp) && keep ip jp.
  Definition J2i jp (ic x : Z) :=
    sum (s_np si) (fun ip => if kp2 ip jp then mul (cfi ic ip) (mul (ev ip jp) (v ip jp x)) else zero).
  Definition J2j (ic jc x : Z) := sum (s_np sj) (fun jp => mul (cfj jc jp) (J2i jp ic x)).
  Definition any2i jp := anyN (s_np si) (fun ip => kp2 ip jp).
  Definition any2 := anyN (s_np sj) any2i.

  Lemma J2_contract ic jc x :
    J2j ic jc x = contract2 zero add mul (s_np si) (s_np sj) kp2 cfi cfj
      (fun ip jp x => mul (ev ip jp) (v ip jp x)) ic jc x.
  Proof.
    unfold J2j, J2i, contract2.
    apply lsum_ext. intros jp _. rewrite !(sum_in zero one add mul sub opp Rth).
    apply lsum_ext. intros ip _. destruct (kp2 ip jp); ring.
  Qed.
  Lemma any2_some : any2 = true <-> some2 (s_np si) (s_np sj) kp2.
  Proof.
    unfold any2, some2. rewrite anyN_true. split.
    - intros [jp [Hjp H]]. apply anyN_true in H. destruct H as [ip [Hip H]]. exists ip, jp. auto.
    - intros (ip & jp & Hip & Hjp & H). exists jp. split; [exact Hjp|].
      apply anyN_true. exists ip. auto.
  Qed.
  Definition bfull2 (x : Z) : F := mul common (J2j ((x / len0) mod ci) (x / (len0 * ci)) (x mod len0)).
  Lemma bfull2_batch r c : 0 <= r < nf * (ci * cj) -> 0 <= c < n_comp ->
    bfull2 (r * n_comp + c) = batch2 zero add mul (s_np si) (s_np sj) kp2 cfi cfj
      (fun ip jp x => mul (ev ip jp) (v ip jp x)) common nf n_comp ci r c.
  Proof.
    intros Hr Hc. unfold bfull2, batch2. rewrite J2_contract.
    pose proof (shell_ctr1 isz si cfi Hi) as C1. pose proof (shell_ctr1 isz sj cfj Hj) as C2.
    assert (0 < nf) by nia.
    unfold len0. f_equal. f_equal.
    - replace (nf * n_comp) with (nf * n_comp * 1) by lia. rewrite row_div by lia. f_equal. f_equal. lia.
    - rewrite row_div by nia. reflexivity.
    - apply row_mod; lia.
  Qed.

  Variable gop : Z -> Z -> mem F -> nat -> bool -> F -> option (mem F).
  Hypothesis Hgop : forall ip jp, gout_ok add mul (gop ip jp) len0 (v ip jp).
  Variable f1 : Z -> Z -> F -> F -> F.
  Variable f2 : Z -> Z -> F -> F.
  Hypothesis Hf1 : forall ip jp fac c, f1 ip jp fac c = mul (mul fac c) (ev ip jp).
  Hypothesis Hf2 : forall ip jp fac, f2 ip jp fac = mul fac (ev ip jp).
  Let gj := alias n_comp 5 2.
  Let gi := alias cj gj 1.
  Let gg := alias ci gi 0.
  Definition b2i jp (fac1j : F) : mem F -> option (mem F) :=
    for_ 0 (s_np si) (fun ip m =>
      if skip ip jp then Some m else
      fac1i <- (if ci =? 1 then c <- rd (s_c si) ip ;; Some (f1 ip jp fac1j c)
                else Some (f2 ip jp fac1j)) ;;
      if keep ip jp then
        m <- gop ip jp m gg (flg m gg) fac1i ;;
        PRIM2CTR add mul si ip gi gi gg len0 m
      else Some m).
  Definition loop2 : mem F -> option (mem F) :=
    for_ 0 (s_np sj) (fun jp m =>
      r <- enter mul sj jp common gi m ;;
      let '(fac1j, m) := r in
      m <- b2i jp fac1j m ;;
      if negb (flg m gi) then PRIM2CTR add mul sj jp gj gj gi (len0 * ci) m else Some m).

  Variable sz : nat -> Z.
  Hypothesis Hz0 : ci <> 1 -> len0 <= sz 0%nat.
  Hypothesis Hz1 : cj <> 1 -> len0 * ci <= sz 1%nat.
  Let C1 := shell_ctr1 isz si cfi Hi.
  Let C2 := shell_ctr1 isz sj cfj Hj.
  Let Gj : (2 <= gj)%nat. Proof. unfold gj, alias. destruct (n_comp =? 1); lia. Qed.
  Let Gi : (1 <= gi)%nat. Proof. unfold gi, alias. destruct (cj =? 1); lia. Qed.
  Let L0 : 0 <= len0. Proof. unfold len0. nia. Qed.
  Let Li : 0 <= len0 * ci. Proof. nia. Qed.

  Lemma b2i_acc jp fac :
    Acc (negb (ci =? 1)) sz 1 gi gi (len0 * ci) (b2i jp fac) (any2i jp)
      (fun n => mul fac (J2i jp (n / len0) (n mod len0))).
  Proof.
    apply (inner_for_g zero one add mul sub opp Rth isz isz_zero (fun ip => gop ip jp) sz si cfi gi gg len0
             (fun ip => skip ip jp) (fun ip => keep ip jp) (fun ip n => v ip jp n) fac
             (fun ip => ev ip jp) (fun ip c => f1 ip jp fac c) (fun ip => f2 ip jp fac)); auto.
  Qed.
  Lemma loop2_acc :
    Acc (negb (ci =? 1)) sz 2 gj gj (len0 * ci * cj) loop2 any2 bfull2.
  Proof.
    eapply Acc_ext; [|intros m; reflexivity|].
    - apply (level_for zero one add mul sub opp Rth isz isz_zero (negb (ci =? 1)) sz 1 sj cfj gj gi (len0 * ci)
             (fun _ => false) (fun jp f => b2i jp f) (fun jp => any2i jp)
             (fun jp n => J2i jp (n / len0) (n mod len0)) common); auto.
      + lia.
      + intros jp f _ _. apply b2i_acc.
    - intros n Hn. cbv beta. unfold bfull2. f_equal. unfold J2j. apply lsum_ext. intros jp _. f_equal.
      assert (0 < len0) by nia.
      rewrite (mod_mul_mod n len0 ci), (mod_mul_div n len0 ci) by lia.
      reflexivity.
  Qed.
End Two.
