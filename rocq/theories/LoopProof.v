(** LoopProof.v — generic lemmas about one level of a primitive loop: the
    "empty" flag and the buffer of a level always describe the same partial sum. *)
From Verif Require Import Base BasSpec BasProof FblasModel FblasSpec FblasProof CtrModel CtrSpec CtrProof LoopSpec.
From Coq Require Import ZifyBool ZifyNat Ring Ring_theory FinFun.

Section Level.
  Context {F : Type} (zero one : F) (add mul sub : F -> F -> F) (opp : F -> F).
  Hypothesis Rth : ring_theory zero one add mul sub opp (@eq F).
  Variable isz : F -> bool.
  Hypothesis isz_zero : forall c, isz c = true -> c = zero.
  Add Ring Fring : Rth.

  Notation sum := (lsum zero add).

  Lemma sum_scale n f c : sum n (fun p => mul c (f p)) = mul c (sum n f).
  Proof.
    unfold lsum. induction (Z.to_nat n) as [|k IH]; cbn [lsumN]; [ring|]. rewrite IH. ring.
  Qed.

  Lemma sum_zero n f : (forall p, 0 <= p < n -> f p = zero) -> sum n f = zero.
  Proof.
    intros H. unfold lsum.
    assert (H' : forall i, 0 <= i < Z.of_nat (Z.to_nat n) -> f i = zero) by (intros; apply H; lia).
    clear H. induction (Z.to_nat n) as [|k IH]; cbn [lsumN]; [reflexivity|].
    rewrite IH by (intros; apply H'; lia). rewrite H' by lia. ring.
  Qed.

  (** A shell whose coefficient matrix is [cf] and whose sparse lists are right. *)
  Definition shell_ok (s : shl F) (cf : Z -> Z -> F) : Prop :=
    0 <= s_np s /\ 1 <= s_ctr s /\
    (forall ic p, 0 <= ic < s_ctr s -> 0 <= p < s_np s -> rd (s_c s) (s_np s * ic + p) = Some (cf ic p)) /\
    (forall p, 0 <= p < s_np s ->
       rd (s_non0 s) p = Some (Z.of_nat (length (filter (fun j => negb (isz (cf j p))) (zseq (s_ctr s))))) /\
       forall i, (i < length (zseq (s_ctr s)))%nat ->
         rd (s_sidx s) (p * s_ctr s + Z.of_nat i) = nth_error (sorted_row isz cf (s_ctr s) p) i).

  Lemma mk_shell_ok np nctr c cf s :
    0 <= np -> 1 <= nctr ->
    (forall ic p, 0 <= ic < nctr -> 0 <= p < np -> rd c (np * ic + p) = Some (cf ic p)) ->
    mk_shell isz np nctr c = Some s ->
    shell_ok s cf /\ s_np s = np /\ s_ctr s = nctr.
  Proof.
    intros Hnp Hc Hcf. unfold mk_shell.
    pose proof (non0coeff_ok isz c np nctr cf (uninit (np * nctr)) (uninit np) Hnp ltac:(lia)
                  ltac:(cbn; lia) ltac:(cbn; lia) Hcf) as H.
    destruct (CINTOpt_non0coeff_byshell _ _ _ _ _ _) as [r|]; [|contradiction].
    cbn [bind]. intros E. injection E as <-. cbn [wp] in H. destruct H as (_ & _ & H & _).
    unfold shell_ok. cbn [s_np s_ctr s_c s_non0 s_sidx]. repeat split; try assumption; try reflexivity; apply H; assumption.
  Qed.

  (** ** Slots *)
  Definition Slot (m : mem F) (ob ofl : nat) (len : Z) (any : bool) (b : Z -> F) : Prop :=
    len <= asize (buf m ob) /\ flg m ofl = negb any /\
    (any = true -> forall n, 0 <= n < len -> acell (buf m ob) n = Some (b n)) /\
    (any = false -> forall n, 0 <= n < len -> b n = zero).

  Lemma Slot_ext m ob ofl len any b b' :
    Slot m ob ofl len any b -> (forall n, 0 <= n < len -> b n = b' n) -> Slot m ob ofl len any b'.
  Proof.
    intros (H1 & H2 & H3 & H4) E. repeat split; try assumption.
    - intros A n Hn. rewrite <- E by exact Hn. auto.
    - intros A n Hn. rewrite <- E by exact Hn. auto.
  Qed.

  (** What an operation writing to slot [ob]/[ofl] leaves alone: every buffer and
      flag numbered [lvl] or higher, except the slot itself. *)
  Definition Fr (lvl ob ofl : nat) (len : Z) (m m' : mem F) : Prop :=
    (forall t, asize (buf m' t) = asize (buf m t)) /\
    (forall t, (lvl <= t)%nat -> t <> ob -> buf m' t = buf m t) /\
    (forall t, (lvl <= t)%nat -> t <> ofl -> flg m' t = flg m t) /\
    (forall n, ~ (0 <= n < len) -> acell (buf m' ob) n = acell (buf m ob) n).

  Lemma Fr_refl lvl ob ofl len m : Fr lvl ob ofl len m m.
  Proof. repeat split; reflexivity. Qed.

  Lemma Fr_trans lvl ob ofl len m1 m2 m3 :
    Fr lvl ob ofl len m1 m2 -> Fr lvl ob ofl len m2 m3 -> Fr lvl ob ofl len m1 m3.
  Proof.
    intros (A & B & C & D) (A' & B' & C' & D'). repeat split; intros.
    - rewrite A'. apply A.
    - rewrite B' by assumption. apply B; assumption.
    - rewrite C' by assumption. apply C; assumption.
    - rewrite D' by assumption. apply D; assumption.
  Qed.

  Lemma Fr_mono lvl lvl' ob ofl len m m' :
    Fr lvl ob ofl len m m' -> (lvl <= lvl')%nat -> Fr lvl' ob ofl len m m'.
  Proof. intros (A & B & C & D) H. repeat split; intros; auto; [apply B|apply C]; auto; lia. Qed.

  (** Loop invariant on the whole memory: the flag of gout stays 1 when gout has
      its own buffer ([ig]); buffer sizes. *)
  Definition MInv (ig : bool) (sz : nat -> Z) (m : mem F) : Prop :=
    (ig = true -> flg m 0%nat = true) /\ forall t, sz t <= asize (buf m t).

  (** [op] adds [b] to the slot; [any] says whether it contributed anything. *)
  Definition Acc (ig : bool) (sz : nat -> Z) (lvl ob ofl : nat) (len : Z)
      (op : mem F -> option (mem F)) (any : bool) (b : Z -> F) : Prop :=
    forall m any0 b0, MInv ig sz m -> Slot m ob ofl len any0 b0 ->
      wp (op m) (fun m' => Slot m' ob ofl len (any0 || any) (fun n => add (b0 n) (b n)) /\
                           MInv ig sz m' /\ Fr lvl ob ofl len m m').

  Lemma Acc_ext ig sz lvl ob ofl len op op' any b b' :
    Acc ig sz lvl ob ofl len op any b -> (forall m, op m = op' m) ->
    (forall n, 0 <= n < len -> b n = b' n) -> Acc ig sz lvl ob ofl len op' any b'.
  Proof.
    intros H Ho Hb m any0 b0 HM HS. rewrite <- Ho. eapply wp_mono; [exact (H m any0 b0 HM HS)|].
    intros m' (A & B & C). repeat split; try apply B; try apply C.
    - apply A.
    - apply A.
    - intros E n Hn. destruct A as (_ & _ & A & _). rewrite A by assumption. rewrite Hb by exact Hn. reflexivity.
    - intros E n Hn. destruct A as (_ & _ & _ & A). rewrite <- Hb by exact Hn. apply A; assumption.
  Qed.

  Lemma Acc_mono ig sz lvl lvl' ob ofl len op any b :
    Acc ig sz lvl ob ofl len op any b -> (lvl <= lvl')%nat -> Acc ig sz lvl' ob ofl len op any b.
  Proof.
    intros H Hl m any0 b0 HM HS. eapply wp_mono; [exact (H m any0 b0 HM HS)|].
    intros m' (A & B & C). split; [exact A|]. split; [exact B|]. eapply Fr_mono; eassumption.
  Qed.

  (** nothing happens *)
  Lemma Acc_skip ig sz lvl ob ofl len :
    Acc ig sz lvl ob ofl len (fun m => Some m) false (fun _ => zero).
  Proof.
    intros m any0 b0 HM HS. cbn [wp]. rewrite orb_false_r. split; [|split; [exact HM|apply Fr_refl]].
    eapply Slot_ext; [exact HS|]. intros n _. ring.
  Qed.

  (** a loop of accumulations accumulates the sum *)
  Definition anyN (n : Z) (f : Z -> bool) : bool := existsb f (zseq n).

  Lemma anyN_succ n f : 0 <= n -> anyN (n + 1) f = anyN n f || f n.
  Proof.
    intros H. unfold anyN. rewrite zseq_succ by exact H. rewrite existsb_app. cbn [existsb].
    rewrite orb_false_r. reflexivity.
  Qed.

  Lemma Acc_for ig sz lvl ob ofl len np (op : Z -> mem F -> option (mem F)) any b :
    0 <= np ->
    (forall p, 0 <= p < np -> Acc ig sz lvl ob ofl len (op p) (any p) (b p)) ->
    Acc ig sz lvl ob ofl len (for_ 0 np op) (anyN np any) (fun n => sum np (fun p => b p n)).
  Proof.
    intros Hnp H m any0 b0 HM HS.
    apply wp_for with (I := fun p m' =>
      Slot m' ob ofl len (any0 || anyN p any) (fun n => add (b0 n) (sum p (fun p => b p n))) /\
      MInv ig sz m' /\ Fr lvl ob ofl len m m').
    - exact Hnp.
    - split; [|split; [exact HM|apply Fr_refl]]. change (anyN 0 any) with false. rewrite orb_false_r.
      eapply Slot_ext; [exact HS|]. intros n _. rewrite lsum_0 by lia. ring.
    - intros p m1 Hp (A & B & C). eapply wp_mono; [exact (H p Hp m1 _ _ B A)|].
      intros m2 (A2 & B2 & C2). split; [|split; [exact B2|eapply Fr_trans; eassumption]].
      rewrite anyN_succ by lia. rewrite orb_assoc. eapply Slot_ext; [exact A2|].
      intros n _. cbv beta. rewrite lsum_succ by lia. ring.
    - intros m1 H1. exact H1.
  Qed.

  (** ** f_gout *)
  Lemma f_gout_write (m : mem F) dst len v :
    0 <= len <= asize (buf m dst) ->
    wp (f_gout add m dst true len v) (fun m' => exists a, m' = set_buf m dst a /\
      asize a = asize (buf m dst) /\
      (forall n, 0 <= n < len -> acell a n = Some (v n)) /\
      (forall n, ~ (0 <= n < len) -> acell a n = acell (buf m dst) n)).
  Proof.
    intros Hl. unfold f_gout. apply wp_bind.
    apply wp_for with (I := fun k a => asize a = asize (buf m dst) /\
      (forall n, 0 <= n < k -> acell a n = Some (v n)) /\
      (forall n, ~ (0 <= n < len) -> acell a n = acell (buf m dst) n)).
    - lia.
    - repeat split; try reflexivity. intros; lia.
    - intros k a Hk (A & B & C). apply wp_wr; [lia|]. intros a' A' C'. split; [lia|]. split.
      + intros n Hn. rewrite C'. destruct (n =? k) eqn:E; [f_equal; f_equal; lia|apply B; lia].
      + intros n Hn. rewrite C'. replace (n =? k) with false by lia. apply C. exact Hn.
    - intros a (A & B & C). cbn [wp]. exists a. repeat split; assumption.
  Qed.

  Lemma f_gout_add (m : mem F) dst len v b :
    0 <= len <= asize (buf m dst) -> (forall n, 0 <= n < len -> acell (buf m dst) n = Some (b n)) ->
    wp (f_gout add m dst false len v) (fun m' => exists a, m' = set_buf m dst a /\
      asize a = asize (buf m dst) /\
      (forall n, 0 <= n < len -> acell a n = Some (add (b n) (v n))) /\
      (forall n, ~ (0 <= n < len) -> acell a n = acell (buf m dst) n)).
  Proof.
    intros Hl Hb. unfold f_gout. apply wp_bind.
    apply wp_for with (I := fun k a => asize a = asize (buf m dst) /\
      (forall n, 0 <= n < len -> acell a n = Some (if n <? k then add (b n) (v n) else b n)) /\
      (forall n, ~ (0 <= n < len) -> acell a n = acell (buf m dst) n)).
    - lia.
    - repeat split; try reflexivity. intros n Hn. replace (n <? 0) with false by lia. apply Hb. exact Hn.
    - intros k a Hk (A & B & C). apply wp_bind. apply wp_rd with (v := b k).
      { apply rd_spec. split; [lia|]. rewrite B by lia. replace (k <? k) with false by lia. reflexivity. }
      apply wp_wr; [lia|]. intros a' A' C'. split; [lia|]. split.
      + intros n Hn. rewrite C'. destruct (n =? k) eqn:E.
        * assert (n = k) by lia. subst n. replace (k <? k + 1) with true by lia. reflexivity.
        * rewrite B by lia. replace (n <? k + 1) with (n <? k) by lia. reflexivity.
      + intros n Hn. rewrite C'. replace (n =? k) with false by lia. apply C. exact Hn.
    - intros a (A & B & C). cbn [wp]. exists a. repeat split; try assumption.
      intros n Hn. rewrite B by exact Hn. replace (n <? len) with true by lia. reflexivity.
  Qed.

  (** [m'] is [m] with [w] written to the first [len] cells of buffer [dst]. *)
  Definition Wrote (m m' : mem F) (dst : nat) (len : Z) (w : Z -> F) : Prop :=
    (forall t, flg m' t = flg m t) /\ (forall t, t <> dst -> buf m' t = buf m t) /\
    asize (buf m' dst) = asize (buf m dst) /\
    (forall n, 0 <= n < len -> acell (buf m' dst) n = Some (w n)) /\
    (forall n, ~ (0 <= n < len) -> acell (buf m' dst) n = acell (buf m dst) n).

  (** An operation that stores ([true]) or adds ([false]) the batch [f*v] to a buffer. *)
  Definition gout_ok (gop : mem F -> nat -> bool -> F -> option (mem F)) (len : Z) (v : Z -> F) : Prop :=
    forall m dst f, 0 <= len <= asize (buf m dst) ->
      wp (gop m dst true f) (fun m' => Wrote m m' dst len (fun n => mul f (v n))) /\
      (forall b, (forall n, 0 <= n < len -> acell (buf m dst) n = Some (b n)) ->
       wp (gop m dst false f) (fun m' => Wrote m m' dst len (fun n => add (b n) (mul f (v n))))).

  Lemma Wrote_set m dst a len w : asize a = asize (buf m dst) ->
    (forall n, 0 <= n < len -> acell a n = Some (w n)) ->
    (forall n, ~ (0 <= n < len) -> acell a n = acell (buf m dst) n) ->
    Wrote m (set_buf m dst a) dst len w.
  Proof.
    intros A B C. unfold Wrote. cbn [set_buf buf flg]. rewrite Nat.eqb_refl. repeat split; auto.
    intros t Ht. apply Nat.eqb_neq in Ht. rewrite Ht. reflexivity.
  Qed.

  Lemma gout_ext len (w : F -> Z -> F) v : (forall f n, w f n = mul f (v n)) ->
    gout_ok (fun m dst e f => f_gout add m dst e len (w f)) len v.
  Proof.
    intros Hw m dst f Hl. split.
    - eapply wp_mono; [apply (f_gout_write m dst len (w f) Hl)|].
      intros m' (a & -> & A & B & C). apply Wrote_set; auto. intros n Hn. rewrite B, Hw by exact Hn. reflexivity.
    - intros b Hb. eapply wp_mono; [apply (f_gout_add m dst len (w f) b Hl Hb)|].
      intros m' (a & -> & A & B & C). apply Wrote_set; auto. intros n Hn. rewrite B, Hw by exact Hn. reflexivity.
  Qed.

  Lemma f_gout_ok len v :
    gout_ok (fun m dst e f => f_gout add m dst e len (fun n => mul f (v n))) len v.
  Proof. apply gout_ext. reflexivity. Qed.

  (** f_gout guarded by its slot's flag, then the flag cleared *)
  Lemma Acc_gop gop ig sz lvl ob ofl len v f :
    gout_ok gop len v -> 0 <= len -> (ofl = 0%nat -> ig = false) ->
    Acc ig sz lvl ob ofl len
      (fun m => m <- gop m ob (flg m ofl) f ;; Some (set_flg m ofl false)) true (fun n => mul f (v n)).
  Proof.
    intros Hg Hl Hig m any0 b0 [M1 M2] (S1 & S2 & S3 & S4). rewrite S2. apply wp_bind.
    rewrite orb_true_r.
    assert (K : forall m1, Wrote m m1 ob len (fun n => add (b0 n) (mul f (v n))) ->
      let m' := set_flg m1 ofl false in
      Slot m' ob ofl len true (fun n => add (b0 n) (mul f (v n))) /\ MInv ig sz m' /\ Fr lvl ob ofl len m m').
    { intros m1 (A & B & C & D & E). cbn zeta. split; [|split].
      - unfold Slot. cbn [set_flg buf flg]. rewrite !Nat.eqb_refl.
        split; [lia|]. split; [reflexivity|]. split; [intros _; exact D|discriminate].
      - split.
        + intros Ei. cbn [set_flg flg]. destruct (0 =? ofl)%nat eqn:E0; [|rewrite A; auto].
          apply Nat.eqb_eq in E0. rewrite Hig in Ei by auto. discriminate.
        + intros t. cbn [set_flg buf]. destruct (Nat.eq_dec t ob) as [->|Hne]; [rewrite C; apply M2|].
          rewrite B by exact Hne. apply M2.
      - repeat split.
        + intros t. cbn [set_flg buf]. destruct (Nat.eq_dec t ob) as [->|Hne]; [exact C|].
          rewrite B by exact Hne. reflexivity.
        + intros t _ Hne. cbn [set_flg buf]. apply B. exact Hne.
        + intros t _ Hne. cbn [set_flg flg]. apply Nat.eqb_neq in Hne. rewrite Hne. apply A.
        + intros n Hn. cbn [set_flg buf]. apply E. exact Hn. }
    destruct any0; cbn [negb].
    - destruct (Hg m ob f ltac:(lia)) as [_ Hadd]. eapply wp_mono; [apply (Hadd b0); apply S3; reflexivity|].
      intros m1 H. cbn [wp]. apply K; assumption.
    - destruct (Hg m ob f ltac:(lia)) as [Hwr _]. eapply wp_mono; [exact Hwr|].
      intros m1 (A & B & C & D & E). cbn [wp]. apply K. repeat split; auto.
      intros n Hn. rewrite D by exact Hn. f_equal. rewrite (S4 eq_refl n Hn). ring.
  Qed.

  (** f_gout guarded by its slot's flag, then the flag cleared *)
  Lemma Acc_gout ig sz lvl ob ofl len v :
    0 <= len -> (ofl = 0%nat -> ig = false) ->
    Acc ig sz lvl ob ofl len
      (fun m => m <- f_gout add m ob (flg m ofl) len v ;; Some (set_flg m ofl false)) true v.
  Proof.
    intros Hl Hig m any0 b0 [M1 M2] (S1 & S2 & S3 & S4). rewrite S2. apply wp_bind.
    rewrite orb_true_r.
    assert (K : forall a,
      asize a = asize (buf m ob) ->
      (forall n, 0 <= n < len -> acell a n = Some (add (b0 n) (v n))) ->
      (forall n, ~ (0 <= n < len) -> acell a n = acell (buf m ob) n) ->
      let m' := set_flg (set_buf m ob a) ofl false in
      Slot m' ob ofl len true (fun n => add (b0 n) (v n)) /\ MInv ig sz m' /\ Fr lvl ob ofl len m m').
    { intros a A B C. cbn zeta. split; [|split].
      - unfold Slot. cbn [set_flg set_buf buf flg]. rewrite !Nat.eqb_refl.
        split; [lia|]. split; [reflexivity|]. split; [intros _; exact B|discriminate].
      - split.
        + intros E. cbn [set_flg flg]. destruct (0 =? ofl)%nat eqn:E0; [|cbn; auto].
          apply Nat.eqb_eq in E0. rewrite Hig in E by auto. discriminate.
        + intros t. cbn [set_flg set_buf buf]. destruct (t =? ob)%nat eqn:E; [|apply M2].
          apply Nat.eqb_eq in E. subst. rewrite A. apply M2.
      - repeat split.
        + intros t. cbn [set_flg set_buf buf]. destruct (t =? ob)%nat eqn:E; [|reflexivity].
          apply Nat.eqb_eq in E. subst. exact A.
        + intros t _ Hne. cbn [set_flg set_buf buf]. apply Nat.eqb_neq in Hne. rewrite Hne. reflexivity.
        + intros t _ Hne. cbn [set_flg set_buf flg]. apply Nat.eqb_neq in Hne. rewrite Hne. reflexivity.
        + intros n Hn. cbn [set_flg set_buf buf]. rewrite Nat.eqb_refl. apply C. exact Hn. }
    destruct any0; cbn [negb].
    - eapply wp_mono; [apply (f_gout_add m ob len v b0); [lia|apply S3; reflexivity]|].
      intros m1 (a & -> & A & B & C). cbn [wp]. apply K; assumption.
    - eapply wp_mono; [apply (f_gout_write m ob len v); lia|].
      intros m1 (a & -> & A & B & C). cbn [wp]. apply K; [assumption| |assumption].
      intros n Hn. rewrite B by exact Hn. f_equal. rewrite (S4 eq_refl n Hn). ring.
  Qed.

  (** ** PRIM2CTR with more than one contraction *)
  Lemma sparse_in (cf : Z -> Z -> F) nctr p j : 0 <= j < nctr ->
    existsb (Z.eqb j) (filter (fun j => negb (isz (cf j p))) (zseq nctr)) = negb (isz (cf j p)).
  Proof.
    intros Hj. destruct (isz (cf j p)) eqn:E; cbn [negb].
    - apply not_true_is_false. intros H. apply existsb_exists in H. destruct H as [x [Hx Ex]].
      apply filter_In in Hx. assert (x = j) by lia. subst. rewrite E in Hx. destruct Hx; discriminate.
    - apply existsb_exists. exists j. split; [|lia]. apply filter_In. split; [apply zseq_In; lia|].
      rewrite E. reflexivity.
  Qed.

  Lemma zseq_NoDup n : NoDup (zseq n).
  Proof.
    unfold zseq. apply Injective_map_NoDup; [|apply seq_NoDup]. intros x y H. lia.
  Qed.

  Lemma PRIM2CTR_ok ig sz lvl s cf p gx sb L Sv m any0 b0 :
    shell_ok s cf -> 1 < s_ctr s -> 0 <= p < s_np s -> 0 <= L ->
    gx <> 0%nat -> MInv ig sz m -> L <= asize (buf m sb) ->
    (forall n, 0 <= n < L -> acell (buf m sb) n = Some (Sv n)) ->
    Slot m gx gx (L * s_ctr s) any0 b0 ->
    wp (PRIM2CTR add mul s p gx gx sb L m) (fun m' =>
      Slot m' gx gx (L * s_ctr s) true (fun n => add (b0 n) (mul (cf (n / L) p) (Sv (n mod L)))) /\
      MInv ig sz m' /\ Fr lvl gx gx (L * s_ctr s) m m').
  Proof.
    intros (Hnp & Hct & Hcf & Hsp) Hc Hp HL Hgx [M1 M2] HsL Hsrc (S1 & S2 & S3 & S4).
    unfold PRIM2CTR. replace (1 <? s_ctr s) with true by lia.
    assert (K : forall a,
      asize a = asize (buf m gx) ->
      (forall i n, 0 <= i < s_ctr s -> 0 <= n < L ->
         acell a (L * i + n) = Some (add (b0 (L * i + n)) (mul (cf i p) (Sv n)))) ->
      (forall x, ~ (0 <= x < L * s_ctr s) -> acell a x = acell (buf m gx) x) ->
      let m' := set_flg (set_buf m gx a) gx false in
      Slot m' gx gx (L * s_ctr s) true (fun n => add (b0 n) (mul (cf (n / L) p) (Sv (n mod L)))) /\
      MInv ig sz m' /\ Fr lvl gx gx (L * s_ctr s) m m').
    { intros a A B C. cbn zeta. split; [|split].
      - unfold Slot. cbn [set_flg set_buf buf flg]. rewrite !Nat.eqb_refl.
        split; [lia|]. split; [reflexivity|]. split; [|discriminate].
        intros _ n Hn. assert (0 < L) by nia.
          pose proof (Z.div_mod n L ltac:(lia)). pose proof (Z.mod_pos_bound n L ltac:(lia)).
          specialize (B (n / L) (n mod L)).
          replace (L * (n / L) + n mod L) with n in B by lia. apply B; [|lia].
          split; [apply Z.div_pos; lia|]. apply Z.div_lt_upper_bound; lia.
      - split.
        + intros E. cbn [set_flg flg]. destruct (0 =? gx)%nat eqn:E0; [|cbn; auto].
          apply Nat.eqb_eq in E0. congruence.
        + intros t. cbn [set_flg set_buf buf]. destruct (t =? gx)%nat eqn:E; [|apply M2].
          apply Nat.eqb_eq in E. subst. rewrite A. apply M2.
      - repeat split.
        + intros t. cbn [set_flg set_buf buf]. destruct (t =? gx)%nat eqn:E; [|reflexivity].
          apply Nat.eqb_eq in E. subst. exact A.
        + intros t _ Hne. cbn [set_flg set_buf buf]. apply Nat.eqb_neq in Hne. rewrite Hne. reflexivity.
        + intros t _ Hne. cbn [set_flg set_buf flg]. apply Nat.eqb_neq in Hne. rewrite Hne. reflexivity.
        + intros n Hn. cbn [set_flg set_buf buf]. rewrite Nat.eqb_refl. apply C. exact Hn. }
    assert (Hgp : forall n, 0 <= n < L -> rd (buf m sb) n = Some (Sv n)).
    { intros n Hn. apply rd_spec. split; [lia|]. apply Hsrc. exact Hn. }
    assert (Hco : forall i, 0 <= i < s_ctr s -> rd (s_c s) (p + s_np s * i) = Some (cf i p)).
    { intros i Hi. rewrite <- (Hcf i p) by lia. f_equal. lia. }
    rewrite S2. destruct any0; cbn [negb].
    - apply wp_bind. apply wp_bind. destruct (Hsp p Hp) as [Hn0 Hsi]. rewrite Hn0. cbn [wp].
      apply wp_bind.
      set (l := filter (fun j => negb (isz (cf j p))) (zseq (s_ctr s))).
      eapply wp_mono; [apply (prim1_ok add mul (buf m gx) (buf m sb) (s_c s) (s_sidx s) (p * s_ctr s)
                                p L (s_np s) (s_ctr s) l (fun i => cf i p) Sv (fun j n => b0 (L * j + n)))|].
      + exact HL.
      + exact S1.
      + exact Hgp.
      + exact Hco.
      + apply NoDup_filter. apply zseq_NoDup.
      + intros j Hj. apply filter_In in Hj. apply zseq_In. apply Hj.
      + intros i Hi. rewrite Hsi.
        * unfold sorted_row. rewrite nth_error_app1 by exact Hi. reflexivity.
        * pose proof (filter_split_length (fun j => isz (cf j p)) (zseq (s_ctr s))). unfold l in Hi. lia.
      + intros j n Hj Hn. apply (S3 eq_refl). nia.
      + intros a (A & B & C). cbn [wp]. apply K; [exact A| |exact C].
        intros i n Hi Hn. rewrite B by lia. unfold l. rewrite sparse_in by lia.
        destruct (isz (cf i p)) eqn:E; cbn [negb]; [|reflexivity].
        rewrite (isz_zero _ E). f_equal. ring.
    - apply wp_bind. apply wp_bind.
      eapply wp_mono; [apply (prim0_ok mul (buf m gx) (buf m sb) (s_c s) p L (s_np s) (s_ctr s)
                                (fun i => cf i p) Sv)|]; try assumption; try lia.
      intros a (A & B & C). cbn [wp]. apply K; [exact A| |exact C].
      intros i n Hi Hn. rewrite B by lia. f_equal. rewrite (S4 eq_refl) by nia. ring.
  Qed.

  (** One iteration of a level with several contractions. *)
  Lemma ctr_step ig sz lvl lvl0 s cf p gx sb sf L inner any J fac :
    shell_ok s cf -> 1 < s_ctr s -> 0 <= p < s_np s -> 0 <= L <= sz sb ->
    gx <> 0%nat -> (sf = 0%nat -> ig = false) ->
    (lvl0 <= gx)%nat -> gx <> sb -> gx <> sf -> (sb < lvl)%nat -> (sf < lvl)%nat -> (lvl0 <= lvl)%nat ->
    Acc ig sz lvl0 sb sf L inner any (fun n => mul fac (J n)) ->
    Acc ig sz lvl gx gx (L * s_ctr s)
      (fun m => m <- inner (set_flg m sf true) ;;
                if negb (flg m sf) then PRIM2CTR add mul s p gx gx sb L m else Some m)
      any (fun n => mul fac (mul (cf (n / L) p) (J (n mod L)))).
  Proof.
    intros Hs Hc Hp HL Hgx Hsf Hl1 Hne1 Hne2 Hl2 Hl3 Hl4 Hin m any0 b0 [M1 M2] HS.
    apply wp_bind.
    assert (HM' : MInv ig sz (set_flg m sf true)).
    { split.
      - intros E. cbn [set_flg flg]. destruct (0 =? sf)%nat; auto.
      - intros t. apply M2. }
    assert (HS' : Slot (set_flg m sf true) sb sf L false (fun _ => zero)).
    { unfold Slot. cbn [set_flg buf flg]. rewrite Nat.eqb_refl. specialize (M2 sb).
      repeat split; try lia; try discriminate; reflexivity. }
    eapply wp_mono; [exact (Hin _ _ _ HM' HS')|].
    intros m1 (A1 & B1 & C1). cbn [orb] in A1.
    assert (HSx : Slot m1 gx gx (L * s_ctr s) any0 b0).
    { destruct HS as (S1 & S2 & S3 & S4). destruct C1 as (Ca & Cb & Cc & Cd).
      assert (Eb : buf m1 gx = buf m gx).
      { rewrite Cb by (auto; lia). reflexivity. }
      assert (Ef : flg m1 gx = flg m gx).
      { rewrite Cc by (auto; lia). cbn [set_flg flg]. apply Nat.eqb_neq in Hne2. rewrite Hne2. reflexivity. }
      unfold Slot. rewrite Eb, Ef. auto. }
    assert (HFr : Fr lvl gx gx (L * s_ctr s) m m1).
    { destruct C1 as (Ca & Cb & Cc & Cd). repeat split.
      - intros t. rewrite Ca. reflexivity.
      - intros t Ht Hne. rewrite Cb by lia. reflexivity.
      - intros t Ht Hne. rewrite Cc by lia. cbn [set_flg flg].
        assert (Hx : t <> sf) by lia. apply Nat.eqb_neq in Hx. rewrite Hx. reflexivity.
      - intros n Hn. rewrite Cb by (auto; lia). reflexivity. }
    destruct A1 as (A1a & A1b & A1c & A1d). rewrite A1b, negb_involutive.
    destruct any.
    - eapply wp_mono; [apply (PRIM2CTR_ok ig sz lvl s cf p gx sb L (fun n => mul fac (J n)) m1 any0 b0)|];
        try assumption; try lia.
      + intros n Hn. rewrite (A1c eq_refl n Hn). f_equal. ring.
      + intros m2 (A2 & B2 & C2). rewrite orb_true_r. split; [|split; [exact B2|eapply Fr_trans; eassumption]].
        eapply Slot_ext; [exact A2|]. intros n Hn. cbv beta. ring.
    - cbn [wp]. rewrite orb_false_r. split; [|split; [exact B1|exact HFr]].
      eapply Slot_ext; [exact HSx|]. intros n Hn.
      assert (0 < L) by nia.
      assert (E : mul fac (J (n mod L)) = zero).
      { pose proof (A1d eq_refl (n mod L) (Z.mod_pos_bound n L ltac:(lia))) as E. cbv beta in E.
        rewrite <- E. ring. }
      transitivity (add (b0 n) (mul (cf (n / L) p) (mul fac (J (n mod L))))); [rewrite E; ring|ring].
  Qed.

  (** One iteration of a level whose buffer is aliased when there is one contraction. *)
  Lemma level_step ig sz y s cf p gx gy L inner any J fac :
    shell_ok s cf -> 0 <= p < s_np s -> 0 <= L -> (s_ctr s <> 1 -> L <= sz y) ->
    gy = alias (s_ctr s) gx y -> (y < gx)%nat -> (y = 0%nat -> ig = false) ->
    (forall f, Acc ig sz y gy gy L (inner f) any (fun n => mul f (J n))) ->
    Acc ig sz (S y) gx gx (L * s_ctr s)
      (fun m => r <- enter mul s p fac gy m ;;
                let '(f, m) := r in
                m <- inner f m ;;
                if negb (flg m gy) then PRIM2CTR add mul s p gx gx gy L m else Some m)
      any (fun n => mul fac (mul (cf (n / L) p) (J (n mod L)))).
  Proof.
    intros Hs Hp HL0 HLsz Hgy Hlt Hig Hin. unfold alias in Hgy.
    pose proof Hs as (Hnp & Hct & Hcf & Hsp).
    destruct (s_ctr s =? 1) eqn:Ec.
    - subst gy. assert (E1 : s_ctr s = 1) by lia. rewrite E1, Z.mul_1_r.
      apply Acc_mono with (lvl := y); [|lia].
      intros m any0 b0 HM HS. unfold enter. rewrite Ec. apply wp_bind. apply wp_bind.
      replace p with (s_np s * 0 + p) at 1 by lia. rewrite (Hcf 0 p) by lia. cbn [wp].
      apply wp_bind. eapply wp_mono; [exact (Hin (mul fac (cf 0 p)) m any0 b0 HM HS)|].
      intros m1 (A1 & B1 & C1).
      assert (Hext : forall n, 0 <= n < L ->
        add (b0 n) (mul (mul fac (cf 0 p)) (J n)) = add (b0 n) (mul fac (mul (cf (n / L) p) (J (n mod L))))).
      { intros n Hn. rewrite Z.div_small, Z.mod_small by lia. ring. }
      destruct (flg m1 gx) eqn:Ef; cbn [negb].
      + cbn [wp]. split; [eapply Slot_ext; [exact A1|exact Hext]|]. split; assumption.
      + unfold PRIM2CTR. replace (1 <? s_ctr s) with false by lia. cbn [bind wp].
        destruct A1 as (A1a & A1b & A1c & A1d). destruct B1 as [B1a B1b]. destruct C1 as (Ca & Cb & Cc & Cd).
        assert (Eff : forall t, flg (set_flg m1 gx false) t = flg m1 t).
        { intros t. cbn [set_flg flg]. destruct (t =? gx)%nat eqn:E; [|reflexivity].
          apply Nat.eqb_eq in E. subst. auto. }
        split; [|split].
        * eapply Slot_ext; [|exact Hext]. unfold Slot. rewrite Eff. cbn [set_flg buf]. auto.
        * split; [rewrite Eff; exact B1a|exact B1b].
        * repeat split; intros; try rewrite Eff; cbn [set_flg buf]; auto.
    - assert (Hc : 1 < s_ctr s) by lia. assert (HL : L <= sz y) by (apply HLsz; lia).
      assert (Hsf0 : y = 0%nat -> ig = false) by exact Hig. clear Hig. subst gy.
      assert (K : Acc ig sz (S y) gx gx (L * s_ctr s)
        (fun m => m <- inner fac (set_flg m y true) ;;
                if negb (flg m y) then PRIM2CTR add mul s p gx gx y L m else Some m)
        any (fun n => mul fac (mul (cf (n / L) p) (J (n mod L))))).
      { apply (ctr_step ig sz (S y) y s cf p gx y y L (inner fac) any J fac); try assumption; try lia.
        apply Hin. }
      eapply Acc_ext; [exact K| |reflexivity]. intros m. unfold enter. rewrite Ec. reflexivity.
  Qed.

  (** The innermost level. *)
  Lemma inner_step_g gop sz s cf p gx gg L v fac e (f1 : F -> F) (f2 : F) :
    gout_ok gop L v -> shell_ok s cf -> 0 <= p < s_np s -> 0 <= L -> (s_ctr s <> 1 -> L <= sz 0%nat) ->
    gg = alias (s_ctr s) gx 0 -> (0 < gx)%nat ->
    (forall c, f1 c = mul (mul fac c) e) -> f2 = mul fac e ->
    Acc (negb (s_ctr s =? 1)) sz 1 gx gx (L * s_ctr s)
      (fun m => f <- (if s_ctr s =? 1 then c <- rd (s_c s) p ;; Some (f1 c) else Some f2) ;;
                m <- gop m gg (flg m gg) f ;;
                PRIM2CTR add mul s p gx gx gg L m)
      true (fun n => mul fac (mul (cf (n / L) p) (mul e (v (n mod L))))).
  Proof.
    intros Hg Hs Hp HL0 HLsz Hgg Hlt Hf1 Hf2. unfold alias in Hgg.
    pose proof Hs as (Hnp & Hct & Hcf & Hsp).
    destruct (s_ctr s =? 1) eqn:Ec; cbn [negb].
    - subst gg. assert (E1 : s_ctr s = 1) by lia. rewrite E1, Z.mul_1_r.
      assert (K := Acc_gop gop false sz 1 gx gx L v (mul (mul fac (cf 0 p)) e) Hg HL0 ltac:(lia)).
      eapply Acc_ext; [exact K| |].
      + intros m. assert (Er : rd (s_c s) p = Some (cf 0 p)).
        { rewrite <- (Hcf 0 p) by lia. f_equal. lia. }
        rewrite Er. cbn [bind]. rewrite Hf1. unfold PRIM2CTR. replace (1 <? s_ctr s) with false by lia.
        destruct (gop m gx (flg m gx) _); reflexivity.
      + intros n Hn. cbv beta. rewrite Z.div_small, Z.mod_small by lia. ring.
    - assert (Hc : 1 < s_ctr s) by lia. assert (HL : L <= sz 0%nat) by (apply HLsz; lia). subst gg.
      intros m any0 b0 [M1 M2] HS. cbn [bind]. rewrite (M1 eq_refl), Hf2.
      apply wp_bind. specialize (M2 0%nat) as M20.
      destruct (Hg m 0%nat (mul fac e) ltac:(lia)) as [Hwr _]. eapply wp_mono; [exact Hwr|].
      intros m1 (A & B & C & D & E).
      eapply wp_mono; [apply (PRIM2CTR_ok true sz 1 s cf p gx 0%nat L (fun n => mul (mul fac e) (v n))
                                m1 any0 b0)|]; try assumption; try lia.
      + split; [rewrite A; exact M1|]. intros t. destruct (Nat.eq_dec t 0) as [->|Hne]; [rewrite C; apply M2|].
        rewrite B by exact Hne. apply M2.
      + destruct HS as (S1 & S2 & S3 & S4). unfold Slot. rewrite A, B by lia. auto.
      + intros m2 (A2 & B2 & C2). rewrite orb_true_r. split; [|split; [exact B2|]].
        * eapply Slot_ext; [exact A2|]. intros n _. cbv beta. ring.
        * destruct C2 as (Ca & Cb & Cc & Cd). repeat split.
          -- intros t. rewrite Ca. destruct (Nat.eq_dec t 0) as [->|Hne]; [exact C|]. rewrite B by exact Hne. reflexivity.
          -- intros t Ht Hne. rewrite Cb by assumption. apply B. lia.
          -- intros t Ht Hne. rewrite Cc by assumption. apply A.
          -- intros n Hn. rewrite Cd by exact Hn. rewrite B by lia. reflexivity.
  Qed.

  Lemma inner_step sz s cf p gx gg L v fac e (f1 : F -> F) (f2 : F) :
    shell_ok s cf -> 0 <= p < s_np s -> 0 <= L -> (s_ctr s <> 1 -> L <= sz 0%nat) ->
    gg = alias (s_ctr s) gx 0 -> (0 < gx)%nat ->
    (forall c, f1 c = mul (mul fac c) e) -> f2 = mul fac e ->
    Acc (negb (s_ctr s =? 1)) sz 1 gx gx (L * s_ctr s)
      (fun m => f <- (if s_ctr s =? 1 then c <- rd (s_c s) p ;; Some (f1 c) else Some f2) ;;
                m <- f_gout add m gg (flg m gg) L (fun n => mul f (v n)) ;;
                PRIM2CTR add mul s p gx gx gg L m)
      true (fun n => mul fac (mul (cf (n / L) p) (mul e (v (n mod L))))).
  Proof.
    intros. apply (inner_step_g (fun m dst e f => f_gout add m dst e L (fun n => mul f (v n)))
      sz s cf p gx gg L v fac e f1 f2); auto. apply f_gout_ok.
  Qed.
End Level.

(** ** From the last level to the caller's buffer *)
Section Finish.
  Context {F : Type} (zero one : F) (add mul sub : F -> F -> F) (opp : F -> F).
  Hypothesis Rth : ring_theory zero one add mul sub opp (@eq F).
  Add Ring Fring2 : Rth.

  Lemma tr_flat rows nc x : 0 <= rows -> 0 <= nc ->
    (forall i j, 0 <= i < rows -> 0 <= j < nc -> x <> i + rows * j) -> ~ (0 <= x < rows * nc).
  Proof.
    intros Hr Hn H Hx. assert (0 < rows) by nia.
    pose proof (Z.div_mod x rows ltac:(lia)). pose proof (Z.mod_pos_bound x rows ltac:(lia)).
    apply (H (x mod rows) (x / rows)); try lia.
    split; [apply Z.div_pos; lia|apply Z.div_lt_upper_bound; lia].
  Qed.

  Lemma finish ig sz lvl own n_comp rows go (op : mem F -> option (mem F)) any b m T :
    (own < 5)%nat -> 1 <= n_comp -> 0 <= rows -> go = alias n_comp 5 own -> (lvl <= 5)%nat ->
    Acc zero add ig sz lvl go go (rows * n_comp) op any b ->
    MInv ig sz m -> flg m own = true -> caller_holds m rows n_comp T ->
    (n_comp <> 1 -> rows * n_comp <= asize (buf m own)) ->
    wp (m <- op m ;;
        m <- (if (1 <? n_comp) && negb (flg m go) then TRANSPOSE add go rows n_comp m else Some m) ;;
        Some (m, negb (flg m 5%nat)))
       (fun r => snd r = negb (flg (fst r) 5%nat) /\
                 accumulated add m (fst r) rows n_comp (any = true) T (fun r c => b (r * n_comp + c))).
  Proof.
    intros Hown Hn Hr Hgo Hlvl Hop HM Hf [H5 HT] Ho. unfold alias in Hgo.
    destruct (n_comp =? 1) eqn:En.
    - assert (n_comp = 1) by lia. subst n_comp go. rewrite Z.mul_1_r in *.
      set (b0 := fun r => if flg m 5%nat then zero else T r 0).
      assert (HS : Slot zero m 5 5 rows (negb (flg m 5%nat)) b0).
      { unfold Slot, b0. split; [lia|]. split; [rewrite negb_involutive; reflexivity|].
        split; intros E n Hn'; destruct (flg m 5%nat); try discriminate; [|reflexivity].
        specialize (HT eq_refl n 0 Hn' ltac:(lia)). apply rd_spec in HT. apply HT. }
      apply wp_bind. eapply wp_mono; [exact (Hop m _ _ HM HS)|].
      intros m' (A & B & C). apply wp_bind. change (1 <? 1) with false. cbn [andb wp].
      cbn [fst snd]. split; [reflexivity|]. destruct A as (A1 & A2 & A3 & A4).
      destruct C as (C1 & C2 & C3 & C4).
      unfold accumulated. rewrite Z.mul_1_r. repeat split.
      + rewrite A2. destruct (flg m 5%nat), any; cbn; intros; auto; discriminate.
      + rewrite A2. intros [->| ->]; [reflexivity|]. rewrite orb_true_r. reflexivity.
      + apply C1.
      + exact C4.
      + rewrite A2. intros Ha r c Hr' Hc'. apply rd_spec. split; [rewrite C1; nia|].
        assert (c = 0) by lia. subst c. replace (0 * rows + r) with r by lia.
        rewrite A3 by (lia || (apply negb_false_iff; exact Ha)).
        replace (r * 1 + 0) with r by lia. unfold b0. destruct (flg m 5%nat); f_equal. ring.
    - subst go.
      assert (HS : Slot zero m own own (rows * n_comp) false (fun _ => zero)).
      { unfold Slot. split; [apply Ho; lia|]. split; [rewrite Hf; reflexivity|].
        split; [discriminate|reflexivity]. }
      apply wp_bind. eapply wp_mono; [exact (Hop m _ _ HM HS)|].
      intros m' (A & B & C). cbn [orb] in A. destruct A as (A1 & A2 & A3 & A4).
      destruct C as (C1 & C2 & C3 & C4).
      assert (E5b : buf m' 5%nat = buf m 5%nat) by (apply C2; lia).
      assert (E5f : flg m' 5%nat = flg m 5%nat) by (apply C3; lia).
      apply wp_bind. replace (1 <? n_comp) with true by lia. cbn [andb]. rewrite A2, negb_involutive.
      destruct any.
      + assert (Hsrc : holds (buf m' own) n_comp n_comp rows (fun j i => add zero (b (i * n_comp + j)))).
        { intros i j Hi Hj. apply rd_spec. split; [nia|]. rewrite A3 by (auto; nia).
          f_equal. f_equal. f_equal. lia. }
        unfold TRANSPOSE. rewrite E5f, E5b.
        destruct (flg m 5%nat) eqn:E5; cbn [negb]; apply wp_bind.
        * destruct (transpose_ok rows n_comp (buf m' own) (buf m 5%nat) (fun i j => add zero (b (i * n_comp + j))) Hr ltac:(lia) Hsrc H5)
            as [a [Ea (Sa & Sb & Sc)]].
          rewrite Ea. cbn [wp]. cbn [fst snd]. split; [reflexivity|].
          unfold accumulated. cbn [set_flg set_buf flg buf Nat.eqb]. repeat split; auto.
          -- intros x Hx. apply Sc. intros i j Hi Hj ->. nia.
          -- intros _ r c Hr' Hc'. rewrite E5. replace (c * rows + r) with (r + rows * c) by lia.
             rewrite Sb by lia. f_equal. ring.
        * assert (Hdst : holds (buf m 5%nat) rows rows n_comp T).
          { intros i j Hi Hj. replace (i + rows * j) with (j * rows + i) by lia. apply HT; auto. }
          destruct (plus_transpose_ok add rows n_comp (buf m' own) (buf m 5%nat) (fun i j => add zero (b (i * n_comp + j))) T Hr ltac:(lia) Hsrc H5 Hdst)
            as [a [Ea (Sa & Sb & Sc)]].
          rewrite Ea. cbn [wp]. cbn [fst snd]. split; [reflexivity|].
          unfold accumulated. cbn [set_flg set_buf flg buf Nat.eqb]. repeat split; auto.
          -- intros x Hx. apply Sc. intros i j Hi Hj ->. nia.
          -- intros _ r c Hr' Hc'. rewrite E5. replace (c * rows + r) with (r + rows * c) by lia.
             rewrite Sb by lia. f_equal. ring.
      + cbn [wp fst snd]. split; [reflexivity|]. unfold accumulated. rewrite E5b, E5f. repeat split; auto.
        * intros [?|?]; [assumption|discriminate].
        * intros E r c Hr' Hc'. rewrite E. rewrite (HT E r c Hr' Hc'). f_equal.
          assert (Hz : add zero (b (r * n_comp + c)) = zero) by (apply (A4 eq_refl); nia).
          replace (b (r * n_comp + c)) with (add zero (b (r * n_comp + c))) by ring. rewrite Hz. ring.
  Qed.
End Finish.

(** ** Whole levels *)
Section Levels.
  Context {F : Type} (zero one : F) (add mul sub : F -> F -> F) (opp : F -> F).
  Hypothesis Rth : ring_theory zero one add mul sub opp (@eq F).
  Variable isz : F -> bool.
  Hypothesis isz_zero : forall c, isz c = true -> c = zero.
  Add Ring Fring3 : Rth.

  Notation sum := (lsum zero add).
  Notation Acc := (Acc zero add).

  Lemma Acc_if ig sz lvl ob ofl len (skip : bool) op any fac v :
    Acc ig sz lvl ob ofl len op any (fun n => mul fac (v n)) ->
    Acc ig sz lvl ob ofl len (fun m => if skip then Some m else op m)
      (negb skip && any) (fun n => mul fac (if skip then zero else v n)).
  Proof.
    intros H. destruct skip; cbn [negb andb].
    - eapply Acc_ext; [apply (Acc_skip zero one add mul sub opp Rth)|reflexivity|].
      intros n _. cbv beta. ring.
    - exact H.
  Qed.

  Lemma Acc_for_scaled ig sz lvl ob ofl len np (op : Z -> mem F -> option (mem F)) any fac v :
    0 <= np ->
    (forall p, 0 <= p < np -> Acc ig sz lvl ob ofl len (op p) (any p) (fun n => mul fac (v p n))) ->
    Acc ig sz lvl ob ofl len (for_ 0 np op) (anyN np any) (fun n => mul fac (sum np (fun p => v p n))).
  Proof.
    intros Hnp H.
    eapply Acc_ext; [apply (Acc_for zero one add mul sub opp Rth isz isz_zero); [exact Hnp|exact H]|reflexivity|].
    intros n _. cbv beta. apply (sum_scale zero one add mul sub opp Rth).
  Qed.

  Lemma level_for ig sz y s cf gx gy L (skip : Z -> bool) inner any J fac :
    shell_ok isz s cf -> 0 <= L -> (s_ctr s <> 1 -> L <= sz y) ->
    gy = alias (s_ctr s) gx y -> (y < gx)%nat -> (y = 0%nat -> ig = false) ->
    (forall p f, 0 <= p < s_np s -> skip p = false ->
       Acc ig sz y gy gy L (inner p f) (any p) (fun n => mul f (J p n))) ->
    Acc ig sz (S y) gx gx (L * s_ctr s)
      (for_ 0 (s_np s) (fun p m => if skip p then Some m else
         r <- enter mul s p fac gy m ;;
         let '(f, m) := r in
         m <- inner p f m ;;
         if negb (flg m gy) then PRIM2CTR add mul s p gx gx gy L m else Some m))
      (anyN (s_np s) (fun p => negb (skip p) && any p))
      (fun n => mul fac (sum (s_np s) (fun p => if skip p then zero else mul (cf (n / L) p) (J p (n mod L))))).
  Proof.
    intros Hs HL HLs Hgy Hlt Hig Hin. apply Acc_for_scaled; [apply Hs|].
    intros p Hp. destruct (skip p) eqn:Es.
    - cbn [negb andb].
      eapply Acc_ext; [apply (Acc_skip zero one add mul sub opp Rth)|reflexivity|].
      intros n _. cbv beta. ring.
    - cbn [negb andb].
      apply (level_step zero one add mul sub opp Rth isz isz_zero ig sz y s cf p gx gy L (inner p) (any p) (J p) fac); auto.
  Qed.

  Lemma inner_for_g (gop : Z -> mem F -> nat -> bool -> F -> option (mem F)) sz s cf gx gg L (skip keep : Z -> bool) (v : Z -> Z -> F) fac (e : Z -> F)
      (f1 : Z -> F -> F) (f2 : Z -> F) :
    (forall p, 0 <= p < s_np s -> gout_ok add mul (gop p) L (v p)) -> shell_ok isz s cf -> 0 <= L -> (s_ctr s <> 1 -> L <= sz 0%nat) ->
    gg = alias (s_ctr s) gx 0 -> (0 < gx)%nat ->
    (forall p c, f1 p c = mul (mul fac c) (e p)) -> (forall p, f2 p = mul fac (e p)) ->
    Acc (negb (s_ctr s =? 1)) sz 1 gx gx (L * s_ctr s)
      (for_ 0 (s_np s) (fun p m => if skip p then Some m else
         f <- (if s_ctr s =? 1 then c <- rd (s_c s) p ;; Some (f1 p c) else Some (f2 p)) ;;
         if keep p then
           m <- gop p m gg (flg m gg) f ;;
           PRIM2CTR add mul s p gx gx gg L m
         else Some m))
      (anyN (s_np s) (fun p => negb (skip p) && keep p))
      (fun n => mul fac (sum (s_np s) (fun p =>
         if negb (skip p) && keep p then mul (cf (n / L) p) (mul (e p) (v p (n mod L))) else zero))).
  Proof.
    intros Hg Hs HL HLs Hgg Hlt Hf1 Hf2. pose proof Hs as (Hnp & Hct & Hcf & Hsp).
    apply Acc_for_scaled; [exact Hnp|].
    intros p Hp. destruct (skip p) eqn:Es; cbn [negb andb].
    - eapply Acc_ext; [apply (Acc_skip zero one add mul sub opp Rth)|reflexivity|].
      intros n _. cbv beta. ring.
    - destruct (keep p) eqn:Ek.
      + apply (inner_step_g zero one add mul sub opp Rth isz isz_zero (gop p) sz s cf p gx gg L (v p) fac (e p) (f1 p) (f2 p)); auto.
      + eapply Acc_ext; [apply (Acc_skip zero one add mul sub opp Rth)| |].
        * intros m. destruct (s_ctr s =? 1) eqn:Ec; [|reflexivity].
          assert (Er : rd (s_c s) p = Some (cf 0 p)).
          { rewrite <- (Hcf 0 p) by lia. f_equal. lia. }
          rewrite Er. reflexivity.
        * intros n _. cbv beta. ring.
  Qed.

  Lemma inner_for sz s cf gx gg L (skip keep : Z -> bool) (v : Z -> Z -> F) fac (e : Z -> F)
      (f1 : Z -> F -> F) (f2 : Z -> F) :
    shell_ok isz s cf -> 0 <= L -> (s_ctr s <> 1 -> L <= sz 0%nat) ->
    gg = alias (s_ctr s) gx 0 -> (0 < gx)%nat ->
    (forall p c, f1 p c = mul (mul fac c) (e p)) -> (forall p, f2 p = mul fac (e p)) ->
    Acc (negb (s_ctr s =? 1)) sz 1 gx gx (L * s_ctr s)
      (for_ 0 (s_np s) (fun p m => if skip p then Some m else
         f <- (if s_ctr s =? 1 then c <- rd (s_c s) p ;; Some (f1 p c) else Some (f2 p)) ;;
         if keep p then
           m <- f_gout add m gg (flg m gg) L (fun n => mul f (v p n)) ;;
           PRIM2CTR add mul s p gx gx gg L m
         else Some m))
      (anyN (s_np s) (fun p => negb (skip p) && keep p))
      (fun n => mul fac (sum (s_np s) (fun p =>
         if negb (skip p) && keep p then mul (cf (n / L) p) (mul (e p) (v p (n mod L))) else zero))).
  Proof.
    intros. apply (inner_for_g (fun p m dst e f => f_gout add m dst e L (fun n => mul f (v p n)))); auto.
    intros p _. apply (f_gout_ok zero one add mul isz isz_zero).
  Qed.
End Levels.

(** ** Index arithmetic of nested contractions *)
Lemma mod_mul_div a b c : 0 < b -> 0 < c -> (a mod (b * c)) / b = (a / b) mod c.
Proof.
  intros Hb Hc. rewrite Z.rem_mul_r by lia. replace (a mod b + b * ((a / b) mod c)) with (((a / b) mod c) * b + a mod b) by lia.
  rewrite Z.div_add_l by lia. rewrite (Z.div_small (a mod b) b) by (apply Z.mod_pos_bound; lia). lia.
Qed.

Lemma mod_mul_mod a b c : 0 < b -> 0 < c -> (a mod (b * c)) mod b = a mod b.
Proof.
  intros Hb Hc. rewrite Z.rem_mul_r by lia. rewrite Z.add_mod by lia.
  rewrite Z.mod_mod by lia. rewrite Z.mul_comm, Z.mod_mul by lia. rewrite Z.add_0_r. apply Z.mod_mod. lia.
Qed.

Lemma anyN_true n f : anyN n f = true <-> exists p, 0 <= p < n /\ f p = true.
Proof.
  unfold anyN. rewrite existsb_exists. split; intros [p [H1 H2]]; exists p; split; auto; apply zseq_In; auto.
Qed.
