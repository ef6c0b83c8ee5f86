(** OutRules.v — rules for routines that write to one array.

    [Puts W V a0 a]: exactly the cells in [W] were written, each with a value
    related to its address by [V]; the rest is unchanged. *)
From Verif Require Import Base OutModel OutSpec.

Section Puts.
  Context {A : Type}.

  Definition Puts (W : Z -> Prop) (V : Z -> A -> Prop) (a0 a : arr A) : Prop :=
    asize a = asize a0 /\
    forall i, (W i /\ exists x, acell a i = Some x /\ V i x) \/ (~ W i /\ acell a i = acell a0 i).

  Lemma Puts_iff (W W' : Z -> Prop) V a0 a : Puts W V a0 a -> (forall i, W' i <-> W i) -> Puts W' V a0 a.
  Proof.
    intros [H1 H2] E. split; [exact H1|]. intros i. destruct (H2 i) as [[h k]|[h k]].
    - left. split; [apply E; exact h|exact k].
    - right. split; [intros h'; apply h, E, h'|exact k].
  Qed.

  Lemma Puts_none (W : Z -> Prop) V a : (forall i, ~ W i) -> Puts W V a a.
  Proof. intros H. split; [reflexivity|]. intros i. right. auto. Qed.

  Lemma Puts_seq (W1 W2 : Z -> Prop) V a b c :
    Puts W1 V a b -> Puts W2 V b c -> Puts (fun i => W1 i \/ W2 i) V a c.
  Proof.
    intros [A1 A2] [B1 B2]. split; [congruence|]. intros i.
    destruct (B2 i) as [[h k]|[h k]].
    - left. auto.
    - destruct (A2 i) as [[h' [x [e v]]]|[h' k']].
      + left. split; [auto|]. exists x. split; [congruence|exact v].
      + right. split; [tauto|congruence].
  Qed.

  Variable sz : Z.
  Variable V : Z -> A -> Prop.

  (** [c] puts [W] on every array of [sz] cells. *)
  Definition puts (W : Z -> Prop) (c : arr A -> option (arr A)) : Prop :=
    forall a, asize a = sz -> wp (c a) (Puts W V a).

  (** The same for a loop state that carries more than the array: the rest
      satisfies [I] before and [J] after. *)
  Definition putsS {S} (W : Z -> Prop) (I J : S -> Prop) (c : arr A * S -> option (arr A * S)) : Prop :=
    forall a s, asize a = sz -> I s -> wp (c (a, s)) (fun r => Puts W V a (fst r) /\ J (snd r)).

  Lemma puts_iff (W W' : Z -> Prop) c : puts W c -> (forall i, W' i <-> W i) -> puts W' c.
  Proof. intros H E a Ha. eapply wp_mono; [apply H; exact Ha|]. intros r h. eapply Puts_iff; eauto. Qed.

  Lemma putsS_iff {S} (W W' : Z -> Prop) (I J : S -> Prop) c :
    putsS W I J c -> (forall i, W' i <-> W i) -> putsS W' I J c.
  Proof.
    intros H E a s Ha Hs. eapply wp_mono; [apply H; auto|]. intros r [h k].
    split; [eapply Puts_iff; eauto|exact k].
  Qed.

  Lemma puts_wr i v : 0 <= i < sz -> V i v -> puts (fun x => x = i) (fun a => wr a i v).
  Proof.
    intros Hi Hv a Ha. apply wp_wr; [lia|]. intros a' Hs Hc. split; [exact Hs|].
    intros x. rewrite Hc. destruct (x =? i) eqn:E.
    - left. split; [lia|]. exists v. split; [reflexivity|]. replace x with i by lia. exact Hv.
    - right. split; [lia|reflexivity].
  Qed.

  (** [out[i] = in[..]] *)
  Lemma puts_copy (g : arr A) k i v : rd g k = Some v -> 0 <= i < sz -> V i v ->
    puts (fun x => x = i) (fun a => v <- rd g k ;; wr a i v).
  Proof. intros Hr Hi Hv a Ha. rewrite Hr. cbn [bind]. apply puts_wr; auto. Qed.

  Lemma puts_seq W1 W2 c1 c2 : puts W1 c1 -> puts W2 c2 ->
    puts (fun i => W1 i \/ W2 i) (fun a => a <- c1 a ;; c2 a).
  Proof.
    intros H1 H2 a Ha. apply wp_bind. eapply wp_mono; [apply H1; exact Ha|].
    intros b Hb. eapply wp_mono; [apply H2; destruct Hb; congruence|].
    intros c Hc. eapply Puts_seq; eauto.
  Qed.

  Lemma puts_for (W : Z -> Z -> Prop) lo hi body :
    (forall i, lo <= i < hi -> puts (W i) (body i)) ->
    puts (fun x => exists i, lo <= i < hi /\ W i x) (fun a => for_ lo hi body a).
  Proof.
    intros H a Ha. destruct (Z_lt_le_dec hi lo) as [E|E].
    - rewrite for_nil by lia. cbn. apply Puts_none. intros x [i [Hi _]]. lia.
    - eapply (wp_for (fun i r => Puts (fun x => exists k, lo <= k < i /\ W k x) V a r)); [exact E| | |].
      + apply Puts_none. intros x [i [Hi _]]. lia.
      + intros i r Hi Hr. eapply wp_mono; [apply H; [lia|destruct Hr; congruence]|].
        intros b Hb. eapply Puts_iff; [eapply Puts_seq; [exact Hr|exact Hb]|].
        intros x. split.
        * intros [k [Hk h]]. destruct (Z.eq_dec k i); [right; congruence|left; exists k; split; [lia|exact h]].
        * intros [[k [Hk h]]|h]; [exists k; split; [lia|exact h]|exists i; split; [lia|exact h]].
      + intros r Hr. exact Hr.
  Qed.

  Lemma putsS_for {S} (W : Z -> Z -> Prop) (I : Z -> S -> Prop) lo hi body : lo <= hi ->
    (forall i, lo <= i < hi -> putsS (W i) (I i) (I (i + 1)) (body i)) ->
    putsS (fun x => exists i, lo <= i < hi /\ W i x) (I lo) (I hi) (fun s => for_ lo hi body s).
  Proof.
    intros E H a s Ha Hs.
    eapply (wp_for (fun i r => Puts (fun x => exists k, lo <= k < i /\ W k x) V a (fst r) /\ I i (snd r))); [exact E| | |].
    - split; [|exact Hs]. apply Puts_none. intros x [i [Hi _]]. lia.
    - intros i [r t] Hi [Hr Ht]. cbn [fst snd] in Hr, Ht. eapply wp_mono; [apply H; [lia|destruct Hr; congruence|exact Ht]|].
      intros [b u] [Hb Hu]. cbn [fst snd] in *. split; [|exact Hu].
      eapply Puts_iff; [eapply Puts_seq; [exact Hr|exact Hb]|].
      intros x. split.
      + intros [k [Hk h]]. destruct (Z.eq_dec k i); [right; congruence|left; exists k; split; [lia|exact h]].
      + intros [[k [Hk h]]|h]; [exists k; split; [lia|exact h]|exists i; split; [lia|exact h]].
    - intros r Hr. exact Hr.
  Qed.

  Lemma puts_run {S} W (I J : S -> Prop) c (s : S) : putsS W I J c -> I s ->
    puts W (fun a => r <- c (a, s) ;; Some (fst r)).
  Proof.
    intros H Hs a Ha. apply wp_bind. eapply wp_mono; [apply H; auto|].
    intros r [Hr _]. exact Hr.
  Qed.
End Puts.

(** From [Puts] to the readable form. *)
Lemma place_inj n1 n2 n3 n4 m1 m2 m3 m4 n i1 i2 i3 i4 n' i1' i2' i3' i4' :
  m1 <= n1 -> m2 <= n2 -> m3 <= n3 -> m4 <= n4 ->
  0 <= i1 < m1 -> 0 <= i2 < m2 -> 0 <= i3 < m3 -> 0 <= i4 < m4 ->
  0 <= i1' < m1 -> 0 <= i2' < m2 -> 0 <= i3' < m3 -> 0 <= i4' < m4 ->
  place n1 n2 n3 n4 n i1 i2 i3 i4 = place n1 n2 n3 n4 n' i1' i2' i3' i4' ->
  n = n' /\ i1 = i1' /\ i2 = i2' /\ i3 = i3' /\ i4 = i4'.
Proof.
  intros L1 L2 L3 L4 A1 A2 A3 A4 B1 B2 B3 B4 E. unfold place in E.
  assert (K : forall d a b a' b', 0 <= b < d -> 0 <= b' < d -> a * d + b = a' * d + b' -> a = a' /\ b = b').
  { intros d a b a' b' Hb Hb' H. assert (a = a') by nia. subst. lia. }
  apply K in E; [|lia|lia]. destruct E as [E E1].
  apply K in E; [|lia|lia]. destruct E as [E E2].
  apply K in E; [|lia|lia]. destruct E as [E E3].
  apply K in E; [|lia|lia]. destruct E as [E E4]. auto.
Qed.

Lemma place_range n1 n2 n3 n4 m1 m2 m3 m4 ncomp n i1 i2 i3 i4 :
  m1 <= n1 -> m2 <= n2 -> m3 <= n3 -> m4 <= n4 -> 0 <= n < ncomp ->
  0 <= i1 < m1 -> 0 <= i2 < m2 -> 0 <= i3 < m3 -> 0 <= i4 < m4 ->
  0 <= place n1 n2 n3 n4 n i1 i2 i3 i4 < ncomp * (n1 * n2 * n3 * n4).
Proof.
  intros L1 L2 L3 L4 Hn A1 A2 A3 A4. unfold place.
  assert (K : forall d N a b, 0 <= a < N -> 0 <= b < d -> 0 <= a * d + b < N * d).
  { intros d N a b Ha Hb. nia. }
  replace (ncomp * (n1 * n2 * n3 * n4)) with (ncomp * n4 * n3 * n2 * n1) by ring.
  apply K; [|lia]. apply K; [|lia]. apply K; [|lia]. apply K; lia.
Qed.

Lemma room_full sz ncomp n1 n2 n3 n4 m1 m2 m3 m4 :
  m1 <= n1 -> m2 <= n2 -> m3 <= n3 -> m4 <= n4 -> ncomp * (n1 * n2 * n3 * n4) <= sz ->
  room sz ncomp n1 n2 n3 n4 m1 m2 m3 m4.
Proof.
  intros L1 L2 L3 L4 Hs n i1 i2 i3 i4 Hn A1 A2 A3 A4.
  pose proof (place_range n1 n2 n3 n4 m1 m2 m3 m4 ncomp n i1 i2 i3 i4 L1 L2 L3 L4 Hn A1 A2 A3 A4). lia.
Qed.
(** the last element decides *)
Lemma room_last sz ncomp n1 n2 n3 n4 m1 m2 m3 m4 :
  m1 <= n1 -> m2 <= n2 -> m3 <= n3 -> m4 <= n4 ->
  place n1 n2 n3 n4 (ncomp - 1) (m1 - 1) (m2 - 1) (m3 - 1) (m4 - 1) < sz ->
  room sz ncomp n1 n2 n3 n4 m1 m2 m3 m4.
Proof.
  intros L1 L2 L3 L4 Hs n i1 i2 i3 i4 Hn A1 A2 A3 A4. eapply Z.le_lt_trans; [|exact Hs]. unfold place.
  repeat (apply Z.add_le_mono; [apply Z.mul_le_mono_nonneg_r; [lia|]|lia]). lia.
Qed.

Section Final.
  Context {A : Type}.
  Variables ncomp n1 n2 n3 n4 m1 m2 m3 m4 : Z.
  Variable val : Z -> Z -> Z -> Z -> Z -> A.

  (** the value relation for a block, and the cells of a block *)
  Definition blkV (x : Z) (v : A) : Prop :=
    exists n i1 i2 i3 i4, 0 <= n < ncomp /\ 0 <= i1 < m1 /\ 0 <= i2 < m2 /\ 0 <= i3 < m3 /\ 0 <= i4 < m4 /\
      x = place n1 n2 n3 n4 n i1 i2 i3 i4 /\ v = val n i1 i2 i3 i4.
  Definition blkW (x : Z) : Prop :=
    exists n i1 i2 i3 i4, 0 <= n < ncomp /\ 0 <= i1 < m1 /\ 0 <= i2 < m2 /\ 0 <= i3 < m3 /\ 0 <= i4 < m4 /\
      x = place n1 n2 n3 n4 n i1 i2 i3 i4.
  Definition blkW1 (n x : Z) : Prop :=
    exists i1 i2 i3 i4, 0 <= i1 < m1 /\ 0 <= i2 < m2 /\ 0 <= i3 < m3 /\ 0 <= i4 < m4 /\
      x = place n1 n2 n3 n4 n i1 i2 i3 i4.

  Lemma Puts_stored a0 a : m1 <= n1 -> m2 <= n2 -> m3 <= n3 -> m4 <= n4 ->
    room (asize a0) ncomp n1 n2 n3 n4 m1 m2 m3 m4 ->
    Puts blkW blkV a0 a -> stored_block a0 a ncomp n1 n2 n3 n4 m1 m2 m3 m4 val.
  Proof.
    intros L1 L2 L3 L4 Hsz [Hs H]. split; [exact Hs|]. split.
    - intros n i1 i2 i3 i4 Hn A1 A2 A3 A4. apply rd_spec. split.
      + pose proof (place_range n1 n2 n3 n4 m1 m2 m3 m4 ncomp n i1 i2 i3 i4 L1 L2 L3 L4 Hn A1 A2 A3 A4).
        pose proof (Hsz n i1 i2 i3 i4 Hn A1 A2 A3 A4). lia.
      + destruct (H (place n1 n2 n3 n4 n i1 i2 i3 i4)) as [[_ [x [e v]]]|[h _]].
        * rewrite e. f_equal. destruct v as [n' [j1 [j2 [j3 [j4 [Hn' [B1 [B2 [B3 [B4 [E v]]]]]]]]]]].
          apply (place_inj n1 n2 n3 n4 m1 m2 m3 m4) in E; auto.
          destruct E as [? [? [? [? ?]]]]. subst. reflexivity.
        * exfalso. apply h. exists n, i1, i2, i3, i4. auto 10.
    - intros x Hx. destruct (H x) as [[h _]|[_ h]]; [|exact h].
      exfalso. destruct h as [n [i1 [i2 [i3 [i4 [? [? [? [? [? ?]]]]]]]]]]. apply (Hx n i1 i2 i3 i4); auto.
  Qed.
End Final.

Lemma wp_puts_stored {A} (c : arr A -> option (arr A)) ncomp n1 n2 n3 n4 m1 m2 m3 m4 val a :
  m1 <= n1 -> m2 <= n2 -> m3 <= n3 -> m4 <= n4 -> room (asize a) ncomp n1 n2 n3 n4 m1 m2 m3 m4 ->
  puts (asize a) (blkV ncomp n1 n2 n3 n4 m1 m2 m3 m4 val) (blkW ncomp n1 n2 n3 n4 m1 m2 m3 m4) c ->
  exists a', c a = Some a' /\ stored_block a a' ncomp n1 n2 n3 n4 m1 m2 m3 m4 val.
Proof.
  intros L1 L2 L3 L4 Hsz H. apply wp_exists. eapply wp_mono; [apply H; reflexivity|].
  intros r Hr. apply Puts_stored; auto.
Qed.
