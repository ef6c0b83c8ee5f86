(** SpinorFill.v — loops that fill several arrays in step.

    [get s x] is what the state holds at address x (for instance the contents of the same
    cell of two arrays).  [Fill W v s0 s]: compared with s0, state s holds v at the
    addresses in W and is otherwise unchanged. *)
From Verif Require Import Base OutModel SpinorModel.

Section View.
  Context {S G V : Type}.
  Variable get : S -> Z -> G.
  Variable emb : V -> G.
  Variable dom : Z -> Prop.
  Variable rest : S -> S -> Prop.
  Hypothesis rest_refl : forall s, rest s s.
  Hypothesis rest_trans : forall a b c, rest a b -> rest b c -> rest a c.

  Definition Fill (W : Z -> Prop) (v : Z -> V) (s0 s : S) : Prop :=
    rest s0 s /\ forall x, dom x -> (W x -> get s x = emb (v x)) /\ (~ W x -> get s x = get s0 x).

  Lemma Fill_none W v s : (forall x, ~ W x) -> Fill W v s s.
  Proof. intros H. split; [apply rest_refl|]. intros x _. split; [intros h; destruct (H x h)|reflexivity]. Qed.

  Lemma Fill_ext (W W' : Z -> Prop) v v' s0 s : Fill W v s0 s ->
    (forall x, dom x -> (W' x <-> W x)) -> (forall x, dom x -> W x -> v' x = v x) -> Fill W' v' s0 s.
  Proof.
    intros [H1 H2] E1 E2. split; [exact H1|]. intros x Hx. destruct (H2 x Hx) as [A B]. split.
    - intros h. apply E1 in h; [|exact Hx]. rewrite E2 by auto. auto.
    - intros h. apply B. intros k. apply h, E1; auto.
  Qed.

  Lemma Fill_over (W1 W2 : Z -> Prop) v1 v2 a b c : Fill W1 v1 a b -> Fill W2 v2 b c ->
    (forall x, dom x -> W1 x -> W2 x) -> Fill W2 v2 a c.
  Proof.
    intros [A1 A2] [B1 B2] H. split; [eapply rest_trans; eauto|].
    intros x Hx. destruct (A2 x Hx) as [P Q], (B2 x Hx) as [P' Q']. split; [exact P'|].
    intros h. rewrite Q' by exact h. apply Q. intros k. apply h, H; auto.
  Qed.

  (** a loop whose iterations fill disjoint sets *)
  Lemma Fill_loop n (W : Z -> Z -> Prop) v body s0 : 0 <= n ->
    (forall m m' x, 0 <= m < n -> 0 <= m' < n -> dom x -> W m x -> W m' x -> m = m') ->
    (forall m s, 0 <= m < n -> rest s0 s -> (forall x, dom x -> W m x -> get s x = get s0 x) ->
       wp (body m s) (Fill (W m) v s)) ->
    wp (for_ 0 n body s0) (Fill (fun x => exists m, 0 <= m < n /\ W m x) v s0).
  Proof.
    intros Hn Hd Hb.
    eapply (wp_for (fun i s => Fill (fun x => exists m, 0 <= m < i /\ W m x) v s0 s)); [exact Hn| | |].
    - apply Fill_none. intros x [m [Hm _]]. lia.
    - intros i s Hi [R1 R2].
      assert (Hs : forall x, dom x -> W i x -> get s x = get s0 x).
      { intros x Hx Hw. apply R2; [exact Hx|]. intros [m [Hm h]].
        assert (m = i) by (apply (Hd m i x); auto; lia). lia. }
      eapply wp_mono; [apply Hb; auto|]. intros t [T1 T2]. split; [eapply rest_trans; eauto|].
      intros x Hx. destruct (T2 x Hx) as [P Q]. destruct (R2 x Hx) as [P' Q']. split.
      + intros [m [Hm h]]. destruct (Z.eq_dec m i) as [->|E]; [auto|].
        rewrite Q; [apply P'; exists m; split; [lia|exact h]|].
        intros k. assert (m = i) by (apply (Hd m i x); auto; lia). lia.
      + intros h. rewrite Q; [apply Q'|].
        * intros [m [Hm k]]. apply h. exists m. split; [lia|exact k].
        * intros k. apply h. exists i. split; [lia|exact k].
    - intros s H. exact H.
  Qed.

  (** consecutive intervals: iteration m fills [p m, p (m+1)) *)
  Lemma Fill_seq n (p : Z -> Z) v body s0 : 0 <= n ->
    (forall m, 0 <= m < n -> p m <= p (m + 1)) ->
    (forall m s, 0 <= m < n -> rest s0 s -> (forall x, dom x -> p m <= x < p (m + 1) -> get s x = get s0 x) ->
       wp (body m s) (Fill (fun x => p m <= x < p (m + 1)) v s)) ->
    wp (for_ 0 n body s0) (Fill (fun x => p 0 <= x < p n) v s0).
  Proof.
    intros Hn Hp Hb.
    assert (Hmono : forall a b, 0 <= a -> a <= b -> b <= n -> p a <= p b).
    { intros a b Ha Hab Hbn. assert (G0 : forall k, (0 <= k)%nat -> a + Z.of_nat k <= n -> p a <= p (a + Z.of_nat k)).
      { induction k as [|k IH]; intros _ H; [replace (a + Z.of_nat 0) with a by lia; lia|].
        etransitivity; [apply IH; lia|]. replace (a + Z.of_nat (Datatypes.S k)) with (a + Z.of_nat k + 1) by lia.
        apply Hp. lia. }
      specialize (G0 (Z.to_nat (b - a))). replace (a + Z.of_nat (Z.to_nat (b - a))) with b in G0 by lia. apply G0; lia. }
    eapply wp_mono; [apply (Fill_loop n (fun m x => p m <= x < p (m + 1)) v); [exact Hn| |exact Hb]|].
    - intros m m' x Hm Hm' _ h k. destruct (Z_lt_le_dec m m') as [L|L].
      + pose proof (Hmono (m + 1) m' ltac:(lia) ltac:(lia) ltac:(lia)). lia.
      + destruct (Z_lt_le_dec m' m) as [L'|L']; [|lia].
        pose proof (Hmono (m' + 1) m ltac:(lia) ltac:(lia) ltac:(lia)). lia.
    - intros s H. eapply Fill_ext; [exact H| |reflexivity].
      intros x _. split.
      + intros Hx. assert (E : forall k, (Z.of_nat k <= n) -> p 0 <= x < p (Z.of_nat k) ->
            exists m, 0 <= m < Z.of_nat k /\ p m <= x < p (m + 1)).
        { induction k as [|k IH]; intros Hk h; [change (Z.of_nat 0) with 0 in h; lia|].
          destruct (Z_lt_le_dec x (p (Z.of_nat k))) as [L|L].
          - destruct IH as [m [Hm hm]]; [lia|lia|]. exists m. split; [lia|exact hm].
          - exists (Z.of_nat k). split; [lia|]. replace (Z.of_nat k + 1) with (Z.of_nat (Datatypes.S k)) by lia. lia. }
        specialize (E (Z.to_nat n)). rewrite Z2Nat.id in E by lia. apply E; [lia|exact Hx].
      + intros [m [Hm h]]. pose proof (Hmono 0 m ltac:(lia) ltac:(lia) ltac:(lia)).
        pose proof (Hmono (m + 1) n ltac:(lia) ltac:(lia) ltac:(lia)). lia.
  Qed.

  (** a loop that changes the values on one set *)
  Lemma Fill_acc n (W : Z -> Prop) (v : Z -> Z -> V) body s0 s : 0 <= n ->
    Fill W (v 0) s0 s ->
    (forall i s, 0 <= i < n -> Fill W (v i) s0 s -> wp (body i s) (Fill W (v (i + 1)) s0)) ->
    wp (for_ 0 n body s) (Fill W (v n) s0).
  Proof.
    intros Hn H0 H. eapply (wp_for (fun i s => Fill W (v i) s0 s)); [exact Hn|exact H0| |].
    - intros i t Hi Ht. apply H; auto.
    - auto.
  Qed.
End View.

(** ** Views *)
Section Arrays.
  Context {F : Type}.
  Notation st := (arr F * arr F)%type.

  (** two arrays, same cell *)
  Definition get2 (s : st) (x : Z) : option F * option F := (acell (fst s) x, acell (snd s) x).
  Definition emb2 (v : F * F) : option F * option F := (Some (fst v), Some (snd v)).
  Definition rest2 (s t : st) : Prop := asize (fst t) = asize (fst s) /\ asize (snd t) = asize (snd s).
  Definition all_ (x : Z) : Prop := True.
  Notation Fill2 := (Fill get2 emb2 all_ rest2).

  Lemma rest2_refl s : rest2 s s. Proof. split; reflexivity. Qed.
  Lemma rest2_trans a b c : rest2 a b -> rest2 b c -> rest2 a c.
  Proof. intros [A B] [C D]. split; congruence. Qed.

  Lemma wr2 (a i : arr F) x (v w : F) (u : Z -> F * F) : 0 <= x < asize a -> 0 <= x < asize i -> u x = (v, w) ->
    wp (r <- wr a x v ;; m <- wr i x w ;; Some (r, m)) (Fill2 (fun y => y = x) u (a, i)).
  Proof.
    intros Ha Hi Hu. apply wp_bind. apply wp_wr; [exact Ha|]. intros a' S1 C1.
    apply wp_bind. apply wp_wr; [exact Hi|]. intros i' S2 C2. cbn [wp]. split; [split; cbn [fst snd]; auto|].
    intros y _. unfold get2. cbn [fst snd]. rewrite C1, C2. split.
    - intros ->. rewrite Z.eqb_refl, Hu. reflexivity.
    - intros h. replace (y =? x) with false by lia. reflexivity.
  Qed.

  (** four cells: x and x + b of two arrays *)
  Variable b : Z.
  Definition V4 : Type := (F * F * F * F)%type.
  Definition get4 (s : st) (x : Z) :=
    (acell (fst s) x, acell (snd s) x, acell (fst s) (b + x), acell (snd s) (b + x)).
  Definition emb4 (v : V4) := let '(p, q, r, t) := v in (Some p, Some q, Some r, Some t).
  Definition dom4 (x : Z) : Prop := 0 <= x < b.
  Definition rest4 (s t : st) : Prop :=
    rest2 s t /\ forall x, ~ (0 <= x < b + b) -> acell (fst t) x = acell (fst s) x /\ acell (snd t) x = acell (snd s) x.
  Lemma rest4_refl s : rest4 s s. Proof. split; [apply rest2_refl|auto]. Qed.
  Lemma rest4_trans u v w : rest4 u v -> rest4 v w -> rest4 u w.
  Proof.
    intros [A B] [C D]. split; [eapply rest2_trans; eauto|]. intros x Hx.
    destruct (B x Hx), (D x Hx). split; congruence.
  Qed.
  Notation Fill4 := (Fill get4 emb4 dom4 rest4).

  Lemma wr4 (a i : arr F) x (p q r t : F) (u : Z -> V4) :
    0 <= x < b -> b + b <= asize a -> b + b <= asize i -> u x = (p, q, r, t) ->
    wp (a <- wr a x p ;; i <- wr i x q ;; a <- wr a (b + x) r ;; i <- wr i (b + x) t ;; Some (a, i))
       (Fill4 (fun y => y = x) u (a, i)).
  Proof.
    intros Hx Ha Hi Hu.
    apply wp_bind. apply wp_wr; [lia|]. intros a1 S1 C1.
    apply wp_bind. apply wp_wr; [lia|]. intros i1 S2 C2.
    apply wp_bind. apply wp_wr; [lia|]. intros a2 S3 C3.
    apply wp_bind. apply wp_wr; [lia|]. intros i2 S4 C4.
    cbn [wp]. split.
    - split; [split; cbn [fst snd]; congruence|]. intros y Hy. cbn [fst snd]. rewrite C3, C4, C1, C2.
      replace (y =? b + x) with false by lia. replace (y =? x) with false by lia. auto.
    - intros y Hy. unfold dom4 in Hy. unfold get4. cbn [fst snd]. rewrite !C3, !C4, !C1, !C2.
      replace (y =? b + x) with false by lia. replace (b + y =? x) with false by lia.
      replace (b + y =? b + x) with (y =? x) by lia. split.
      + intros ->. rewrite Z.eqb_refl, Hu. reflexivity.
      + intros h. replace (y =? x) with false by lia. reflexivity.
  Qed.
End Arrays.
