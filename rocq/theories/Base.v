(** Base.v — common machinery of the model: option monad, C-style loops,
    arrays with explicit size and uninitialised cells.

    This file models the C abstract machine fragment used by libcint, not any
    particular function.  An access outside an array or a read of a cell that was
    never written makes the whole run [None]; "the run is [Some]" is therefore the
    memory-safety claim. *)
From Coq Require Export ZArith List Lia Bool.
From Coq Require Import ZifyBool.
Export ListNotations.
Open Scope Z_scope.

(** ** Option monad *)
Definition bind {A B} (m : option A) (k : A -> option B) : option B :=
  match m with Some x => k x | None => None end.
Notation "x <- m ;; k" := (bind m (fun x => k))
  (at level 61, m at next level, right associativity).

(** Weakest precondition: the run succeeds and its result satisfies [Q]. *)
Definition wp {A} (m : option A) (Q : A -> Prop) : Prop :=
  match m with Some x => Q x | None => False end.

Lemma wp_ret {A} (x : A) (Q : A -> Prop) : Q x -> wp (Some x) Q.
Proof. exact (fun H => H). Qed.

Lemma wp_bind {A B} (m : option A) (k : A -> option B) (Q : B -> Prop) :
  wp m (fun x => wp (k x) Q) -> wp (bind m k) Q.
Proof. destruct m; simpl; auto. Qed.

Lemma wp_mono {A} (m : option A) (P Q : A -> Prop) :
  wp m P -> (forall x, P x -> Q x) -> wp m Q.
Proof. destruct m; simpl; auto. Qed.

Lemma wp_exists {A} (m : option A) (Q : A -> Prop) :
  wp m Q <-> exists x, m = Some x /\ Q x.
Proof.
  destruct m as [a|]; simpl; split; intros H.
  - exists a; auto.
  - destruct H as [x [Hx HQ]]. injection Hx as ->. exact HQ.
  - contradiction.
  - destruct H as [x [Hx _]]. discriminate.
Qed.

Lemma wp_some {A} (m : option A) (Q : A -> Prop) x :
  wp m Q -> m = Some x -> Q x.
Proof. intros H ->. exact H. Qed.

Lemma wp_and {A} (m : option A) (P Q : A -> Prop) :
  wp m P -> wp m Q -> wp m (fun x => P x /\ Q x).
Proof. destruct m; simpl; auto. Qed.

(** ** Loops: [for (i = lo; i < hi; i++) s = body(i, s)] *)
Fixpoint forN {S} (n : nat) (lo : Z) (body : Z -> S -> option S) (s : S) : option S :=
  match n with
  | O => Some s
  | Datatypes.S n' => s' <- body lo s ;; forN n' (lo + 1) body s'
  end.

Definition for_ {S} (lo hi : Z) (body : Z -> S -> option S) (s : S) : option S :=
  forN (Z.to_nat (hi - lo)) lo body s.

Lemma wp_forN {S} (I : Z -> S -> Prop) n : forall lo body (s : S) (Q : S -> Prop),
  I lo s ->
  (forall i s, lo <= i < lo + Z.of_nat n -> I i s -> wp (body i s) (I (i + 1))) ->
  (forall s, I (lo + Z.of_nat n) s -> Q s) ->
  wp (forN n lo body s) Q.
Proof.
  induction n as [|n IH]; intros lo body s Q H0 Hb HQ; cbn [forN].
  - apply HQ. rewrite Z.add_0_r. exact H0.
  - apply wp_bind. assert (Hs : wp (body lo s) (I (lo + 1))) by (apply Hb; [lia|exact H0]).
    eapply wp_mono; [exact Hs|]. intros s' Hs'. apply IH.
    + exact Hs'.
    + intros i t Hi Ht. apply Hb; [lia|exact Ht].
    + intros t Ht. apply HQ. replace (lo + Z.of_nat (Datatypes.S n)) with (lo + 1 + Z.of_nat n) by lia. exact Ht.
Qed.

Lemma wp_for {S} (I : Z -> S -> Prop) lo hi body (s : S) (Q : S -> Prop) :
  lo <= hi ->
  I lo s ->
  (forall i s, lo <= i < hi -> I i s -> wp (body i s) (I (i + 1))) ->
  (forall s, I hi s -> Q s) ->
  wp (for_ lo hi body s) Q.
Proof.
  intros Hle H0 Hb HQ. unfold for_. apply wp_forN with (I := I).
  - exact H0.
  - intros i t Hi Ht. apply Hb; [lia|exact Ht].
  - intros t Ht. apply HQ. replace hi with (lo + Z.of_nat (Z.to_nat (hi - lo))) by lia. exact Ht.
Qed.

(** The same without [lo <= hi]: the loop body is then not executed. *)
Lemma wp_for' {S} (I : Z -> S -> Prop) lo hi body (s : S) (Q : S -> Prop) :
  I lo s ->
  (forall i s, lo <= i < hi -> I i s -> wp (body i s) (I (i + 1))) ->
  (forall s, I (Z.max lo hi) s -> Q s) ->
  wp (for_ lo hi body s) Q.
Proof.
  intros H0 Hb HQ. unfold for_. apply wp_forN with (I := I).
  - exact H0.
  - intros i t Hi Ht. apply Hb; [lia|exact Ht].
  - intros t Ht. apply HQ. replace (Z.max lo hi) with (lo + Z.of_nat (Z.to_nat (hi - lo))) by lia. exact Ht.
Qed.

Lemma for_nil {S} lo hi body (s : S) : hi <= lo -> for_ lo hi body s = Some s.
Proof. intros H. unfold for_. replace (Z.to_nat (hi - lo)) with O by lia. reflexivity. Qed.

Lemma for_step {S} lo hi body (s : S) : lo < hi ->
  for_ lo hi body s = (s' <- body lo s ;; for_ (lo + 1) hi body s').
Proof.
  intros H. unfold for_. replace (Z.to_nat (hi - lo)) with (Datatypes.S (Z.to_nat (hi - (lo + 1)))) by lia.
  reflexivity.
Qed.

Lemma forN_ext {S} n : forall lo (f g : Z -> S -> option S) s,
  (forall i t, lo <= i < lo + Z.of_nat n -> f i t = g i t) -> forN n lo f s = forN n lo g s.
Proof.
  induction n as [|n IH]; intros lo f g s H; cbn [forN]; [reflexivity|].
  rewrite H by lia. destruct (g lo s) as [s'|]; simpl; [|reflexivity].
  apply IH. intros i t Hi. apply H. lia.
Qed.

Lemma for_ext {S} lo hi (f g : Z -> S -> option S) s :
  (forall i t, lo <= i < hi -> f i t = g i t) -> for_ lo hi f s = for_ lo hi g s.
Proof. intros H. apply forN_ext. intros i t Hi. apply H. lia. Qed.

(** Downward loop: [for (i = hi; i >= lo; i--)]. *)
Definition fordown {S} (hi lo : Z) (body : Z -> S -> option S) (s : S) : option S :=
  for_ 0 (hi - lo + 1) (fun t => body (hi - t)) s.

Lemma wp_fordown {S} (I : Z -> S -> Prop) hi lo body (s : S) (Q : S -> Prop) :
  lo <= hi + 1 ->
  I hi s ->
  (forall i s, lo <= i <= hi -> I i s -> wp (body i s) (I (i - 1))) ->
  (forall s, I (lo - 1) s -> Q s) ->
  wp (fordown hi lo body s) Q.
Proof.
  intros Hle H0 Hb HQ. unfold fordown.
  apply wp_for with (I := fun t s => I (hi - t) s).
  - lia.
  - rewrite Z.sub_0_r. exact H0.
  - intros i t Hi Ht. eapply wp_mono; [apply Hb; [lia|exact Ht]|].
    intros x Hx. replace (hi - (i + 1)) with (hi - i - 1) by lia. exact Hx.
  - intros t Ht. apply HQ. replace (lo - 1) with (hi - (hi - lo + 1)) by lia. exact Ht.
Qed.

(** ** Arrays *)
Record arr (A : Type) := mkarr { asize : Z; acell : Z -> option A }.
Arguments mkarr {A} asize acell.
Arguments asize {A} a.
Arguments acell {A} a i.

Definition inb {A} (a : arr A) (i : Z) : bool := (0 <=? i) && (i <? asize a).

(** Reading is defined only inside the array and on written cells. *)
Definition rd {A} (a : arr A) (i : Z) : option A :=
  if inb a i then acell a i else None.

(** Writing is defined only inside the array. *)
Definition wr {A} (a : arr A) (i : Z) (v : A) : option (arr A) :=
  if inb a i then Some (mkarr (asize a) (fun j => if j =? i then Some v else acell a j))
  else None.

(** A fresh array with every cell unwritten, and one with arbitrary contents. *)
Definition uninit {A} (n : Z) : arr A := mkarr n (fun _ => None).
Definition of_fun {A} (n : Z) (f : Z -> A) : arr A := mkarr n (fun i => Some (f i)).

Lemma rd_spec {A} (a : arr A) i v :
  rd a i = Some v <-> (0 <= i < asize a /\ acell a i = Some v).
Proof.
  unfold rd. destruct (inb a i) eqn:E; unfold inb in E.
  - split; [intros H; split; [lia|exact H]|intros [_ H]; exact H].
  - split; [discriminate|intros [H _]; lia].
Qed.

Lemma rd_of_fun {A} n (f : Z -> A) i : 0 <= i < n -> rd (of_fun n f) i = Some (f i).
Proof. intros H. apply rd_spec. simpl. split; [lia|reflexivity]. Qed.

Lemma wp_rd {A} (a : arr A) i v (Q : A -> Prop) :
  rd a i = Some v -> Q v -> wp (rd a i) Q.
Proof. intros -> H. exact H. Qed.

Lemma wp_wr {A} (a : arr A) i v (Q : arr A -> Prop) :
  0 <= i < asize a ->
  (forall a', asize a' = asize a ->
     (forall j, acell a' j = if j =? i then Some v else acell a j) -> Q a') ->
  wp (wr a i v) Q.
Proof.
  intros Hi HQ. unfold wr, inb.
  destruct (0 <=? i) eqn:E1; destruct (i <? asize a) eqn:E2; simpl; try lia.
  apply HQ; reflexivity.
Qed.

Lemma wr_some {A} (a : arr A) i v : 0 <= i < asize a ->
  wr a i v = Some (mkarr (asize a) (fun j => if j =? i then Some v else acell a j)).
Proof.
  intros Hi. unfold wr, inb.
  destruct (0 <=? i) eqn:E1; destruct (i <? asize a) eqn:E2; simpl; try lia; reflexivity.
Qed.

(** [Filled addr box P spec a]: every cell [addr t] with [P t] (inside [box])
    has been written with [spec t]. *)
Section Filled.
  Context {A T : Type}.
  Variable addr : T -> Z.
  Variable box : T -> Prop.
  Variable spec : T -> A.

  Definition Filled (P : T -> Prop) (a : arr A) : Prop :=
    forall t, P t -> box t -> rd a (addr t) = Some (spec t).

  Definition InjBox : Prop := forall t u, box t -> box u -> addr t = addr u -> t = u.

  Lemma Filled_mono (P P' : T -> Prop) a :
    Filled P a -> (forall t, box t -> P' t -> P t) -> Filled P' a.
  Proof. intros H HP t Ht Hb. apply H; auto. Qed.

  Lemma Filled_wr (P P' : T -> Prop) a t0 (Q : arr A -> Prop) v :
    InjBox -> box t0 -> v = spec t0 ->
    0 <= addr t0 < asize a ->
    Filled P a ->
    (forall t, box t -> P' t -> P t \/ t = t0) ->
    (forall a', asize a' = asize a ->
       (forall j, acell a' j = if j =? addr t0 then Some v else acell a j) ->
       Filled P' a' -> Q a') ->
    wp (wr a (addr t0) v) Q.
  Proof.
    intros Hinj Hb Hv Hr HF HP HQ. apply wp_wr; [exact Hr|].
    intros a' Hs Hc. apply HQ; [exact Hs|exact Hc|].
    intros t Ht Hbt. apply rd_spec. rewrite Hs, Hc.
    destruct (addr t =? addr t0) eqn:E.
    - assert (t = t0) by (apply Hinj; auto; lia). subst t. subst v. split; [lia|reflexivity].
    - destruct (HP t Hbt Ht) as [Hp|He]; [|subst t; lia].
      apply rd_spec. exact (HF t Hp Hbt).
  Qed.

  Lemma Filled_rd (P : T -> Prop) a t (Q : A -> Prop) :
    Filled P a -> P t -> box t -> Q (spec t) -> wp (rd a (addr t)) Q.
  Proof. intros HF HP Hb HQ. rewrite (HF t HP Hb). exact HQ. Qed.
End Filled.

(** Frame: cells outside [W] keep their contents. *)
Definition Frame {A} (W : Z -> Prop) (a0 a : arr A) : Prop :=
  asize a = asize a0 /\ forall i, ~ W i -> acell a i = acell a0 i.

Lemma Frame_refl {A} W (a : arr A) : Frame W a a.
Proof. split; auto. Qed.

Lemma Frame_trans {A} W (a b c : arr A) : Frame W a b -> Frame W b c -> Frame W a c.
Proof. intros [H1 H2] [H3 H4]. split; [congruence|]. intros i Hi. rewrite H4, H2; auto. Qed.

Lemma Frame_mono {A} (W W' : Z -> Prop) (a b : arr A) :
  Frame W a b -> (forall i, W i -> W' i) -> Frame W' a b.
Proof. intros [H1 H2] HW. split; [exact H1|]. intros i Hi. apply H2. auto. Qed.

Lemma Frame_step {A} W (a0 a a' : arr A) i v :
  Frame W a0 a -> asize a' = asize a ->
  (forall j, acell a' j = if j =? i then Some v else acell a j) -> W i -> Frame W a0 a'.
Proof.
  intros [H1 H2] Hs Hc Hw. split; [congruence|]. intros j Hj. rewrite Hc.
  destruct (j =? i) eqn:E; [|apply H2; exact Hj].
  assert (j = i) by lia. subst j. contradiction.
Qed.

(** ** Mixed-radix addressing *)
Lemma radix2_inj d i j i' j' :
  0 <= i < d -> 0 <= i' < d -> i + d * j = i' + d * j' -> i = i' /\ j = j'.
Proof. intros H H' E. assert (j = j') by nia. subst. lia. Qed.

Lemma radix_bound d n i j : 0 <= i < d -> 0 <= j < n -> 0 <= i + d * j < d * n.
Proof. intros. nia. Qed.

(** Product facts used all over. *)
Lemma Zmul_le_l a b c : 0 <= c -> a <= b -> c * a <= c * b.
Proof. nia. Qed.

(** Integer sums (specification side). *)
Fixpoint zsum (n : nat) (f : Z -> Z) : Z :=
  match n with O => 0 | Datatypes.S n' => zsum n' f + f (Z.of_nat n') end.

(** Sum of [f 0 .. f (n-1)] for a [Z] bound (0 when [n <= 0]). *)
Definition Zsum (n : Z) (f : Z -> Z) : Z := zsum (Z.to_nat n) f.

Lemma Zsum_0 f n : n <= 0 -> Zsum n f = 0.
Proof. intros H. unfold Zsum. replace (Z.to_nat n) with O by lia. reflexivity. Qed.

Lemma Zsum_succ f n : 0 <= n -> Zsum (n + 1) f = Zsum n f + f n.
Proof.
  intros H. unfold Zsum. replace (Z.to_nat (n + 1)) with (Datatypes.S (Z.to_nat n)) by lia.
  cbn [zsum]. rewrite Z2Nat.id by lia. reflexivity.
Qed.

Lemma zsum_ext n f g : (forall i, 0 <= i < Z.of_nat n -> f i = g i) -> zsum n f = zsum n g.
Proof.
  induction n as [|n IH]; intros H; cbn [zsum]; [reflexivity|].
  rewrite IH by (intros; apply H; lia). rewrite H by lia. reflexivity.
Qed.

Lemma Zsum_ext n f g : (forall i, 0 <= i < n -> f i = g i) -> Zsum n f = Zsum n g.
Proof. intros H. apply zsum_ext. intros i Hi. apply H. lia. Qed.

(** ** Exact updates
    [Upd P a0 a]: compared with [a0], exactly the cells [addr t] for [t] in [P]
    (inside [box]) have been written, each with [spec t]; every other cell keeps
    its contents. *)
Section Upd.
  Context {A T : Type}.
  Variable addr : T -> Z.
  Variable box : T -> Prop.
  Variable spec : T -> A.

  Definition Upd (P : T -> Prop) (a0 a : arr A) : Prop :=
    asize a = asize a0 /\
    (forall t, box t -> P t -> acell a (addr t) = Some (spec t)) /\
    (forall x, (forall t, box t -> P t -> addr t <> x) -> acell a x = acell a0 x).

  Lemma Upd_init (P : T -> Prop) a : (forall t, box t -> ~ P t) -> Upd P a a.
  Proof.
    intros H. split; [reflexivity|]. split; [intros t Hb Hp; destruct (H t Hb Hp)|reflexivity].
  Qed.

  Lemma Upd_iff (P P' : T -> Prop) a0 a :
    Upd P a0 a -> (forall t, box t -> (P' t <-> P t)) -> Upd P' a0 a.
  Proof.
    intros [H1 [H2 H3]] HP. split; [exact H1|]. split.
    - intros t Hb Hp. apply H2; [exact Hb|apply HP; auto].
    - intros x Hx. apply H3. intros t Hb Hp. apply Hx; [exact Hb|apply HP; auto].
  Qed.

  Lemma Upd_wr (P P' : T -> Prop) a0 a t0 v (Q : arr A -> Prop) :
    InjBox addr box -> Upd P a0 a -> (forall a', Upd P' a0 a' -> Q a') ->
    box t0 -> 0 <= addr t0 < asize a0 -> v = spec t0 ->
    (forall t, box t -> (P' t <-> P t \/ t = t0)) ->
    wp (wr a (addr t0) v) Q.
  Proof.
    intros Hinj [H1 [H2 H3]] HQ Hb Hr Hv HP. apply wp_wr; [lia|].
    intros a' Hs Hc. apply HQ. split; [congruence|]. split.
    - intros t Hbt Hpt. rewrite Hc. destruct (addr t =? addr t0) eqn:E.
      + assert (t = t0) by (apply Hinj; auto; lia). congruence.
      + apply HP in Hpt; [|exact Hbt]. destruct Hpt as [Hpt|Hpt]; [apply H2; auto|subst; lia].
    - intros x Hx. rewrite Hc. destruct (x =? addr t0) eqn:E.
      + exfalso. apply (Hx t0 Hb); [apply HP; auto|lia].
      + apply H3. intros t Hbt Hpt. apply Hx; [exact Hbt|]. apply HP; auto.
  Qed.

  Lemma Upd_new (P : T -> Prop) a0 a t :
    Upd P a0 a -> box t -> P t -> 0 <= addr t < asize a0 -> rd a (addr t) = Some (spec t).
  Proof.
    intros [H1 [H2 H3]] Hb Hp Hr. apply rd_spec. split; [lia|apply H2; auto].
  Qed.

  Lemma Upd_old (P : T -> Prop) a0 a t :
    InjBox addr box -> Upd P a0 a -> box t -> ~ P t -> acell a (addr t) = acell a0 (addr t).
  Proof.
    intros Hinj [H1 [H2 H3]] Hb Hp. apply H3. intros u Hbu Hpu E.
    assert (u = t) by (apply Hinj; auto). subst. contradiction.
  Qed.

  Lemma Upd_rd_old (P : T -> Prop) a0 a t :
    InjBox addr box -> Upd P a0 a -> box t -> ~ P t -> rd a (addr t) = rd a0 (addr t).
  Proof.
    intros Hinj HU Hb Hp. pose proof (Upd_old P a0 a t Hinj HU Hb Hp) as E.
    destruct HU as [Hs _]. unfold rd, inb. rewrite Hs, E. reflexivity.
  Qed.

  Lemma Upd_Frame (P : T -> Prop) (W : Z -> Prop) a0 a :
    Upd P a0 a -> (forall t, box t -> P t -> W (addr t)) -> Frame W a0 a.
  Proof.
    intros [H1 [H2 H3]] HW. split; [exact H1|]. intros i Hi. apply H3.
    intros t Hb Hp E. subst. apply Hi. apply HW; auto.
  Qed.
End Upd.

(** [for (j = lo; j < hi; j += step)], [step > 0]; [for_by_end] is the value of
    [j] after the loop. *)
Definition for_by_count (lo hi step : Z) : Z := Z.max 0 ((hi - lo + step - 1) / step).
Definition for_by {S} (lo hi step : Z) (body : Z -> S -> option S) (s : S) : option S :=
  for_ 0 (for_by_count lo hi step) (fun t => body (lo + step * t)) s.
Definition for_by_end (lo hi step : Z) : Z := lo + step * for_by_count lo hi step.

(** Left-to-right sums with an arbitrary (law-free) addition. *)
Section Lsum.
  Context {F : Type} (zero : F) (add : F -> F -> F).
  Fixpoint lsumN (n : nat) (f : Z -> F) : F :=
    match n with O => zero | S n' => add (lsumN n' f) (f (Z.of_nat n')) end.
  Definition lsum (n : Z) (f : Z -> F) : F := lsumN (Z.to_nat n) f.
  Lemma lsum_0 f n : n <= 0 -> lsum n f = zero.
  Proof. intros H. unfold lsum. replace (Z.to_nat n) with O by lia. reflexivity. Qed.
  Lemma lsum_succ f n : 0 <= n -> lsum (n + 1) f = add (lsum n f) (f n).
  Proof.
    intros H. unfold lsum. replace (Z.to_nat (n + 1)) with (S (Z.to_nat n)) by lia.
    cbn [lsumN]. rewrite Z2Nat.id by lia. reflexivity.
  Qed.
  Lemma lsum_ext n f g : (forall i, 0 <= i < n -> f i = g i) -> lsum n f = lsum n g.
  Proof.
    intros H. unfold lsum.
    assert (H' : forall i, 0 <= i < Z.of_nat (Z.to_nat n) -> f i = g i) by (intros; apply H; lia).
    clear H. induction (Z.to_nat n) as [|k IH]; cbn [lsumN]; [reflexivity|].
    rewrite IH by (intros; apply H'; lia). rewrite H' by lia. reflexivity.
  Qed.
End Lsum.

(** Variants of [Upd_wr] that may change the specification of the rewritten cell. *)
Lemma Upd_wrg {A T} (addr : T -> Z) (box : T -> Prop) (spec spec' : T -> A)
    (P P' : T -> Prop) a0 a t0 v (Q : arr A -> Prop) :
  InjBox addr box -> Upd addr box spec P a0 a ->
  (forall a', Upd addr box spec' P' a0 a' -> Q a') ->
  box t0 -> 0 <= addr t0 < asize a0 ->
  v = spec' t0 ->
  (forall t, box t -> P t -> addr t <> addr t0 -> spec' t = spec t) ->
  (forall t, box t -> (P' t <-> P t \/ t = t0)) ->
  wp (wr a (addr t0) v) Q.
Proof.
  intros Hinj [H1 [H2 H3]] HQ Hb Hr Hv Hsp HP. apply wp_wr; [lia|].
  intros a' Hs Hc. apply HQ. split; [congruence|]. split.
  - intros t Hbt Hpt. rewrite Hc. destruct (addr t =? addr t0) eqn:E.
    + assert (t = t0) by (apply Hinj; auto; lia). congruence.
    + apply HP in Hpt; [|exact Hbt]. destruct Hpt as [Hpt|Hpt]; [|subst; lia].
      rewrite Hsp by (auto; lia). apply H2; auto.
  - intros x Hx. rewrite Hc. destruct (x =? addr t0) eqn:E.
    + exfalso. apply (Hx t0 Hb); [apply HP; auto|lia].
    + apply H3. intros t Hbt Hpt. apply Hx; [exact Hbt|]. apply HP; auto.
Qed.

Lemma Upd_spec {A T} (addr : T -> Z) (box : T -> Prop) (spec spec' : T -> A) (P P' : T -> Prop) a0 a :
  Upd addr box spec P a0 a -> (forall t, box t -> (P' t <-> P t)) ->
  (forall t, box t -> P t -> spec' t = spec t) -> Upd addr box spec' P' a0 a.
Proof.
  intros [H1 [H2 H3]] HP Hs. split; [exact H1|]. split.
  - intros t Hb Hp. apply HP in Hp; [|exact Hb]. rewrite Hs by auto. apply H2; auto.
  - intros x Hx. apply H3. intros t Hb Hp. apply Hx; [exact Hb|apply HP; auto].
Qed.
