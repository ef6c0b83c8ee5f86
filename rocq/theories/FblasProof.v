(** FblasProof.v — proofs about src/fblas.c. *)
From Verif Require Import Base FblasModel FblasSpec.
From Coq Require Import ZifyBool.
Ltac Zify.zify_post_hook ::= Z.div_mod_to_equations.

Definition mad (ld : Z) (p : Z * Z) : Z := fst p + ld * snd p.
Definition mbox (r c : Z) (p : Z * Z) : Prop := 0 <= fst p < r /\ 0 <= snd p < c.

Lemma mad_inj ld r c : r <= ld -> InjBox (mad ld) (mbox r c).
Proof.
  intros Hld [i j] [i' j'] [H1 H2] [H3 H4] E. unfold mad in E. cbn [fst snd] in *.
  destruct (radix2_inj ld i j i' j'); try lia. congruence.
Qed.

Lemma mad_range ld r c i j : r <= ld -> 0 <= i < r -> 0 <= j < c -> 0 <= i + ld * j < ld * (c - 1) + r.
Proof. intros. nia. Qed.

(** Turning an exact update of the whole box into [stored_exactly]. *)
Lemma Upd_stored {F} (a0 a : arr F) ld r c spec P :
  Upd (mad ld) (mbox r c) spec P a0 a -> (forall t, mbox r c t -> P t) ->
  r <= ld -> (0 < r -> 0 < c -> ld * (c - 1) + r <= asize a0) ->
  stored_exactly a0 a ld r c (fun i j => spec (i, j)).
Proof.
  intros [H1 [H2 H3]] HP Hld Hsz. split; [exact H1|]. split.
  - intros i j Hi Hj. apply rd_spec. split.
    + pose proof (mad_range ld r c i j Hld Hi Hj). lia.
    + apply (H2 (i, j)); [split; assumption|apply HP; split; assumption].
  - intros x Hx. apply H3. intros [i j] [Hi Hj] _. cbn [fst snd] in *. intros E. apply (Hx i j Hi Hj).
    symmetry. exact E.
Qed.


Section S0.
  Context {F : Type} (zero : F).
  Lemma dset0_ok n x : 0 <= n <= asize x ->
    exists x', CINTdset0 zero n x = Some x' /\ asize x' = asize x /\
      (forall i, 0 <= i < n -> rd x' i = Some zero) /\
      (forall i, ~ (0 <= i < n) -> acell x' i = acell x i).
  Proof.
    intros Hn. apply wp_exists. unfold CINTdset0.
    set (Bx := fun i => 0 <= i < n).
    assert (Hinj : InjBox (fun i : Z => i) Bx) by (intros i j _ _ E; exact E).
    apply wp_for with (I := fun i a => Upd (fun i => i) Bx (fun _ => zero) (fun j => j < i) x a).
    - lia.
    - apply Upd_init. unfold Bx. intros. lia.
    - intros i a Hi Ha. eapply (Upd_wr (fun i => i)); [exact Hinj|exact Ha|intros a' Ha'; exact Ha'| | | |].
      + unfold Bx. lia.
      + cbv beta. lia.
      + reflexivity.
      + intros t Ht. cbv beta. lia.
    - intros a Ha. split; [apply Ha|]. split.
      + intros i Hi. pose proof (proj1 Ha) as Hsa. apply rd_spec. split; [lia|]. apply (proj1 (proj2 Ha) i); [exact Hi|cbv beta; lia].
      + intros i Hi. apply Ha. intros t Ht _ E. unfold Bx in Ht. lia.
  Qed.

End S0.

Section S1.
  Context {F : Type} (add mul : F -> F -> F).
  Lemma daxpy2v_ok n al (x y v : arr F) xv yv : 0 <= n <= asize v ->
    (forall i, 0 <= i < n -> rd x i = Some (xv i)) ->
    (forall i, 0 <= i < n -> rd y i = Some (yv i)) ->
    exists v', CINTdaxpy2v add mul n al x y v = Some v' /\ asize v' = asize v /\
      (forall i, 0 <= i < n -> rd v' i = Some (add (mul al (xv i)) (yv i))) /\
      (forall i, ~ (0 <= i < n) -> acell v' i = acell v i).
  Proof.
    intros Hn Hx Hy. apply wp_exists. unfold CINTdaxpy2v.
    set (Bx := fun i => 0 <= i < n).
    assert (Hinj : InjBox (fun i : Z => i) Bx) by (intros i j _ _ E; exact E).
    apply wp_for with (I := fun i a => Upd (fun i => i) Bx (fun i => add (mul al (xv i)) (yv i)) (fun j => j < i) v a).
    - lia.
    - apply Upd_init. unfold Bx. intros. lia.
    - intros i a Hi Ha. rewrite Hx, Hy by lia. cbn [bind].
      eapply (Upd_wr (fun i => i)); [exact Hinj|exact Ha|intros a' Ha'; exact Ha'| | | |].
      + unfold Bx. lia.
      + cbv beta. lia.
      + reflexivity.
      + intros t Ht. cbv beta. lia.
    - intros a Ha. split; [apply Ha|]. split.
      + intros i Hi. pose proof (proj1 Ha) as Hsa. apply rd_spec. split; [lia|]. apply (proj1 (proj2 Ha) i); [exact Hi|cbv beta; lia].
      + intros i Hi. apply Ha. intros t Ht _ E. unfold Bx in Ht. lia.
  Qed.

End S1.

Section S2.
  Context {F : Type}.
  (** *** Transposes: the loop structure shared by both blocked transposes. *)
  Definition blocked4 (step : Z -> Z -> arr F -> option (arr F)) (m n : Z) (t : arr F) : option (arr F) :=
    t <- for_by 0 (n - 3) 4 (fun j t =>
           for_ 0 m (fun i t =>
             t <- step i (j + 0) t ;; t <- step i (j + 1) t ;;
             t <- step i (j + 2) t ;; step i (j + 3) t) t) t ;;
    let j := for_by_end 0 (n - 3) 4 in
    match n - j with
    | 1 => for_ 0 m (fun i t => step i j t) t
    | 2 => for_ 0 m (fun i t => t <- step i (j + 0) t ;; step i (j + 1) t) t
    | 3 => for_ 0 m (fun i t => t <- step i (j + 0) t ;; t <- step i (j + 1) t ;;
                                step i (j + 2) t) t
    | _ => Some t
    end.

  Section Blocked.
    Variables (m n : Z) (t0 : arr F) (step : Z -> Z -> arr F -> option (arr F)) (V : Z -> Z -> F).
    Hypothesis Hm : 0 <= m.
    Hypothesis Hn : 0 <= n.
    Hypothesis Hsz : m * n <= asize t0.
    (* destination: a_t[j*m+i], column-major with leading dimension m *)
    Definition U (P : Z * Z -> Prop) (t : arr F) : Prop :=
      Upd (mad m) (mbox m n) (fun p => V (fst p) (snd p)) P t0 t.
    (* one step writes cell (i,j), provided it has not been written before *)
    Hypothesis step_ok : forall i j (P P' : Z * Z -> Prop) t (Q : arr F -> Prop),
      0 <= i < m -> 0 <= j < n -> U P t -> ~ P (i, j) ->
      (forall p, mbox m n p -> (P' p <-> P p \/ p = (i, j))) ->
      (forall t', U P' t' -> Q t') ->
      wp (step i j t) Q.

    (* the strip of columns [e, e+w), rows < i *)
    Definition strip (e w i : Z) (p : Z * Z) : Prop := snd p < e \/ (snd p < e + w /\ fst p < i).
    Definition strip' (e w i d : Z) (p : Z * Z) : Prop :=
      strip e w i p \/ (fst p = i /\ snd p < e + d).

    Lemma strip_step e w i d t (Q : arr F -> Prop) :
      0 <= i < m -> 0 <= e -> 0 <= d < w -> e + w <= n -> U (strip' e w i d) t ->
      (forall t', U (strip' e w i (d + 1)) t' -> Q t') ->
      wp (step i (e + d) t) Q.
    Proof.
      intros Hi He Hd Hw HU HQ. eapply step_ok; [lia|lia|exact HU| | |exact HQ].
      - unfold strip', strip. cbn [fst snd]. lia.
      - intros [i' j'] [H1 H2]. unfold strip', strip in *. cbn [fst snd] in *. split.
        + intros H. assert (Hc : (i' = i /\ j' = e + d) \/
             ((j' < e \/ j' < e + w /\ i' < i) \/ i' = i /\ j' < e + d)) by lia.
          destruct Hc as [[-> ->]|Hc]; auto.
        + intros [H|H]; [lia|]. injection H as -> ->. lia.
    Qed.

    Lemma strip_start e w i t : 0 <= w -> U (strip e w i) t -> U (strip' e w i 0) t.
    Proof.
      intros Hw HU. eapply Upd_iff; [exact HU|]. intros [i' j'] [H1 H2].
      unfold strip', strip. cbn [fst snd] in *. lia.
    Qed.
    Lemma strip_stop e w i t : 0 <= w -> U (strip' e w i w) t -> U (strip e w (i + 1)) t.
    Proof.
      intros Hw HU. eapply Upd_iff; [exact HU|]. intros [i' j'] [H1 H2].
      unfold strip', strip. cbn [fst snd] in *. lia.
    Qed.

    Lemma strip_loop e w body t (Q : arr F -> Prop) : 0 <= e -> 0 <= w -> e + w <= n ->
      (forall i t, 0 <= i < m -> U (strip' e w i 0) t -> wp (body i t) (U (strip' e w i w))) ->
      U (fun p => snd p < e) t -> (forall t', U (fun p => snd p < e + w) t' -> Q t') ->
      wp (for_ 0 m body t) Q.
    Proof.
      intros He Hw Hn' Hb HU HQ.
      apply wp_for with (I := fun i t => U (strip e w i) t).
      - exact Hm.
      - eapply Upd_iff; [exact HU|]. intros [i j] [H1 H2]. unfold strip. cbn [fst snd] in *. lia.
      - intros i t' Hi Ht'. eapply wp_mono; [apply Hb; [exact Hi|apply strip_start; auto]|].
        intros t'' Ht''. apply strip_stop; auto.
      - intros t' Ht'. apply HQ. eapply Upd_iff; [exact Ht'|].
        intros [i j] [H1 H2]. unfold strip. cbn [fst snd] in *. lia.
    Qed.

    Lemma blocked4_ok : exists t', blocked4 step m n t0 = Some t' /\ stored_exactly t0 t' m m n V.
    Proof.
      apply wp_exists. unfold blocked4.
      set (e := for_by_end 0 (n - 3) 4).
      assert (Hc : for_by_count 0 (n - 3) 4 = n / 4) by (unfold for_by_count; lia).
      assert (He : e = 4 * (n / 4)) by (unfold e, for_by_end; lia).
      apply wp_bind. unfold for_by. rewrite Hc.
      apply wp_for with (I := fun k t => U (fun p => snd p < 4 * k) t).
      - lia.
      - apply Upd_init. intros [i j] [H1 H2]. cbn [fst snd] in *. lia.
      - intros k t Hk Ht. rewrite !Z.add_0_l.
        apply strip_loop with (e := 4 * k) (w := 4); [lia|lia|lia| |exact Ht|].
        + clear t Ht. intros i t Hi Ht.
          apply wp_bind. apply strip_step with (w := 4) (d := 0); [lia..|exact Ht|]. clear t Ht. intros t Ht.
          apply wp_bind. apply strip_step with (w := 4) (d := 1); [lia..|exact Ht|]. clear t Ht. intros t Ht.
          apply wp_bind. apply strip_step with (w := 4) (d := 2); [lia..|exact Ht|]. clear t Ht. intros t Ht.
          apply strip_step with (w := 4) (d := 3); [lia..|exact Ht|]. auto.
        + intros t' Ht'. eapply Upd_iff; [exact Ht'|]. intros [i j] _. cbn [fst snd]. lia.
      - intros t Ht. rewrite <- He in Ht.
        assert (Hr : n - e = 0 \/ n - e = 1 \/ n - e = 2 \/ n - e = 3) by lia.
        assert (Hfin : forall t', U (fun p => snd p < n) t' -> stored_exactly t0 t' m m n V).
        { intros t' Ht'. apply (Upd_stored t0 t' m m n (fun p => V (fst p) (snd p)) (fun p => snd p < n));
            [exact Ht'|intros [i j] [H1 H2]; cbn [fst snd] in *; lia|lia|intros; nia]. }
        assert (Hend : forall w t', n - e = w -> U (fun p => snd p < e + w) t' -> stored_exactly t0 t' m m n V).
        { intros w t' Hw Ht'. apply Hfin. replace (e + w) with n in Ht' by lia. exact Ht'. }
        destruct Hr as [Hr|[Hr|[Hr|Hr]]]; rewrite Hr.
        + apply Hfin. replace n with e by lia. exact Ht.
        + apply strip_loop with (e := e) (w := 1); [lia|lia|lia| |exact Ht|intros; eapply Hend; eauto].
          clear t Ht. intros i t Hi Ht. rewrite <- (Z.add_0_r e) at 1.
          apply strip_step with (w := 1) (d := 0); [lia..|exact Ht|]. auto.
        + apply strip_loop with (e := e) (w := 2); [lia|lia|lia| |exact Ht|intros; eapply Hend; eauto].
          clear t Ht. intros i t Hi Ht.
          apply wp_bind. apply strip_step with (w := 2) (d := 0); [lia..|exact Ht|]. clear t Ht. intros t Ht.
          apply strip_step with (w := 2) (d := 1); [lia..|exact Ht|]. auto.
        + apply strip_loop with (e := e) (w := 3); [lia|lia|lia| |exact Ht|intros; eapply Hend; eauto].
          clear t Ht. intros i t Hi Ht.
          apply wp_bind. apply strip_step with (w := 3) (d := 0); [lia..|exact Ht|]. clear t Ht. intros t Ht.
          apply wp_bind. apply strip_step with (w := 3) (d := 1); [lia..|exact Ht|]. clear t Ht. intros t Ht.
          apply strip_step with (w := 3) (d := 2); [lia..|exact Ht|]. auto.
    Qed.
  End Blocked.

  Lemma tr_range m n (t0 : arr F) i j : m * n <= asize t0 -> 0 <= i < m -> 0 <= j < n ->
    0 <= mad m (i, j) < asize t0.
  Proof. intros. unfold mad. simpl. nia. Qed.

  (** [a] stores a row-major [m x n] matrix: element (i,j) at [i*n+j]. *)
  Lemma transpose_ok m n a t0 (M : Z -> Z -> F) : 0 <= m -> 0 <= n ->
    holds a n n m (fun j i => M i j) -> m * n <= asize t0 ->
    exists t', CINTdmat_transpose t0 a m n = Some t' /\ stored_exactly t0 t' m m n M.
  Proof.
    intros Hm Hn Ha Hsz. change (CINTdmat_transpose t0 a m n) with (blocked4 (tr1 a m n) m n t0).
    apply blocked4_ok; auto.
    intros i j P P' t Q Hi Hj HU _ HP HQ. unfold tr1. apply wp_bind.
    replace (i * n + j) with (j + n * i) by ring.
    eapply wp_rd; [apply Ha; lia|].
    replace (j * m + i) with (mad m (i, j)) by (unfold mad; simpl; ring).
    eapply (Upd_wr (mad m)); [eapply mad_inj with (r := m) (c := n); lia|exact HU|exact HQ|split; cbn [fst snd]; lia| |reflexivity|exact HP].
    eapply tr_range; eauto.
  Qed.

End S2.

Section S3.
  Context {F : Type} (add : F -> F -> F).
  Lemma plus_transpose_ok m n a t0 (M T : Z -> Z -> F) : 0 <= m -> 0 <= n ->
    holds a n n m (fun j i => M i j) -> m * n <= asize t0 -> holds t0 m m n T ->
    exists t', CINTdplus_transpose add t0 a m n = Some t' /\
      stored_exactly t0 t' m m n (fun i j => add (T i j) (M i j)).
  Proof.
    intros Hm Hn Ha Hsz HT. change (CINTdplus_transpose add t0 a m n) with (blocked4 (ptr1 add a m n) m n t0).
    apply blocked4_ok; auto.
    intros i j P P' t Q Hi Hj HU Hnp HP HQ. unfold ptr1. apply wp_bind.
    replace (i * n + j) with (j + n * i) by ring.
    eapply wp_rd; [apply Ha; lia|]. apply wp_bind.
    replace (j * m + i) with (mad m (i, j)) by (unfold mad; simpl; ring).
    erewrite Upd_rd_old; [|apply (mad_inj m m n); lia|exact HU|split; cbn [fst snd]; lia|exact Hnp].
    eapply wp_rd; [apply HT; simpl; lia|].
    eapply (Upd_wr (mad m)); [eapply mad_inj with (r := m) (c := n); lia|exact HU|exact HQ|split; cbn [fst snd]; lia| |reflexivity|exact HP].
    eapply tr_range; eauto.
  Qed.

End S3.

Section S4.
  Context {F : Type}.
  (** Simple double loop writing [f (i) (j)] to column-major cell (j, i). *)
  Lemma double_loop_ok m n (t0 : arr F) (V : Z -> Z -> F) (get : Z -> Z -> option F) : 0 <= m -> 0 <= n ->
    m * n <= asize t0 ->
    (forall i j, 0 <= i < n -> 0 <= j < m -> get i j = Some (V j i)) ->
    exists t', for_ 0 n (fun i t => for_ 0 m (fun j t => v <- get i j ;; wr t (i * m + j) v) t) t0 = Some t'
      /\ stored_exactly t0 t' m m n V.
  Proof.
    intros Hm Hn Hsz Hg. apply wp_exists.
    apply wp_for with (I := fun i t => Upd (mad m) (mbox m n) (fun p => V (fst p) (snd p)) (fun p => snd p < i) t0 t).
    - exact Hn.
    - apply Upd_init. intros [i j] [H1 H2]. cbn [fst snd] in *. lia.
    - intros i t Hi Ht.
      apply wp_for with (I := fun j t => Upd (mad m) (mbox m n) (fun p => V (fst p) (snd p))
         (fun p => snd p < i \/ (snd p = i /\ fst p < j)) t0 t).
      + exact Hm.
      + eapply Upd_iff; [exact Ht|]. intros [i' j'] [H1 H2]. cbn [fst snd] in *. lia.
      + clear t Ht. intros j t Hj Ht. rewrite Hg by lia. cbn [bind].
        replace (i * m + j) with (mad m (j, i)) by (unfold mad; simpl; ring).
        eapply (Upd_wr (mad m)); [eapply mad_inj with (r := m) (c := n); lia|exact Ht|intros t' Ht'; exact Ht'|split; cbn [fst snd]; lia| |reflexivity|].
        { eapply tr_range; eauto. }
        intros [i' j'] [H1 H2]. cbn [fst snd] in *. split.
        * intros H. assert (Hc : (i' = j /\ j' = i) \/ (j' < i \/ j' = i /\ i' < j)) by lia.
          destruct Hc as [[-> ->]|Hc]; auto.
        * intros [H|H]; [lia|]. injection H as -> ->. lia.
      + intros t' Ht'. eapply Upd_iff; [exact Ht'|]. intros [i' j'] [H1 H2]. cbn [fst snd] in *. lia.
    - intros t Ht. apply (Upd_stored t0 t m m n (fun p => V (fst p) (snd p)) (fun p => snd p < n));
        [exact Ht|intros [i j] [H1 H2]; cbn [fst snd] in *; lia|lia|intros; nia].
  Qed.

End S4.

Section S5.
  Context {F : Type} (conj : F -> F).
  Lemma dagger_ok m n a t0 (M : Z -> Z -> F) : 0 <= m -> 0 <= n ->
    holds a n n m (fun j i => M i j) -> m * n <= asize t0 ->
    exists t', CINTzmat_dagger conj t0 a m n = Some t' /\
      stored_exactly t0 t' m m n (fun i j => conj (M i j)).
  Proof.
    intros Hm Hn Ha Hsz. unfold CINTzmat_dagger.
    destruct (double_loop_ok m n t0 (fun i j => conj (M i j))
      (fun i j => v <- rd a (j * n + i) ;; Some (conj v)) Hm Hn Hsz) as [t' [H1 H2]].
    - intros i j Hi Hj. replace (j * n + i) with (i + n * j) by ring. rewrite Ha by lia. reflexivity.
    - exists t'. split; [|exact H2]. rewrite <- H1. apply for_ext. intros i t _. apply for_ext.
      intros j s _. destruct (rd a (j * n + i)); reflexivity.
  Qed.

End S5.

Section S6.
  Context {F : Type}.
  Lemma ztranspose_ok m n a t0 (M : Z -> Z -> F) : 0 <= m -> 0 <= n ->
    holds a n n m (fun j i => M i j) -> m * n <= asize t0 ->
    exists t', CINTzmat_transpose t0 a m n = Some t' /\ stored_exactly t0 t' m m n M.
  Proof.
    intros Hm Hn Ha Hsz. unfold CINTzmat_transpose.
    destruct (n =? 2) eqn:E2; [|destruct (m =? 2) eqn:E3].
    - assert (n = 2) by lia. subst n. clear E2. apply wp_exists.
      apply wp_for with (I := fun i t => Upd (mad m) (mbox m 2) (fun p => M (fst p) (snd p)) (fun p => fst p < i) t0 t).
      + exact Hm.
      + apply Upd_init. intros [i j] [H1 H2]. cbn [fst snd] in *. lia.
      + intros i t Hi Ht. apply wp_bind. replace (2 * i + 0) with (0 + 2 * i) by ring.
        eapply wp_rd; [apply Ha; lia|]. apply wp_bind.
        replace i with (mad m (i, 0)) at 1 by (unfold mad; simpl; ring).
        eapply (Upd_wr (mad m)) with (P' := fun p => fst p < i \/ p = (i, 0)); [eapply mad_inj with (r := m) (c := 2); lia|exact Ht| |split; cbn [fst snd]; lia|eapply tr_range; eauto; lia|reflexivity|reflexivity].
        clear t Ht. intros t Ht. apply wp_bind. replace (2 * i + 1) with (1 + 2 * i) by ring.
        eapply wp_rd; [apply Ha; lia|].
        replace (i + m) with (mad m (i, 1)) by (unfold mad; simpl; ring).
        eapply (Upd_wr (mad m)); [eapply mad_inj with (r := m) (c := 2); lia|exact Ht|intros t' Ht'; exact Ht'|split; cbn [fst snd]; lia| |reflexivity|].
        { eapply tr_range; eauto; lia. }
        intros [i' j'] [H1 H2]. cbn [fst snd] in *. split.
        * intros H. assert (Hc : i' < i \/ (i' = i /\ j' = 0) \/ (i' = i /\ j' = 1)) by lia.
          destruct Hc as [Hc|[[-> ->]|[-> ->]]]; auto.
        * intros [[H|H]|H]; try (injection H as -> ->); lia.
      + intros t Ht. apply (Upd_stored t0 t m m 2 (fun p => M (fst p) (snd p)) (fun p => fst p < m));
          [exact Ht|intros [i j] [H1 H2]; cbn [fst snd] in *; lia|lia|intros; lia].
    - assert (m = 2) by lia. subst m. clear E3. apply wp_exists.
      apply wp_for with (I := fun i t => Upd (mad 2) (mbox 2 n) (fun p => M (fst p) (snd p)) (fun p => snd p < i) t0 t).
      + exact Hn.
      + apply Upd_init. intros [i j] [H1 H2]. cbn [fst snd] in *. lia.
      + intros i t Hi Ht. apply wp_bind. replace i with (i + n * 0) at 1 by ring.
        eapply wp_rd; [apply Ha; lia|]. apply wp_bind.
        replace (2 * i + 0) with (mad 2 (0, i)) by (unfold mad; simpl fst; simpl snd; ring).
        eapply (Upd_wr (mad 2)) with (P' := fun p => snd p < i \/ p = (0, i)); [eapply mad_inj with (r := 2) (c := n); lia|exact Ht| |split; cbn [fst snd]; lia|eapply tr_range; eauto; lia|reflexivity|reflexivity].
        clear t Ht. intros t Ht. apply wp_bind. replace (i + n) with (i + n * 1) by ring.
        eapply wp_rd; [apply Ha; lia|].
        replace (2 * i + 1) with (mad 2 (1, i)) by (unfold mad; simpl fst; simpl snd; ring).
        eapply (Upd_wr (mad 2)); [eapply mad_inj with (r := 2) (c := n); lia|exact Ht|intros t' Ht'; exact Ht'|split; cbn [fst snd]; lia| |reflexivity|].
        { eapply tr_range; eauto; lia. }
        intros [i' j'] [H1 H2]. cbn [fst snd] in *. split.
        * intros H. assert (Hc : j' < i \/ (i' = 0 /\ j' = i) \/ (i' = 1 /\ j' = i)) by lia.
          destruct Hc as [Hc|[[-> ->]|[-> ->]]]; auto.
        * intros [[H|H]|H]; try (injection H as -> ->); lia.
      + intros t Ht. apply (Upd_stored t0 t 2 2 n (fun p => M (fst p) (snd p)) (fun p => snd p < n));
          [exact Ht|intros [i j] [H1 H2]; cbn [fst snd] in *; lia|lia|intros; lia].
    - apply double_loop_ok; auto. intros i j Hi Hj.
      replace (j * n + i) with (i + n * j) by ring. apply Ha; lia.
  Qed.

End S6.

Section S7.
  Context {F : Type} (zero : F) (add mul : F -> F -> F).
  (** *** Matrix products *)
  Local Notation prod := (FblasSpec.prod zero add mul).

  (** The column loop shared by NN1 and NT: zero, then accumulate. *)
  Lemma col_loop_ok m n k ldc (a b c0 : arr F) (A B : Z -> Z -> F) (bidx : Z -> Z -> Z) :
    0 <= m -> 0 <= n -> 0 <= k -> m <= ldc -> ldc * (n - 1) + m <= asize c0 \/ n = 0 \/ m = 0 ->
    holds a m m k A ->
    (forall p j, 0 <= p < k -> 0 <= j < n -> rd b (bidx p j) = Some (B p j)) ->
    exists c', for_ 0 n (fun j c =>
      c <- for_ 0 m (fun i c => wr c (i + ldc * j) zero) c ;;
      for_ 0 k (fun kp c =>
        bi <- rd b (bidx kp j) ;;
        for_ 0 m (fun i c =>
          ci <- rd c (i + ldc * j) ;; ai <- rd a (i + m * kp) ;;
          wr c (i + ldc * j) (add ci (mul ai bi))) c) c) c0 = Some c' /\
      stored_exactly c0 c' ldc m n (prod k A B).
  Proof.
    intros Hm Hn Hk Hld Hsz HA HB. apply wp_exists.
    assert (Hrange : forall i j, 0 <= i < m -> 0 <= j < n -> 0 <= mad ldc (i, j) < asize c0).
    { intros i j Hi Hj. unfold mad. simpl. pose proof (mad_range ldc m n i j Hld Hi Hj). lia. }
    (* cells (i,j') hold: j' < j: full product; j' = j: partial sum of length q (i < r: q+1) *)
    set (sp := fun j q r (p : Z * Z) =>
      let '(i', j') := p in
      if j' <? j then prod k A B i' j'
      else prod (if i' <? r then q + 1 else q) A B i' j').
    set (UU := fun j q r P c => Upd (mad ldc) (mbox m n) (sp j q r) P c0 c).
    apply wp_for with (I := fun j c => UU j 0 0 (fun p => snd p < j) c).
    - exact Hn.
    - apply Upd_init. intros [i j] [H1 H2]. cbn [fst snd] in *. lia.
    - intros j c Hj Hc. apply wp_bind.
      apply wp_for with (I := fun i c => UU j 0 0 (fun p => snd p < j \/ (snd p = j /\ fst p < i)) c).
      + exact Hm.
      + eapply Upd_iff; [exact Hc|]. intros [i' j'] [H1 H2]. cbn [fst snd] in *. lia.
      + clear c Hc. intros i c Hi Hc. change (i + ldc * j) with (mad ldc (i, j)).
        eapply (Upd_wr (mad ldc)); [eapply mad_inj with (r := m) (c := n); lia|exact Hc|intros a' Ha'; exact Ha'|split; cbn [fst snd]; lia|apply Hrange; lia| |].
        * unfold sp. destruct (j <? j) eqn:E; [lia|]. destruct (i <? 0) eqn:E'; [lia|].
          unfold FblasSpec.prod. rewrite lsum_0 by lia. reflexivity.
        * intros [i' j'] [H1 H2]. cbn [fst snd] in *. split.
          -- intros H. assert (Hd : (i' = i /\ j' = j) \/ (j' < j \/ j' = j /\ i' < i)) by lia.
             destruct Hd as [[-> ->]|Hd]; auto.
          -- intros [H|H]; [lia|]. injection H as -> ->. lia.
      + clear c Hc. intros c Hc.
        apply wp_for with (I := fun q c => UU j q 0 (fun p => snd p <= j) c).
        * exact Hk.
        * eapply Upd_iff; [exact Hc|]. intros [i' j'] [H1 H2]. cbn [fst snd] in *. lia.
        * clear c Hc. intros q c Hq Hc. apply wp_bind. eapply wp_rd; [apply HB; lia|].
          apply wp_for with (I := fun i c => UU j q i (fun p => snd p <= j) c).
          -- exact Hm.
          -- exact Hc.
          -- clear c Hc. intros i c Hi Hc. change (i + ldc * j) with (mad ldc (i, j)).
             apply wp_bind. eapply wp_rd.
             { eapply Upd_new; [exact Hc|split; cbn [fst snd]; lia|simpl; lia|apply Hrange; lia]. }
             apply wp_bind. eapply wp_rd; [apply HA; lia|].
             eapply (Upd_wrg (mad ldc)); [apply (mad_inj ldc m n); lia|exact Hc|intros a' Ha'; exact Ha'|split; cbn [fst snd]; lia|apply Hrange; lia| | |].
             ++ unfold sp. destruct (j <? j) eqn:E; [lia|]. destruct (i <? i) eqn:E'; [lia|].
                destruct (i <? i + 1) eqn:E''; [|lia]. unfold FblasSpec.prod at 2. rewrite lsum_succ by lia. reflexivity.
             ++ intros [i' j'] [H1 H2] Hle Hne. unfold sp. cbn [fst snd] in *.
                destruct (j' <? j) eqn:E; [reflexivity|]. assert (j' = j) by lia. subst j'.
                assert (i' <> i) by (intros ->; apply Hne; reflexivity).
                destruct (i' <? i) eqn:E1; destruct (i' <? i + 1) eqn:E2; try lia; reflexivity.
             ++ intros [i' j'] [H1 H2]. cbn [fst snd] in *. split; [auto|]. intros [H|H]; [auto|].
                injection H as -> ->. lia.
          -- clear c Hc. intros c Hc. eapply Upd_spec; [exact Hc|reflexivity|].
             intros [i' j'] [H1 H2] Hle. unfold sp. cbn [fst snd] in *.
             destruct (j' <? j) eqn:E; [reflexivity|].
             destruct (i' <? m) eqn:E1; destruct (i' <? 0) eqn:E2; try lia. reflexivity.
        * clear c Hc. intros c Hc. eapply Upd_spec; [exact Hc|intros [i' j'] [H1 H2]; cbn [fst snd] in *; lia|].
          intros [i' j'] [H1 H2] Hle. unfold sp. cbn [fst snd] in *.
          destruct (j' <? j + 1) eqn:E; [|lia]. destruct (j' <? j) eqn:E1; [reflexivity|].
          destruct (i' <? 0) eqn:E2; [lia|]. reflexivity.
    - intros c Hc.
      assert (HU : Upd (mad ldc) (mbox m n) (fun p => prod k A B (fst p) (snd p)) (fun p => snd p < n) c0 c).
      { eapply Upd_spec; [exact Hc|reflexivity|]. intros [i' j'] [H1 H2] _. unfold sp. cbn [fst snd] in *.
        destruct (j' <? n) eqn:E; [reflexivity|lia]. }
      apply (Upd_stored c0 c ldc m n (fun p => prod k A B (fst p) (snd p)) (fun p => snd p < n));
        [exact HU|intros [i j] [H1 H2]; cbn [fst snd] in *; lia|lia|intros; lia].
  Qed.

  Lemma dgemm_NN1_ok m n k ldc (a b c0 : arr F) (A B : Z -> Z -> F) :
    0 <= m -> 0 <= n -> 0 <= k -> m <= ldc -> ldc * (n - 1) + m <= asize c0 \/ n = 0 \/ m = 0 ->
    holds a m m k A -> holds b k k n B ->
    exists c', CINTdgemm_NN1 zero add mul m n k a b c0 ldc = Some c' /\
      stored_exactly c0 c' ldc m n (prod k A B).
  Proof.
    intros Hm Hn Hk Hld Hsz HA HB.
    apply (col_loop_ok m n k ldc a b c0 A B (fun p j => p + k * j)); auto.
  Qed.

  Lemma dgemm_NT_ok m n k (a b c0 : arr F) (A B : Z -> Z -> F) :
    0 <= m -> 0 <= n -> 0 <= k -> m * n <= asize c0 ->
    holds a m m k A -> holds b n n k (fun j p => B p j) ->
    exists c', CINTdgemm_NT zero add mul m n k a b c0 = Some c' /\
      stored_exactly c0 c' m m n (prod k A B).
  Proof.
    intros Hm Hn Hk Hsz HA HB.
    apply (col_loop_ok m n k m a b c0 A B (fun p j => j + n * p)); auto; try lia.
  Qed.

  Lemma dgemm_TN_ok m n k (a b c0 : arr F) (A B : Z -> Z -> F) :
    0 <= m -> 0 <= n -> 0 <= k -> m * n <= asize c0 ->
    holds a k k m (fun p i => A i p) -> holds b k k n B ->
    exists c', CINTdgemm_TN zero add mul m n k a b c0 = Some c' /\
      stored_exactly c0 c' m m n (prod k A B).
  Proof.
    intros Hm Hn Hk Hsz HA HB. unfold CINTdgemm_TN.
    set (get := fun j i => for_ 0 k (fun kp ci =>
              ai <- rd a (kp + k * i) ;; bi <- rd b (kp + k * j) ;;
              Some (add ci (mul ai bi))) zero).
    destruct (double_loop_ok m n c0 (prod k A B) get Hm Hn Hsz) as [t' [H1 H2]].
    - intros j i Hj Hi. unfold get.
      assert (H : wp (for_ 0 k (fun kp ci =>
              ai <- rd a (kp + k * i) ;; bi <- rd b (kp + k * j) ;;
              Some (add ci (mul ai bi))) zero) (fun r => r = prod k A B i j)).
      { apply wp_for with (I := fun q r => r = prod q A B i j); [exact Hk|reflexivity| |auto].
        intros q r Hq ->. rewrite HA, HB by lia. simpl. unfold FblasSpec.prod. rewrite lsum_succ by lia. reflexivity. }
      apply wp_exists in H. destruct H as [r [Hr ->]]. exact Hr.
    - exists t'. split; [|exact H2]. rewrite <- H1. apply for_ext. intros j t _. apply for_ext.
      intros i s _. unfold get. replace (j * m + i) with (i + m * j) by ring. reflexivity.
  Qed.

  Lemma dgemm_NN_ok m n k (a b c0 : arr F) (A B : Z -> Z -> F) :
    0 <= m -> 0 <= n -> 0 <= k -> m * n <= asize c0 ->
    holds a m m k A -> holds b k k n B ->
    exists c', CINTdgemm_NN zero add mul m n k a b c0 = Some c' /\
      stored_exactly c0 c' m m n (prod k A B).
  Proof.
    intros Hm Hn Hk Hsz HA HB. apply dgemm_NN1_ok; auto; lia.
  Qed.
End S7.


(** Concrete instances used as non-vacuity examples. *)
Definition exA : arr Z := of_fun 10 (fun i => i).
Lemma example_transpose : exists t', CINTdmat_transpose (uninit 10) exA 2 5 = Some t' /\
  map (rd t') [0;1;2;3;4;5;6;7;8;9] = map Some [0;5;1;6;2;7;3;8;4;9].
Proof. apply wp_exists. vm_compute. reflexivity. Qed.
Lemma example_holds : holds exA 5 5 2 (fun j i => 5 * i + j).
Proof.
  intros i j Hi Hj. unfold exA. rewrite rd_of_fun by lia. f_equal. lia.
Qed.
Lemma example_gemm : exists c', CINTdgemm_NN1 0 Z.add Z.mul 2 2 5 exA exA (uninit 7) 3 = Some c' /\
  map (rd c') [0;1;2;3;4] = [Some 60; Some 70; None; Some 160; Some 195].
Proof. apply wp_exists. vm_compute. reflexivity. Qed.
