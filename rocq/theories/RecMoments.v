(** RecMoments.v — the moment tables of RecSpec exist, are determined by their
    value at the origin, and satisfy the transfer relations. *)
From Coq Require Import Ring Ring_theory.
From Verif Require Import Base RecSpec.

Section Moments.
  Context {F : Type}.
  Variables (zero one : F) (add mul sub : F -> F -> F) (opp : F -> F) (inj : Z -> F).
  Variable Rth : ring_theory zero one add mul sub opp (@eq F).
  Hypothesis (inj0 : inj 0 = zero) (injS : forall i, 0 <= i -> inj (i + 1) = add (inj i) one).
  Add Ring Fring : Rth.
  Local Notation "a + b" := (add a b).
  Local Notation "a * b" := (mul a b).
  Local Notation "a - b" := (sub a b).

  (** Uniqueness: same origin, same table (on non-negative indices). *)
  Lemma gauss2_unique b10 b01 b00 cA cB cC cD S S' :
    gauss2 add mul inj b10 b01 b00 cA cB cC cD S ->
    gauss2 add mul inj b10 b01 b00 cA cB cC cD S' ->
    S 0%Z 0%Z 0%Z 0%Z = S' 0%Z 0%Z 0%Z 0%Z ->
    forall i j k l, (0 <= i -> 0 <= j -> 0 <= k -> 0 <= l -> S i j k l = S' i j k l)%Z.
  Proof.
    intros G G' E.
    assert (X : forall N i j k l, (0 <= i -> 0 <= j -> 0 <= k -> 0 <= l ->
                 i + j + k + l <= Z.of_nat N -> S i j k l = S' i j k l)%Z).
    { induction N as [N IH] using (well_founded_induction Wf_nat.lt_wf).
      intros i j k l Hi Hj Hk Hl HN.
      assert (IH' : forall i' j' k' l', (0 <= i' -> 0 <= j' -> 0 <= k' -> 0 <= l' ->
                i' + j' + k' + l' < i + j + k + l)%Z -> S i' j' k' l' = S' i' j' k' l' \/
                ~ (0 <= i' /\ 0 <= j' /\ 0 <= k' /\ 0 <= l')%Z).
      { intros i' j' k' l' Hlt.
        destruct (Z_le_gt_dec 0 i'), (Z_le_gt_dec 0 j'), (Z_le_gt_dec 0 k'), (Z_le_gt_dec 0 l');
          try (right; lia).
        left. apply (IH (Z.to_nat (i' + j' + k' + l'))); lia. }
      assert (T : forall c i' j' k' l', (0 <= c)%Z -> (c = 0 \/ (0 <= i' /\ 0 <= j' /\ 0 <= k' /\ 0 <= l'))%Z ->
                (i' + j' + k' + l' < i + j + k + l)%Z -> inj c * S i' j' k' l' = inj c * S' i' j' k' l').
      { intros c i' j' k' l' Hc Hz Hlt. destruct Hz as [->|Hp].
        - rewrite inj0. ring.
        - destruct (IH' i' j' k' l') as [->|]; [lia|reflexivity|contradiction]. }
      destruct (Z.eq_dec i 0) as [->|Hi0].
      2:{ replace i with (i - 1 + 1)%Z by lia.
          rewrite (g2_i _ _ _ _ _ _ _ _ _ _ _ G), (g2_i _ _ _ _ _ _ _ _ _ _ _ G') by lia.
          destruct (IH' (i - 1)%Z j k l) as [->|]; [lia| |lia].
          rewrite (T (i - 1)%Z (i - 1 - 1)%Z j k l), (T j (i - 1)%Z (j - 1)%Z k l),
            (T k (i - 1)%Z j (k - 1)%Z l), (T l (i - 1)%Z j k (l - 1)%Z) by lia.
          reflexivity. }
      destruct (Z.eq_dec j 0) as [->|Hj0].
      2:{ replace j with (j - 1 + 1)%Z by lia.
          rewrite (g2_j _ _ _ _ _ _ _ _ _ _ _ G), (g2_j _ _ _ _ _ _ _ _ _ _ _ G') by lia.
          destruct (IH' 0%Z (j - 1)%Z k l) as [->|]; [lia| |lia].
          rewrite (T 0%Z (0 - 1)%Z (j - 1)%Z k l), (T (j - 1)%Z 0%Z (j - 1 - 1)%Z k l),
            (T k 0%Z (j - 1)%Z (k - 1)%Z l), (T l 0%Z (j - 1)%Z k (l - 1)%Z) by lia.
          reflexivity. }
      destruct (Z.eq_dec k 0) as [->|Hk0].
      2:{ replace k with (k - 1 + 1)%Z by lia.
          rewrite (g2_k _ _ _ _ _ _ _ _ _ _ _ G), (g2_k _ _ _ _ _ _ _ _ _ _ _ G') by lia.
          destruct (IH' 0%Z 0%Z (k - 1)%Z l) as [->|]; [lia| |lia].
          rewrite (T 0%Z (0 - 1)%Z 0%Z (k - 1)%Z l), (T 0%Z 0%Z (0 - 1)%Z (k - 1)%Z l),
            (T (k - 1)%Z 0%Z 0%Z (k - 1 - 1)%Z l), (T l 0%Z 0%Z (k - 1)%Z (l - 1)%Z) by lia.
          reflexivity. }
      destruct (Z.eq_dec l 0) as [->|Hl0]; [exact E|].
      replace l with (l - 1 + 1)%Z by lia.
      rewrite (g2_l _ _ _ _ _ _ _ _ _ _ _ G), (g2_l _ _ _ _ _ _ _ _ _ _ _ G') by lia.
      destruct (IH' 0%Z 0%Z 0%Z (l - 1)%Z) as [->|]; [lia| |lia].
      rewrite (T 0%Z (0 - 1)%Z 0%Z 0%Z (l - 1)%Z), (T 0%Z 0%Z (0 - 1)%Z 0%Z (l - 1)%Z),
        (T 0%Z 0%Z 0%Z (0 - 1)%Z (l - 1)%Z), (T (l - 1)%Z 0%Z 0%Z 0%Z (l - 1 - 1)%Z) by lia.
      reflexivity. }
    intros i j k l Hi Hj Hk Hl. apply (X (Z.to_nat (i + j + k + l))); lia.
  Qed.

  (** The other tables are special cases. *)
  Lemma gauss2_of_gauss1 b cA cB S :
    gauss1 add mul inj b cA cB S ->
    gauss2 add mul inj b zero zero cA cB zero zero
      (fun i j k l => if (k =? 0)%Z && (l =? 0)%Z then S i j else zero).
  Proof.
    intros G. split; intros i j k l Hi Hj Hk Hl.
    - rewrite (g1_i _ _ _ _ _ _ _ G) by lia.
      destruct ((k =? 0)%Z && (l =? 0)%Z) eqn:E; ring.
    - rewrite (g1_j _ _ _ _ _ _ _ G) by lia.
      destruct ((k =? 0)%Z && (l =? 0)%Z) eqn:E; ring.
    - replace (k + 1 =? 0)%Z with false by lia. cbn. ring.
    - replace (l + 1 =? 0)%Z with false by lia. rewrite andb_false_r. ring.
  Qed.

  Lemma gauss1_unique b cA cB S S' :
    gauss1 add mul inj b cA cB S -> gauss1 add mul inj b cA cB S' ->
    S 0%Z 0%Z = S' 0%Z 0%Z ->
    forall i j, (0 <= i -> 0 <= j -> S i j = S' i j)%Z.
  Proof.
    intros G G' E i j Hi Hj.
    apply gauss2_of_gauss1 in G. apply gauss2_of_gauss1 in G'.
    apply (gauss2_unique _ _ _ _ _ _ _ _ _ G G' E i j 0 0)%Z; lia.
  Qed.

  Lemma moments2_unique b10 b01 b00 c c' G G' :
    moments2 add mul inj b10 b01 b00 c c' G -> moments2 add mul inj b10 b01 b00 c c' G' ->
    G 0%Z 0%Z = G' 0%Z 0%Z ->
    forall n m, (0 <= n -> 0 <= m -> G n m = G' n m)%Z.
  Proof.
    intros M M' E.
    assert (X : forall N n m, (0 <= n -> 0 <= m -> n + m <= Z.of_nat N -> G n m = G' n m)%Z).
    { induction N as [N IH] using (well_founded_induction Wf_nat.lt_wf).
      intros n m Hn Hm HN.
      assert (IH' : forall n' m', (0 <= n' -> 0 <= m' -> n' + m' < n + m -> G n' m' = G' n' m')%Z).
      { intros n' m' Hn' Hm' Hlt. apply (IH (Z.to_nat (n' + m'))); lia. }
      assert (T : forall c0 n' m', (0 <= c0)%Z -> (c0 = 0 \/ (0 <= n' /\ 0 <= m'))%Z ->
                (n' + m' < n + m)%Z -> inj c0 * G n' m' = inj c0 * G' n' m').
      { intros c0 n' m' Hc Hz Hlt. destruct Hz as [->|Hp].
        - rewrite inj0. ring.
        - rewrite IH' by lia. reflexivity. }
      destruct (Z.eq_dec n 0) as [->|Hn0].
      2:{ replace n with (n - 1 + 1)%Z by lia.
          rewrite (m2_bra _ _ _ _ _ _ _ _ _ M), (m2_bra _ _ _ _ _ _ _ _ _ M') by lia.
          rewrite (IH' (n - 1)%Z m), (T (n - 1)%Z (n - 1 - 1)%Z m), (T m (n - 1)%Z (m - 1)%Z) by lia.
          reflexivity. }
      destruct (Z.eq_dec m 0) as [->|Hm0]; [exact E|].
      replace m with (m - 1 + 1)%Z by lia.
      rewrite (m2_ket _ _ _ _ _ _ _ _ _ M), (m2_ket _ _ _ _ _ _ _ _ _ M') by lia.
      rewrite (IH' 0%Z (m - 1)%Z), (T (m - 1)%Z 0%Z (m - 1 - 1)%Z), (T 0%Z (0 - 1)%Z (m - 1)%Z) by lia.
      reflexivity. }
    intros n m Hn Hm. apply (X (Z.to_nat (n + m))); lia.
  Qed.

  (** Existence: build the two-index table column by column, then transfer. *)
  Section Exist.
    Variables (b10 b01 b00 cA cB cC cD w : F).

    (* pair (value at n, value at n+1) style recursion on nat *)
    Fixpoint col0 (n : nat) : F * F := (* (G n 0, G (n-1) 0) *)
      match n with
      | O => (w, zero)
      | S p => let '(x, y) := col0 p in (cA * x + b10 * (inj (Z.of_nat p) * y), x)
      end.
    Definition M0 (n : Z) : F := if (n <? 0)%Z then zero else fst (col0 (Z.to_nat n)).

    Fixpoint cols (m : nat) : (Z -> F) * (Z -> F) :=
      match m with
      | O => (M0, fun _ => zero)
      | S p => let '(f, f') := cols p in
          (fun n => if (n <? 0)%Z then zero else
                    cC * f n + b01 * (inj (Z.of_nat p) * f' n) + b00 * (inj n * f (n - 1)%Z), f)
      end.
    Definition M (n m : Z) : F := if (m <? 0)%Z then zero else fst (cols (Z.to_nat m)) n.

    Lemma col0_snd p : snd (col0 (S p)) = fst (col0 p).
    Proof. cbn. destruct (col0 p). reflexivity. Qed.
    Lemma cols_snd p n : snd (cols (S p)) n = fst (cols p) n.
    Proof. cbn. destruct (cols p). reflexivity. Qed.

    Lemma M0_succ n : (0 <= n)%Z -> M0 (n + 1)%Z = cA * M0 n + b10 * (inj n * M0 (n - 1)%Z).
    Proof.
      intros Hn. unfold M0. replace (n + 1 <? 0)%Z with false by lia.
      replace (n <? 0)%Z with false by lia.
      replace (Z.to_nat (n + 1)) with (S (Z.to_nat n)) by lia. cbn [col0].
      destruct (col0 (Z.to_nat n)) as [x y] eqn:E. cbn [fst]. rewrite Z2Nat.id by lia.
      destruct (n - 1 <? 0)%Z eqn:E1.
      - assert (n = 0)%Z by lia. subst n. rewrite inj0. ring.
      - replace (Z.to_nat n) with (S (Z.to_nat (n - 1))) in E by lia.
        pose proof (col0_snd (Z.to_nat (n - 1))) as X. rewrite E in X. cbn [snd] in X.
        rewrite X. reflexivity.
    Qed.

    Lemma M_ket n m : (0 <= n)%Z -> (0 <= m)%Z ->
      M n (m + 1)%Z = cC * M n m + b01 * (inj m * M n (m - 1)%Z) + b00 * (inj n * M (n - 1)%Z m).
    Proof.
      intros Hn Hm. unfold M. replace (m + 1 <? 0)%Z with false by lia.
      replace (m <? 0)%Z with false by lia.
      replace (Z.to_nat (m + 1)) with (S (Z.to_nat m)) by lia. cbn [cols].
      destruct (cols (Z.to_nat m)) as [f f'] eqn:E. cbn [fst]. rewrite Z2Nat.id by lia.
      replace (n <? 0)%Z with false by lia.
      destruct (m - 1 <? 0)%Z eqn:E1.
      - assert (m = 0)%Z by lia. subst m. rewrite inj0. ring.
      - replace (Z.to_nat m) with (S (Z.to_nat (m - 1))) in E by lia.
        pose proof (cols_snd (Z.to_nat (m - 1)) n) as X. rewrite E in X. cbn [snd] in X.
        rewrite X. reflexivity.
    Qed.

    Lemma M_neg1 n m : (n < 0)%Z -> M n m = zero.
    Proof.
      intros Hn. unfold M. destruct (m <? 0)%Z; [reflexivity|].
      destruct (Z.to_nat m); cbn.
      - unfold M0. replace (n <? 0)%Z with true by lia. reflexivity.
      - destruct (cols n0). cbn. replace (n <? 0)%Z with true by lia. reflexivity.
    Qed.
    Lemma M_neg2 n m : (m < 0)%Z -> M n m = zero.
    Proof. intros Hm. unfold M. replace (m <? 0)%Z with true by lia. reflexivity. Qed.
    Lemma M_col0 n : M n 0%Z = M0 n.
    Proof. reflexivity. Qed.

    Lemma injP i : (0 < i)%Z -> inj i = inj (i - 1)%Z + one.
    Proof. intros Hi. rewrite <- injS by lia. f_equal. lia. Qed.

    Lemma M_bra n m : (0 <= n)%Z -> (0 <= m)%Z ->
      M (n + 1)%Z m = cA * M n m + b10 * (inj n * M (n - 1)%Z m) + b00 * (inj m * M n (m - 1)%Z).
    Proof.
      intros Hn Hm. revert n Hn.
      assert (X : forall N m, (0 <= m <= Z.of_nat N)%Z -> forall n, (0 <= n)%Z ->
        M (n + 1)%Z m = cA * M n m + b10 * (inj n * M (n - 1)%Z m) + b00 * (inj m * M n (m - 1)%Z)).
      2:{ apply (X (Z.to_nat m)). lia. }
      clear m Hm. induction N as [|N IH]; intros m Hm n Hn.
      - assert (m = 0)%Z by lia. subst m. rewrite (M_neg2 n (0 - 1)%Z) by lia.
        rewrite !M_col0, M0_succ by lia. rewrite inj0. ring.
      - destruct (Z.eq_dec m 0) as [->|Hm0]; [apply IH; lia|].
        replace m with (m - 1 + 1)%Z by lia.
        set (p := (m - 1)%Z). assert (Hp : (0 <= p <= Z.of_nat N)%Z) by lia. clearbody p.
        rewrite (M_ket (n + 1)%Z p), (M_ket n p) by lia.
        replace (n + 1 - 1)%Z with n by lia. replace (p + 1 - 1)%Z with p by lia.
        rewrite (IH p) by lia. rewrite !injS by lia.
        assert (A1 : inj n * M (n - 1)%Z (p + 1)%Z =
                 inj n * (cC * M (n - 1)%Z p + b01 * (inj p * M (n - 1)%Z (p - 1)%Z)
                          + b00 * (inj (n - 1)%Z * M (n - 2)%Z p))).
        { destruct (Z.eq_dec n 0) as [->|]; [rewrite inj0; ring|].
          rewrite M_ket by lia. replace (n - 1 - 1)%Z with (n - 2)%Z by lia. reflexivity. }
        rewrite A1.
        assert (A2 : inj p * M (n + 1)%Z (p - 1)%Z =
                 inj p * (cA * M n (p - 1)%Z + b10 * (inj n * M (n - 1)%Z (p - 1)%Z)
                          + b00 * (inj (p - 1)%Z * M n (p - 2)%Z))).
        { destruct (Z.eq_dec p 0) as [->|]; [rewrite inj0; ring|].
          rewrite (IH (p - 1)%Z) by lia. replace (p - 1 - 1)%Z with (p - 2)%Z by lia. reflexivity. }
        rewrite A2.
        assert (A3 : inj p * M n p = inj p * (cC * M n (p - 1)%Z +
                  b01 * (inj (p - 1)%Z * M n (p - 2)%Z) + b00 * (inj n * M (n - 1)%Z (p - 1)%Z))).
        { destruct (Z.eq_dec p 0) as [->|]; [rewrite inj0; ring|].
          replace p with (p - 1 + 1)%Z at 2 by lia. rewrite (M_ket n (p - 1)%Z) by lia.
          replace (p - 1 - 1)%Z with (p - 2)%Z by lia. reflexivity. }
        assert (A4 : inj n * M n p = inj n * (cA * M (n - 1)%Z p +
                  b10 * (inj (n - 1)%Z * M (n - 2)%Z p) + b00 * (inj p * M (n - 1)%Z (p - 1)%Z))).
        { destruct (Z.eq_dec n 0) as [->|]; [rewrite inj0; ring|].
          replace n with (n - 1 + 1)%Z at 2 by lia. rewrite (IH p ltac:(lia) (n - 1)%Z) by lia.
          replace (n - 1 - 1)%Z with (n - 2)%Z by lia. reflexivity. }
        transitivity (cC * (cA * M n p + b10 * (inj n * M (n - 1)%Z p) + b00 * (inj p * M n (p - 1)%Z))
          + b01 * (inj p * (cA * M n (p - 1)%Z + b10 * (inj n * M (n - 1)%Z (p - 1)%Z)
                             + b00 * (inj (p - 1)%Z * M n (p - 2)%Z)))
          + b00 * (inj n * M n p + M n p)); [ring|].
        rewrite A4.
        transitivity (cA * (cC * M n p + b01 * (inj p * M n (p - 1)%Z) + b00 * (inj n * M (n - 1)%Z p))
          + b10 * (inj n * (cC * M (n - 1)%Z p + b01 * (inj p * M (n - 1)%Z (p - 1)%Z)
                            + b00 * (inj (n - 1)%Z * M (n - 2)%Z p)))
          + b00 * (inj p * M n p + M n p)); [|ring].
        rewrite A3. ring.
    Qed.

    Lemma M_origin : M 0%Z 0%Z = w.
    Proof. reflexivity. Qed.

    Lemma moments2_exist : exists G, moments2 add mul inj b10 b01 b00 cA cC G /\ G 0%Z 0%Z = w.
    Proof.
      exists M. split; [split|reflexivity].
      - intros n m Hn Hm. rewrite M_bra by assumption. reflexivity.
      - intros n m Hn Hm. rewrite M_ket by assumption. reflexivity.
    Qed.

    (** transfer to the second centre of each coordinate *)
    Fixpoint tj (j : nat) (i k : Z) : F :=
      match j with
      | O => M i k
      | S p => tj p (i + 1)%Z k + (cB - cA) * tj p i k
      end.
    Fixpoint tl (l : nat) (i j k : Z) : F :=
      match l with
      | O => if (j <? 0)%Z then zero else tj (Z.to_nat j) i k
      | S p => tl p i j (k + 1)%Z + (cD - cC) * tl p i j k
      end.
    Definition S4 (i j k l : Z) : F := if (l <? 0)%Z then zero else tl (Z.to_nat l) i j k.

    Definition B3 (f : Z -> Z -> Z -> F) (* i j k *) : Prop :=
      (forall i j k, (0 <= i)%Z -> (0 <= j)%Z -> (0 <= k)%Z ->
        f (i + 1)%Z j k = cA * f i j k + b10 * (inj i * f (i - 1)%Z j k + inj j * f i (j - 1)%Z k)
           + b00 * (inj k * f i j (k - 1)%Z)) /\
      (forall i j k, (0 <= i)%Z -> (0 <= j)%Z -> (0 <= k)%Z ->
        f i j (k + 1)%Z = cC * f i j k + b01 * (inj k * f i j (k - 1)%Z)
           + b00 * (inj i * f (i - 1)%Z j k + inj j * f i (j - 1)%Z k)) /\
      (forall i j k, (0 <= i)%Z -> (0 <= j)%Z -> (0 <= k)%Z ->
        f i (j + 1)%Z k = f (i + 1)%Z j k + (cB - cA) * f i j k).

    Definition T3j (i j k : Z) : F := if (j <? 0)%Z then zero else tj (Z.to_nat j) i k.
    Lemma T3j_succ i j k : (0 <= j)%Z -> T3j i (j + 1)%Z k = T3j (i + 1)%Z j k + (cB - cA) * T3j i j k.
    Proof.
      intros Hj. unfold T3j. replace (j + 1 <? 0)%Z with false by lia.
      replace (j <? 0)%Z with false by lia. replace (Z.to_nat (j + 1)) with (S (Z.to_nat j)) by lia.
      reflexivity.
    Qed.

    Lemma T3j_ok : B3 T3j.
    Proof.
      assert (X : forall N j, (0 <= j <= Z.of_nat N)%Z -> forall i k, (0 <= i)%Z -> (0 <= k)%Z ->
        T3j (i + 1)%Z j k = cA * T3j i j k + b10 * (inj i * T3j (i - 1)%Z j k + inj j * T3j i (j - 1)%Z k)
           + b00 * (inj k * T3j i j (k - 1)%Z) /\
        T3j i j (k + 1)%Z = cC * T3j i j k + b01 * (inj k * T3j i j (k - 1)%Z)
           + b00 * (inj i * T3j (i - 1)%Z j k + inj j * T3j i (j - 1)%Z k)).
      { induction N as [|N IH]; intros j Hj i k Hi Hk.
        - assert (j = 0)%Z by lia. subst j. rewrite inj0. unfold T3j. cbn [Z.ltb Z.compare Z.to_nat tj].
          split; [rewrite M_bra by lia; ring|rewrite M_ket by lia; ring].
        - destruct (Z.eq_dec j 0) as [->|Hj0]; [apply IH; lia|].
          replace j with (j - 1 + 1)%Z by lia. set (p := (j - 1)%Z).
          assert (Hp : (0 <= p <= Z.of_nat N)%Z) by lia. clearbody p.
          replace (p + 1 - 1)%Z with p by lia.
          assert (D : inj p * T3j i p k = inj p * (T3j (i + 1)%Z (p - 1)%Z k + (cB - cA) * T3j i (p - 1)%Z k)).
          { destruct (Z.eq_dec p 0) as [->|]; [rewrite inj0; ring|].
            replace p with (p - 1 + 1)%Z at 2 by lia. rewrite T3j_succ by lia. reflexivity. }
          rewrite !T3j_succ by lia. rewrite (injS p) by lia. replace (i - 1 + 1)%Z with i by lia. split.
          + destruct (IH p ltac:(lia) (i + 1)%Z k ltac:(lia) Hk) as [-> _].
            destruct (IH p ltac:(lia) i k Hi Hk) as [E _].
            rewrite (injS i) by lia. replace (i + 1 - 1)%Z with i by lia.
            transitivity (cA * (T3j (i + 1)%Z p k + (cB - cA) * T3j i p k)
              + b10 * (inj i * (T3j i p k + (cB - cA) * T3j (i - 1)%Z p k) + T3j i p k
                       + inj p * (T3j (i + 1)%Z (p - 1)%Z k + (cB - cA) * T3j i (p - 1)%Z k))
              + b00 * (inj k * (T3j (i + 1)%Z p (k - 1)%Z + (cB - cA) * T3j i p (k - 1)%Z))).
            * rewrite E. ring.
            * rewrite <- D. ring.
          + destruct (IH p ltac:(lia) (i + 1)%Z k ltac:(lia) Hk) as [_ ->].
            destruct (IH p ltac:(lia) i k Hi Hk) as [_ ->].
            rewrite (injS i) by lia. replace (i + 1 - 1)%Z with i by lia.
            transitivity (cC * (T3j (i + 1)%Z p k + (cB - cA) * T3j i p k)
              + b01 * (inj k * (T3j (i + 1)%Z p (k - 1)%Z + (cB - cA) * T3j i p (k - 1)%Z))
              + b00 * (inj i * (T3j i p k + (cB - cA) * T3j (i - 1)%Z p k) + T3j i p k
                       + inj p * (T3j (i + 1)%Z (p - 1)%Z k + (cB - cA) * T3j i (p - 1)%Z k))).
            * ring.
            * rewrite <- D. ring. }
      split; [|split].
      - intros i j k Hi Hj Hk. apply (X (Z.to_nat j)); lia.
      - intros i j k Hi Hj Hk. apply (X (Z.to_nat j)); lia.
      - intros i j k Hi Hj Hk. apply T3j_succ. exact Hj.
    Qed.

    Lemma S4_succ i j k l : (0 <= l)%Z -> S4 i j k (l + 1)%Z = S4 i j (k + 1)%Z l + (cD - cC) * S4 i j k l.
    Proof.
      intros Hl. unfold S4. replace (l + 1 <? 0)%Z with false by lia.
      replace (l <? 0)%Z with false by lia. replace (Z.to_nat (l + 1)) with (S (Z.to_nat l)) by lia.
      reflexivity.
    Qed.
    Lemma S4_0 i j k : S4 i j k 0%Z = T3j i j k.
    Proof. reflexivity. Qed.

    Lemma S4_ok : gauss2 add mul inj b10 b01 b00 cA cB cC cD S4.
    Proof.
      assert (X : forall N l, (0 <= l <= Z.of_nat N)%Z -> forall i j k, (0 <= i)%Z -> (0 <= j)%Z -> (0 <= k)%Z ->
        S4 (i + 1)%Z j k l = cA * S4 i j k l
          + b10 * (inj i * S4 (i - 1)%Z j k l + inj j * S4 i (j - 1)%Z k l)
          + b00 * (inj k * S4 i j (k - 1)%Z l + inj l * S4 i j k (l - 1)%Z) /\
        S4 i j (k + 1)%Z l = cC * S4 i j k l
          + b01 * (inj k * S4 i j (k - 1)%Z l + inj l * S4 i j k (l - 1)%Z)
          + b00 * (inj i * S4 (i - 1)%Z j k l + inj j * S4 i (j - 1)%Z k l) /\
        S4 i (j + 1)%Z k l = S4 (i + 1)%Z j k l + (cB - cA) * S4 i j k l).
      { destruct T3j_ok as (T1 & T2 & T3).
        induction N as [|N IH]; intros l Hl i j k Hi Hj Hk.
        - assert (l = 0)%Z by lia. subst l. rewrite !S4_0, inj0. split; [|split].
          + rewrite T1 by lia. ring.
          + rewrite T2 by lia. ring.
          + apply T3; lia.
        - destruct (Z.eq_dec l 0) as [->|Hl0]; [apply IH; lia|].
          replace l with (l - 1 + 1)%Z by lia. set (p := (l - 1)%Z).
          assert (Hp : (0 <= p <= Z.of_nat N)%Z) by lia. clearbody p.
          replace (p + 1 - 1)%Z with p by lia.
          assert (D : inj p * S4 i j k p = inj p * (S4 i j (k + 1)%Z (p - 1)%Z + (cD - cC) * S4 i j k (p - 1)%Z)).
          { destruct (Z.eq_dec p 0) as [->|]; [rewrite inj0; ring|].
            replace p with (p - 1 + 1)%Z at 2 by lia. rewrite S4_succ by lia. reflexivity. }
          rewrite !S4_succ by lia. rewrite (injS p) by lia. replace (k - 1 + 1)%Z with k by lia.
          destruct (IH p ltac:(lia) i j (k + 1)%Z Hi Hj ltac:(lia)) as (A1 & A2 & A3).
          destruct (IH p ltac:(lia) i j k Hi Hj Hk) as (C1 & C2 & C3).
          rewrite (injS k) in A1, A2 by lia. replace (k + 1 - 1)%Z with k in A1, A2 by lia.
          split; [|split].
          + rewrite A1, C1.
            transitivity (cA * (S4 i j (k + 1)%Z p + (cD - cC) * S4 i j k p)
              + b10 * (inj i * (S4 (i - 1)%Z j (k + 1)%Z p + (cD - cC) * S4 (i - 1)%Z j k p)
                     + inj j * (S4 i (j - 1)%Z (k + 1)%Z p + (cD - cC) * S4 i (j - 1)%Z k p))
              + b00 * (inj k * (S4 i j k p + (cD - cC) * S4 i j (k - 1)%Z p) + S4 i j k p
                     + inj p * (S4 i j (k + 1)%Z (p - 1)%Z + (cD - cC) * S4 i j k (p - 1)%Z))).
            * ring.
            * rewrite <- D. ring.
          + rewrite A2.
            transitivity (cC * (S4 i j (k + 1)%Z p + (cD - cC) * S4 i j k p)
              + b01 * (inj k * (S4 i j k p + (cD - cC) * S4 i j (k - 1)%Z p) + S4 i j k p
                     + inj p * (S4 i j (k + 1)%Z (p - 1)%Z + (cD - cC) * S4 i j k (p - 1)%Z))
              + b00 * (inj i * (S4 (i - 1)%Z j (k + 1)%Z p + (cD - cC) * S4 (i - 1)%Z j k p)
                     + inj j * (S4 i (j - 1)%Z (k + 1)%Z p + (cD - cC) * S4 i (j - 1)%Z k p))).
            * rewrite C2. ring.
            * rewrite <- D. ring.
          + rewrite A3, C3. ring. }
      assert (Y : forall i j k l, (0 <= i)%Z -> (0 <= j)%Z -> (0 <= k)%Z -> (0 <= l)%Z -> _) by
        (intros i j k l Hi Hj Hk Hl; exact (X (Z.to_nat l) l ltac:(lia) i j k Hi Hj Hk)).
      split; intros i j k l Hi Hj Hk Hl; destruct (Y i j k l Hi Hj Hk Hl) as (Y1 & Y2 & Y3).
      - exact Y1.
      - rewrite Y3, Y1. ring.
      - exact Y2.
      - rewrite S4_succ by lia. rewrite Y2. ring.
    Qed.

    Lemma gauss2_exist : exists S, gauss2 add mul inj b10 b01 b00 cA cB cC cD S /\
      S 0%Z 0%Z 0%Z 0%Z = w.
    Proof. exists S4. split; [exact S4_ok|reflexivity]. Qed.
  End Exist.

  Definition gauss1_tab (b cA cB w : F) (i j : Z) : F :=
    S4 b zero zero cA cB zero zero w i j 0%Z 0%Z.
  Lemma gauss1_tab_ok b cA cB w : gauss1 add mul inj b cA cB (gauss1_tab b cA cB w).
  Proof.
    pose proof (S4_ok b zero zero cA cB zero zero w) as G. split.
    - intros i j Hi Hj. unfold gauss1_tab. rewrite (g2_i _ _ _ _ _ _ _ _ _ _ _ G) by lia. ring.
    - intros i j Hi Hj. unfold gauss1_tab. rewrite (g2_j _ _ _ _ _ _ _ _ _ _ _ G) by lia. ring.
  Qed.
  Lemma gauss1_exist b cA cB w : exists S, gauss1 add mul inj b cA cB S /\ S 0%Z 0%Z = w.
  Proof. exists (gauss1_tab b cA cB w). split; [apply gauss1_tab_ok|reflexivity]. Qed.

  (** Transfer relations between the two centres of a coordinate. *)
  Lemma gauss1_transfer b cA cB S i j : gauss1 add mul inj b cA cB S ->
    (0 <= i)%Z -> (0 <= j)%Z -> S i (j + 1)%Z = S (i + 1)%Z j + (cB - cA) * S i j.
  Proof.
    intros G Hi Hj. rewrite (g1_j _ _ _ _ _ _ _ G), (g1_i _ _ _ _ _ _ _ G) by lia. ring.
  Qed.
  Lemma gauss2_transfer_ij b10 b01 b00 cA cB cC cD S i j k l :
    gauss2 add mul inj b10 b01 b00 cA cB cC cD S ->
    (0 <= i)%Z -> (0 <= j)%Z -> (0 <= k)%Z -> (0 <= l)%Z ->
    S i (j + 1)%Z k l = S (i + 1)%Z j k l + (cB - cA) * S i j k l.
  Proof.
    intros G Hi Hj Hk Hl.
    rewrite (g2_j _ _ _ _ _ _ _ _ _ _ _ G), (g2_i _ _ _ _ _ _ _ _ _ _ _ G) by lia. ring.
  Qed.
  Lemma gauss2_transfer_kl b10 b01 b00 cA cB cC cD S i j k l :
    gauss2 add mul inj b10 b01 b00 cA cB cC cD S ->
    (0 <= i)%Z -> (0 <= j)%Z -> (0 <= k)%Z -> (0 <= l)%Z ->
    S i j k (l + 1)%Z = S i j (k + 1)%Z l + (cD - cC) * S i j k l.
  Proof.
    intros G Hi Hj Hk Hl.
    rewrite (g2_l _ _ _ _ _ _ _ _ _ _ _ G), (g2_k _ _ _ _ _ _ _ _ _ _ _ G) by lia. ring.
  Qed.

  (** The two-centre table restricted to one centre per coordinate. *)
  Lemma gauss2_ik b10 b01 b00 cA cB cC cD S :
    gauss2 add mul inj b10 b01 b00 cA cB cC cD S ->
    moments2 add mul inj b10 b01 b00 cA cC (fun n m => S n 0%Z m 0%Z).
  Proof.
    intros G. split; intros n m Hn Hm.
    - rewrite (g2_i _ _ _ _ _ _ _ _ _ _ _ G) by lia. rewrite inj0. ring.
    - rewrite (g2_k _ _ _ _ _ _ _ _ _ _ _ G) by lia. rewrite inj0. ring.
  Qed.
  Lemma gauss2_il b10 b01 b00 cA cB cC cD S :
    gauss2 add mul inj b10 b01 b00 cA cB cC cD S ->
    moments2 add mul inj b10 b01 b00 cA cD (fun n m => S n 0%Z 0%Z m).
  Proof.
    intros G. split; intros n m Hn Hm.
    - rewrite (g2_i _ _ _ _ _ _ _ _ _ _ _ G) by lia. rewrite inj0. ring.
    - rewrite (g2_l _ _ _ _ _ _ _ _ _ _ _ G) by lia. rewrite inj0. ring.
  Qed.
  Lemma gauss2_jk b10 b01 b00 cA cB cC cD S :
    gauss2 add mul inj b10 b01 b00 cA cB cC cD S ->
    moments2 add mul inj b10 b01 b00 cB cC (fun n m => S 0%Z n m 0%Z).
  Proof.
    intros G. split; intros n m Hn Hm.
    - rewrite (g2_j _ _ _ _ _ _ _ _ _ _ _ G) by lia. rewrite inj0. ring.
    - rewrite (g2_k _ _ _ _ _ _ _ _ _ _ _ G) by lia. rewrite inj0. ring.
  Qed.
  Lemma gauss2_jl b10 b01 b00 cA cB cC cD S :
    gauss2 add mul inj b10 b01 b00 cA cB cC cD S ->
    moments2 add mul inj b10 b01 b00 cB cD (fun n m => S 0%Z n 0%Z m).
  Proof.
    intros G. split; intros n m Hn Hm.
    - rewrite (g2_j _ _ _ _ _ _ _ _ _ _ _ G) by lia. rewrite inj0. ring.
    - rewrite (g2_l _ _ _ _ _ _ _ _ _ _ _ G) by lia. rewrite inj0. ring.
  Qed.

  (** Three centres on one coordinate. *)
  Lemma gauss3_exist b cA cB cC w :
    exists S, gauss3 add mul inj b cA cB cC S /\ S 0%Z 0%Z 0%Z = w.
  Proof.
    destruct (gauss2_exist b b b cA cB cC zero w) as (S & G & E).
    exists (fun i j k => S i j k 0%Z). split; [|exact E]. split; intros i j k Hi Hj Hk.
    - rewrite (g2_i _ _ _ _ _ _ _ _ _ _ _ G) by lia. rewrite inj0. ring.
    - rewrite (g2_j _ _ _ _ _ _ _ _ _ _ _ G) by lia. rewrite inj0. ring.
    - rewrite (g2_k _ _ _ _ _ _ _ _ _ _ _ G) by lia. rewrite inj0. ring.
  Qed.

  Lemma gauss3_unique b cA cB cC S S' :
    gauss3 add mul inj b cA cB cC S -> gauss3 add mul inj b cA cB cC S' ->
    S 0%Z 0%Z 0%Z = S' 0%Z 0%Z 0%Z ->
    forall i j k, (0 <= i -> 0 <= j -> 0 <= k -> S i j k = S' i j k)%Z.
  Proof.
    intros G G' E.
    assert (X : forall N i j k, (0 <= i -> 0 <= j -> 0 <= k ->
                 i + j + k <= Z.of_nat N -> S i j k = S' i j k)%Z).
    { induction N as [N IH] using (well_founded_induction Wf_nat.lt_wf).
      intros i j k Hi Hj Hk HN.
      assert (IH' : forall i' j' k', (0 <= i' -> 0 <= j' -> 0 <= k' ->
                i' + j' + k' < i + j + k -> S i' j' k' = S' i' j' k')%Z).
      { intros i' j' k' ? ? ? Hlt. apply (IH (Z.to_nat (i' + j' + k'))); lia. }
      assert (T : forall c i' j' k', (0 <= c)%Z -> (c = 0 \/ (0 <= i' /\ 0 <= j' /\ 0 <= k'))%Z ->
                (i' + j' + k' < i + j + k)%Z -> inj c * S i' j' k' = inj c * S' i' j' k').
      { intros c i' j' k' Hc Hz Hlt. destruct Hz as [->|Hp].
        - rewrite inj0. ring.
        - rewrite IH' by lia. reflexivity. }
      destruct (Z.eq_dec i 0) as [->|Hi0].
      2:{ replace i with (i - 1 + 1)%Z by lia.
          rewrite (g3_i _ _ _ _ _ _ _ _ G), (g3_i _ _ _ _ _ _ _ _ G') by lia.
          rewrite (IH' (i - 1)%Z j k) by lia.
          rewrite (T (i - 1)%Z (i - 1 - 1)%Z j k), (T j (i - 1)%Z (j - 1)%Z k),
            (T k (i - 1)%Z j (k - 1)%Z) by lia.
          reflexivity. }
      destruct (Z.eq_dec j 0) as [->|Hj0].
      2:{ replace j with (j - 1 + 1)%Z by lia.
          rewrite (g3_j _ _ _ _ _ _ _ _ G), (g3_j _ _ _ _ _ _ _ _ G') by lia.
          rewrite (IH' 0%Z (j - 1)%Z k) by lia.
          rewrite (T 0%Z (0 - 1)%Z (j - 1)%Z k), (T (j - 1)%Z 0%Z (j - 1 - 1)%Z k),
            (T k 0%Z (j - 1)%Z (k - 1)%Z) by lia.
          reflexivity. }
      destruct (Z.eq_dec k 0) as [->|Hk0]; [exact E|].
      replace k with (k - 1 + 1)%Z by lia.
      rewrite (g3_k _ _ _ _ _ _ _ _ G), (g3_k _ _ _ _ _ _ _ _ G') by lia.
      rewrite (IH' 0%Z 0%Z (k - 1)%Z) by lia.
      rewrite (T 0%Z (0 - 1)%Z 0%Z (k - 1)%Z), (T 0%Z 0%Z (0 - 1)%Z (k - 1)%Z),
        (T (k - 1)%Z 0%Z 0%Z (k - 1 - 1)%Z) by lia.
      reflexivity. }
    intros i j k Hi Hj Hk. apply (X (Z.to_nat (i + j + k))); lia.
  Qed.
End Moments.
