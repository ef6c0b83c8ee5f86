(** WholeSame.v — two calls that keep the same primitives store the same numbers. *)
From Coq Require Import Reals Lra QArith Qreals String Classical.
From Coquelicot Require Import Coquelicot.
From Verif Require Import Base BasModel BasSpec EnvModel IdxModel IdxSpec CtrModel
  OptModel OptSpec OptPair ScreenSpec ScreenProof ScreenFinal OutModel OutSpec TabModel
  OpSpec RecModel RecSpec GaussInt Gauss2Int IntgModel IntgSpec IntgTab IntgStmt IntgAll IntgReal QuadSpec OperSpec OperModel Oper2e
  WholeModel WholeSpec WholeBatch Whole1e Whole2Model Whole2Batch Whole2Spec Whole4c Whole3c.
Local Open Scope R_scope.

(** ** The factor in front of a stored value is not zero *)
Lemma cqmul_C x y : cval (cqmul x y) = (cval x * cval y)%C.
Proof.
  unfold cval, cqmul. cbn [fst snd]. unfold Cmult. cbn [fst snd]. rewrite !(Qeq_eqR _ _ (Qred_correct _)).
  rewrite Q2R_minus, Q2R_plus, !Q2R_mult. reflexivity.
Qed.
Lemma C_no0 (x y : C) : x <> RtoC 0 -> y <> RtoC 0 -> (x * y)%C <> RtoC 0.
Proof. intros Hx Hy. apply Cmult_neq_0; assumption. Qed.
Lemma phase_no0 n : cval (cqpow n) <> RtoC 0.
Proof.
  induction n as [|n IH].
  - unfold cqpow, cval. cbn. intros X. apply (f_equal fst) in X. unfold Q2R in X. cbn in X. lra.
  - change (cqpow (S n)) with (cqmul cqi (cqpow n)). rewrite cqmul_C. apply C_no0; [|exact IH].
    intros X. apply (f_equal snd) in X. unfold cval, cqi, Q2R in X. cbn in X. lra.
Qed.
Definition factor_no0 (t : ent) : bool := match factor (t_e t) with Some f => negb (fst f =? 0)%Z | None => true end.
Lemma factors_no0 : forallb factor_no0 catalogue = true.
Proof. vm_cast_no_check (eq_refl true). Qed.
Lemma front_no0 t f s1 s2 : In t catalogue -> factor (t_e t) = Some f -> cval (cqmul (qfac f) (phase (t_e t) s1 s2)) <> RtoC 0.
Proof.
  intros Ht Ef. pose proof (proj1 (forallb_forall _ _) factors_no0 t Ht) as H. unfold factor_no0 in H. rewrite Ef in H. apply negb_true_iff, Z.eqb_neq in H.
  rewrite cqmul_C. apply C_no0; [|apply phase_no0]. intros X. apply (f_equal fst) in X. cbn [cval qfac fst] in X.
  apply H.
  change (fst (RtoC 0)) with 0 in X. replace 0 with (Q2R 0) in X by (unfold Q2R; cbn; lra). apply eqR_Qeq in X. unfold Qeq in X. cbn in X. lia.
Qed.
Lemma C_cancel (c x y : C) : c <> RtoC 0 -> (c * x)%C = (c * y)%C -> x = y.
Proof.
  intros Hc E. transitivity (/ c * (c * x))%C; [rewrite Cmult_assoc, Cinv_l, Cmult_1_l; auto|]. rewrite E, Cmult_assoc, Cinv_l, Cmult_1_l; auto.
Qed.

(** ** Blocks with the same values *)
Lemma rd_cell {F} (a : arr F) p v : rd a p = Some v -> acell a p = Some v.
Proof. unfold rd. destruct (inb a p); [auto|discriminate]. Qed.
Lemma block_same {F} (a0 a1 a2 : arr F) nc n1 n2 n3 n4 m1 m2 m3 m4 v1 v2 :
  stored_block a0 a1 nc n1 n2 n3 n4 m1 m2 m3 m4 v1 -> stored_block a0 a2 nc n1 n2 n3 n4 m1 m2 m3 m4 v2 ->
  (forall n i1 i2 i3 i4, 0 <= n < nc -> 0 <= i1 < m1 -> 0 <= i2 < m2 -> 0 <= i3 < m3 -> 0 <= i4 < m4 -> v1 n i1 i2 i3 i4 = v2 n i1 i2 i3 i4)%Z ->
  asize a1 = asize a2 /\ forall x, acell a1 x = acell a2 x.
Proof.
  intros (A1 & B1 & C1) (A2 & B2 & C2) H. split; [congruence|]. intros x.
  destruct (classic (exists n i1 i2 i3 i4, (0 <= n < nc)%Z /\ (0 <= i1 < m1)%Z /\ (0 <= i2 < m2)%Z /\ (0 <= i3 < m3)%Z /\ (0 <= i4 < m4)%Z /\ x = OutSpec.place n1 n2 n3 n4 n i1 i2 i3 i4))
    as [(n & i1 & i2 & i3 & i4 & H0 & H1 & H2 & H3 & H4 & ->)|N].
  - rewrite (rd_cell _ _ _ (B1 n i1 i2 i3 i4 H0 H1 H2 H3 H4)), (rd_cell _ _ _ (B2 n i1 i2 i3 i4 H0 H1 H2 H3 H4)), (H n i1 i2 i3 i4 H0 H1 H2 H3 H4). reflexivity.
  - assert (X : forall n i1 i2 i3 i4, (0 <= n < nc -> 0 <= i1 < m1 -> 0 <= i2 < m2 -> 0 <= i3 < m3 -> 0 <= i4 < m4 -> x <> OutSpec.place n1 n2 n3 n4 n i1 i2 i3 i4)%Z).
    { intros n i1 i2 i3 i4 H0 H1 H2 H3 H4 E. apply N. exists n, i1, i2, i3, i4. auto 10. }
    rewrite (C1 x X), (C2 x X). reflexivity.
Qed.

(** ** The same primitives, the same values *)
Lemma summed4_same V ev k1 k2 i j k l ic jc kc lc ti tj tk tl w S S' :
  (forall ip jp kp lp, (0 <= ip < v_np V i)%Z -> (0 <= jp < v_np V j)%Z -> (0 <= kp < v_np V k)%Z -> (0 <= lp < v_np V l)%Z -> (k1 ip jp kp lp <-> k2 ip jp kp lp)) ->
  summed4 V ev k1 i j k l ic jc kc lc (fun ip jp kp lp => eri4 V ev i j k l ip jp kp lp ti tj tk tl w) S ->
  summed4 V ev k2 i j k l ic jc kc lc (fun ip jp kp lp => eri4 V ev i j k l ip jp kp lp ti tj tk tl w) S' -> S = S'.
Proof.
  intros H (D & K & X & ->). apply summed4_unique. exists D, K. split; [|reflexivity]. intros ip jp kp lp H1 H2 H3 H4.
  destruct (X ip jp kp lp H1 H2 H3 H4) as [X1 X2]. rewrite <- (H ip jp kp lp H1 H2 H3 H4). auto.
Qed.
Lemma summed3_same V ev k1 k2 i j k ic jc kc ti tj tk w S S' :
  (forall ip jp kp, (0 <= ip < v_np V i)%Z -> (0 <= jp < v_np V j)%Z -> (0 <= kp < v_np V k)%Z -> (k1 ip jp kp <-> k2 ip jp kp)) ->
  summed3 V ev k1 i j k ic jc kc (fun ip jp kp => eri3 V ev i j k ip jp kp ti tj tk w) S ->
  summed3 V ev k2 i j k ic jc kc (fun ip jp kp => eri3 V ev i j k ip jp kp ti tj tk w) S' -> S = S'.
Proof.
  intros H (D & K & X & ->). apply summed3_unique. exists D, K. split; [|reflexivity]. intros ip jp kp H1 H2 H3.
  destruct (X ip jp kp H1 H2 H3) as [X1 X2]. rewrite <- (H ip jp kp H1 H2 H3). auto.
Qed.
Section Same4.
  Variables (V : view) (ev : Z -> R) (t : ent) (f : Z * positive) (i j k l : Z) (c : R).
  Variables (k1 k2 : Z -> Z -> Z -> Z -> Prop) (Y1 Y2 : Z -> Z -> Z -> Z -> Z -> Z -> Z -> Z -> Z -> R).
  Hypothesis Ht : In t catalogue.
  Hypothesis Hf : two_fam (en_fam (t_e t)).
  Hypothesis Ef : factor (t_e t) = Some f.
  Hypothesis Hli : (0 <= v_l V i <= 15)%Z.
  Hypothesis Hlj : (0 <= v_l V j <= 15)%Z.
  Hypothesis Hlk : (0 <= v_l V k <= 15)%Z.
  Hypothesis Hll : (0 <= v_l V l <= 15)%Z.
  Hypothesis Hk : forall ip jp kp lp, (0 <= ip < v_np V i)%Z -> (0 <= jp < v_np V j)%Z -> (0 <= kp < v_np V k)%Z -> (0 <= lp < v_np V l)%Z -> (k1 ip jp kp lp <-> k2 ip jp kp lp).
  Definition ok4 (keep : Z -> Z -> Z -> Z -> Prop) (Y : Z -> Z -> Z -> Z -> Z -> Z -> Z -> Z -> Z -> R) : Prop :=
    forall (a b c' d kk : nat) ic jc kc lc ti tj tk tl s1 s2 q,
       nth_error (cart_list (v_l V i)) a = Some ti -> nth_error (cart_list (v_l V j)) b = Some tj -> nth_error (cart_list (v_l V k)) c' = Some tk -> nth_error (cart_list (v_l V l)) d = Some tl ->
       nth_error (components (t_d t) (sis (en_c2s1 (t_e t))) (sis (en_c2s2 (t_e t)))) kk = Some (s1, s2, q) ->
       exists S, summed4 V ev keep i j k l ic jc kc lc (fun ip jp kp lp => eri4 V ev i j k l ip jp kp lp ti tj tk tl q) S /\
         (cval (cqmul (qfac f) (phase (t_e t) s1 s2)) * RtoC (Y (Z.of_nat kk) ic jc kc lc (Z.of_nat a) (Z.of_nat b) (Z.of_nat c') (Z.of_nat d)) = RtoC c * S)%C.
  Lemma Y_same4 : ok4 k1 Y1 -> ok4 k2 Y2 -> forall n ic jc kc lc a b c' d, (0 <= n < Z.of_nat (length (g_rows (t_f t))))%Z ->
    (0 <= a < CINTlen_cart (v_l V i))%Z -> (0 <= b < CINTlen_cart (v_l V j))%Z -> (0 <= c' < CINTlen_cart (v_l V k))%Z -> (0 <= d < CINTlen_cart (v_l V l))%Z ->
    Y1 n ic jc kc lc a b c' d = Y2 n ic jc kc lc a b c' d.
  Proof.
    intros O1 O2 n ic jc kc lc a b c' d Hn Ha Hb Hc Hd.
    destruct (cart_nth _ _ (proj1 Hli) Ha) as [ti E1]. destruct (cart_nth _ _ (proj1 Hlj) Hb) as [tj E2]. destruct (cart_nth _ _ (proj1 Hlk) Hc) as [tk E3]. destruct (cart_nth _ _ (proj1 Hll) Hd) as [tl E4].
    destruct (whole2 t Ht Hf) as (_ & EL & _).
    destruct (nth_error (comps t) (Z.to_nat n)) as [[[s1 s2] q]|] eqn:E5; [|apply nth_error_None in E5; lia].
    destruct (O1 _ _ _ _ _ ic jc kc lc _ _ _ _ _ _ _ E1 E2 E3 E4 E5) as (S & X1 & X2). destruct (O2 _ _ _ _ _ ic jc kc lc _ _ _ _ _ _ _ E1 E2 E3 E4 E5) as (S' & X3 & X4).
    rewrite !Z2Nat.id in X2, X4 by lia. pose proof (summed4_same V ev k1 k2 i j k l ic jc kc lc _ _ _ _ _ S S' Hk X1 X3) as ES. rewrite ES, <- X4 in X2.
    apply C_cancel in X2; [|apply front_no0; assumption]. apply (f_equal fst) in X2. exact X2.
  Qed.
End Same4.
Section Same3.
  Variables (V : view) (ev : Z -> R) (t : ent) (f : Z * positive) (i j k : Z) (c : R).
  Variables (k1 k2 : Z -> Z -> Z -> Prop) (Y1 Y2 : Z -> Z -> Z -> Z -> Z -> Z -> Z -> R).
  Hypothesis Ht : In t catalogue.
  Hypothesis Hf : two_fam (en_fam (t_e t)).
  Hypothesis Ef : factor (t_e t) = Some f.
  Hypothesis Hli : (0 <= v_l V i <= 15)%Z.
  Hypothesis Hlj : (0 <= v_l V j <= 15)%Z.
  Hypothesis Hlk : (0 <= v_l V k <= 15)%Z.
  Hypothesis Hk : forall ip jp kp, (0 <= ip < v_np V i)%Z -> (0 <= jp < v_np V j)%Z -> (0 <= kp < v_np V k)%Z -> (k1 ip jp kp <-> k2 ip jp kp).
  Definition ok3 (keep : Z -> Z -> Z -> Prop) (Y : Z -> Z -> Z -> Z -> Z -> Z -> Z -> R) : Prop :=
    forall (a b c' kk : nat) ic jc kc ti tj tk s1 s2 q,
       nth_error (cart_list (v_l V i)) a = Some ti -> nth_error (cart_list (v_l V j)) b = Some tj -> nth_error (cart_list (v_l V k)) c' = Some tk ->
       nth_error (components (t_d t) (sis (en_c2s1 (t_e t))) (sis (en_c2s2 (t_e t)))) kk = Some (s1, s2, q) ->
       exists S, summed3 V ev keep i j k ic jc kc (fun ip jp kp => eri3 V ev i j k ip jp kp ti tj tk q) S /\
         (cval (cqmul (qfac f) (phase (t_e t) s1 s2)) * RtoC (Y (Z.of_nat kk) ic jc kc (Z.of_nat a) (Z.of_nat b) (Z.of_nat c')) = RtoC c * S)%C.
  Lemma Y_same3 : ok3 k1 Y1 -> ok3 k2 Y2 -> forall n ic jc kc a b c', (0 <= n < Z.of_nat (length (g_rows (t_f t))))%Z ->
    (0 <= a < CINTlen_cart (v_l V i))%Z -> (0 <= b < CINTlen_cart (v_l V j))%Z -> (0 <= c' < CINTlen_cart (v_l V k))%Z ->
    Y1 n ic jc kc a b c' = Y2 n ic jc kc a b c'.
  Proof.
    intros O1 O2 n ic jc kc a b c' Hn Ha Hb Hc.
    destruct (cart_nth _ _ (proj1 Hli) Ha) as [ti E1]. destruct (cart_nth _ _ (proj1 Hlj) Hb) as [tj E2]. destruct (cart_nth _ _ (proj1 Hlk) Hc) as [tk E3].
    destruct (whole2 t Ht Hf) as (_ & EL & _).
    destruct (nth_error (comps t) (Z.to_nat n)) as [[[s1 s2] q]|] eqn:E5; [|apply nth_error_None in E5; lia].
    destruct (O1 _ _ _ _ ic jc kc _ _ _ _ _ _ E1 E2 E3 E5) as (S & X1 & X2). destruct (O2 _ _ _ _ ic jc kc _ _ _ _ _ _ E1 E2 E3 E5) as (S' & X3 & X4).
    rewrite !Z2Nat.id in X2, X4 by lia. pose proof (summed3_same V ev k1 k2 i j k ic jc kc _ _ _ _ S S' Hk X1 X3) as ES. rewrite ES, <- X4 in X2.
    apply C_cancel in X2; [|apply front_no0; assumption]. apply (f_equal fst) in X2. exact X2.
  Qed.
End Same3.
