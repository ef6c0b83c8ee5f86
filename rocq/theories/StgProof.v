From Coq Require Import Reals Lra.
From Verif Require Import Base StgModel StgSpec.
Local Open Scope R_scope.
Ltac Zify.zify_post_hook ::= Z.div_mod_to_equations.

Lemma int_part_bounds x : IZR (Int_part x) <= x < IZR (Int_part x) + 1.
Proof. pose proof (base_Int_part x) as [H1 H2]. lra. Qed.

Lemma trunc_nonneg x : 0 <= x -> (0 <= Rtrunc x)%Z /\ IZR (Rtrunc x) <= x < IZR (Rtrunc x) + 1.
Proof.
  intros H. unfold Rtrunc. destruct (Rlt_dec x 0); [lra|]. pose proof (int_part_bounds x) as B. split; [|exact B].
  assert (IZR (-1) < IZR (Int_part x)) by (change (IZR (-1)) with (Ropp 1); lra). apply lt_IZR in H0. lia.
Qed.

(** a lower bound of exp good to about 1e-10 *)
Lemma exp_lower y : 0 <= y -> 1 + y + y ^ 2 / 2 + y ^ 3 / 6 <= exp y.
Proof.
  intros Hy.
  assert (G : Un_growing (E1 y)).
  { intros n. unfold E1. cbn [sum_f_R0]. assert (0 <= / INR (fact (S n)) * y ^ S n); [|lra].
    apply Rmult_le_pos; [apply Rlt_le, Rinv_0_lt_compat, INR_fact_lt_0|apply pow_le, Hy]. }
  pose proof (growing_ineq _ _ G (E1_cvg y) 3%nat) as H. unfold E1 in H. cbn [sum_f_R0] in H.
  replace (INR (fact 0)) with 1 in H by reflexivity. replace (INR (fact 1)) with 1 in H by reflexivity.
  replace (INR (fact 2)) with 2 in H by (cbn; lra). replace (INR (fact 3)) with 6 in H by (cbn; lra).
  cbn [pow] in *. lra.
Qed.

Lemma sq_lower a b c : 0 <= a -> a <= b -> c <= a * a -> c <= b * b.
Proof. intros. nra. Qed.

Lemma ln3 : ln 3 < 109861229 / 10 ^ 8.
Proof.
  rewrite <- (ln_exp (109861229 / 10 ^ 8)). apply ln_increasing; [lra|].
  set (y := 109861229 / 10 ^ 8 / 1024).
  assert (D : forall z, exp (2 * z) = exp z * exp z) by (intros z; replace (2 * z) with (z + z) by ring; apply exp_plus).
  replace (109861229 / 10 ^ 8) with (2 * (2 * (2 * (2 * (2 * (2 * (2 * (2 * (2 * (2 * y)))))))))) by (unfold y; lra).
  rewrite !D. pose proof (exp_lower y ltac:(unfold y; lra)) as H. set (e := exp y) in *.
  assert (B0 : 10010734392883845 / 10 ^ 16 <= e) by (unfold y in H; lra).
  assert (B1 : 10021480308486748 / 10 ^ 16 <= e * e) by (apply (sq_lower (10010734392883845 / 10 ^ 16)); [lra|exact B0|lra]).
  set (e1 := e * e) in *.
  assert (B2 : 10043006757338764 / 10 ^ 16 <= e1 * e1) by (apply (sq_lower (10021480308486748 / 10 ^ 16)); [lra|exact B1|lra]).
  set (e2 := e1 * e1) in *.
  assert (B3 : 10086198472795207 / 10 ^ 16 <= e2 * e2) by (apply (sq_lower (10043006757338764 / 10 ^ 16)); [lra|exact B2|lra]).
  set (e3 := e2 * e2) in *.
  assert (B4 : 10173139963261636 / 10 ^ 16 <= e3 * e3) by (apply (sq_lower (10086198472795207 / 10 ^ 16)); [lra|exact B3|lra]).
  set (e4 := e3 * e3) in *.
  assert (B5 : 10349277671211096 / 10 ^ 16 <= e4 * e4) by (apply (sq_lower (10173139963261636 / 10 ^ 16)); [lra|exact B4|lra]).
  set (e5 := e4 * e4) in *.
  assert (B6 : 10710754831582856 / 10 ^ 16 <= e5 * e5) by (apply (sq_lower (10349277671211096 / 10 ^ 16)); [lra|exact B5|lra]).
  set (e6 := e5 * e5) in *.
  assert (B7 : 11472026906227549 / 10 ^ 16 <= e6 * e6) by (apply (sq_lower (10710754831582856 / 10 ^ 16)); [lra|exact B6|lra]).
  set (e7 := e6 * e6) in *.
  assert (B8 : 13160740133720882 / 10 ^ 16 <= e7 * e7) by (apply (sq_lower (11472026906227549 / 10 ^ 16)); [lra|exact B7|lra]).
  set (e8 := e7 * e7) in *.
  assert (B9 : 17320508086733153 / 10 ^ 16 <= e8 * e8) by (apply (sq_lower (13160740133720882 / 10 ^ 16)); [lra|exact B8|lra]).
  set (e9 := e8 * e8) in *.
  assert (B10 : 30000000038258854 / 10 ^ 16 <= e9 * e9) by (apply (sq_lower (17320508086733153 / 10 ^ 16)); [lra|exact B9|lra]).
  set (e10 := e9 * e9) in *.
  lra.
Qed.

Lemma tt_bound t : 1 < t <= 1968299 / 100 -> 1 <= ln t * (9102392266268373 / 10 ^ 16) + 1 < 10.
Proof.
  intros [H1 H2]. assert (0 < ln t) by (rewrite <- ln_1; apply ln_increasing; lra). split; [lra|].
  assert (ln t <= ln (1968299 / 100)) as L.
  { destruct (Req_dec t (1968299 / 100)) as [->|N]; [lra|]. apply Rlt_le, ln_increasing; lra. }
  assert (ln (1968299 / 100) = 9 * ln 3 + ln (1 - 1 / 1968300)) as E.
  { replace (1968299 / 100) with (3 ^ 9 * (1 - 1 / 1968300)) by lra. rewrite ln_mult by lra.
    f_equal. rewrite ln_pow by lra. cbn [INR]. lra. }
  assert (ln (1 - 1 / 1968300) <= - (1 / 1968300)) as Q.
  { apply Rnot_lt_le. intros N. apply exp_increasing in N. rewrite exp_ln in N by lra.
    pose proof (exp_ineq1_le (- (1 / 1968300))). lra. }
  pose proof ln3. lra.
Qed.

Lemma ln_pow10 k : ln (10 ^ k) = INR k * ln 10.
Proof. apply ln_pow. lra. Qed.
Lemma ln10_pos : 0 < ln 10.
Proof. rewrite <- ln_1. apply ln_increasing; lra. Qed.

Lemma ln_le a b : 0 < a -> a <= b -> ln a <= ln b.
Proof. intros Ha [H|H]; [apply Rlt_le, ln_increasing; lra|subst; lra]. Qed.
Lemma ln_le_inv a b : 0 < a -> 0 < b -> ln a <= ln b -> a <= b.
Proof. intros Ha Hb H. apply Rnot_lt_le. intros N. apply ln_increasing in N; lra. Qed.

Lemma decade u : 0 < u -> log10 u + 7 = log10 (u * 10 ^ 7).
Proof.
  intros Hu. unfold log10. rewrite ln_mult by lra. rewrite ln_pow10. cbn [INR]. pose proof ln10_pos. field. lra.
Qed.

Lemma log10_pow k : log10 (10 ^ k) = INR k.
Proof. unfold log10. rewrite ln_pow10. pose proof ln10_pos. field. lra. Qed.
Lemma log10_le a b : 0 < a -> a <= b -> log10 a <= log10 b.
Proof. intros Ha H. unfold log10. apply Rmult_le_compat_r; [apply Rlt_le, Rinv_0_lt_compat, ln10_pos|apply ln_le; auto]. Qed.
Lemma log10_lt a b : 0 < a -> a < b -> log10 a < log10 b.
Proof. intros Ha H. unfold log10. apply Rmult_lt_compat_r; [apply Rinv_0_lt_compat, ln10_pos|apply ln_increasing; auto]. Qed.

Lemma tt_range t : 0 <= t ->
  let t' := if Rlt_dec (1968299 / 100) t then 1968299 / 100 else t in
  0 <= (if Rlt_dec 1 t' then ln t' * (9102392266268373 / 10 ^ 16) + 1 else sqrt t') < 10.
Proof.
  intros Ht t'. assert (0 <= t' <= 1968299 / 100) by (unfold t'; destruct (Rlt_dec (1968299 / 100) t); lra).
  destruct (Rlt_dec 1 t').
  - pose proof (tt_bound t' ltac:(lra)). lra.
  - split; [apply sqrt_pos|]. assert (sqrt t' <= sqrt 1) by (apply sqrt_le_1; lra). rewrite sqrt_1 in H0. lra.
Qed.

Theorem select_ok nroots ta ua : (1 <= nroots)%Z -> 0 <= ta -> / 10 ^ 7 <= ua < 10 ^ 3 ->
  exists s, stg_select nroots ta ua = Some s /\ inside_table nroots s /\ right_decade ua s.
Proof.
  intros Hn Ht Hu. unfold stg_select. cbv zeta.
  pose proof (tt_range ta Ht) as T. cbv zeta in T. set (tt := if Rlt_dec 1 _ then _ else _) in *. clearbody tt.
  destruct (trunc_nonneg tt ltac:(lra)) as [I0 I1].
  assert (U0 : 0 < ua) by (pose proof (Rinv_0_lt_compat (10 ^ 7) ltac:(lra)); lra).
  assert (V : 1 <= ua * 10 ^ 7).
  { apply Rmult_le_reg_l with (/ 10 ^ 7); [apply Rinv_0_lt_compat; lra|]. rewrite Rmult_1_r, (Rmult_comm ua), <- Rmult_assoc, Rinv_l by lra. lra. }
  assert (W : ua * 10 ^ 7 < 10 ^ 10) by lra.
  rewrite (decade ua U0). 
  assert (L0 : 0 <= log10 (ua * 10 ^ 7)).
  { replace 0 with (log10 (10 ^ 0)) by apply (log10_pow 0). apply log10_le; cbn [pow]; lra. }
  assert (L1 : log10 (ua * 10 ^ 7) < 10).
  { replace 10 with (log10 (10 ^ 10)) at 2 by (rewrite log10_pow; cbn [INR]; lra). apply log10_lt; lra. }
  destruct (trunc_nonneg _ L0) as [J0 J1].
  set (it := Rtrunc tt) in *. set (iu := Rtrunc (log10 (ua * 10 ^ 7))) in *.
  assert (it < 10)%Z by (apply lt_IZR; lra). assert (iu < 10)%Z by (apply lt_IZR; lra).
  destruct (iu <? 0)%Z eqn:E1; [lia|]. destruct (iu >? 10)%Z eqn:E2; [lia|]. cbn [orb].
  eexists. split; [reflexivity|]. split.
  - unfold inside_table. cbn [sel_it sel_iu sel_base sel_offset sel_t sel_u].
    split; [lia|]. split; [lia|]. split; [lia|]. split; [lia|]. split; [nia|]. split; [lra|].
    rewrite minus_IZR. pose proof (decade ua U0). lra.
  - unfold right_decade. cbn [sel_iu].
    assert (P : forall k, 0 < 10 ^ k) by (intros k; apply pow_lt; lra).
    assert (K : forall z, (0 <= z)%Z -> log10 (10 ^ Z.to_nat z) = IZR z).
    { intros z Hz. rewrite log10_pow, INR_IZR_INZ, Z2Nat.id by lia. reflexivity. }
    split.
    + apply Rnot_lt_le. intros N. apply log10_lt in N; [|lra]. rewrite K in N by lia. lra.
    + apply Rnot_le_lt. intros N. apply log10_le in N; [|apply P]. rewrite K in N by lia. rewrite plus_IZR in N. lra.
Qed.

(** u = 1000: block column 10 *)
Lemma select_u1000 nroots ta : 0 <= ta -> exists s, stg_select nroots ta (10 ^ 3) = Some s /\ sel_iu s = 10%Z.
Proof.
  intros Ht. unfold stg_select. cbv zeta.
  assert (E : log10 (10 ^ 3) + 7 = 10) by (rewrite log10_pow; cbn [INR]; lra). rewrite E.
  assert (I : Rtrunc 10 = 10%Z).
  { destruct (trunc_nonneg 10 ltac:(lra)) as [_ [A B]]. apply le_IZR in A.
    assert (IZR 10 < IZR (Rtrunc 10 + 1)) by (rewrite plus_IZR; lra). apply lt_IZR in H. lia. }
  rewrite I. cbn [Z.ltb Z.compare Z.gtb orb]. eexists. split; [reflexivity|reflexivity].
Qed.

(** 1e-8 < u < 1e-7 is accepted with a coordinate outside [-1,1] *)
Lemma select_small nroots ta ua : 0 <= ta -> / 10 ^ 8 < ua < / 10 ^ 7 ->
  exists s, stg_select nroots ta ua = Some s /\ sel_u s < -1.
Proof.
  intros Ht Hu. unfold stg_select. cbv zeta.
  assert (U0 : 0 < ua) by (pose proof (Rinv_0_lt_compat (10 ^ 8) ltac:(lra)); lra).
  assert (A : / 10 < ua * 10 ^ 7 < 1).
  { split.
    - assert (/ 10 ^ 8 * 10 ^ 7 < ua * 10 ^ 7) by (apply Rmult_lt_compat_r; lra). lra.
    - assert (ua * 10 ^ 7 < / 10 ^ 7 * 10 ^ 7) by (apply Rmult_lt_compat_r; lra). lra. }
  assert (B : -1 < log10 (ua * 10 ^ 7) < 0).
  { split.
    - replace (-1) with (log10 (/ 10)); [apply log10_lt; lra|]. unfold log10. rewrite ln_Rinv by lra. pose proof ln10_pos. field. lra.
    - replace 0 with (log10 (10 ^ 0)) by apply (log10_pow 0). apply log10_lt; cbn [pow]; lra. }
  rewrite (decade ua U0). set (v := log10 (ua * 10 ^ 7)) in *.
  assert (I : Rtrunc v = 0%Z).
  { unfold Rtrunc. destruct (Rlt_dec v 0); [|lra]. pose proof (int_part_bounds (- v)) as C.
    assert (IZR (Int_part (- v)) < IZR 1) by lra. apply lt_IZR in H.
    assert (IZR (-1) < IZR (Int_part (- v))) by (change (IZR (-1)) with (Ropp 1); lra). apply lt_IZR in H0. lia. }
  rewrite I. cbn [Z.ltb Z.compare Z.gtb orb]. eexists. split; [reflexivity|]. cbn [sel_u].
  pose proof (decade ua U0) as D. fold v in D. change (0 - 7)%Z with (-7)%Z. lra.
Qed.
