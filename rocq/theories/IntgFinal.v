(** IntgFinal.v — running a whole integrand function; the check of one entry point is sound. *)
From Coq Require Import Reals Lra QArith Qreals String FunctionalExtensionality.
From Coquelicot Require Import Coquelicot.
From Verif Require Import Base EnvModel OpSpec OpReal IntgModel IntgSpec IntgTab IntgStmt IntgCheck IntgStep IntgSem IntgRun IntgExec IntgDen.
Local Open Scope Z_scope.

Lemma mapo_len {A B} (f : A -> option B) l l' : mapo f l = Some l' -> length l' = length l.
Proof.
  revert l'. induction l as [|a l IH]; intros l' E; cbn [mapo] in E; [injection E as <-; reflexivity|].
  apply bind_some in E. destruct E as (y & E1 & E). apply bind_some in E. destruct E as (r & E2 & E). injection E as <-.
  cbn. f_equal. apply IH. exact E2.
Qed.
Lemma mapo_nth {A B} (f : A -> option B) l l' i a : mapo f l = Some l' -> nth_error l i = Some a ->
  exists b, nth_error l' i = Some b /\ f a = Some b.
Proof.
  revert l' i. induction l as [|a0 l IH]; intros l' i E; cbn [mapo] in E; [destruct i; discriminate|].
  apply bind_some in E. destruct E as (y & E1 & E). apply bind_some in E. destruct E as (r & E2 & E). injection E as <-.
  destruct i as [|i]; cbn [nth_error]; [intros [= ->]; eauto|]. apply IH. exact E2.
Qed.

Section Final.
  Variables (fam : gfam) (om : bool) (ng : ngT) (l ctr : centre -> Z) (x : gin R) (f : gfun).
  Variable I : Z -> Z -> funs -> R.
  Hypothesis (H : lhyp fam ng l (x_bg x) (g_kind f)) (He : x_env x = fam_env fam om ng l ctr).
  Hypothesis Hlin : forall c, used fam c = true -> linear_in (x_a x) (x_R x) I c.
  Local Notation e := (x_env x).
  Local Notation gs := (g_size (x_env x)).
  Local Notation K := (g_kind f).
  Local Notation INV := (Inv fam ng l x K (g_nblk f) I).
  Variable pw : Z -> Z -> centre -> Z.
  Local Notation TV n ig := (tv (x_a x) (x_R x) (x_C x) I (roots K e ig) (pw n)).
  Local Notation RV n ig := (rv (x_a x) (x_R x) (x_C x) I (roots K e ig) (pw n)).

  Lemma svals_ok st p m n ig : INV st p m -> 0 <= ig < points x K -> (forall ax, 0 <= ax < 3 -> okpw fam l (pw n ax)) ->
    let ix ax := ax * gs + cell e 0 (pw n ax) in
    forall bs ss, mapo (sym_s fam ng st) bs = Some ss ->
    exists s, svals 0%R Rplus Rmult x K p m (ix 0) (ix 1) (ix 2) ig bs = Some s /\ length s = length ss /\
      (forall i ws v, nth_error ss i = Some ws -> nth_error s i = Some v -> v = rsum (map (TV n ig) ws)).
  Proof.
    intros HI Hig Hpw ix. induction bs as [|[[bx by_] bz] bs IH]; intros ss E; cbn [mapo] in E.
    - injection E as <-. exists []. cbn. repeat split; auto. intros i ws v Hx. destruct i; discriminate.
    - apply bind_some in E. destruct E as (ws & E1 & E). apply bind_some in E. destruct E as (r & E2 & E). injection E as <-.
      destruct (IH r E2) as (s & S1 & S2 & S3).
      unfold sym_s in E1. apply bind_some in E1. destruct E1 as (wx & Ex & E1). apply bind_some in E1. destruct E1 as (wy & Ey & E1).
      apply bind_some in E1. destruct E1 as (wz & Ez & E1). injection E1 as <-.
      pose proof (sval_ok fam ng l x K (g_nblk f) I H st p m (pw n) ig bx by_ bz wx wy wz HI Ex Ey Ez Hig Hpw) as Sv. cbv zeta in Sv.
      destruct (read_ok fam ng l x K (g_nblk f) I _ _ _ _ _ HI Ex) as [Fx _].
      destruct (read_ok fam ng l x K (g_nblk f) I _ _ _ _ _ HI Ey) as [Fy _].
      destruct (read_ok fam ng l x K (g_nblk f) I _ _ _ _ _ HI Ez) as [Fz _].
      exists (rsum (map (fun o => pr3 x I (pw n) wx wy wz o) (roots K e ig)) :: s).
      cbn [svals]. unfold ix in *. rewrite Sv. cbn [bind]. rewrite S1. cbn [bind]. split; [reflexivity|]. split; [cbn; congruence|].
      intros i ws v Hw Hv. destruct i as [|i]; cbn [nth_error] in Hw, Hv; [|eapply S3; eauto].
      injection Hw as <-. injection Hv as <-. apply (combos_ok (x_a x) (x_R x) (x_C x) I (roots K e ig) (pw n) x); auto.
  Qed.

  (** positions of the results *)
  Local Notation nc := (Z.of_nat (length (g_rows f))).
  Definition adr (t : Z * Z * Z) : Z := let '(n, ig, k) := t in ig + points x K * (n * nc + k).
  Definition tbox (t : Z * Z * Z) : Prop := let '(n, ig, k) := t in 0 <= n < nf e /\ 0 <= ig < points x K /\ 0 <= k < nc.
  Lemma adr_inj : InjBox adr tbox.
  Proof.
    intros [[n ig] k] [[n' ig'] k'] (B1 & B2 & B3) (B1' & B2' & B3') E. unfold adr in E.
    apply radix2_inj in E; [|lia|lia]. destruct E as [-> E]. assert (E' : k + nc * n = k' + nc * n') by lia.
    apply radix2_inj in E'; [|lia|lia]. destruct E' as [-> ->]. reflexivity.
  Qed.
  Variables (empty : bool) (gout : arr R).
  Hypothesis Hout : points x K * (nf e * nc) <= asize gout.
  Definition oldv (t : Z * Z * Z) : R := if empty then 0%R else got gout (adr t).
  Lemma adr_bound t : tbox t -> 0 <= adr t < asize gout.
  Proof.
    destruct t as [[n ig] k]. intros (B1 & B2 & B3). unfold adr.
    assert (0 <= n * nc + k < nf e * nc) by nia. assert (0 <= ig + points x K * (n * nc + k) < points x K * (nf e * nc)) by nia. lia.
  Qed.
  Hypothesis Hold : empty = false -> forall q, 0 <= q < asize gout -> exists v, rd gout q = Some v.
  Variable P : Z -> poly.       (* the expression of component k *)
  Definition newv (t : Z * Z * Z) : R := let '(n, ig, k) := t in (oldv t + (0 + RV n ig (P k)))%R.
  Local Notation UPD := (Upd adr tbox newv).
  Definition done3 n0 g0 k0 (t : Z * Z * Z) : Prop := let '(n, ig, k) := t in
    n < n0 \/ n = n0 /\ (ig < g0 \/ ig = g0 /\ k < k0).

  Lemma put_ok s n ig : 0 <= n < nf e -> 0 <= ig < points x K ->
    forall rows k, nc = k + Z.of_nat (length rows) -> 0 <= k ->
    (forall i ts, nth_error rows i = Some ts ->
       row 1%R Rplus Rmult Rminus IZR x (g_const f) s ts 0%R = Some (0 + RV n ig (P (k + Z.of_nat i)))%R) ->
    forall g, UPD (done3 n ig k) gout g ->
    wp (put 0%R 1%R Rplus Rmult Rminus IZR x empty (g_const f) s (fun c => ig + points x K * (n * nc + c)) k rows g)
       (UPD (done3 n ig nc) gout).
  Proof.
    intros Hn Hig rows. induction rows as [|ts rows IH]; intros k Ek Hk Hr g HU.
    - cbn [put length] in *. apply wp_ret. replace nc with k by lia. exact HU.
    - cbn [put length] in *. pose proof (Hr O ts eq_refl) as R0. rewrite R0. cbn [bind].
      replace (k + Z.of_nat 0) with k in * by lia.
      assert (B : tbox (n, ig, k)) by (unfold tbox; lia).
      assert (W : (if empty then Some (0 + RV n ig (P k))%R else old <- rd g (ig + points x K * (n * nc + k)) ;; Some (old + (0 + RV n ig (P k)))%R)
                  = Some (newv (n, ig, k))).
      { pose proof (fun h => Hold h (adr (n, ig, k)) (adr_bound _ B)) as Ho.
        assert (Eo : rd g (adr (n, ig, k)) = rd gout (adr (n, ig, k))).
        { apply (Upd_rd_old _ _ _ _ _ _ _ adr_inj HU B). unfold done3. lia. }
        change (ig + points x K * (n * nc + k)) with (adr (n, ig, k)). unfold newv, oldv. rewrite Eo. clear Eo HU.
        destruct empty; [f_equal; ring|].
        destruct (Ho eq_refl) as [v Hv]. unfold got. rewrite Hv. reflexivity. }
      rewrite W. cbn [bind]. apply wp_bind.
      apply (Upd_wr adr tbox newv _ (done3 n ig (k + 1)) gout g (n, ig, k) _ _ adr_inj HU).
      + intros g' HU'. apply IH; try lia; [|exact HU'].
        intros i ts' Ht. specialize (Hr (S i) ts' Ht). replace (k + 1 + Z.of_nat i) with (k + Z.of_nat (S i)) by lia. exact Hr.
      + exact B.
      + apply adr_bound. exact B.
      + reflexivity.
      + intros [[n' ig'] k'] B'. unfold done3. split; [intros; destruct (Z.eq_dec n' n), (Z.eq_dec ig' ig), (Z.eq_dec k' k); subst; auto; left; lia|].
        intros [D|D]; [lia|injection D as -> -> ->; lia].
  Qed.

  Variables (idx : arr Z).
  Hypothesis Hidx : forall n ax, 0 <= n < nf e -> 0 <= ax < 3 ->
    rd idx (n * 3 + ax) = Some (ax * gs + cell e 0 (pw n ax)) /\ okpw fam l (pw n ax).

  Lemma gout_ok m ps : fam <> F4c1e \/ g_ops f = [] -> INV (sym0 ng (g_nblk f)) (ptr0 x) m -> sym_fun fam ng f = Some ps ->
    (forall i, (i < length (g_rows f))%nat -> nth_error ps i = Some (P (Z.of_nat i))) ->
    wp (run_gout 0%R 1%R Rplus Rmult Rminus IZR x f empty idx m gout) (UPD (fun _ => True) gout).
  Proof.
    intros H4 HI E HP. unfold sym_fun in E. apply bind_some in E. destruct E as (st & E1 & E). apply bind_some in E. destruct E as (ss & E2 & E).
    destruct (ops_ok fam om ng l ctr x K (g_nblk f) I H He Hlin (g_ops f) H4 _ _ _ _ HI E1) as (p & m' & R1 & HI').
    unfold run_gout. rewrite R1. cbn [bind].
    destruct (Z_lt_le_dec (nf e) 0) as [Hneg|Hnf].
    { unfold for_. replace (Z.to_nat (nf e - 0)) with O by lia. apply wp_ret. apply Upd_init. intros [[n ig] k] (B & _). lia. }
    apply wp_for with (I := fun n g => UPD (done3 n 0 0) gout g); [exact Hnf| | |].
    - apply Upd_init. intros [[n ig] k] B D. unfold tbox, done3 in *. lia.
    - intros n g Hn HU.
      destruct (Hidx n 0 Hn ltac:(lia)) as [I0 O0]. destruct (Hidx n 1 Hn ltac:(lia)) as [I1 O1]. destruct (Hidx n 2 Hn ltac:(lia)) as [I2 O2].
      rewrite I0. cbn [bind]. rewrite I1. cbn [bind]. rewrite I2. cbn [bind].
      destruct (Z_lt_le_dec (points x K) 0) as [Hpn|Hp].
      { unfold for_ at 1. replace (Z.to_nat (points x K - 0)) with O by lia. apply wp_ret.
        apply (Upd_iff _ _ _ _ _ _ _ HU). intros [[n' ig'] k'] (_ & B & _). lia. }
      apply wp_for with (I := fun ig g => UPD (done3 n ig 0) gout g); [exact Hp|exact HU| |].
      + intros ig g' Hig HU'.
        destruct (svals_ok st p m' n ig HI' Hig) with (bs := g_s f) (ss := ss) as (s & S1 & S2 & S3); [|exact E2|].
        { intros ax Hax. apply Hidx; lia. }
        cbv zeta in S1. rewrite S1. cbn [bind].
        eapply wp_mono; [apply (put_ok s n ig Hn Hig (g_rows f) 0); [lia|lia| |exact HU']|].
        * intros i ts Ht. assert (Hi : (i < length (g_rows f))%nat) by (apply nth_error_Some; congruence).
          destruct (mapo_nth _ _ _ _ _ E Ht) as (q & Q1 & Q2). rewrite (HP i Hi) in Q1. injection Q1 as <-.
          apply (row_ok (x_a x) (x_R x) (x_C x) I (roots K e ig) (pw n) fam ng st (g_const f) x ss s eq_refl S2 S3 ts _ _ Q2).
        * intros g'' HU''. apply (Upd_iff _ _ _ _ _ _ _ HU''). intros [[n' ig'] k'] (B1 & B2 & B3). unfold done3. lia.
      + intros g' HU'. apply (Upd_iff _ _ _ _ _ _ _ HU'). intros [[n' ig'] k'] (B1 & B2 & B3). unfold done3. lia.
    - intros g HU. apply (Upd_iff _ _ _ _ _ _ _ HU). intros [[n' ig'] k'] (B1 & B2 & B3). unfold done3. lia.
  Qed.
End Final.

Lemma chk_iff b (r : Datatypes.unit) : chk b = Some r -> b = true. Proof. destruct b; [reflexivity|discriminate]. Qed.

Lemma setup_ok_lhyp t ng l bg : setup_ok t ng = true -> (forall c, used (en_fam (t_e t)) c = true -> 0 <= l c) ->
  (g_kind (t_f t) = KG -> 0 <= bg <= GRID_BLKSIZE) ->
  lhyp (en_fam (t_e t)) ng l bg (g_kind (t_f t)) /\ (en_fam (t_e t) <> F4c1e \/ g_ops (t_f t) = []) /\
  (0 < g_nblk (t_f t))%nat /\ Z.of_nat (g_nblk (t_f t)) <= 2 ^ GSHIFT ng + 1.
Proof.
  unfold setup_ok. rewrite !andb_true_iff. intros (((Hk & Hi) & Hb) & Hg) Hl Hbg.
  rewrite forallb_forall in Hi. split; [split; [exact Hl|split]|].
  - intros c. assert (In c cs4) by (destruct c; cbn; auto). specialize (Hi c ltac:(assumption)). lia.
  - split; [exact Hbg|]. unfold kind_ok, kfits in *. destruct (en_fam (t_e t)), (g_kind (t_f t)); try discriminate Hk; auto. lia.
  - split; [|apply Nat.ltb_lt in Hb; lia]. unfold kind_ok in Hk. destruct (en_fam (t_e t)); try (left; discriminate). right.
    destruct (g_kind (t_f t)); try discriminate Hk. apply Nat.eqb_eq in Hk. destruct (g_ops (t_f t)); [reflexivity|discriminate Hk].
Qed.

Lemma rows_ok_nth parts e fac : forall ps cs, rows_ok parts e fac ps cs = true -> length ps = length cs /\
  forall k p s1 s2 q, nth_error ps k = Some p -> nth_error cs k = Some (s1, s2, q) ->
    peqb' parts (pscale (cqmul fac (phase e s1 s2)) p) q = true.
Proof.
  induction ps as [|p ps IH]; intros [|[[s1 s2] q] cs] E; try discriminate E.
  - split; [reflexivity|]. intros [|k]; discriminate.
  - cbn [rows_ok] in E. apply andb_true_iff in E. destruct E as [E1 E2]. destruct (IH cs E2) as [L N].
    split; [cbn; congruence|]. intros [|k] p' s1' s2' q'; cbn [nth_error]; [intros [= <-] [= <- <- <-]; exact E1|]. apply N.
Qed.

Lemma sym_row_real fam ng st cs ss : forall ts p, sym_row fam ng st cs ss ts = Some p -> realp p.
Proof.
  induction ts as [|[[k oc] i] ts IH]; intros p E; cbn [sym_row] in E; [injection E as <-; constructor|].
  apply bind_some in E. destruct E as (ws & E1 & E). apply bind_some in E. destruct E as (kc & E2 & E).
  apply bind_some in E. destruct E as (u & E3 & E). apply bind_some in E. destruct E as (r & E4 & E). injection E as <-.
  apply Forall_app. split; [|apply IH; exact E4]. apply Forall_map, Forall_forall. intros w _. reflexivity.
Qed.

Theorem ent_ok_sound parts sc perm t : ent_ok parts sc perm t = true ->
  forall ng om l ctr x I pw empty idx m gout, call t ng om l ctr x I pw empty idx m gout ->
  (parts = true -> by_parts (x_a x) (x_R x) I) ->
  computes sc (perm (components (t_d t) (sis (en_c2s1 (t_e t))) (sis (en_c2s2 (t_e t))))) t x I pw empty idx m gout.
Proof.
  unfold ent_ok. intros E ng om l ctr x I pw empty idx m gout HC Hparts.
  destruct (sym_ent t) as [ps|] eqn:Es; [|discriminate E]. destruct (factor (t_e t)) as [fc|] eqn:Ef; [|discriminate E].
  cbv zeta in E. apply andb_true_iff in E. destruct E as [E _].
  destruct HC as [Cng Cenv Cl Cbg Csz Cfull Clin Cg0 Cidx Cout Cold].
  unfold sym_ent in Es. rewrite Cng in Es. cbn [bind] in Es. apply bind_some in Es. destruct Es as (u & Es1 & Es). apply chk_iff in Es1.
  destruct (setup_ok_lhyp t ng l (x_bg x) Es1 Cl Cbg) as (Hl & H4 & Hb0 & Hb).
  apply rows_ok_nth in E. destruct E as [Lc Nc].
  assert (Lp : length ps = length (g_rows (t_f t))).
  { unfold sym_fun in Es. apply bind_some in Es. destruct Es as (st & _ & Es). apply bind_some in Es. destruct Es as (ss & _ & Es).
    apply mapo_len in Es. exact Es. }
  assert (Rp : forall k p, nth_error ps k = Some p -> realp p).
  { intros k p Hk. unfold sym_fun in Es. apply bind_some in Es. destruct Es as (st & _ & Es). apply bind_some in Es. destruct Es as (ss & _ & Es).
    pose proof (mapo_len _ _ _ Es) as L. assert (Hi : (k < length (g_rows (t_f t)))%nat) by (rewrite <- L; apply nth_error_Some; congruence).
    destruct (nth_error (g_rows (t_f t)) k) as [ts|] eqn:Et; [|apply nth_error_None in Et; lia].
    destruct (mapo_nth _ _ _ _ _ Es Et) as (q & Q1 & Q2). rewrite Hk in Q1. injection Q1 as <-. exact (sym_row_real _ _ _ _ _ _ _ Q2). }
  split; [congruence|].
  set (P := fun k : Z => nth (Z.to_nat k) ps []).
  assert (HP : forall i, (i < length (g_rows (t_f t)))%nat -> nth_error ps i = Some (P (Z.of_nat i))).
  { intros i Hi. unfold P. rewrite Nat2Z.id. apply nth_error_nth'. lia. }
  assert (Cf : full m). { intros q Hq Hn. destruct (Cfull q Hq) as [v Hv]. apply rd_spec in Hv. destruct Hv as [_ Hv]. congruence. }
  assert (Gs : 3 * g_size (x_env x) * Z.of_nat (g_nblk (t_f t)) <= asize m).
  { pose proof (gs0 (en_fam (t_e t)) om ng l ctr x (g_kind (t_f t)) Hl Cenv). nia. }
  assert (W : wp (run_gout 0%R 1%R Rplus Rmult Rminus IZR x (t_f t) empty idx m gout)
                (Upd (adr x (t_f t)) (tbox x (t_f t)) (newv x (t_f t) I pw empty gout P) (fun _ => True) gout)).
  { apply (gout_ok (en_fam (t_e t)) om ng l ctr x (t_f t) I Hl Cenv Clin pw empty gout Cout Cold P idx) with (ps := ps); auto.
    apply init_ok; auto. }
  apply wp_exists in W. destruct W as (gout' & ER & HU). exists fc, gout'. split; [exact Ef|]. split; [exact ER|]. split.
  - apply (Upd_Frame _ _ _ _ _ _ _ HU). intros [[n ig] k] B _. exists n, ig, k. split; [exact B|reflexivity].
  - intros n ig k s1 s2 q Hv Hq.
    assert (B : tbox x (t_f t) (n, ig, k)) by exact Hv.
    exists (0 + rv (x_a x) (x_R x) (x_C x) I (roots (g_kind (t_f t)) (x_env x) ig) (pw n) (P k))%R, (oldv x (t_f t) empty gout (n, ig, k)).
    split; [exact (Upd_new _ _ _ _ _ _ _ HU B Logic.I (adr_bound x (t_f t) gout Cout _ B))|]. split.
    + unfold oldv. destruct empty; [reflexivity|].
      destruct (Cold eq_refl _ (adr_bound x (t_f t) gout Cout _ B)) as [v Hw]. unfold got. change (pos x t n ig k) with (adr x (t_f t) (n, ig, k)).
      rewrite Hw. reflexivity.
    + destruct Hv as (V1 & V2 & V3).
      assert (Hk : nth_error ps (Z.to_nat k) = Some (P k)). { rewrite HP by lia. rewrite Z2Nat.id by lia. reflexivity. }
      specialize (Nc _ _ _ _ _ Hk Hq). apply (peqb'_ok (x_a x) (x_R x) (x_C x) I (roots (g_kind (t_f t)) (x_env x) ig) (pw n)) in Nc; [|exact Hparts].
      rewrite dn_scale, dn_real in Nc by exact (Rp _ _ Hk). rewrite Rplus_0_l.
      refine (eq_trans _ Nc). f_equal. rewrite !cval_mul. cring.
Qed.
