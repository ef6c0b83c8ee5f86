(** OpReal.v — layouts of the operators and their meaning as integrals. *)
From Coq Require Import Reals Lra.
From Coquelicot Require Import Coquelicot.
From Verif Require Import Base EnvModel RecModel RecLay OpProof GaussInt OpSpec.
Local Open Scope Z_scope.

Lemma env1_lay e mi mj mk : env1 e mi mj mk -> forall li lj lk bi bj bk,
  li + bi <= mi -> lj + bj <= mj -> lk + bk <= mk -> lay_ok1 e li lj lk bi bj bk.
Proof.
  intros H li lj lk bi bj bk Hi Hj Hk. destruct H as [ng a b ci cj Ha Hb E|ng a b c ci cj ck Ha Hb Hc].
  - unfold init_int1e. cbv zeta. rewrite E. change (0 <? 1) with true. cbv iota.
    set (dli := if a + IINC ng >? b + JINC ng then a + IINC ng + (b + JINC ng) + 1 else a + IINC ng + 1).
    set (dlj := if a + IINC ng >? b + JINC ng then b + JINC ng + 1 else a + IINC ng + (b + JINC ng) + 1).
    assert (Hd : a + IINC ng + 1 <= dli /\ b + JINC ng + 1 <= dlj) by (unfold dli, dlj; destruct (a + IINC ng >? b + JINC ng); lia).
    clearbody dli dlj. split.
    + intros [[i j] k] [[i' j'] k'] (Hx & Hy & Hz) (Hx' & Hy' & Hz'). unfold adr1. cbn [g_stride_j g_stride_k].
      intros Eq. assert (k = 0) by lia. assert (k' = 0) by lia. subst k k'.
      destruct (radix2_inj dli i j i' j') as [-> ->]; try lia. reflexivity.
    + intros [[i j] k] (Hx & Hy & Hz). unfold adr1. cbn [g_stride_j g_stride_k g_size].
      assert (k = 0) by lia. subst k.
      pose proof (radix_bound dli dlj i j ltac:(lia) ltac:(lia)). lia.
  - split.
    + intros [[i j] k] [[i' j'] k'] (Hx & Hy & Hz) (Hx' & Hy' & Hz'). unfold adr1, init_int3c1e. cbn [g_stride_j g_stride_k].
      intros Eq. set (r := a + IINC ng + 1) in *. set (s := b + JINC ng + (c + KINC ng) + 1) in *.
      destruct (radix2_inj r i (j + s * k) i' (j' + s * k')) as [-> E2]; [unfold r; lia|unfold r; lia|lia|].
      destruct (radix2_inj s j k j' k') as [-> ->]; [unfold s; lia|unfold s; lia|lia|]. reflexivity.
    + intros [[i j] k] (Hx & Hy & Hz). unfold adr1, init_int3c1e. cbn [g_stride_j g_stride_k g_size].
      set (r := a + IINC ng + 1) in *. set (s := b + JINC ng + (c + KINC ng) + 1) in *. set (t := c + KINC ng + 1) in *.
      pose proof (radix_bound s t j k ltac:(unfold s; lia) ltac:(unfold t; lia)) as B1.
      pose proof (radix_bound r (s * t) i (j + s * k) ltac:(unfold r; lia) B1) as B2. lia.
Qed.

Lemma lay_4c nroots order ng a b c d ci cj ck cl li lj lk ll bi bj bk bl :
  0 <= a + IINC ng -> 0 <= b + JINC ng -> 0 <= c + KINC ng -> 0 <= d + LINC ng ->
  li + bi <= a + IINC ng -> lj + bj <= b + JINC ng -> lk + bk <= c + KINC ng -> ll + bl <= d + LINC ng ->
  lay_ok2 (init_4c nroots order ng a b c d ci cj ck cl) li lj lk ll bi bj bk bl.
Proof.
  intros Ha Hb Hc Hd Hi Hj Hk Hl. unfold init_4c. cbv zeta.
  set (dlk := if c + KINC ng >? d + LINC ng then c + KINC ng + (d + LINC ng) + 1 else c + KINC ng + 1).
  set (dll := if c + KINC ng >? d + LINC ng then d + LINC ng + 1 else c + KINC ng + (d + LINC ng) + 1).
  set (dli := if a + IINC ng >? b + JINC ng then a + IINC ng + (b + JINC ng) + 1 else a + IINC ng + 1).
    set (dlj := if a + IINC ng >? b + JINC ng then b + JINC ng + 1 else a + IINC ng + (b + JINC ng) + 1).
  assert (Hs : a + IINC ng + 1 <= dli /\ b + JINC ng + 1 <= dlj /\ c + KINC ng + 1 <= dlk /\ d + LINC ng + 1 <= dll).
  { unfold dli, dlj, dlk, dll. destruct (a + IINC ng >? b + JINC ng), (c + KINC ng >? d + LINC ng); lia. }
  clearbody dli dlj dlk dll. split.
  - intros [[[[n i] j] k] l] [[[[n' i'] j'] k'] l'] (H1 & H2 & H3 & H4 & H5) (H1' & H2' & H3' & H4' & H5').
    unfold adr2. cbn [g_stride_i g_stride_j g_stride_k g_stride_l nrys_roots] in *. intros E.
    destruct (radix5_inj nroots dli dlk dll n i k l j n' i' k' l' j') as (-> & -> & -> & -> & ->); try lia. reflexivity.
  - intros [[[[n i] j] k] l] (H1 & H2 & H3 & H4 & H5).
    unfold adr2. cbn [g_stride_i g_stride_j g_stride_k g_stride_l nrys_roots g_size] in *.
    apply (radix5_bound nroots dli dlk dll dlj n i k l j); lia.
Qed.

Lemma env2_lay e mi mj mk ml : env2 e mi mj mk ml -> forall li lj lk ll bi bj bk bl,
  li + bi <= mi -> lj + bj <= mj -> lk + bk <= mk -> ll + bl <= ml ->
  lay_ok2 e li lj lk ll bi bj bk bl.
Proof.
  intros H li lj lk ll bi bj bk bl Hi Hj Hk Hl.
  destruct H as [om ng a b c d ci cj ck cl|ng a b c d ci cj ck cl|ng a b c d ci cj ck cl|om ng a b c ci cj ck|om ng a c ci ck|ng a b ci cj];
    try (apply lay_4c; assumption).
  - unfold init_int3c2e. cbv zeta.
    set (nroots := sr_roots om _).
    set (dli := if a + IINC ng >? b + JINC ng then a + IINC ng + (b + JINC ng) + 1 else a + IINC ng + 1).
    set (dlj := if a + IINC ng >? b + JINC ng then b + JINC ng + 1 else a + IINC ng + (b + JINC ng) + 1).
    set (dlk := c + KINC ng + 1) in *.
    assert (Hs : a + IINC ng + 1 <= dli /\ b + JINC ng + 1 <= dlj /\ c + KINC ng + 1 <= dlk).
    { unfold dli, dlj, dlk. destruct (a + IINC ng >? b + JINC ng); lia. }
    clearbody dli dlj dlk nroots. split.
    + intros [[[[n i] j] k] l] [[[[n' i'] j'] k'] l'] (H1' & H2' & H3' & H4' & H5') (H1'' & H2'' & H3'' & H4'' & H5'').
      unfold adr2. cbn [g_stride_i g_stride_j g_stride_k g_stride_l nrys_roots] in *. intros E.
      assert (l = 0) by lia. assert (l' = 0) by lia. subst l l'.
      destruct (radix5_inj nroots dli dlk 1 n i k 0 j n' i' k' 0 j') as (-> & -> & -> & _ & ->); try lia. reflexivity.
    + intros [[[[n i] j] k] l] (H1' & H2' & H3' & H4' & H5').
      unfold adr2. cbn [g_stride_i g_stride_j g_stride_k g_stride_l nrys_roots g_size] in *.
      assert (l = 0) by lia. subst l.
      pose proof (radix5_bound nroots dli dlk 1 dlj n i k 0 j). lia.
  - unfold init_int2c2e. cbv zeta. set (nroots := sr_roots om _). clearbody nroots.
    set (dli := a + IINC ng + 1) in *. assert (Hd : a + IINC ng + 1 <= dli) by (unfold dli; lia).
    set (dlk := c + KINC ng + 1) in *. assert (Hd2 : c + KINC ng + 1 <= dlk) by (unfold dlk; lia).
    clearbody dli dlk. split.
    + intros [[[[n i] j] k] l] [[[[n' i'] j'] k'] l'] (H1' & H2' & H3' & H4' & H5') (H1'' & H2'' & H3'' & H4'' & H5'').
      unfold adr2. cbn [g_stride_i g_stride_j g_stride_k g_stride_l nrys_roots] in *. intros E.
      assert (l = 0) by lia. assert (l' = 0) by lia. assert (j = 0) by lia. assert (j' = 0) by lia. subst l l' j j'.
      destruct (radix3_inj nroots dli n i k n' i' k') as (-> & -> & ->); try lia. reflexivity.
    + intros [[[[n i] j] k] l] (H1' & H2' & H3' & H4' & H5').
      unfold adr2. cbn [g_stride_i g_stride_j g_stride_k g_stride_l nrys_roots g_size] in *.
      assert (l = 0) by lia. assert (j = 0) by lia. subst l j.
      pose proof (radix3_bound nroots dli dlk n i k). lia.
  - unfold init_int1e. cbv zeta. set (nroots := if 0 <? POS_E2 ng then POS_E2 ng else _). clearbody nroots.
    set (dli := if a + IINC ng >? b + JINC ng then a + IINC ng + (b + JINC ng) + 1 else a + IINC ng + 1).
    set (dlj := if a + IINC ng >? b + JINC ng then b + JINC ng + 1 else a + IINC ng + (b + JINC ng) + 1).
    assert (Hs : a + IINC ng + 1 <= dli /\ b + JINC ng + 1 <= dlj).
    { unfold dli, dlj. destruct (a + IINC ng >? b + JINC ng); lia. }
    clearbody dli dlj. split.
    + intros [[[[n i] j] k] l] [[[[n' i'] j'] k'] l'] (H1' & H2' & H3' & H4' & H5') (H1'' & H2'' & H3'' & H4'' & H5'').
      unfold adr2. cbn [g_stride_i g_stride_j g_stride_k g_stride_l nrys_roots] in *. intros E.
      assert (l = 0) by lia. assert (l' = 0) by lia. assert (k = 0) by lia. assert (k' = 0) by lia. subst l l' k k'.
      destruct (radix3_inj nroots dli n i j n' i' j') as (-> & -> & ->); try lia. reflexivity.
    + intros [[[[n i] j] k] l] (H1' & H2' & H3' & H4' & H5').
      unfold adr2. cbn [g_stride_i g_stride_j g_stride_k g_stride_l nrys_roots g_size] in *.
      assert (l = 0) by lia. assert (k = 0) by lia. subst l k.
      pose proof (radix3_bound nroots dli dlj n i j). lia.
Qed.

Lemma grids_lay om ng a b ci cj bg li lj bi bj :
  0 <= a + IINC ng -> 0 <= b + JINC ng -> bg <= GRID_BLKSIZE ->
  li + bi <= a + IINC ng -> lj + bj <= b + JINC ng ->
  lay_okg (init_int1e_grids om ng a b ci cj) bg li lj bi bj.
Proof.
  intros Ha Hb Hg Hi Hj. unfold init_int1e_grids. cbv zeta.
  change (li_ceil (init_int1e ng a b ci cj)) with (a + IINC ng).
  change (lj_ceil (init_int1e ng a b ci cj)) with (b + JINC ng).
  set (nroots := sr_roots om _).
  set (dli := if a + IINC ng >? b + JINC ng then a + IINC ng + (b + JINC ng) + 1 else a + IINC ng + 1).
  set (dlj := if a + IINC ng >? b + JINC ng then b + JINC ng + 1 else a + IINC ng + (b + JINC ng) + 1).
  assert (Hd : a + IINC ng + 1 <= dli /\ b + JINC ng + 1 <= dlj) by (unfold dli, dlj; destruct (a + IINC ng >? b + JINC ng); lia).
  clearbody dli dlj nroots. remember GRID_BLKSIZE as B eqn:EB. split.
  - intros [[[g n] i] j] [[[g' n'] i'] j'] (H1 & H2 & H3 & H4) (H1' & H2' & H3' & H4').
    unfold adrg. rewrite <- EB. cbn [g_stride_i g_stride_j nrys_roots] in *. intros E.
    destruct (radix5_inj B nroots dli 1 g n i 0 j g' n' i' 0 j') as (-> & -> & -> & _ & ->); try lia. reflexivity.
  - intros [[[g n] i] j] (H1 & H2 & H3 & H4).
    unfold adrg. rewrite <- EB. cbn [g_stride_i g_stride_j nrys_roots g_size] in *.
    pose proof (radix5_bound B nroots dli 1 dlj g n i 0 j). lia.
Qed.

Local Open Scope R_scope.

Lemma phi_derive a A i (x : R) :
  is_derive (phi a A i) x (INR i * phi a A (pred i) x - 2 * a * phi a A (S i) x).
Proof.
  unfold phi. auto_derive; [exact I|].
  change (x + - A) with (x - A). rewrite <- tech_pow_Rmult.
  generalize (exp (- (a * ((x - A) * (x - A))))). intros y.
  destruct i as [|i]; cbn [pred]; [cbn [INR pow]; ring|].
  rewrite <- tech_pow_Rmult. generalize (INR (S i)) ((x - A) ^ i). intros u v. ring.
Qed.

Lemma phi_nabla a A i (D rest : R -> R) (g0 g1 : R) :
  (forall x, is_derive (phi a A i) x (D x)) ->
  ((0 < i)%nat -> RIntLine (fun x => phi a A (pred i) x * rest x) g0) ->
  RIntLine (fun x => phi a A (S i) x * rest x) g1 ->
  RIntLine (fun x => D x * rest x)
    (if (Z.of_nat i =? 0)%Z then (-2 * a) * g1 else IZR (Z.of_nat i) * g0 + (-2 * a) * g1).
Proof.
  intros HD H0 H1.
  assert (E : forall x, D x = INR i * phi a A (pred i) x - 2 * a * phi a A (S i) x).
  { intros x. transitivity (Derive (phi a A i) x); [symmetry|]; apply is_derive_unique; [apply HD|apply phi_derive]. }
  destruct i as [|i].
  - cbn [Z.of_nat Z.eqb]. eapply line_ext; [|apply (line_scal _ (-2 * a) _ H1)].
    intros x. cbn beta. rewrite E. cbn [INR]. ring.
  - replace (Z.of_nat (S i) =? 0)%Z with false by lia. rewrite <- INR_IZR_INZ.
    eapply line_ext; [|apply (line_plus _ _ _ _ (line_scal _ (INR (S i)) _ (H0 ltac:(lia))) (line_scal _ (-2 * a) _ H1))].
    intros x. cbn beta. rewrite E. ring.
Qed.

Lemma phi_pos a A O i (rest : R -> R) (g0 g1 : R) :
  RIntLine (fun x => phi a A i x * rest x) g0 ->
  RIntLine (fun x => phi a A (S i) x * rest x) g1 ->
  RIntLine (fun x => (x - O) * phi a A i x * rest x) (g1 + (A - O) * g0).
Proof.
  intros H0 H1. eapply line_ext; [|apply (line_plus _ _ _ _ H1 (line_scal _ (A - O) _ H0))].
  intros x. unfold phi. cbn [pow]. ring.
Qed.

Definition got (m : arr R) (p : Z) : R := match rd m p with Some v => v | None => 0 end.

(** ** two-electron operators *)
Section Two.
  Variables (e : envs) (mi mj mk ml : Z).
  Hypothesis He : env2 e mi mj mk ml.
  Variables (fo go li lj lk ll : Z) (m : arr R).
  Hypothesis (Hi : (0 <= li)%Z) (Hj : (0 <= lj)%Z) (Hk : (0 <= lk)%Z) (Hl : (0 <= ll)%Z).
  Hypothesis (Hfo : (0 <= fo)%Z) (Hsz : (fo + 3 * g_size e <= asize m)%Z) (Hap : apart fo go (3 * g_size e)).
  Local Notation adr := (addr2 e).
  Definition grab (o ax n i j k l : Z) : R := got m (ax * g_size e + (o + adr n i j k l)).
  Variables (c : centre).
  Hypothesis (Mi : (li + more c CI <= mi)%Z) (Mj : (lj + more c CJ <= mj)%Z)
             (Mk : (lk + more c CK <= mk)%Z) (Ml : (ll + more c CL <= ml)%Z).
  Variables (a : R) (A : Z -> R) (rest : Z -> Z -> nat * nat * nat -> R -> R).
  Hypothesis Hh : held (g_size e) adr (nrys_roots e) c 1 li lj lk ll (fun ax => phi a (A ax)) rest go m.

  Lemma held_grab : holds2 e li lj lk ll go (more c CI) (more c CJ) (more c CK) (more c CL) (grab go) m.
  Proof.
    intros ax n i j k l Hax (Bn & Bi & Bj & Bk & Bl). unfold grab, got.
    destruct (Hh ax n (Z.to_nat i) (Z.to_nat j) (Z.to_nat k) (Z.to_nat l)) as (v & E & _); try lia.
    rewrite !Z2Nat.id in E by lia. unfold addr2 in *. rewrite E. reflexivity.
  Qed.

  Lemma grab_int ax n i j k l : (0 <= ax < 3)%Z -> (0 <= n < nrys_roots e)%Z ->
    (Z.of_nat i <= li + 1 * more c CI)%Z -> (Z.of_nat j <= lj + 1 * more c CJ)%Z ->
    (Z.of_nat k <= lk + 1 * more c CK)%Z -> (Z.of_nat l <= ll + 1 * more c CL)%Z ->
    RIntLine (fun x => phi a (A ax) (own c i j k l) x * rest ax n (others c i j k l) x)
      (grab go ax n (Z.of_nat i) (Z.of_nat j) (Z.of_nat k) (Z.of_nat l)).
  Proof.
    intros Hax Bn B1 B2 B3 B4. destruct (Hh ax n i j k l Hax Bn B1 B2 B3 B4) as (v & E & H).
    unfold grab, got. rewrite E. exact H.
  Qed.

  Lemma nabla_2e_int f' : derivative (fun ax => phi a (A ax)) f' ->
    wp (R_nabla_2e c a e fo go li lj lk ll m) (fun m' =>
      held (g_size e) adr (nrys_roots e) c 0 li lj lk ll f' rest fo m' /\
      Frame (fun p => (fo <= p < fo + 3 * g_size e)%Z) m m').
  Proof.
    intros HD.
    assert (HL : lay_ok2 e li lj lk ll (more c CI) (more c CJ) (more c CK) (more c CL))
      by (apply (env2_lay e mi mj mk ml He); assumption).
    assert (HD' : wp (R_nabla_2e c a e fo go li lj lk ll m)
      (op2_done e fo li lj lk ll m (DV Rplus Rmult IZR (grab go) (more c CI) (more c CJ) (more c CK) (more c CL) (-2 * a)))).
    { pose proof held_grab as HG.
      destruct c; cbn [R_nabla_2e more] in *;
        [apply nabla1i_2e_ok|apply nabla1j_2e_ok|apply nabla1k_2e_ok|apply nabla1l_2e_ok]; assumption. }
    eapply wp_mono; [exact HD'|]. intros m' [H1 H2]. split; [|exact H2].
    intros ax n i j k l Hax Bn Bi Bj Bk Bl.
    exists (DV Rplus Rmult IZR (grab go) (more c CI) (more c CJ) (more c CK) (more c CL) (-2 * a)
              ax n (Z.of_nat i) (Z.of_nat j) (Z.of_nat k) (Z.of_nat l)).
    split; [unfold addr2; apply H1; [exact Hax|unfold box2; lia]|].
    unfold DV. cbv zeta.
    match goal with |- RIntLine _ (if (?X =? 0)%Z then _ else _) => replace X with (Z.of_nat (own c i j k l)) by (destruct c; cbn [more own]; lia) end.
    apply (phi_nabla a (A ax)); [apply HD| |].
    - pose proof grab_int as GI. intros Hp. destruct c; cbn [own others more] in *;
      [rewrite !Z.sub_0_r; replace (Z.of_nat i - 1)%Z with (Z.of_nat (pred i)) by lia; apply (GI ax n (pred i) j k l)
      |rewrite !Z.sub_0_r; replace (Z.of_nat j - 1)%Z with (Z.of_nat (pred j)) by lia; apply (GI ax n i (pred j) k l)
      |rewrite !Z.sub_0_r; replace (Z.of_nat k - 1)%Z with (Z.of_nat (pred k)) by lia; apply (GI ax n i j (pred k) l)
      |rewrite !Z.sub_0_r; replace (Z.of_nat l - 1)%Z with (Z.of_nat (pred l)) by lia; apply (GI ax n i j k (pred l))]; cbn [more]; lia.
    - pose proof grab_int as GI. destruct c; cbn [own others more] in *;
      [rewrite !Z.add_0_r; replace (Z.of_nat i + 1)%Z with (Z.of_nat (S i)) by lia; apply (GI ax n (S i) j k l)
      |rewrite !Z.add_0_r; replace (Z.of_nat j + 1)%Z with (Z.of_nat (S j)) by lia; apply (GI ax n i (S j) k l)
      |rewrite !Z.add_0_r; replace (Z.of_nat k + 1)%Z with (Z.of_nat (S k)) by lia; apply (GI ax n i j (S k) l)
      |rewrite !Z.add_0_r; replace (Z.of_nat l + 1)%Z with (Z.of_nat (S l)) by lia; apply (GI ax n i j k (S l))]; cbn [more]; lia.
  Qed.

  Lemma x1_2e_int (O : Z -> R) :
    wp (R_x1_2e c (fun ax => A ax - O ax) e fo go li lj lk ll m) (fun m' =>
      held (g_size e) adr (nrys_roots e) c 0 li lj lk ll (fun ax i x => (x - O ax) * phi a (A ax) i x) rest fo m' /\
      Frame (fun p => (fo <= p < fo + 3 * g_size e)%Z) m m').
  Proof.
    assert (HL : lay_ok2 e li lj lk ll (more c CI) (more c CJ) (more c CK) (more c CL))
      by (apply (env2_lay e mi mj mk ml He); assumption).
    set (d := own c (g_stride_i e) (g_stride_j e) (g_stride_k e) (g_stride_l e)).
    assert (Hu : unit4 e (more c CI) (more c CJ) (more c CK) (more c CL) d).
    { unfold d, unit4. destruct c; cbn; auto. }
    pose proof (x1_2e_ok Rplus Rmult e fo go li lj lk ll (grab go) m Hfo Hsz Hap
      _ _ _ _ d (fun ax => A ax - O ax) Hu HL held_grab) as HX.
    replace (R_x1_2e c (fun ax => A ax - O ax) e fo go li lj lk ll m)
      with (x1_2e Rplus Rmult d e (fun ax => A ax - O ax) fo go li lj lk ll m) by (unfold d; destruct c; reflexivity).
    eapply wp_mono; [exact HX|]. intros m' [H1 H2]. split; [|exact H2].
    intros ax n i j k l Hax Bn Bi Bj Bk Bl.
    eexists. split; [unfold addr2; apply H1; [exact Hax|unfold box2; lia]|]. cbn beta.
    apply phi_pos.
    - apply grab_int; destruct c; cbn [more] in *; lia.
    - pose proof grab_int as GI. destruct c; cbn [own others more] in *;
      [rewrite !Z.add_0_r; replace (Z.of_nat i + 1)%Z with (Z.of_nat (S i)) by lia; apply (GI ax n (S i) j k l)
      |rewrite !Z.add_0_r; replace (Z.of_nat j + 1)%Z with (Z.of_nat (S j)) by lia; apply (GI ax n i (S j) k l)
      |rewrite !Z.add_0_r; replace (Z.of_nat k + 1)%Z with (Z.of_nat (S k)) by lia; apply (GI ax n i j (S k) l)
      |rewrite !Z.add_0_r; replace (Z.of_nat l + 1)%Z with (Z.of_nat (S l)) by lia; apply (GI ax n i j k (S l))]; cbn [more]; lia.
  Qed.
End Two.

(** ** one-electron operators *)
Section One.
  Variables (e : envs) (mi mj mk : Z).
  Hypothesis He : env1 e mi mj mk.
  Variables (fo go li lj lk : Z) (m : arr R).
  Hypothesis (Hi : (0 <= li)%Z) (Hj : (0 <= lj)%Z) (Hk : (0 <= lk)%Z).
  Hypothesis (Hfo : (0 <= fo)%Z) (Hsz : (fo + 3 * g_size e <= asize m)%Z) (Hap : apart fo go (3 * g_size e)).
  Local Notation adr := (addr1 e).
  Definition grab1 (o ax i j k : Z) : R := got m (ax * g_size e + (o + adr 0 i j k 0)).
  Variables (c : centre).
  Hypothesis (Hc : c <> CL).
  Hypothesis (Mi : (li + more c CI <= mi)%Z) (Mj : (lj + more c CJ <= mj)%Z) (Mk : (lk + more c CK <= mk)%Z).
  Variables (a : R) (A : Z -> R) (rest : Z -> Z -> nat * nat * nat -> R -> R).
  Hypothesis Hh : held (g_size e) adr 1 c 1 li lj lk 0 (fun ax => phi a (A ax)) rest go m.

  Lemma held_grab1 : holds1 e li lj lk go (more c CI) (more c CJ) (more c CK) (grab1 go) m.
  Proof.
    intros ax i j k Hax (Bi & Bj & Bk). unfold grab1, got.
    destruct (Hh ax 0%Z (Z.to_nat i) (Z.to_nat j) (Z.to_nat k) 0%nat) as (v & E & _); try lia; [destruct c; cbn [more]; lia|].
    rewrite !Z2Nat.id in E by lia. unfold addr1 in *. rewrite E. reflexivity.
  Qed.

  Lemma grab1_int ax n i j k l : (0 <= ax < 3)%Z -> (0 <= n < 1)%Z ->
    (Z.of_nat i <= li + 1 * more c CI)%Z -> (Z.of_nat j <= lj + 1 * more c CJ)%Z ->
    (Z.of_nat k <= lk + 1 * more c CK)%Z -> (Z.of_nat l <= 0)%Z ->
    RIntLine (fun x => phi a (A ax) (own c i j k l) x * rest ax n (others c i j k l) x)
      (grab1 go ax (Z.of_nat i) (Z.of_nat j) (Z.of_nat k)).
  Proof.
    intros Hax Bn B1 B2 B3 B4. destruct (Hh ax n i j k l Hax Bn B1 B2 B3) as (v & E & H); [destruct c; cbn [more]; lia|].
    unfold grab1, got. unfold addr1 in *. rewrite E. exact H.
  Qed.

  Lemma nabla_1e_int f' : derivative (fun ax => phi a (A ax)) f' ->
    wp (R_nabla_1e c a e fo go li lj lk m) (fun m' =>
      held (g_size e) adr 1 c 0 li lj lk 0 f' rest fo m' /\
      Frame (fun p => (fo <= p < fo + 3 * g_size e)%Z) m m').
  Proof.
    intros HD.
    assert (HL : lay_ok1 e li lj lk (more c CI) (more c CJ) (more c CK))
      by (apply (env1_lay e mi mj mk He); assumption).
    pose proof held_grab1 as HG. pose proof grab1_int as GI. destruct c; [| | |congruence]; cbn [R_nabla_1e more] in *.
    - eapply wp_mono; [apply (nabla1i_ok Rplus Rmult IZR e fo go li lj lk (grab1 go) m); assumption|].
      intros m' [H1 H2]. split; [|exact H2].
      intros ax n i j k l Hax Bn Bi Bj Bk Bl. eexists.
      split; [unfold addr1; apply H1; [exact Hax|unfold box1; cbn [more] in *; lia]|]. cbn [more own others] in *.
      apply (phi_nabla a (A ax)); [apply HD| |].
      + intros Hp. replace (Z.of_nat i - 1)%Z with (Z.of_nat (pred i)) by lia. apply (GI ax n (pred i) j k l); cbn [more]; lia.
      + replace (Z.of_nat i + 1)%Z with (Z.of_nat (S i)) by lia. apply (GI ax n (S i) j k l); cbn [more]; lia.
    - eapply wp_mono; [apply (nabla1j_ok Rplus Rmult IZR e fo go li lj lk (grab1 go) m); assumption|].
      intros m' [H1 H2]. split; [|exact H2].
      intros ax n i j k l Hax Bn Bi Bj Bk Bl. eexists.
      split; [unfold addr1; apply H1; [exact Hax|unfold box1; cbn [more] in *; lia]|]. cbn [more own others] in *.
      apply (phi_nabla a (A ax)); [apply HD| |].
      + intros Hp. replace (Z.of_nat j - 1)%Z with (Z.of_nat (pred j)) by lia. apply (GI ax n i (pred j) k l); cbn [more]; lia.
      + replace (Z.of_nat j + 1)%Z with (Z.of_nat (S j)) by lia. apply (GI ax n i (S j) k l); cbn [more]; lia.
    - eapply wp_mono; [apply (nabla1k_ok Rplus Rmult IZR e fo go li lj lk (grab1 go) m); assumption|].
      intros m' [H1 H2]. split; [|exact H2].
      intros ax n i j k l Hax Bn Bi Bj Bk Bl. eexists.
      split; [unfold addr1; apply H1; [exact Hax|unfold box1; cbn [more] in *; lia]|]. cbn [more own others] in *.
      apply (phi_nabla a (A ax)); [apply HD| |].
      + intros Hp. replace (Z.of_nat k - 1)%Z with (Z.of_nat (pred k)) by lia. apply (GI ax n i j (pred k) l); cbn [more]; lia.
      + replace (Z.of_nat k + 1)%Z with (Z.of_nat (S k)) by lia. apply (GI ax n i j (S k) l); cbn [more]; lia.
  Qed.

  Lemma x1_1e_int (O : Z -> R) :
    wp (R_x1_1e c (fun ax => A ax - O ax) e fo go li lj lk m) (fun m' =>
      held (g_size e) adr 1 c 0 li lj lk 0 (fun ax i x => (x - O ax) * phi a (A ax) i x) rest fo m' /\
      Frame (fun p => (fo <= p < fo + 3 * g_size e)%Z) m m').
  Proof.
    assert (HL : lay_ok1 e li lj lk (more c CI) (more c CJ) (more c CK))
      by (apply (env1_lay e mi mj mk He); assumption).
    set (d := own c 1%Z (g_stride_j e) (g_stride_k e) 0%Z).
    pose proof (x1_ok Rplus Rmult e fo go li lj lk (grab1 go) m Hfo Hsz Hap d (more c CI) (more c CJ) (more c CK)
      (fun ax => A ax - O ax)) as HX.
    replace (R_x1_1e c (fun ax => A ax - O ax) e fo go li lj lk m)
      with (x1_1e Rplus Rmult d e (fun ax => A ax - O ax) fo go li lj lk m) by (unfold d; destruct c; [..|congruence]; reflexivity).
    eapply wp_mono; [apply HX|].
    - unfold d. destruct c; cbn [own more]; [left|right; left|right; right|congruence]; reflexivity.
    - exact HL.
    - exact held_grab1.
    - intros m' [H1 H2]. split; [|exact H2].
      intros ax n i j k l Hax Bn Bi Bj Bk Bl.
      eexists. split; [unfold addr1; apply H1; [exact Hax|unfold box1; lia]|]. cbn beta.
      assert (Hl0 : (Z.of_nat l <= 0)%Z) by (destruct c; cbn [more] in *; lia).
      pose proof grab1_int as GI.
      apply phi_pos.
      + apply (grab1_int ax n i j k l); destruct c; cbn [more] in *; lia.
      + destruct c; cbn [own others more] in *; [| | |congruence];
        [rewrite !Z.add_0_r; replace (Z.of_nat i + 1)%Z with (Z.of_nat (S i)) by lia; apply (GI ax n (S i) j k l)
        |rewrite !Z.add_0_r; replace (Z.of_nat j + 1)%Z with (Z.of_nat (S j)) by lia; apply (GI ax n i (S j) k l)
        |rewrite !Z.add_0_r; replace (Z.of_nat k + 1)%Z with (Z.of_nat (S k)) by lia; apply (GI ax n i j (S k) l)]; cbn [more]; lia.
  Qed.
End One.

(** ** operators on blocks of grid points *)
Section Grid.
  Variables (om : bool) (ng : ngT) (l1 l2 ci cj : Z).
  Hypothesis (H1 : (0 <= l1 + IINC ng)%Z) (H2 : (0 <= l2 + JINC ng)%Z).
  Local Notation e := (init_int1e_grids om ng l1 l2 ci cj).
  Variables (bg fo go li lj : Z) (m : arr R).
  Hypothesis (Hb : (bg <= 104)%Z) (Hi : (0 <= li)%Z) (Hj : (0 <= lj)%Z).
  Hypothesis (Hfo : (0 <= fo)%Z) (Hsz : (fo + 3 * g_size e <= asize m)%Z) (Hap : apart fo go (3 * g_size e)).
  Definition grabg (o ax g n i j : Z) : R := got m (ax * g_size e + (o + addrg e g n i j 0 0)).
  Variables (c : centre).
  Hypothesis (Hc : c = CI \/ c = CJ).
  Hypothesis (Mi : (li + more c CI <= l1 + IINC ng)%Z) (Mj : (lj + more c CJ <= l2 + JINC ng)%Z).
  Variables (a : R) (A : Z -> R) (rest : Z -> Z -> Z -> nat * nat * nat -> R -> R).
  Hypothesis Hh : forall g, (0 <= g < bg)%Z ->
    held (g_size e) (addrg e g) (nrys_roots e) c 1 li lj 0 0 (fun ax => phi a (A ax)) (rest g) go m.

  Lemma held_grabg : holdsg e bg li lj go (more c CI) (more c CJ) (grabg go) m.
  Proof.
    intros ax g n i j Hax (Bg & Bn & Bi & Bj). unfold grabg, got.
    destruct (Hh g Bg ax n (Z.to_nat i) (Z.to_nat j) 0%nat 0%nat) as (v & E & _); try lia; try (destruct c; cbn [more]; lia).
    rewrite !Z2Nat.id in E by lia. unfold addrg in *. change GRID_BLKSIZE with 104%Z; rewrite E. reflexivity.
  Qed.

  Lemma grabg_int ax g n i j k l : (0 <= ax < 3)%Z -> (0 <= g < bg)%Z -> (0 <= n < nrys_roots e)%Z ->
    (Z.of_nat i <= li + 1 * more c CI)%Z -> (Z.of_nat j <= lj + 1 * more c CJ)%Z -> k = 0%nat -> l = 0%nat ->
    RIntLine (fun x => phi a (A ax) (own c i j k l) x * rest g ax n (others c i j k l) x)
      (grabg go ax g n (Z.of_nat i) (Z.of_nat j)).
  Proof.
    intros Hax Bg Bn B1 B2 -> ->. destruct (Hh g Bg ax n i j 0%nat 0%nat Hax Bn B1 B2) as (v & E & H);
      try (destruct c; cbn [more]; lia).
    unfold grabg, got. change 0%Z with (Z.of_nat 0). rewrite E. exact H.
  Qed.

  Lemma nabla_grids_int f' : derivative (fun ax => phi a (A ax)) f' ->
    wp (R_nabla_grids c a e bg fo go li lj m) (fun m' =>
      (forall g, (0 <= g < bg)%Z -> held (g_size e) (addrg e g) (nrys_roots e) c 0 li lj 0 0 f' (rest g) fo m') /\
      Frame (fun p => (fo <= p < fo + 3 * g_size e)%Z) m m').
  Proof.
    intros HD.
    pose proof (grids_lay om ng l1 l2 ci cj bg li lj (more c CI) (more c CJ) H1 H2 Hb Mi Mj) as HL.
    assert (HD' : wp (R_nabla_grids c a e bg fo go li lj m)
      (opg_done e bg fo li lj m (DVg Rplus Rmult IZR (grabg go) (more c CI) (more c CJ) (-2 * a)))).
    { pose proof held_grabg as HG. destruct Hc as [Hc'|Hc']; rewrite Hc' in *; cbn [R_nabla_grids more] in *;
        [apply nabla1i_grids_ok|apply nabla1j_grids_ok]; assumption. }
    eapply wp_mono; [exact HD'|]. intros m' [G1 G2]. split; [|exact G2].
    intros g Bg ax n i j k l Hax Bn Bi Bj Bk Bl.
    eexists. split; [unfold addrg; apply G1; [exact Hax|unfold boxg; lia]|].
    unfold DVg. cbv zeta.
    assert (K0 : k = 0%nat) by (destruct c; cbn [more] in *; lia).
    assert (L0 : l = 0%nat) by (destruct c; cbn [more] in *; lia).
    pose proof grabg_int as GI.
    destruct Hc as [Hc'|Hc']; rewrite Hc' in *; cbn [more own others] in *.
    - replace (1 * Z.of_nat i + 0 * Z.of_nat j)%Z with (Z.of_nat i) by lia.
      apply (phi_nabla a (A ax)); [apply HD| |]; [intros Hp|]; rewrite ?Z.sub_0_r, ?Z.add_0_r.
      + replace (Z.of_nat i - 1)%Z with (Z.of_nat (pred i)) by lia. apply (GI ax g n (pred i) j k l); lia.
      + replace (Z.of_nat i + 1)%Z with (Z.of_nat (S i)) by lia. apply (GI ax g n (S i) j k l); lia.
    - replace (0 * Z.of_nat i + 1 * Z.of_nat j)%Z with (Z.of_nat j) by lia.
      apply (phi_nabla a (A ax)); [apply HD| |]; [intros Hp|]; rewrite ?Z.sub_0_r, ?Z.add_0_r.
      + replace (Z.of_nat j - 1)%Z with (Z.of_nat (pred j)) by lia. apply (GI ax g n i (pred j) k l); lia.
      + replace (Z.of_nat j + 1)%Z with (Z.of_nat (S j)) by lia. apply (GI ax g n i (S j) k l); lia.
  Qed.

  Lemma x1_grids_int (O : Z -> R) :
    wp (R_x1_grids c (fun ax => A ax - O ax) e bg fo go li lj m) (fun m' =>
      (forall g, (0 <= g < bg)%Z -> held (g_size e) (addrg e g) (nrys_roots e) c 0 li lj 0 0
         (fun ax i x => (x - O ax) * phi a (A ax) i x) (rest g) fo m') /\
      Frame (fun p => (fo <= p < fo + 3 * g_size e)%Z) m m').
  Proof.
    pose proof (grids_lay om ng l1 l2 ci cj bg li lj (more c CI) (more c CJ) H1 H2 Hb Mi Mj) as HL.
    set (d := own c (g_stride_i e) (g_stride_j e) 0%Z 0%Z).
    pose proof (x1_grids_ok Rplus Rmult e bg fo go li lj (grabg go) m Hfo Hsz Hap (more c CI) (more c CJ) d
      (fun ax => A ax - O ax)) as HX.
    replace (R_x1_grids c (fun ax => A ax - O ax) e bg fo go li lj m)
      with (x1_grids Rplus Rmult d e bg (fun ax => A ax - O ax) fo go li lj m)
      by (unfold d; destruct Hc as [Hc'|Hc']; rewrite Hc'; reflexivity).
    eapply wp_mono; [apply HX|].
    - unfold d. destruct Hc as [Hc'|Hc']; rewrite Hc'; [left|right]; reflexivity.
    - exact HL.
    - exact held_grabg.
    - intros m' [G1 G2]. split; [|exact G2].
      intros g Bg ax n i j k l Hax Bn Bi Bj Bk Bl.
      eexists. split; [unfold addrg; apply G1; [exact Hax|unfold boxg; lia]|]. cbn beta.
      assert (K0 : k = 0%nat) by (destruct c; cbn [more] in *; lia).
      assert (L0 : l = 0%nat) by (destruct c; cbn [more] in *; lia).
      pose proof grabg_int as GI.
      apply phi_pos.
      + apply (GI ax g n i j k l); try assumption; destruct c; cbn [more] in *; lia.
      + destruct Hc as [Hc'|Hc']; rewrite Hc' in *; cbn [more own others] in *; rewrite !Z.add_0_r;
        [replace (Z.of_nat i + 1)%Z with (Z.of_nat (S i)) by lia; apply (GI ax g n (S i) j k l)
        |replace (Z.of_nat j + 1)%Z with (Z.of_nat (S j)) by lia; apply (GI ax g n i (S j) k l)]; lia.
  Qed.
End Grid.
