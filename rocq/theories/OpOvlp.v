(** OpOvlp.v — the overlap recurrence followed by a derivative. *)
From Coq Require Import Reals Lra.
From Coquelicot Require Import Coquelicot.
From Verif Require Import Base EnvModel RecModel RecSpec GaussInt RecRModel Rec1Real OpProof OpSpec OpReal.
Local Open Scope R_scope.

Lemma two_phi ai aj A B i j x :
  phi ai A i x * phi aj B j x =
  (x - A) ^ i * (x - B) ^ j * exp (- (ai * ((x - A) * (x - A))) - aj * ((x - B) * (x - B))).
Proof.
  unfold phi. replace (- (ai * ((x - A) * (x - A))) - aj * ((x - B) * (x - B)))
    with (- (ai * ((x - A) * (x - A))) + - (aj * ((x - B) * (x - B)))) by ring.
  rewrite exp_plus. generalize (exp (- (ai * ((x - A) * (x - A))))) (exp (- (aj * ((x - B) * (x - B))))). intros. ring.
Qed.

Definition base ai aj A B := exp (- (ai * aj / (ai + aj) * ((A - B) * (A - B)))) * sqrt (PI / (ai + aj)).

Lemma base_int ai aj A B : 0 < ai -> 0 < aj ->
  RIntLine (fun x => phi ai A 0 x * phi aj B 0 x) (base ai aj A B) /\ 0 < base ai aj A B.
Proof.
  intros Ha Hb. unfold base. split.
  - eapply line_ext; [|apply line_scal, (line_gauss (ai + aj) ((ai * A + aj * B) / (ai + aj))); lra].
    intros x. cbn beta. rewrite two_phi. rewrite gauss_product by lra. unfold wgt. cbn [pow]. ring.
  - apply Rmult_lt_0_compat; [apply exp_pos|apply sqrt_lt_R0].
    apply Rdiv_lt_0_compat; [apply PI_RGT_0|lra].
Qed.

Lemma overlap_gradient ng l1 l2 ci cj fac ai aj (A B : Z -> R) (g : arr R) li lj :
  (0 <= l1 + IINC ng)%Z -> (0 <= l2 + JINC ng)%Z -> POS_E2 ng = 1%Z -> 0 < ai -> 0 < aj ->
  let e := init_int1e ng l1 l2 ci cj in
  (6 * g_size e <= asize g)%Z -> (0 <= li)%Z -> (0 <= lj)%Z ->
  (li + 1 <= l1 + IINC ng)%Z -> (lj <= l2 + JINC ng)%Z ->
  exists K : Z -> R,
  wp (m <- R_ovlp e fac ai aj A B g ;; R_nabla_1e CI ai e (3 * g_size e) 0 li lj 0 m) (fun m' =>
    forall f' ax i j, derivative (fun ax => phi ai (A ax)) f' ->
      (0 <= ax < 3)%Z -> (Z.of_nat i <= li)%Z -> (Z.of_nat j <= lj)%Z ->
      exists v, rd m' (ax * g_size e + (3 * g_size e + (Z.of_nat i + g_stride_j e * Z.of_nat j)))%Z = Some (K ax * v) /\
        RIntLine (fun x => f' ax i x * phi aj (B ax) j x) v) /\
  forall ax, (0 <= ax < 3)%Z -> exists I0,
    RIntLine (fun x => phi ai (A ax) 0 x * phi aj (B ax) 0 x) I0 /\ 0 < I0 /\
    K ax * I0 = origin 1 (fac * sqrt PI * PI / ((ai + aj) * sqrt (ai + aj))) ax.
Proof.
  intros H1 H2 Hn Ha Hb e Hs Hli Hlj Mi Mj.
  pose proof (fun ax => base_int ai aj (A ax) (B ax) Ha Hb) as HI.
  set (W := fun ax => origin 1 (fac * sqrt PI * PI / ((ai + aj) * sqrt (ai + aj))) ax).
  exists (fun ax => W ax / base ai aj (A ax) (B ax)). split.
  2:{ intros ax _. destruct (HI ax) as (HI0 & Hp). exists (base ai aj (A ax) (B ax)). repeat split; try assumption.
      fold (W ax). field. lra. }
  assert (He : env1 e (l1 + IINC ng) (l2 + JINC ng) 0) by (apply env1_1e; assumption).
  assert (Hgs : (0 <= g_size e)%Z).
  { destruct (env1_lay e _ _ _ He 0 0 0 0 0 0) as [_ HB]; try lia. specialize (HB (0, 0, 0)%Z).
    unfold box1, adr1 in HB. lia. }
  apply wp_bind. eapply wp_mono; [apply (R_ovlp_cells ng l1 l2 ci cj H1 H2 fac ai aj A B g Ha Hb); fold e; lia|].
  intros m [Fr Hc]. fold e in Fr, Hc.
  assert (Hsi : g_stride_i e = 1%Z) by (unfold e, init_int1e; cbn [g_stride_i]; rewrite Hn; reflexivity).
  set (rest := fun (ax n : Z) (o : nat * nat * nat) x => W ax / base ai aj (A ax) (B ax) * phi aj (B ax) (fst (fst o)) x).
  assert (Hh : held (g_size e) (addr1 e) 1 CI 1 li lj 0 0 (fun ax => phi ai (A ax)) rest 0 m).
  { intros ax n i j k l Hax Bn Bi Bj Bk Bl. cbn [more own others] in *.
    destruct (Hc ax i j Hax) as (v & I0 & I & E & HI0 & Hp & HI' & Ev).
    { change (li_ceil e) with (l1 + IINC ng)%Z. lia. } { change (lj_ceil e) with (l2 + JINC ng)%Z. lia. }
    exists v. split.
    - rewrite <- E. f_equal. unfold addr1. rewrite Hsi. assert (Z.of_nat k = 0)%Z by lia. rewrite H. lia.
    - rewrite Ev. unfold rest. cbn [fst].
      assert (EI : I0 = base ai aj (A ax) (B ax)).
      { destruct (HI ax) as (HI0' & Hp').
        eapply line_unique; [exact HI0|]. eapply line_ext; [|exact HI0'].
        intros x. cbn beta. rewrite two_phi. unfold pairfun. cbn [pow]. ring. }
      rewrite EI. fold (W ax). eapply line_ext; [|apply line_scal, HI'].
      intros x. cbn beta. unfold pairfun. rewrite <- (two_phi ai aj). ring. }
  destruct (proj1 (wp_exists _ _) (nabla_1e_int e _ _ _ He (3 * g_size e) 0 li lj 0 m Hli Hlj ltac:(lia) ltac:(lia)
    ltac:(rewrite (proj1 Fr); lia) ltac:(unfold apart; lia) CI ltac:(discriminate) ltac:(cbn; lia) ltac:(cbn; lia) ltac:(cbn; lia)
    ai A rest Hh _ (fun ax i x => phi_derive ai (A ax) i x))) as (m' & Em & Hm & _).
  rewrite Em. cbn [wp].
  intros f' ax i j Hf Hax Bi Bj.
  destruct (Hm ax 0%Z i j 0%nat 0%nat) as (v & Ev & Hv); try (cbn; lia); try exact Hax.
  cbn [own others] in Hv. unfold rest in Hv. cbn [fst] in Hv.
  set (k := W ax / base ai aj (A ax) (B ax)) in *.
  assert (Hex : forall i', (Z.of_nat i' <= li + 1)%Z -> exists I, RIntLine (fun x => phi ai (A ax) i' x * phi aj (B ax) j x) I).
  { intros i' Hi'. destruct (Hc ax i' j Hax) as (_ & _ & I & _ & _ & _ & HI' & _).
    { change (li_ceil e) with (l1 + IINC ng)%Z. lia. } { change (lj_ceil e) with (l2 + JINC ng)%Z. lia. }
    exists I. eapply line_ext; [|exact HI']. intros x. cbn beta. unfold pairfun. rewrite two_phi. reflexivity. }
  destruct (Hex (pred i) ltac:(lia)) as (g0 & Hg0). destruct (Hex (S i) ltac:(lia)) as (g1 & Hg1).
  pose proof (phi_nabla ai (A ax) i (f' ax i) _ g0 g1 (Hf ax i) (fun _ => Hg0) Hg1) as HV.
  eexists. split; [|exact HV].
  replace (rd m' _) with (Some v).
  - f_equal. eapply line_unique; [exact Hv|].
    eapply line_ext; [|apply (line_scal _ k _ HV)]. intros x. cbn beta.
    replace (f' ax i x) with (INR i * phi ai (A ax) (pred i) x - 2 * ai * phi ai (A ax) (S i) x); [ring|].
    transitivity (Derive (phi ai (A ax) i) x); [symmetry|]; apply is_derive_unique; [apply phi_derive|apply Hf].
  - rewrite <- Ev. f_equal. unfold addr1. cbn. lia.
Qed.
