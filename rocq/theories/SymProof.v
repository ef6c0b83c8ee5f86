(** SymProof.v — the batch is invariant under exchanging the functions. *)
From Coq Require Import Reals Lra.
From Verif Require Import Base BasSpec EnvModel IdxModel IdxSpec IdxProof RecModel RecSpec RecMoments GaussInt Gauss2Int Rec1Real.
From Verif Require Import Rec2RModel Rec2Spec Rec2Real Rec2Kern GoutModel GoutSpec GoutProof SymModel SymSpec.
Local Open Scope R_scope.

(** ** the tables *)
Lemma gauss2_swap_ij b10 b01 b00 cA cB cC cD S :
  gauss2 Rplus Rmult IZR b10 b01 b00 cA cB cC cD S ->
  gauss2 Rplus Rmult IZR b10 b01 b00 cB cA cC cD (fun i j k l => S j i k l).
Proof.
  intros [Gi Gj Gk Gl]. split; intros i j k l Hi Hj Hk Hl.
  - rewrite Gj by assumption. ring.
  - rewrite Gi by assumption. ring.
  - rewrite Gk by assumption. ring.
  - rewrite Gl by assumption. ring.
Qed.

Lemma gauss2_swap_pairs b10 b01 b00 cA cB cC cD S :
  gauss2 Rplus Rmult IZR b10 b01 b00 cA cB cC cD S ->
  gauss2 Rplus Rmult IZR b01 b10 b00 cC cD cA cB (fun i j k l => S k l i j).
Proof.
  intros [Gi Gj Gk Gl]. split; intros i j k l Hi Hj Hk Hl.
  - rewrite Gk by assumption. ring.
  - rewrite Gl by assumption. ring.
  - rewrite Gi by assumption. ring.
  - rewrite Gj by assumption. ring.
Qed.

Notation SS := (S4 0 Rplus Rmult Rminus IZR).
Lemma SS_gauss b10 b01 b00 cA cB cC cD w :
  gauss2 Rplus Rmult IZR b10 b01 b00 cA cB cC cD (SS b10 b01 b00 cA cB cC cD w).
Proof. apply (S4_ok 0 1 Rplus Rmult Rminus Ropp IZR RTheory eq_refl IZR_S). Qed.
Lemma SS_0 b10 b01 b00 cA cB cC cD w : SS b10 b01 b00 cA cB cC cD w 0%Z 0%Z 0%Z 0%Z = w.
Proof. reflexivity. Qed.

Lemma table_swap_ij b10 b01 b00 cA cB cC cD w i j k l : (0 <= i)%Z -> (0 <= j)%Z -> (0 <= k)%Z -> (0 <= l)%Z ->
  SS b10 b01 b00 cA cB cC cD w i j k l = SS b10 b01 b00 cB cA cC cD w j i k l.
Proof.
  intros. refine (gauss2_unique 0 1 Rplus Rmult Rminus Ropp IZR RTheory eq_refl b10 b01 b00 cA cB cC cD
    (SS b10 b01 b00 cA cB cC cD w) (fun i j k l => SS b10 b01 b00 cB cA cC cD w j i k l) _ _ _ i j k l _ _ _ _); try assumption.
  - apply SS_gauss.
  - apply gauss2_swap_ij, SS_gauss.
  - reflexivity.
Qed.
Lemma table_swap_kl b10 b01 b00 cA cB cC cD w i j k l : (0 <= i)%Z -> (0 <= j)%Z -> (0 <= k)%Z -> (0 <= l)%Z ->
  SS b10 b01 b00 cA cB cC cD w i j k l = SS b10 b01 b00 cA cB cD cC w i j l k.
Proof.
  intros. refine (gauss2_unique 0 1 Rplus Rmult Rminus Ropp IZR RTheory eq_refl b10 b01 b00 cA cB cC cD
    (SS b10 b01 b00 cA cB cC cD w) (fun i j k l => SS b10 b01 b00 cA cB cD cC w i j l k) _ _ _ i j k l _ _ _ _); try assumption.
  - apply SS_gauss.
  - destruct (SS_gauss b10 b01 b00 cA cB cD cC w) as [Gi Gj Gk Gl]. split; intros; [rewrite Gi|rewrite Gj|rewrite Gl|rewrite Gk]; try assumption; ring.
  - reflexivity.
Qed.
Lemma table_swap_pairs b10 b01 b00 cA cB cC cD w i j k l : (0 <= i)%Z -> (0 <= j)%Z -> (0 <= k)%Z -> (0 <= l)%Z ->
  SS b10 b01 b00 cA cB cC cD w i j k l = SS b01 b10 b00 cC cD cA cB w k l i j.
Proof.
  intros. refine (gauss2_unique 0 1 Rplus Rmult Rminus Ropp IZR RTheory eq_refl b10 b01 b00 cA cB cC cD
    (SS b10 b01 b00 cA cB cC cD w) (fun i j k l => SS b01 b10 b00 cC cD cA cB w k l i j) _ _ _ i j k l _ _ _ _); try assumption.
  - apply SS_gauss.
  - apply gauss2_swap_pairs, SS_gauss.
  - reflexivity.
Qed.

(** ** the nodes *)
Lemma shrunk_unique th u v v' : shrunk th u v -> shrunk th u v' -> v = v'.
Proof.
  intros [H1 H2] [H3 H4]. rewrite <- H4 in H2. clear H4.
  assert (E : v * (1 + v') = v' * (1 + v)).
  { apply (f_equal (fun z => z * ((1 + v) * (1 + v')))) in H2. field_simplify in H2; [|lra|lra]. lra. }
  lra.
Qed.

Lemma nodes_unique e ai aj ak al rij rkl rys srys omega fac U W U' W' :
  nodes_2e e ai aj ak al rij rkl rys srys omega fac U W -> nodes_2e e ai aj ak al rij rkl rys srys omega fac U' W' ->
  forall n, (0 <= n < nrys_roots e)%Z -> U n = U' n /\ W n = W' n.
Proof.
  intros H H' n Hn. specialize (H n Hn). specialize (H' n Hn). cbv zeta in *.
  destruct H as (A0 & A1 & A2 & A3). destruct H' as (B0 & B1 & B2 & B3).
  destruct (Rtotal_order omega 0) as [Ho|[Ho|Ho]].
  - destruct (Z.eq_dec (rys_order e) (nrys_roots e)) as [E|E].
    + destruct (A2 Ho E) as [-> ->]. destruct (B2 Ho E) as [-> ->]. auto.
    + destruct (A3 Ho E) as [C1 C2]. destruct (B3 Ho E) as [D1 D2].
      destruct (Z_lt_le_dec n (rys_order e)) as [L|L].
      * destruct (C1 L) as [-> ->]. destruct (D1 L) as [-> ->]. auto.
      * destruct (C2 L) as [S1 ->]. destruct (D2 L) as [S2 ->]. split; [|reflexivity].
        exact (shrunk_unique _ _ _ _ S1 S2).
  - destruct (A0 Ho) as [-> ->]. destruct (B0 Ho) as [-> ->]. auto.
  - destruct (A1 Ho) as [S1 ->]. destruct (B1 Ho) as [S2 ->]. split; [|reflexivity].
    exact (shrunk_unique _ _ _ _ S1 S2).
Qed.

(** the nodes depend on the arguments only through a0, x and c *)
Lemma nodes_ext e e' ai aj ak al rij rkl rys srys omega fac ai' aj' ak' al' rij' rkl' fac' U W :
  nrys_roots e' = nrys_roots e -> rys_order e' = rys_order e -> fac' = fac ->
  (ai' + aj' = ai + aj /\ ak' + al' = ak + al /\ rr3 rij' rkl' = rr3 rij rkl \/
   ai' + aj' = ak + al /\ ak' + al' = ai + aj /\ rr3 rij' rkl' = rr3 rij rkl) ->
  nodes_2e e ai aj ak al rij rkl rys srys omega fac U W ->
  nodes_2e e' ai' aj' ak' al' rij' rkl' rys srys omega fac' U W.
Proof.
  unfold rr3, nodes_2e. cbv zeta. intros -> -> -> Hor.
  assert (E : forall P : R -> R -> R -> Prop,
    let q aij akl := aij * akl / (aij + akl) in
    let c aij akl := fac / (aij * akl * sqrt (aij + akl)) in
    P (q (ai + aj) (ak + al)) (c (ai + aj) (ak + al)) (rr3 rij rkl) ->
    P (q (ai' + aj') (ak' + al')) (c (ai' + aj') (ak' + al')) (rr3 rij' rkl')).
  { intros P q c H. unfold rr3 in *. destruct Hor as [(-> & -> & ->)|(-> & -> & ->)]; [exact H|].
    unfold q, c in *. rewrite (Rplus_comm (ak + al) (ai + aj)), (Rmult_comm (ak + al) (ai + aj)). exact H. }
  intros H. unfold rr3 in E. cbv zeta in E.
  refine (E (fun a0 c rr => let x := a0 * rr in let theta := omega * omega / (omega * omega + a0) in
    forall n, (0 <= n < nrys_roots e)%Z ->
    (omega = 0 -> U n = fst (rys (nrys_roots e) x) n /\ W n = c * snd (rys (nrys_roots e) x) n) /\
    (0 < omega -> shrunk theta (fst (rys (nrys_roots e) (theta * x)) n) (U n) /\
                  W n = c * sqrt theta * snd (rys (nrys_roots e) (theta * x)) n) /\
    (omega < 0 -> rys_order e = nrys_roots e -> U n = fst (srys (nrys_roots e) x (sqrt theta)) n /\ W n = c * snd (srys (nrys_roots e) x (sqrt theta)) n) /\
    (omega < 0 -> rys_order e <> nrys_roots e ->
       ((n < rys_order e)%Z -> U n = fst (rys (rys_order e) x) n /\ W n = c * snd (rys (rys_order e) x) n) /\
       ((rys_order e <= n)%Z -> shrunk theta (fst (rys (rys_order e) (theta * x)) (n - rys_order e)%Z) (U n) /\
                       W n = - (c * sqrt theta * snd (rys (rys_order e) (theta * x)) (n - rys_order e)%Z)))) H).
Qed.

(** ** the batch *)
Definition denv (omega : R) (li lj lk ll : Z) : envs :=
  init_int2e (if Rlt_dec omega 0 then true else false) (mkng 0 0 0 0 0 1 1 1) li lj lk ll 1 1 1 1.
Definition dfac (li lj lk ll : Z) (ai aj ak al : R) (A B C D : Z -> R) : R :=
  common_2e li lj lk ll * (exp (- pair_exp ai aj A B) * exp (- pair_exp ak al C D)).
Definition dropped (omega cutoff ai aj ak al : R) (A B C D : Z -> R) : Prop :=
  let a0 := (ai + aj) * (ak + al) / ((ai + aj) + (ak + al)) in
  let x := a0 * rr3 (pair_centre ai aj A B) (pair_centre ak al C D) in
  let theta := omega * omega / (omega * omega + a0) in
  omega < 0 /\ (cutoff < theta * x \/ 40 < theta * x).
Definition dval ai aj ak al (A B C D : Z -> R) (U W : Z -> R) nr (ti tj tk tl : Z * Z * Z) : R :=
  root_prod 0 Rplus Rmult nr (fun d r =>
    tabn ai aj ak al A B C D (pair_centre ai aj A B) (pair_centre ak al C D) U W d r
      (coord d ti) (coord d tj) (coord d tk) (coord d tl)).
Definition dentries (omega : R) li lj lk ll ai aj ak al A B C D (U W : Z -> R) (b : arr R) : Prop :=
  forall i j k l ti tj tk tl,
    nth_error (cart_list li) i = Some ti -> nth_error (cart_list lj) j = Some tj ->
    nth_error (cart_list lk) k = Some tk -> nth_error (cart_list ll) l = Some tl ->
    rd b (pos4 li lj lk ll i j k l) =
      Some (dval ai aj ak al A B C D U W (nrys_roots (denv omega li lj lk ll)) ti tj tk tl).

Section Batch.
  Variables (rys : Z -> R -> nodes) (srys : Z -> R -> R -> nodes).
  Hypothesis (Hrys : forall m y n, (0 <= n < m)%Z -> 0 <= y -> 0 <= fst (rys m y) n).
  Hypothesis (Hsr : forall m y z n, (0 <= n < m)%Z -> 0 <= y -> 0 <= fst (srys m y z) n).

  Lemma eri_batch_ok omega cutoff li lj lk ll ai aj ak al A B C D :
    (0 <= li <= 15)%Z -> (0 <= lj <= 15)%Z -> (0 <= lk <= 15)%Z -> (0 <= ll <= 15)%Z ->
    0 < ai + aj -> 0 < ak + al ->
    exists r, eri_batch rys srys omega cutoff li lj lk ll ai aj ak al A B C D = Some r /\
      (r = None <-> dropped omega cutoff ai aj ak al A B C D) /\
      forall b, r = Some b -> exists U W,
        nodes_2e (denv omega li lj lk ll) ai aj ak al (pair_centre ai aj A B) (pair_centre ak al C D) rys srys omega
          (dfac li lj lk ll ai aj ak al A B C D) U W /\
        (forall n, (0 <= n < nrys_roots (denv omega li lj lk ll))%Z -> 0 <= U n) /\
        dentries omega li lj lk ll ai aj ak al A B C D U W b.
  Proof.
    intros Hli Hlj Hlk Hll Hij Hkl. unfold eri_batch. fold (denv omega li lj lk ll).
    set (om := if Rlt_dec omega 0 then true else false) in *.
    set (e := denv omega li lj lk ll).
    assert (Ee : e = init_int2e om (mkng 0 0 0 0 0 1 1 1) li lj lk ll 1 1 1 1) by reflexivity.
    destruct (idx_4c (sr_roots om (Z.quot (li + 0 + (lj + 0) + (lk + 0) + (ll + 0)) 2 + 1))
       (Z.quot (li + 0 + (lj + 0) + (lk + 0) + (ll + 0)) 2 + 1) (mkng 0 0 0 0 0 1 1 1) li lj lk ll 1 1 1 1 (uninit (3 * nf e)))
      as (idx & Ei & HT & _ & _); try assumption.
    { unfold ng_ok. cbn. repeat split; lia. }
    { apply Z.le_refl. }
    change (init_4c _ _ _ _ _ _ _ _ _ _ _) with e in Ei, HT. rewrite Ei. cbn [bind].
    assert (Hsetup : rys_setup false e A B C D (if (li >? lj)%Z then A else B) (if (lk >? ll)%Z then C else D) (rys_kern e A B C D)).
    { pose proof (setup_2e om (mkng 0 0 0 0 0 1 1 1) li lj lk ll 1 1 1 1 A B C D) as S. cbn [IINC JINC KINC LINC] in S.
      rewrite !Z.add_0_r in S. exact (S ltac:(lia) ltac:(lia) ltac:(lia) ltac:(lia)). }
    destruct (setup_ok _ _ _ _ _ _ _ _ _ Hsetup) as (L & K & Ho).
    assert (Hnr : (nrys_roots e <= 32)%Z).
    { rewrite Ee. unfold init_int2e, init_4c. cbn [nrys_roots IINC JINC KINC LINC]. unfold sr_roots.
      destruct (om && _) eqn:Eo; [apply andb_prop in Eo; lia|]. rewrite !Z.add_0_r, Z.quot_div_nonneg by lia. lia. }
    pose proof (l0_gs e L) as Hgs.
    pose proof (g0_2e_ok e ai aj ak al A B C D _ _ _ L K Hij Hkl (pair_centre ai aj A B) (pair_centre ak al C D) Hnr (Ho eq_refl)
      rys srys Hrys Hsr omega cutoff (dfac li lj lk ll ai aj ak al A B C D) (uninit (g_size e * 3 * 2)) ltac:(cbn [asize uninit]; lia)) as HG.
    unfold dfac in HG. destruct (R_g0_2e _ _ _ _ _ _ _ _ _ _ _ _ _ _ _ _) as [[fl g]|]; [|contradiction].
    cbn [wp fst snd] in HG. destruct HG as (H1 & H2 & H3). cbn [bind fst snd].
    destruct fl.
    - destruct (H3 eq_refl) as (HF & U & W & HN & HU & HC).
      assert (Hnf : nf e = (ncart li * ncart lk * ncart ll * ncart lj)%Z).
      { rewrite !ncart_len by lia. reflexivity. }
      pose proof (gout2e_batch 0 Rplus Rmult Rplus_0_l e li lj lk ll (g_size e) (g_stride_i e) (g_stride_j e) (g_stride_k e) (g_stride_l e)
        idx g (uninit (nf e)) true (fun d r i j k l => tabn ai aj ak al A B C D (pair_centre ai aj A B) (pair_centre ak al C D) U W d r i j k l)
        ltac:(lia) ltac:(lia) ltac:(lia) ltac:(lia) Hnf HT) as HB.
      assert (HC4 : cells4 g (g_size e) (g_stride_i e) (g_stride_j e) (g_stride_k e) (g_stride_l e) (nrys_roots e) li lj lk ll
        (fun d r i j k l => tabn ai aj ak al A B C D (pair_centre ai aj A B) (pair_centre ak al C D) U W d r i j k l)).
      { intros d r i j k l Hd Hr Hi Hj Hk Hl. rewrite <- (HC d r i j k l Hd).
        - f_equal. unfold cell, adrs. lia.
        - rewrite Ee. unfold inbox, init_int2e, init_4c. cbn [nrys_roots li_ceil lj_ceil lk_ceil ll_ceil IINC JINC KINC LINC].
          rewrite Ee in Hr. unfold init_int2e, init_4c in Hr. cbn [nrys_roots IINC JINC KINC LINC] in Hr. lia. }
      specialize (HB HC4 (Z.le_refl _) ltac:(discriminate)).
      destruct (CINTgout2e _ _ _ _ _ _ _ _) as [b|]; [|contradiction]. cbn [wp] in HB. cbn [bind]. destruct HB as [HB _].
      exists (Some b). split; [reflexivity|]. split.
      { split; [discriminate|]. intros Hd. unfold dropped in Hd. cbv zeta in Hd. apply (proj2 H1) in Hd. discriminate. }
      intros b' Hb. injection Hb as <-. exists U, W. split; [exact HN|]. split; [exact HU|].
      intros i j k l ti tj tk tl Ti Tj Tk Tl. exact (HB i j k l ti tj tk tl Ti Tj Tk Tl).
    - exists None. split; [reflexivity|]. split; [|discriminate]. split; [|reflexivity]. intros _. apply H1. reflexivity.
  Qed.

  Lemma coord_nonneg l i t d : (0 <= l)%Z -> nth_error (cart_list l) i = Some t -> (0 <= d < 3)%Z -> (0 <= coord d t)%Z.
  Proof.
    intros Hl Ht Hd. apply nth_error_In in Ht. apply BasProof.cart_list_In in Ht; [|exact Hl].
    destruct t as [[x y] z]. unfold BasSpec.nonneg, BasSpec.degree in Ht. unfold coord. destruct (d =? 0)%Z, (d =? 1)%Z; lia.
  Qed.

  Lemma some_nth l i : (i < length (cart_list l))%nat -> exists t, nth_error (cart_list l) i = Some t.
  Proof. intros H. destruct (nth_error (cart_list l) i) as [t|] eqn:E; [eauto|]. apply nth_error_None in E. lia. Qed.

  (** root sums only look at the nodes below the count *)
  Lemma tabn_ext ai aj ak al A B C D rij rkl U W U' W' d r i j k l : U r = U' r -> W r = W' r ->
    tabn ai aj ak al A B C D rij rkl U W d r i j k l = tabn ai aj ak al A B C D rij rkl U' W' d r i j k l.
  Proof. intros EU EW. unfold tabn. rewrite EU, EW. reflexivity. Qed.

  (** the permutation [sw] of the four slots and what it does to a value *)
  Lemma swap_general omega cutoff li lj lk ll ai aj ak al A B C D li' lj' lk' ll' ai' aj' ak' al' A' B' C' D'
      (pi pj pk pl : nat -> nat -> nat -> nat -> nat) :
    (0 <= li <= 15)%Z -> (0 <= lj <= 15)%Z -> (0 <= lk <= 15)%Z -> (0 <= ll <= 15)%Z ->
    (0 <= li' <= 15)%Z -> (0 <= lj' <= 15)%Z -> (0 <= lk' <= 15)%Z -> (0 <= ll' <= 15)%Z ->
    0 < ai + aj -> 0 < ak + al ->
    (li' + lj' + lk' + ll' = li + lj + lk + ll)%Z ->
    dfac li' lj' lk' ll' ai' aj' ak' al' A' B' C' D' = dfac li lj lk ll ai aj ak al A B C D ->
    (ai' + aj' = ai + aj /\ ak' + al' = ak + al /\
       rr3 (pair_centre ai' aj' A' B') (pair_centre ak' al' C' D') = rr3 (pair_centre ai aj A B) (pair_centre ak al C D) \/
     ai' + aj' = ak + al /\ ak' + al' = ai + aj /\
       rr3 (pair_centre ai' aj' A' B') (pair_centre ak' al' C' D') = rr3 (pair_centre ai aj A B) (pair_centre ak al C D)) ->
    (forall i j k l ti tj tk tl,
       nth_error (cart_list li) i = Some ti -> nth_error (cart_list lj) j = Some tj ->
       nth_error (cart_list lk) k = Some tk -> nth_error (cart_list ll) l = Some tl ->
       exists ti' tj' tk' tl',
         nth_error (cart_list li') (pi i j k l) = Some ti' /\ nth_error (cart_list lj') (pj i j k l) = Some tj' /\
         nth_error (cart_list lk') (pk i j k l) = Some tk' /\ nth_error (cart_list ll') (pl i j k l) = Some tl' /\
         forall U W d r, (0 <= d < 3)%Z ->
          tabn ai' aj' ak' al' A' B' C' D' (pair_centre ai' aj' A' B') (pair_centre ak' al' C' D') U W d r
            (coord d ti') (coord d tj') (coord d tk') (coord d tl') =
          tabn ai aj ak al A B C D (pair_centre ai aj A B) (pair_centre ak al C D) U W d r
            (coord d ti) (coord d tj) (coord d tk) (coord d tl)) ->
    exists r r', eri_batch rys srys omega cutoff li lj lk ll ai aj ak al A B C D = Some r /\
      eri_batch rys srys omega cutoff li' lj' lk' ll' ai' aj' ak' al' A' B' C' D' = Some r' /\
      (r = None <-> r' = None) /\
      forall b b', r = Some b -> r' = Some b' ->
        forall i j k l, comps li lj lk ll i j k l -> exists v,
          rd b (pos4 li lj lk ll i j k l) = Some v /\
          rd b' (pos4 li' lj' lk' ll' (pi i j k l) (pj i j k l) (pk i j k l) (pl i j k l)) = Some v.
  Proof.
    intros Hli Hlj Hlk Hll Hli' Hlj' Hlk' Hll' Hij Hkl Hsum Hfac Hor Htab.
    assert (Hij' : 0 < ai' + aj') by (destruct Hor as [(-> & _)|(-> & _)]; assumption).
    assert (Hkl' : 0 < ak' + al') by (destruct Hor as [(_ & -> & _)|(_ & -> & _)]; assumption).
    destruct (eri_batch_ok omega cutoff li lj lk ll ai aj ak al A B C D Hli Hlj Hlk Hll Hij Hkl) as (r & E1 & N1 & V1).
    destruct (eri_batch_ok omega cutoff li' lj' lk' ll' ai' aj' ak' al' A' B' C' D' Hli' Hlj' Hlk' Hll' Hij' Hkl') as (r' & E2 & N2 & V2).
    exists r, r'. split; [exact E1|]. split; [exact E2|].
    assert (Enr : nrys_roots (denv omega li' lj' lk' ll') = nrys_roots (denv omega li lj lk ll) /\
                  rys_order (denv omega li' lj' lk' ll') = rys_order (denv omega li lj lk ll)).
    { unfold denv, init_int2e, init_4c. cbn [nrys_roots rys_order IINC JINC KINC LINC]. rewrite !Z.add_0_r, Hsum. auto. }
    destruct Enr as [Enr Ero].
    split.
    { rewrite N1, N2. unfold dropped. cbv zeta. destruct Hor as [(-> & -> & ->)|(-> & -> & ->)]; [reflexivity|].
      rewrite (Rplus_comm (ak + al)), (Rmult_comm (ak + al)). reflexivity. }
    intros b b' -> -> i j k l (Bi & Bj & Bk & Bl).
    destruct (V1 b eq_refl) as (U & W & HN & HU & HE). destruct (V2 b' eq_refl) as (U' & W' & HN' & HU' & HE').
    destruct (some_nth _ _ Bi) as [ti Ti]. destruct (some_nth _ _ Bj) as [tj Tj].
    destruct (some_nth _ _ Bk) as [tk Tk]. destruct (some_nth _ _ Bl) as [tl Tl].
    destruct (Htab i j k l ti tj tk tl Ti Tj Tk Tl) as (ti' & tj' & tk' & tl' & Ti' & Tj' & Tk' & Tl' & HV).
    eexists. split; [apply (HE i j k l ti tj tk tl Ti Tj Tk Tl)|].
    rewrite (HE' _ _ _ _ ti' tj' tk' tl' Ti' Tj' Tk' Tl'). f_equal. unfold dval, root_prod. rewrite Enr.
    apply lsum_ext. intros n Hn.
    assert (HN2 := nodes_ext (denv omega li lj lk ll) (denv omega li' lj' lk' ll') ai aj ak al (pair_centre ai aj A B) (pair_centre ak al C D)
       rys srys omega _ ai' aj' ak' al' (pair_centre ai' aj' A' B') (pair_centre ak' al' C' D') _ U W Enr Ero Hfac Hor HN).
    destruct (nodes_unique _ _ _ _ _ _ _ _ _ _ _ _ _ _ _ HN2 HN' n ltac:(rewrite Enr; exact Hn)) as [EU EW].
    rewrite !(tabn_ext ai' aj' ak' al' A' B' C' D' _ _ U' W' U W) by congruence.
    rewrite !HV by lia. reflexivity.
  Qed.

  Lemma pair_centre_sym a b A B ax : pair_centre b a B A ax = pair_centre a b A B ax.
  Proof. unfold pair_centre. rewrite (Rplus_comm b a), (Rplus_comm (b * B ax)). reflexivity. Qed.
  Lemma pair_exp_sym a b A B : pair_exp b a B A = pair_exp a b A B.
  Proof. unfold pair_exp. rewrite (Rplus_comm b a). unfold Rdiv. ring. Qed.
  Lemma rr3_ext a b a' b' : (forall ax, a ax = a' ax) -> (forall ax, b ax = b' ax) -> rr3 a b = rr3 a' b'.
  Proof. intros Ea Eb. unfold rr3. rewrite !Ea, !Eb. reflexivity. Qed.
  Lemma rr3_sym a b : rr3 a b = rr3 b a.
  Proof. unfold rr3. ring. Qed.

  Section Thms.
    Variables (omega cutoff : R) (li lj lk ll : Z) (ai aj ak al : R) (A B C D : Z -> R).
    Hypothesis (Hli : (0 <= li <= 15)%Z) (Hlj : (0 <= lj <= 15)%Z) (Hlk : (0 <= lk <= 15)%Z) (Hll : (0 <= ll <= 15)%Z).
    Hypothesis (Hij : 0 < ai + aj) (Hkl : 0 < ak + al).

    Lemma sym_bra : exists r r',
      eri_batch rys srys omega cutoff li lj lk ll ai aj ak al A B C D = Some r /\
      eri_batch rys srys omega cutoff lj li lk ll aj ai ak al B A C D = Some r' /\
      (r = None <-> r' = None) /\
      forall b b', r = Some b -> r' = Some b' ->
        forall i j k l, comps li lj lk ll i j k l -> exists v,
          rd b (pos4 li lj lk ll i j k l) = Some v /\ rd b' (pos4 lj li lk ll j i k l) = Some v.
    Proof.
      apply (swap_general omega cutoff li lj lk ll ai aj ak al A B C D lj li lk ll aj ai ak al B A C D
               (fun i j k l => j) (fun i j k l => i) (fun i j k l => k) (fun i j k l => l)); try assumption.
      - lia.
      - unfold dfac. rewrite (pair_exp_sym ai aj A B). unfold common_2e. ring.
      - left. split; [ring|]. split; [reflexivity|]. apply rr3_ext; intros; [apply pair_centre_sym|reflexivity].
      - intros i j k l ti tj tk tl Ti Tj Tk Tl. exists tj, ti, tk, tl. repeat (split; [assumption|]). intros U W d r Hd.
        unfold tabn. rewrite (Rplus_comm aj ai). rewrite !(pair_centre_sym ai aj A B). apply table_swap_ij.
        + exact (coord_nonneg lj j tj d ltac:(lia) Tj Hd).
        + exact (coord_nonneg li i ti d ltac:(lia) Ti Hd).
        + exact (coord_nonneg lk k tk d ltac:(lia) Tk Hd).
        + exact (coord_nonneg ll l tl d ltac:(lia) Tl Hd).
    Qed.

    Lemma sym_ket : exists r r',
      eri_batch rys srys omega cutoff li lj lk ll ai aj ak al A B C D = Some r /\
      eri_batch rys srys omega cutoff li lj ll lk ai aj al ak A B D C = Some r' /\
      (r = None <-> r' = None) /\
      forall b b', r = Some b -> r' = Some b' ->
        forall i j k l, comps li lj lk ll i j k l -> exists v,
          rd b (pos4 li lj lk ll i j k l) = Some v /\ rd b' (pos4 li lj ll lk i j l k) = Some v.
    Proof.
      apply (swap_general omega cutoff li lj lk ll ai aj ak al A B C D li lj ll lk ai aj al ak A B D C
               (fun i j k l => i) (fun i j k l => j) (fun i j k l => l) (fun i j k l => k)); try assumption.
      - lia.
      - unfold dfac. rewrite (pair_exp_sym ak al C D). unfold common_2e. ring.
      - left. split; [reflexivity|]. split; [ring|]. apply rr3_ext; intros; [reflexivity|apply pair_centre_sym].
      - intros i j k l ti tj tk tl Ti Tj Tk Tl. exists ti, tj, tl, tk. repeat (split; [assumption|]). intros U W d r Hd.
        unfold tabn. rewrite (Rplus_comm al ak). rewrite !(pair_centre_sym ak al C D). apply table_swap_kl.
        + exact (coord_nonneg li i ti d ltac:(lia) Ti Hd).
        + exact (coord_nonneg lj j tj d ltac:(lia) Tj Hd).
        + exact (coord_nonneg ll l tl d ltac:(lia) Tl Hd).
        + exact (coord_nonneg lk k tk d ltac:(lia) Tk Hd).
    Qed.

    Lemma sym_pairs : exists r r',
      eri_batch rys srys omega cutoff li lj lk ll ai aj ak al A B C D = Some r /\
      eri_batch rys srys omega cutoff lk ll li lj ak al ai aj C D A B = Some r' /\
      (r = None <-> r' = None) /\
      forall b b', r = Some b -> r' = Some b' ->
        forall i j k l, comps li lj lk ll i j k l -> exists v,
          rd b (pos4 li lj lk ll i j k l) = Some v /\ rd b' (pos4 lk ll li lj k l i j) = Some v.
    Proof.
      apply (swap_general omega cutoff li lj lk ll ai aj ak al A B C D lk ll li lj ak al ai aj C D A B
               (fun i j k l => k) (fun i j k l => l) (fun i j k l => i) (fun i j k l => j)); try assumption.
      - lia.
      - unfold dfac, common_2e. ring.
      - right. split; [reflexivity|]. split; [reflexivity|]. apply rr3_sym.
      - intros i j k l ti tj tk tl Ti Tj Tk Tl. exists tk, tl, ti, tj. repeat (split; [assumption|]). intros U W d r Hd.
        pose proof (coord_nonneg lj j tj d ltac:(lia) Tj Hd). pose proof (coord_nonneg li i ti d ltac:(lia) Ti Hd).
        pose proof (coord_nonneg lk k tk d ltac:(lia) Tk Hd). pose proof (coord_nonneg ll l tl d ltac:(lia) Tl Hd).
        unfold tabn. rewrite table_swap_pairs by assumption.
        rewrite (Rplus_comm (ak + al) (ai + aj)), (Rmult_comm (ak + al) (ai + aj)).
        set (p := ai + aj). set (q := ak + al). set (rr := p * q / (p + q) * U r).
        assert (Ed : det2 q p rr = det2 p q rr) by (unfold det2; ring).
        unfold var11, var22, var12, mean1, mean2. rewrite !Ed. f_equal; unfold Rdiv; ring.
    Qed.
  End Thms.

  (** the factors of every entry are plane integrals *)
  Lemma tabn_integral ai aj ak al (A B C D : Z -> R) u w ax n (i j k l : nat) :
    0 < ai + aj -> 0 < ak + al -> 0 <= u n -> (0 <= ax < 3)%Z ->
    axis_integral ai aj ak al A B C D (u n) (w n) ax i j k l
      (tabn ai aj ak al A B C D (pair_centre ai aj A B) (pair_centre ak al C D) u w ax n
         (Z.of_nat i) (Z.of_nat j) (Z.of_nat k) (Z.of_nat l)).
  Proof.
    intros Hij Hkl Hu Hax. unfold axis_integral. cbv zeta.
    set (rho := (ai + aj) * (ak + al) / (ai + aj + (ak + al)) * u n).
    assert (Hr : 0 <= rho).
    { unfold rho. apply Rmult_le_pos; [|exact Hu]. apply Rlt_le, Rdiv_lt_0_compat; nra. }
    destruct (plane_is_table (ai + aj) (ak + al) rho (pair_centre ai aj A B ax) (pair_centre ak al C D ax) Hij Hkl Hr
       (exp (- (ai * aj / (ai + aj) * ((A ax - B ax) * (A ax - B ax)))) * exp (- (ak * al / (ak + al) * ((C ax - D ax) * (C ax - D ax)))))
       (eri_weight ai aj ak al rho (A ax) (B ax) (C ax) (D ax)) (A ax) (B ax) (C ax) (D ax)
       (tabn ai aj ak al A B C D (pair_centre ai aj A B) (pair_centre ak al C D) u w ax n) (origin 1 (w n) ax)) as (H0 & Hpos & HI).
    - apply Rmult_lt_0_compat; apply exp_pos.
    - intros x y. unfold eri_weight, wgt2, form2. rewrite <- !exp_plus. f_equal. unfold pair_centre. field. lra.
    - unfold tabn. exact (S4_ok 0 1 Rplus Rmult Rminus Ropp IZR RTheory eq_refl IZR_S _ _ _ _ _ _ _ _).
    - reflexivity.
    - destruct (HI i j k l) as (I & H1 & H2). eexists _, I. split; [exact H0|]. split; [exact Hpos|]. split; [exact H1|exact H2].
  Qed.

  Lemma eri_batch_integrals omega cutoff li lj lk ll ai aj ak al A B C D :
    (0 <= li <= 15)%Z -> (0 <= lj <= 15)%Z -> (0 <= lk <= 15)%Z -> (0 <= ll <= 15)%Z ->
    0 < ai + aj -> 0 < ak + al ->
    exists r, eri_batch rys srys omega cutoff li lj lk ll ai aj ak al A B C D = Some r /\
      forall b, r = Some b -> exists U W V,
        let e := init_int2e (if Rlt_dec omega 0 then true else false) (mkng 0 0 0 0 0 1 1 1) li lj lk ll 1 1 1 1 in
        nodes_2e e ai aj ak al (pair_centre ai aj A B) (pair_centre ak al C D) rys srys omega
          (common_2e li lj lk ll * (exp (- pair_exp ai aj A B) * exp (- pair_exp ak al C D))) U W /\
        (forall ax n i j k l, (0 <= ax < 3)%Z -> (0 <= n < nrys_roots e)%Z ->
           axis_integral ai aj ak al A B C D (U n) (W n) ax i j k l (V ax n i j k l)) /\
        forall i j k l ti tj tk tl,
          nth_error (cart_list li) i = Some ti -> nth_error (cart_list lj) j = Some tj ->
          nth_error (cart_list lk) k = Some tk -> nth_error (cart_list ll) l = Some tl ->
          rd b (pos4 li lj lk ll i j k l) =
            Some (root_prod 0 Rplus Rmult (nrys_roots e) (fun d r =>
              V d r (Z.to_nat (coord d ti)) (Z.to_nat (coord d tj)) (Z.to_nat (coord d tk)) (Z.to_nat (coord d tl)))).
  Proof.
    intros Hli Hlj Hlk Hll Hij Hkl.
    destruct (eri_batch_ok omega cutoff li lj lk ll ai aj ak al A B C D Hli Hlj Hlk Hll Hij Hkl) as (r & E & _ & H).
    exists r. split; [exact E|]. intros b Hb. destruct (H b Hb) as (U & W & HN & HU & HE).
    exists U, W, (fun ax n i j k l => tabn ai aj ak al A B C D (pair_centre ai aj A B) (pair_centre ak al C D) U W ax n
         (Z.of_nat i) (Z.of_nat j) (Z.of_nat k) (Z.of_nat l)).
    cbv zeta. fold (denv omega li lj lk ll). split; [exact HN|]. split.
    - intros. apply tabn_integral; auto.
    - intros i j k l ti tj tk tl Ti Tj Tk Tl. rewrite (HE i j k l ti tj tk tl Ti Tj Tk Tl). f_equal.
      unfold dval, root_prod. apply lsum_ext. intros n Hn.
      assert (N : forall d, (0 <= d < 3)%Z -> (0 <= coord d ti /\ 0 <= coord d tj /\ 0 <= coord d tk /\ 0 <= coord d tl)%Z).
      { intros d Hd. repeat split; eapply coord_nonneg; try eassumption; lia. }
      destruct (N 0%Z ltac:(lia)) as (a1 & a2 & a3 & a4). destruct (N 1%Z ltac:(lia)) as (b1 & b2 & b3 & b4).
      destruct (N 2%Z ltac:(lia)) as (c1 & c2 & c3 & c4).
      rewrite !Z2Nat.id by assumption. reflexivity.
  Qed.
End Batch.
