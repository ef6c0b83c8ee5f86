(** SpinorOut.v — complex block copies and the spinor output routines. *)
From Coq Require Import Ring.
From Verif Require Import Base BasModel EnvModel OutModel OutSpec OutRules OutProof OutNest SphProof SphOut OutFinal OutBad
  SpinorModel SpinorSpec SpinorFill SpinorBra SpinorKet SpinorConv.

(** ** Copies *)
Section Copy.
  Context {F : Type}.
  Variable sz : Z.
  Variable V : Z -> F -> Prop.
  (** both doubles of complex cell x may be written with the parts of z *)
  Definition zok (x : Z) (z : cplx (F := F)) : Prop :=
    forall b, 0 <= b < 2 -> 0 <= x * 2 + b < sz /\ V (x * 2 + b) (part b z).

  Lemma zput x z gR gI k (out : arr F) p q : rd gR k = Some (fst z) -> rd gI k = Some (snd z) -> zok x z ->
    p = x * 2 -> q = x * 2 + 1 -> asize out = sz ->
    wp (vR <- rd gR k ;; out <- wr out p vR ;; vI <- rd gI k ;; wr out q vI)
       (Puts (fun c => exists b, 0 <= b < 2 /\ c = x * 2 + b) V out).
  Proof.
    intros HR HI Hz -> -> Ha. destruct (Hz 0 ltac:(lia)) as [A0 B0]. destruct (Hz 1 ltac:(lia)) as [A1 B1].
    rewrite Z.add_0_r in *. rewrite HR. cbn [bind].
    assert (G : puts sz V (fun c => exists b, 0 <= b < 2 /\ c = x * 2 + b)
        (fun out => out <- wr out (x * 2) (fst z) ;; wr out (x * 2 + 1) (snd z))).
    { eapply puts_iff; [apply puts_seq; apply puts_wr; [exact A0|exact B0|exact A1|exact B1]|].
      intros i. split.
      - intros [b [Hb ->]]. assert (b = 0 \/ b = 1) as [E|E] by lia; rewrite E; [left; ring|right; ring].
      - intros [->| ->]; [exists 0|exists 1]; split; lia. }
    specialize (G out Ha). cbv beta in G.
    destruct (wr out (x * 2) (fst z)) as [o1|]; cbn [bind] in *; [|elim G]. rewrite HI. cbn [bind]. exact G.
  Qed.

  Lemma zcopy_ij_puts o gR gI ni nj mi mj Z0 : reads2 gR gI (mi * mj) Z0 ->
    (forall j i, 0 <= j < mj -> 0 <= i < mi -> zok (o + (j * ni + i)) (Z0 (j * mi + i))) ->
    puts sz V (fun x => exists j, 0 <= j < mj /\ exists i, 0 <= i < mi /\ exists b, 0 <= b < 2 /\ x = (o + (j * ni + i)) * 2 + b)
      (fun out => zcopy_ij out o gR gI ni nj mi mj).
  Proof.
    intros [HR HI] H. unfold zcopy_ij.
    apply (puts_for sz V (fun j x => exists i, 0 <= i < mi /\ exists b, 0 <= b < 2 /\ x = (o + (j * ni + i)) * 2 + b)). intros j Hj.
    apply (puts_for sz V (fun i x => exists b, 0 <= b < 2 /\ x = (o + (j * ni + i)) * 2 + b)). intros i Hi.
    assert (Q : 0 <= j * mi + i < mi * mj) by (clear - Hi Hj; nia).
    intros a Ha. apply (zput _ (Z0 (j * mi + i))); auto; ring.
  Qed.

  Lemma zcopy_grids_puts o gR gI Ng ni nj mg mi mj Z0 : 0 <= mj -> reads2 gR gI (mg * mi * mj) Z0 ->
    (forall j i m, 0 <= j < mj -> 0 <= i < mi -> 0 <= m < mg -> zok (o + ((j * ni + i) * Ng + m)) (Z0 ((j * mi + i) * mg + m))) ->
    puts sz V (fun x => exists j, 0 <= j < mj /\ exists i, 0 <= i < mi /\ exists m, 0 <= m < mg /\
                 exists b, 0 <= b < 2 /\ x = (o + ((j * ni + i) * Ng + m)) * 2 + b)
      (fun out => zcopy_grids_ij out o gR gI Ng ni nj mg mi mj).
  Proof.
    intros Hmj [HR HI] H. unfold zcopy_grids_ij; cbv zeta.
    apply puts_run with (I := fun s => s = (o * 2, 0))
      (J := fun s => s = (o * 2 + Ng * ni * 2 * mj, mg * mi * mj)); [|reflexivity].
    replace (fun s : Z * Z => s = (o * 2, 0)) with
      (fun s : Z * Z => s = (o * 2 + Ng * ni * 2 * 0, mg * mi * 0)) by (rewrite !Z.mul_0_r, Z.add_0_r; reflexivity).
    apply (putsS_for sz V _ (fun j s => s = (o * 2 + Ng * ni * 2 * j, mg * mi * j))); [exact Hmj|].
    intros j Hj a s Ha Hs. subst s. apply wp_bind.
    eapply wp_mono.
    - eapply (puts_for sz V (fun i x => exists m, 0 <= m < mg /\ exists b, 0 <= b < 2 /\ x = (o + ((j * ni + i) * Ng + m)) * 2 + b)); [|exact Ha].
      intros i Hi. apply (puts_for sz V (fun m x => exists b, 0 <= b < 2 /\ x = (o + ((j * ni + i) * Ng + m)) * 2 + b)).
      intros m Hm c Hc.
      assert (Q : 0 <= (j * mi + i) * mg + m < mg * mi * mj).
      { clear - Hj Hi Hm. assert (0 <= j * mi + i /\ j * mi + i + 1 <= mi * mj) by nia. nia. }
      replace (mg * mi * j + (i * mg + m)) with ((j * mi + i) * mg + m) by ring.
      apply (zput _ (Z0 ((j * mi + i) * mg + m))); auto; ring.
    - intros b Hb. cbn [wp fst snd]. split; [exact Hb|]. f_equal; ring.
  Qed.

  Lemma zcopy_iklj_puts o gR gI ni nj nk nl mi mj mk ml Z0 : 0 <= ml -> reads2 gR gI (mi * mk * ml * mj) Z0 ->
    (forall l k j i, 0 <= l < ml -> 0 <= k < mk -> 0 <= j < mj -> 0 <= i < mi ->
       zok (o + (((l * nk + k) * nj + j) * ni + i)) (Z0 (((j * ml + l) * mk + k) * mi + i))) ->
    puts sz V (fun x => exists l, 0 <= l < ml /\ exists k, 0 <= k < mk /\ exists j, 0 <= j < mj /\
                 exists i, 0 <= i < mi /\ exists b, 0 <= b < 2 /\ x = (o + (((l * nk + k) * nj + j) * ni + i)) * 2 + b)
      (fun out => zcopy_iklj out o gR gI ni nj nk nl mi mj mk ml).
  Proof.
    intros Hml [HR HI] H. unfold zcopy_iklj; cbv zeta.
    apply puts_run with (I := fun s => s = (o, 0))
      (J := fun s => s = (o + ni * nj * nk * ml, mi * mk * ml)); [|reflexivity].
    replace (fun s : Z * Z => s = (o, 0)) with
      (fun s : Z * Z => s = (o + ni * nj * nk * 0, mi * mk * 0)) by (rewrite !Z.mul_0_r, Z.add_0_r; reflexivity).
    apply (putsS_for sz V _ (fun l s => s = (o + ni * nj * nk * l, mi * mk * l))); [exact Hml|].
    intros l Hl a s Ha Hs. subst s. apply wp_bind.
    eapply wp_mono.
    - eapply (puts_for sz V (fun k x => exists j, 0 <= j < mj /\
                 exists i, 0 <= i < mi /\ exists b, 0 <= b < 2 /\ x = (o + (((l * nk + k) * nj + j) * ni + i)) * 2 + b)); [|exact Ha].
      intros k Hk. apply (puts_for sz V (fun j x => 
                 exists i, 0 <= i < mi /\ exists b, 0 <= b < 2 /\ x = (o + (((l * nk + k) * nj + j) * ni + i)) * 2 + b)).
      intros j Hj. apply (puts_for sz V (fun i x => exists b, 0 <= b < 2 /\ x = (o + (((l * nk + k) * nj + j) * ni + i)) * 2 + b)).
      intros i Hi c Hc.
      assert (Q : 0 <= ((j * ml + l) * mk + k) * mi + i < mi * mk * ml * mj).
      { clear - Hj Hi Hk Hl. assert (A : 0 <= j * ml + l /\ j * ml + l + 1 <= ml * mj) by nia.
        assert (B : 0 <= (j * ml + l) * mk + k /\ (j * ml + l) * mk + k + 1 <= mk * (ml * mj)) by nia. nia. }
      replace (mi * mk * l + k * mi + (j * (mi * mk * ml) + i)) with (((j * ml + l) * mk + k) * mi + i) by ring.
      apply (zput _ (Z0 (((j * ml + l) * mk + k) * mi + i))); auto; ring.
    - intros b Hb. cbn [wp fst snd]. split; [exact Hb|]. f_equal; ring.
  Qed.
End Copy.

(** cells of a block of complex numbers, split into contractions and components *)
Lemma zblk_split o n1 n2 n3 d1 d2 d3 d4 c1 c2 c3 c4 x :
  0 <= d1 -> 0 <= d2 -> 0 <= d3 -> 0 <= d4 ->
  blkO (o * 2) (n1 * 2) n2 n3 (d1 * c1 * 2) (d2 * c2) (d3 * c3) (d4 * c4) x <->
  exists lc, 0 <= lc < c4 /\ exists kc, 0 <= kc < c3 /\ exists jc, 0 <= jc < c2 /\ exists ic, 0 <= ic < c1 /\
    exists l, 0 <= l < d4 /\ exists k, 0 <= k < d3 /\ exists j, 0 <= j < d2 /\ exists i, 0 <= i < d1 /\
    exists b, 0 <= b < 2 /\
      x = (o + (n1 * n2 * n3 * d4 * lc + n1 * n2 * d3 * kc + n1 * d2 * jc + d1 * ic)
          + (((l * n3 + k) * n2 + j) * n1 + i)) * 2 + b.
Proof.
  intros P1 P2 P3 P4. rewrite (dbl_iff 0 (fun _ _ => True)). split.
  - intros [c [Hc [b [Hb ->]]]]. apply blkO_split in Hc; try assumption.
    destruct Hc as [lc [? [kc [? [jc [? [ic [? [l [? [k [? [j [? [i [? ->]]]]]]]]]]]]]]]].
    exists lc; split; [assumption|]. exists kc; split; [assumption|]. exists jc; split; [assumption|].
    exists ic; split; [assumption|]. exists l; split; [assumption|]. exists k; split; [assumption|].
    exists j; split; [assumption|]. exists i; split; [assumption|]. exists b; split; [assumption|]. ring.
  - intros [lc [? [kc [? [jc [? [ic [? [l [? [k [? [j [? [i [? [b [? ->]]]]]]]]]]]]]]]]]].
    eexists. split; [|exists b; split; [assumption|reflexivity]].
    apply blkO_split; try assumption.
    exists lc; split; [assumption|]. exists kc; split; [assumption|]. exists jc; split; [assumption|].
    exists ic; split; [assumption|]. exists l; split; [assumption|]. exists k; split; [assumption|].
    exists j; split; [assumption|]. exists i; split; [assumption|]. ring.
Qed.

Definition nspin (spin : bool) : Z := if spin then 4 else 1.
Lemma lc_pos l : 0 <= l <= 12 -> 0 < len_cart l.
Proof. intros H. rewrite len_cart_ncart by lia. apply ncart_pos. lia. Qed.

Lemma reach spin p q n N : 0 <= n -> p = n * q -> 0 <= q < N ->
  in_reach spin p (n * N) n (nspin spin * (n * N)).
Proof.
  intros Hn -> Hq. unfold in_reach, nspin. destruct spin; repeat split; nia.
Qed.

Lemma spinor_le kp l : 0 <= l <= 12 -> len_spinor kp l <= len_cart l + len_cart l.
Proof.
  intros Hl. rewrite len_cart_ncart by lia. unfold ncart, len_spinor.
  assert (2 * ((l + 1) * (l + 2) / 2) = (l + 1) * (l + 2)).
  { assert (E : ((l + 1) * (l + 2)) mod 2 = 0).
    { rewrite Z.mul_mod by lia. assert (l mod 2 = 0 \/ l mod 2 = 1) as [E|E] by (pose proof (Z.mod_pos_bound l 2); lia).
      - replace ((l + 2) mod 2) with 0; [rewrite Z.mul_0_r; reflexivity|]. rewrite Z.add_mod, E by lia. reflexivity.
      - replace ((l + 1) mod 2) with 0; [reflexivity|]. rewrite Z.add_mod, E by lia. reflexivity. }
    pose proof (Z.div_mod ((l + 1) * (l + 2)) 2 ltac:(lia)). lia. }
  assert (4 * l + 2 <= (l + 1) * (l + 2)) by nia.
  destruct (0 =? kp); [lia|]. destruct (kp <? 0); nia.
Qed.

Lemma zblk3 ni nj nk ci cj ck di dj d3 o x : 0 <= di -> 0 <= dj -> 0 <= d3 ->
  blkO (o * 2) (ni * 2) nj nk (di * ci * 2) (dj * cj) (d3 * ck) 1 x <->
  exists kc, 0 <= kc < ck /\ exists jc, 0 <= jc < cj /\ exists ic, 0 <= ic < ci /\
    exists l, 0 <= l < 1 /\ exists k, 0 <= k < d3 /\ exists j, 0 <= j < dj /\ exists i, 0 <= i < di /\
    exists b, 0 <= b < 2 /\ x = (o + (ni * nj * d3 * kc + ni * dj * jc + di * ic) + (((l * nk + k) * nj + j) * ni + i)) * 2 + b.
Proof.
  intros P1 P2 P3. replace (blkO (o * 2) (ni * 2) nj nk (di * ci * 2) (dj * cj) (d3 * ck) 1 x) with
    (blkO (o * 2) (ni * 2) nj nk (di * ci * 2) (dj * cj) (d3 * ck) (1 * 1) x) by reflexivity.
  rewrite zblk_split by lia. split.
  - intros [lc [? [kc [? [jc [? [ic [? [l [? [k [? [j [? [i [? [b [? ->]]]]]]]]]]]]]]]]]].
    exists kc; split; [assumption|]. exists jc; split; [assumption|]. exists ic; split; [assumption|].
    exists l; split; [assumption|]. exists k; split; [assumption|]. exists j; split; [assumption|].
    exists i; split; [assumption|]. exists b; split; [assumption|]. replace lc with 0 by lia. ring.
  - intros [kc [? [jc [? [ic [? [l [? [k [? [j [? [i [? [b [? ->]]]]]]]]]]]]]]]].
    exists 0; split; [lia|]. exists kc; split; [assumption|]. exists jc; split; [assumption|].
    exists ic; split; [assumption|]. exists l; split; [assumption|]. exists k; split; [assumption|].
    exists j; split; [assumption|]. exists i; split; [assumption|]. exists b; split; [assumption|]. ring.
Qed.

Lemma zblk_grids ni nj ci cj di dj o Ng N x : 0 <= di -> 0 <= dj ->
  blkO (o * 2) (Ng * 2) ni nj (N * 2) (di * ci) (dj * cj) 1 x <->
  exists t, 0 <= t < for_by_count 0 N GRID_BLKSIZE /\
    exists jc, 0 <= jc < cj /\ exists ic, 0 <= ic < ci /\
    exists j, 0 <= j < dj /\ exists i, 0 <= i < di /\
    exists m, 0 <= m < Z.min (N - (0 + GRID_BLKSIZE * t)) GRID_BLKSIZE /\ exists b, 0 <= b < 2 /\
      x = (o + (Ng * (ni * dj * jc + di * ic) + (0 + GRID_BLKSIZE * t)) + ((j * ni + i) * Ng + m)) * 2 + b.
Proof.
  intros P1 P2. rewrite (dbl_iff 0 (fun _ _ => True)). split.
  - intros [c [Hc [b [Hb ->]]]]. apply blkO_grids in Hc; try assumption.
    destruct Hc as [t [? [jc [? [ic [? [j [? [i [? [m [? ->]]]]]]]]]]]].
    exists t; split; [assumption|]. exists jc; split; [assumption|]. exists ic; split; [assumption|].
    exists j; split; [assumption|]. exists i; split; [assumption|]. exists m; split; [assumption|].
    exists b; split; [assumption|]. ring.
  - intros [t [? [jc [? [ic [? [j [? [i [? [m [? [b [? ->]]]]]]]]]]]]]].
    eexists. split; [|exists b; split; [assumption|reflexivity]]. apply blkO_grids; try assumption.
    exists t; split; [assumption|]. exists jc; split; [assumption|]. exists ic; split; [assumption|].
    exists j; split; [assumption|]. exists i; split; [assumption|]. exists m; split; [assumption|]. ring.
Qed.

Section O.
  Context {F : Type} (zero one : F) (add mul sub_ : F -> F -> F) (opp : F -> F).
  Hypothesis Rth : ring_theory zero one add mul sub_ opp eq.
  Context (tJR tJI : Z -> F) (isz : F -> bool).
  Hypothesis Hisz : forall x, isz x = true -> x = zero.
  Notation Bra := (bra_spinor zero one add mul sub_ opp tJR tJI).
  Notation Ket := (ket_spinor zero add mul sub_ tJR tJI).
  Notation Pair := (spinor_pair zero one add mul sub_ opp tJR tJI).
  Notation Phase := (with_phase zero one add mul sub_).
  Notation BraY := (braY zero one add mul sub_ opp tJR tJI).
  Notation real_in := (real_in zero).

  (** ket transform after a bra transform *)
  Lemma pair_block kpi li kpj lj ng nk (v : Z -> comps (F := F)) t1R t1I t2R t2I phase nbra :
    0 <= li <= 12 -> 0 <= lj <= 12 -> 0 <= ng -> 0 <= nk ->
    nbra = ng * len_spinor kpi li * nk ->
    reads2 t1R t1I (nk * len_cart lj * (len_spinor kpi li * ng) * 2) (BraY kpi li ng (nk * len_cart lj) v) ->
    len_spinor kpj lj * nbra <= asize t2R -> len_spinor kpj lj * nbra <= asize t2I ->
    wp (ket_of zero add mul sub_ opp isz tJR tJI phase t2R t2I t1R t1I nbra kpj lj)
       (fun r => asize (fst r) = asize t2R /\ asize (snd r) = asize t2I /\
          (forall x, ~ 0 <= x < len_spinor kpj lj * nbra -> acell (fst r) x = acell t2R x /\ acell (snd r) x = acell t2I x) /\
          exists Z0, reads2 (fst r) (snd r) (len_spinor kpj lj * nbra) Z0 /\
            forall mj k mi m, 0 <= mj < len_spinor kpj lj -> 0 <= k < nk -> 0 <= mi < len_spinor kpi li -> 0 <= m < ng ->
              Z0 (((mj * nk + k) * len_spinor kpi li + mi) * ng + m) =
              Phase phase (Pair kpi li kpj lj mi mj (fun a b => v (((b * nk + k) * ncart li + a) * ng + m)))).
  Proof.
    intros Hli Hlj Hng Hnk En HY S2R S2I.
    set (di := len_spinor kpi li) in *. set (dj := len_spinor kpj lj) in *. set (fj := len_cart lj) in *.
    assert (Pd : 0 <= di) by (apply len_spinor_nonneg; lia).
    assert (Pn : 0 <= nbra) by (rewrite En; repeat apply Z.mul_nonneg_nonneg; lia).
    eapply wp_mono.
    - apply (ket_of_fill zero one add mul sub_ opp Rth tJR tJI isz Hisz kpj lj nbra Hlj Pn t1R t1I (BraY kpi li ng (nk * fj) v)); try assumption.
      fold fj. replace (fj * 2 * nbra) with (nk * fj * (di * ng) * 2) by (rewrite En; ring). exact HY.
    - intros [rR rI] [[S1 S2] H]. cbn [fst snd] in *. split; [exact S1|]. split; [exact S2|]. split.
      { intros x Hx. destruct (H x Logic.I) as [_ A]. specialize (A Hx). unfold get2 in A. cbn [fst snd] in A.
        injection A as A1 A2. auto. }
      eexists. split.
      + split; intros q Hq; apply rd_spec; (split; [fold dj in Hq; lia|]);
          destruct (H q Logic.I) as [A _]; specialize (A Hq); unfold get2, emb2 in A; cbn [fst snd] in A;
          injection A as A1 A2; [exact A1|exact A2].
      + intros mj k mi m Hmj Hk Hmi Hm. cbv beta. f_equal.
        assert (J0 : 0 <= (k * di + mi) * ng + m < nbra).
        { rewrite En. clear - Hk Hmi Hm. assert (0 <= k * di + mi /\ k * di + mi + 1 <= di * nk) by nia. nia. }
        replace (((mj * nk + k) * di + mi) * ng + m) with (mj * nbra + ((k * di + mi) * ng + m)) by (rewrite En; ring).
        rewrite (ksum_spec zero one add mul sub_ opp Rth tJR tJI isz Hisz kpj lj nbra Hlj) by exact J0.
        unfold spinor_pair, ket_spinor. apply csum_ext. intros n Hn. apply csum_ext. intros t Ht. f_equal.
        assert (Ef : ncart lj = fj) by (unfold fj; rewrite len_cart_ncart by lia; reflexivity). rewrite Ef in *.
        replace ((t * fj + n) * nbra + ((k * di + mi) * ng + m)) with (((t * (nk * fj) + (n * nk + k)) * di + mi) * ng + m)
          by (rewrite En; ring).
        unfold di. rewrite braY_at; [reflexivity| | |]; try assumption. clear - Hn Hk. nia.
  Qed.

  Variable e : envs.
  Variables (spin phase : bool) (i_kp j_kp : Z).
  Variable gctr : arr F.
  Variable y : Z -> F.
  Hypothesis Li : 0 <= i_l e <= 12.
  Hypothesis Lj : 0 <= j_l e <= 12.
  Hypothesis Ei : nfi e = len_cart (i_l e).
  Hypothesis Ej : nfj e = len_cart (j_l e).
  Notation di := (len_spinor i_kp (i_l e)).
  Notation dj := (len_spinor j_kp (j_l e)).

  (** the ket half of the body of a loop with [stack] values per (i,j) *)
  Lemma run_ket {B} (K : arr F -> arr F -> option B) Q t1R t1I t2R t2I v stack nbra :
    0 <= stack -> nbra = di * stack ->
    reads2 t1R t1I (di * (stack * nfj e * 2)) (BraY i_kp (i_l e) 1 (stack * nfj e) v) ->
    dj * nbra <= asize t2R -> dj * nbra <= asize t2I ->
    (forall u2R u2I Z0, asize u2R = asize t2R -> asize u2I = asize t2I ->
       reads2 u2R u2I (dj * nbra) Z0 ->
       (forall x, ~ 0 <= x < dj * nbra -> acell u2R x = acell t2R x /\ acell u2I x = acell t2I x) ->
       (forall mj k mi, 0 <= mj < dj -> 0 <= k < stack -> 0 <= mi < di ->
          Z0 ((mj * stack + k) * di + mi) =
          Phase phase (Pair i_kp (i_l e) j_kp (j_l e) mi mj (fun a b => v ((b * stack + k) * nfi e + a)))) ->
       wp (K u2R u2I) Q) ->
    wp (' p <- ket_of zero add mul sub_ opp isz tJR tJI phase t2R t2I t1R t1I nbra j_kp (j_l e) ;;
        let '(t2R, t2I) := p in K t2R t2I) Q.
  Proof.
    intros Hst Enb A3 S3 S4 HK.
    apply wp_bind. eapply wp_mono.
    - apply (pair_block i_kp (i_l e) j_kp (j_l e) 1 stack v t1R t1I t2R t2I phase nbra); try assumption; try lia.
      rewrite <- Ej. replace (stack * nfj e * (di * 1) * 2) with (di * (stack * nfj e * 2)) by ring. exact A3.
    - intros [u2R u2I] [B1 [B2 [B3 [Z0 [B4 B5]]]]]. cbn [fst snd] in *.
      apply (HK u2R u2I Z0); try assumption. intros mj k mi Hmj Hk Hmi.
      specialize (B5 mj k mi 0 Hmj Hk Hmi ltac:(lia)). rewrite Z.mul_1_r, Z.add_0_r in B5. rewrite B5. f_equal.
      unfold spinor_pair, ket_spinor, bra_spinor. apply csum_ext. intros b Hb. apply csum_ext. intros t Ht. f_equal.
      apply csum_ext. intros a Ha. apply csum_ext. intros s Hs. f_equal. f_equal. f_equal.
      rewrite Ei, len_cart_ncart by lia. ring.
  Qed.

  (** the whole body *)
  Lemma run_pair {B} (K : arr F -> arr F -> arr F -> arr F -> option B) Q t1R t1I t2R t2I pg dist size stack nket nbra :
    reads gctr size y -> 0 <= stack -> nket = stack * nfj e -> nbra = di * stack ->
    in_reach spin pg dist (nket * nfi e) size ->
    asize t1R = di * (nket * 2) -> asize t1I = di * (nket * 2) ->
    dj * nbra <= asize t2R -> dj * nbra <= asize t2I ->
    (forall u1R u1I u2R u2I Z0, asize u1R = asize t1R -> asize u1I = asize t1I -> asize u2R = asize t2R -> asize u2I = asize t2I ->
       reads2 u2R u2I (dj * nbra) Z0 ->
       (forall x, ~ 0 <= x < dj * nbra -> acell u2R x = acell t2R x /\ acell u2I x = acell t2I x) ->
       (forall mj k mi, 0 <= mj < dj -> 0 <= k < stack -> 0 <= mi < di ->
          Z0 ((mj * stack + k) * di + mi) =
          Phase phase (Pair i_kp (i_l e) j_kp (j_l e) mi mj
             (fun a b => real_in spin y pg dist ((b * stack + k) * nfi e + a)))) ->
       wp (K u1R u1I u2R u2I) Q) ->
    wp (' p <- bra_of zero add mul sub_ opp tJR tJI spin t1R t1I gctr pg dist nket i_kp (i_l e) ;;
        let '(t1R, t1I) := p in
        ' p <- ket_of zero add mul sub_ opp isz tJR tJI phase t2R t2I t1R t1I nbra j_kp (j_l e) ;;
        let '(t2R, t2I) := p in K t1R t1I t2R t2I) Q.
  Proof.
    intros Hy Hst Enk Enb Hr S1 S2 S3 S4 HK. pose proof (lc_pos _ Li). pose proof (lc_pos _ Lj).
    assert (Pnk : 0 <= nket) by (rewrite Enk, Ej; apply Z.mul_nonneg_nonneg; lia).
    apply wp_bind. eapply wp_mono.
    - apply (bra_of_reads zero one add mul sub_ opp Rth tJR tJI i_kp (i_l e) nket Li Pnk spin gctr pg dist size y Hy); try assumption.
      + rewrite <- Ei. exact Hr.
      + rewrite S1. lia.
      + rewrite S2. lia.
    - intros [u1R u1I] [A1 [A2 [A3 _]]]. cbn [fst snd] in *. rewrite Enk in A3.
      apply (run_ket (K u1R u1I) Q u1R u1I t2R t2I (real_in spin y pg dist) stack nbra); try assumption.
      intros. apply (HK u1R u1I u2R u2I Z0); assumption.
  Qed.

  Variable sz : Z.
  Variable V : Z -> F -> Prop.
  Variable dims : arr Z.
  Variables ni nj nk nl : Z.
  Hypothesis D0 : rd dims 0 = Some ni.
  Hypothesis D1 : rd dims 1 = Some nj.
  Hypothesis Hci : 0 <= i_ctr e.
  Hypothesis Hcj : 0 <= j_ctr e.

  Lemma c2s_spinor_1e_puts o :
    nf e = nfi e * nfj e ->
    reads gctr (nspin spin * (nf e * (i_ctr e * j_ctr e))) y ->
    (forall jc ic mj mi, 0 <= jc < j_ctr e -> 0 <= ic < i_ctr e -> 0 <= mj < dj -> 0 <= mi < di ->
       zok sz V (o + ((jc * dj + mj) * ni + (ic * di + mi)))
         (Phase phase (Pair i_kp (i_l e) j_kp (j_l e) mi mj (fun a b =>
            real_in spin y (nf e * (jc * i_ctr e + ic)) (nf e * (i_ctr e * j_ctr e)) (b * nfi e + a))))) ->
    puts sz V (blkO (o * 2) (ni * 2) nj nk (di * i_ctr e * 2) (dj * j_ctr e) 1 1)
      (fun out => c2s_spinor_1e zero add mul sub_ opp isz tJR tJI spin phase i_kp j_kp out o gctr dims e).
  Proof.
    intros Hnf Hy H. unfold c2s_spinor_1e. rewrite D0, D1. cbn [bind]. cbv zeta.
    pose proof (lc_pos _ Li) as P1. pose proof (lc_pos _ Lj) as P2. rewrite <- Ei in P1. rewrite <- Ej in P2.
    assert (Pdi : 0 <= di) by (apply len_spinor_nonneg; lia). assert (Pdj : 0 <= dj) by (apply len_spinor_nonneg; lia).
    assert (Pnf : 0 <= nf e) by (rewrite Hnf; apply Z.mul_nonneg_nonneg; lia).
    set (l1 := di * (nfj e + nfj e)). set (l2 := di * dj).
    pose (J := fun p (s : Z * (arr F * arr F * arr F * arr F)) => let '(q, (a, b, c, d)) := s in
       q = p /\ asize a = l1 /\ asize b = l1 /\ asize c = l2 /\ asize d = l2).
    apply puts_run with (I := J 0) (J := J (nf e * i_ctr e * j_ctr e)); [|unfold J; cbn; auto 10].
    eapply putsS_iff.
    - apply (nest2 sz V J (i_ctr e) (j_ctr e) Hci Hcj (nf e)
         (fun jc ic x => exists j, 0 <= j < dj /\ exists i, 0 <= i < di /\ exists b, 0 <= b < 2 /\
                x = (o + (ni * dj * jc + di * ic) + (j * ni + i)) * 2 + b) 0).
      intros jc ic Hjc Hic a [pg [[[t1R t1I] t2R] t2I]] Ha [Epg [S1 [S2 [S3 S4]]]]. cbn [fst snd] in *.
      assert (B : 0 <= jc * i_ctr e + ic < i_ctr e * j_ctr e) by (apply rb; lia).
      set (q := jc * i_ctr e + ic) in *. rewrite Z.add_0_l in Epg.
      apply (run_pair (fun u1R u1I u2R u2I => r <- zcopy_ij a (o + (ni * dj * jc + di * ic)) u2R u2I ni nj di dj ;;
          Some (r, (pg + nf e, (u1R, u1I, u2R, u2I)))) _ t1R t1I t2R t2I pg _ (nspin spin * (nf e * (i_ctr e * j_ctr e))) 1 (nfj e) di);
        try assumption; try lia; try (unfold l1, l2 in *; lia).
      + replace (nf e * i_ctr e * j_ctr e) with (nf e * (i_ctr e * j_ctr e)) by ring.
        replace (nfj e * nfi e) with (nf e) by (rewrite Hnf; ring). apply (reach spin pg q); auto.
      + intros u1R u1I u2R u2I Z0 T1 T2 T3 T4 HZ _ Hv. apply wp_bind. eapply wp_mono.
        * apply (zcopy_ij_puts sz V (o + (ni * dj * jc + di * ic)) u2R u2I ni nj di dj Z0); [|intros j i Hj Hi|exact Ha].
          -- replace (di * dj) with (dj * di) by ring. exact HZ.
          -- specialize (Hv j 0 i Hj ltac:(lia) Hi). replace ((j * 1 + 0) * di + i) with (j * di + i) in Hv by ring. rewrite Hv.
             specialize (H jc ic j i Hjc Hic Hj Hi). fold q in H.
             replace (o + (ni * dj * jc + di * ic) + (j * ni + i)) with (o + ((jc * dj + j) * ni + (ic * di + i))) by ring.
             rewrite Epg. replace (nf e * i_ctr e * j_ctr e) with (nf e * (i_ctr e * j_ctr e)) by ring.
             assert (Ex : Pair i_kp (i_l e) j_kp (j_l e) i j (fun a b => real_in spin y (nf e * q) (nf e * (i_ctr e * j_ctr e)) ((b * 1 + 0) * nfi e + a)) =
                          Pair i_kp (i_l e) j_kp (j_l e) i j (fun a b => real_in spin y (nf e * q) (nf e * (i_ctr e * j_ctr e)) (b * nfi e + a))).
             { unfold spinor_pair, ket_spinor, bra_spinor. apply csum_ext. intros b Hb. apply csum_ext. intros t Ht. f_equal.
               apply csum_ext. intros c Hc. apply csum_ext. intros s Hs. f_equal. f_equal. f_equal. ring. }
             rewrite Ex. exact H.
        * intros r Hr. cbn [wp fst snd]. split; [exact Hr|]. unfold J. repeat split; first [congruence|lia].
    - intros x. replace (blkO (o * 2) (ni * 2) nj nk (di * i_ctr e * 2) (dj * j_ctr e) 1 1 x) with
        (blkO (o * 2) (ni * 2) nj nk (di * i_ctr e * 2) (dj * j_ctr e) (1 * 1) (1 * 1) x) by reflexivity.
      rewrite zblk_split by lia. split.
      + intros [lc [? [kc [? [jc [? [ic [? [l [? [k [? [j [? [i [? [b [? ->]]]]]]]]]]]]]]]]]].
        exists jc; split; [assumption|]. exists ic; split; [assumption|]. exists j; split; [assumption|].
        exists i; split; [assumption|]. exists b; split; [assumption|]. replace lc with 0 by lia. replace kc with 0 by lia.
        replace l with 0 by lia. replace k with 0 by lia. ring.
      + intros [jc [? [ic [? [j [? [i [? [b [? ->]]]]]]]]]].
        exists 0; split; [lia|]. exists 0; split; [lia|]. exists jc; split; [assumption|].
        exists ic; split; [assumption|]. exists 0; split; [lia|]. exists 0; split; [lia|].
        exists j; split; [assumption|]. exists i; split; [assumption|]. exists b; split; [assumption|]. ring.
  Qed.

  Hypothesis D2 : rd dims 2 = Some nk.
  Hypothesis Hck : 0 <= k_ctr e.
  Lemma c2s_spinor_3c2e1_ssc_puts o : 0 <= nfk e ->
    nf e = nfi e * nfk e * nfj e ->
    reads gctr (nspin spin * (nf e * (i_ctr e * j_ctr e * k_ctr e))) y ->
    (forall kc jc ic mk mj mi, 0 <= kc < k_ctr e -> 0 <= jc < j_ctr e -> 0 <= ic < i_ctr e ->
       0 <= mk < nfk e -> 0 <= mj < dj -> 0 <= mi < di ->
       zok sz V (o + (((kc * nfk e + mk) * nj + (jc * dj + mj)) * ni + (ic * di + mi)))
         (Phase phase (Pair i_kp (i_l e) j_kp (j_l e) mi mj (fun a b =>
            real_in spin y (nf e * ((kc * j_ctr e + jc) * i_ctr e + ic)) (nf e * (i_ctr e * j_ctr e * k_ctr e))
              ((b * nfk e + mk) * nfi e + a))))) ->
    puts sz V (blkO (o * 2) (ni * 2) nj nk (di * i_ctr e * 2) (dj * j_ctr e) (nfk e * k_ctr e) 1)
      (fun out => c2s_spinor_3c2e1_ssc zero add mul sub_ opp isz tJR tJI spin phase i_kp j_kp out o gctr dims e).
  Proof.
    intros Hfk Hnf Hy H. unfold c2s_spinor_3c2e1_ssc. rewrite D0, D1, D2. cbn [bind]. cbv zeta.
    pose proof (lc_pos _ Li) as P1. pose proof (lc_pos _ Lj) as P2. rewrite <- Ei in P1. rewrite <- Ej in P2.
    assert (Pdi : 0 <= di) by (apply len_spinor_nonneg; lia). assert (Pdj : 0 <= dj) by (apply len_spinor_nonneg; lia).
    assert (Pnf : 0 <= nf e) by (rewrite Hnf; repeat apply Z.mul_nonneg_nonneg; lia).
    set (l1 := di * nfk e * (nfj e + nfj e)). set (l2 := di * nfk e * dj).
    pose (J := fun p (s : Z * (arr F * arr F * arr F * arr F)) => let '(q, (a, b, c, d)) := s in
       q = p /\ asize a = l1 /\ asize b = l1 /\ asize c = l2 /\ asize d = l2).
    apply puts_run with (I := J 0) (J := J (nf e * i_ctr e * j_ctr e * k_ctr e)); [|unfold J; cbn; auto 10].
    eapply putsS_iff; [|intros x; apply zblk3; assumption].
    apply (nest3 sz V J (i_ctr e) (j_ctr e) (k_ctr e) Hci Hcj Hck (nf e)
         (fun kc jc ic x => exists l, 0 <= l < 1 /\ exists k, 0 <= k < nfk e /\ exists j, 0 <= j < dj /\ exists i, 0 <= i < di /\
            exists b, 0 <= b < 2 /\
                x = (o + (ni * nj * nfk e * kc + ni * dj * jc + di * ic) + (((l * nk + k) * nj + j) * ni + i)) * 2 + b)).
    intros kc jc ic Hkc Hjc Hic q a [pg [[[t1R t1I] t2R] t2I]] Ha [Epg [S1 [S2 [S3 S4]]]]. cbn [fst snd] in *.
    assert (B : 0 <= q < i_ctr e * j_ctr e * k_ctr e).
    { unfold q. rewrite <- Z.mul_assoc. apply rb; [lia|]. apply rb; lia. }
    apply (run_pair (fun u1R u1I u2R u2I => r <- zcopy_iklj a (o + (ni * nj * nfk e * kc + ni * dj * jc + di * ic)) u2R u2I ni nj nk 1 di dj (nfk e) 1 ;;
        Some (r, (pg + nf e, (u1R, u1I, u2R, u2I)))) _ t1R t1I t2R t2I pg _
        (nspin spin * (nf e * (i_ctr e * j_ctr e * k_ctr e))) (nfk e) (nfk e * nfj e) (di * nfk e));
      try assumption; try lia; try (unfold l1, l2 in *; lia).
    - replace (nf e * i_ctr e * j_ctr e * k_ctr e) with (nf e * (i_ctr e * j_ctr e * k_ctr e)) by ring.
      replace (nfk e * nfj e * nfi e) with (nf e) by (rewrite Hnf; ring). apply (reach spin pg q); auto.
    - intros u1R u1I u2R u2I Z0 T1 T2 T3 T4 HZ _ Hv. apply wp_bind. eapply wp_mono.
      + apply (zcopy_iklj_puts sz V (o + (ni * nj * nfk e * kc + ni * dj * jc + di * ic)) u2R u2I ni nj nk 1 di dj (nfk e) 1 Z0); [lia| | |exact Ha].
        * replace (di * nfk e * 1 * dj) with (dj * (di * nfk e)) by ring. exact HZ.
        * intros l k j i Hl Hk Hj Hi. replace l with 0 by lia.
          replace ((j * 1 + 0) * nfk e + k) with (j * nfk e + k) by ring. rewrite Hv by auto.
          specialize (H kc jc ic k j i Hkc Hjc Hic Hk Hj Hi). fold q in H.
          replace (o + (ni * nj * nfk e * kc + ni * dj * jc + di * ic) + (((0 * nk + k) * nj + j) * ni + i))
            with (o + (((kc * nfk e + k) * nj + (jc * dj + j)) * ni + (ic * di + i))) by ring.
          rewrite Epg. replace (nf e * i_ctr e * j_ctr e * k_ctr e) with (nf e * (i_ctr e * j_ctr e * k_ctr e)) by ring. exact H.
      + intros r Hr. cbn [wp fst snd]. split; [exact Hr|]. unfold J. repeat split; first [congruence|lia].
  Qed.

  (** grids: one block of grid points at a time, both transforms keep them fastest *)
  Lemma c2s_spinor_1e_grids_puts o N : 0 <= N ->
    nf e = nfi e * nfj e ->
    reads gctr (nspin spin * (N * nf e * i_ctr e * j_ctr e)) y ->
    (forall t jc ic mj mi m, 0 <= t < for_by_count 0 N GRID_BLKSIZE -> 0 <= jc < j_ctr e -> 0 <= ic < i_ctr e ->
       let bg := Z.min (N - GRID_BLKSIZE * t) GRID_BLKSIZE in
       0 <= mj < dj -> 0 <= mi < di -> 0 <= m < bg ->
       zok sz V (o + (((jc * dj + mj) * ni + (ic * di + mi)) * nk + (GRID_BLKSIZE * t + m)))
         (Phase phase (Pair i_kp (i_l e) j_kp (j_l e) mi mj (fun a b =>
            real_in spin y (GRID_BLKSIZE * t * nf e * i_ctr e * j_ctr e + bg * nf e * (jc * i_ctr e + ic)) (N * nf e * i_ctr e * j_ctr e)
              ((b * nfi e + a) * bg + m))))) ->
    puts sz V (blkO (o * 2) (nk * 2) ni nj (N * 2) (di * i_ctr e) (dj * j_ctr e) 1)
      (fun out => c2s_spinor_1e_grids zero add mul sub_ opp isz tJR tJI spin phase i_kp j_kp out o gctr dims N e).
  Proof.
    intros HN Hnf Hy H. unfold c2s_spinor_1e_grids. rewrite D0, D1, D2. cbn [bind]. cbv zeta.
    pose proof (lc_pos _ Li) as P1. pose proof (lc_pos _ Lj) as P2. rewrite <- Ei in P1. rewrite <- Ej in P2.
    assert (Pdi : 0 <= di) by (apply len_spinor_nonneg; lia). assert (Pdj : 0 <= dj) by (apply len_spinor_nonneg; lia).
    assert (Pnf : 0 <= nf e) by (rewrite Hnf; apply Z.mul_nonneg_nonneg; lia).
    set (bl := GRID_BLKSIZE * di * (nfj e + nfj e)).
    pose (J := fun p (s : Z * (arr F * arr F * arr F * arr F)) => let '(q, (a, b, c, d)) := s in
       q = p /\ asize a = bl /\ asize b = bl /\ asize c = bl /\ asize d = bl).
    apply puts_run with (I := J 0) (J := J (gdone GRID_BLKSIZE N (for_by_count 0 N GRID_BLKSIZE) * nf e * i_ctr e * j_ctr e)); [|unfold J; cbn; auto 10].
    eapply putsS_iff; [|intros x; apply zblk_grids; assumption].
    apply (nest_grids sz V J (i_ctr e) (j_ctr e) N Hci Hcj HN (nf e)
         (fun t jc ic x => exists j, 0 <= j < dj /\ exists i, 0 <= i < di /\
            exists m, 0 <= m < Z.min (N - (0 + GRID_BLKSIZE * t)) GRID_BLKSIZE /\ exists b, 0 <= b < 2 /\
            x = (o + (nk * (ni * dj * jc + di * ic) + (0 + GRID_BLKSIZE * t)) + ((j * ni + i) * nk + m)) * 2 + b)).
    intros t jc ic Ht Hjc Hic go bg q a [pg [[[t1R t1I] t2R] t2I]] Ha [Epg [S1 [S2 [S3 S4]]]]. cbn [fst snd] in *.
    fold bg.
    pose proof (block_start GRID_BLKSIZE N t ltac:(reflexivity) Ht) as Bs.
    assert (Eg : go = GRID_BLKSIZE * t) by (unfold go; ring).
    assert (Bg : 0 < bg /\ bg <= GRID_BLKSIZE /\ go + bg <= N) by (pose proof (eq_refl : 0 < GRID_BLKSIZE) as G0; unfold bg; rewrite <- Eg in Bs; clear - Bs G0; lia).
    destruct Bg as [Bg1 [Bg2 Bg3]].
    assert (B : 0 <= jc * i_ctr e + ic < i_ctr e * j_ctr e) by (apply rb; lia).
    assert (Rc : in_reach spin pg (N * nf e * i_ctr e * j_ctr e) (nfj e * nfi e * bg) (nspin spin * (N * nf e * i_ctr e * j_ctr e))).
    { replace (nfj e * nfi e * bg) with (nf e * bg) by (rewrite Hnf; ring).
      assert (X : 0 <= pg /\ pg + nf e * bg <= N * nf e * i_ctr e * j_ctr e).
      { rewrite Epg. unfold q. clear - B Bg1 Bg3 Pnf Eg Bs Hci Hcj.
        assert (0 <= go) by lia. clear Eg Bs. set (w := jc * i_ctr e + ic) in *. set (u := i_ctr e * j_ctr e) in *.
        replace (go * nf e * i_ctr e * j_ctr e) with (go * nf e * u) by (unfold u; ring).
        replace (N * nf e * i_ctr e * j_ctr e) with (N * nf e * u) by (unfold u; ring).
        assert (0 <= go * nf e) by nia. assert (0 <= bg * nf e) by nia. assert (0 <= go * nf e * u) by nia.
        assert ((go + bg) * nf e <= N * nf e) by nia. split; [nia|].
        assert (bg * nf e * w + bg * nf e <= bg * nf e * u) by nia. nia. }
      assert (0 <= N * nf e * i_ctr e * j_ctr e) by (repeat apply Z.mul_nonneg_nonneg; lia).
      unfold in_reach, nspin. destruct spin; lia. }
    assert (T2 : dj * (bg * di) <= bl).
    { unfold bl. pose proof (spinor_le j_kp (j_l e) ltac:(lia)) as L. rewrite <- Ej in L. clear - L Bg1 Bg2 Pdi Pdj P2.
      assert (bg * di <= GRID_BLKSIZE * di) by nia. assert (0 <= bg * di) by nia. nia. }
    assert (T1 : nfj e * (di * bg) * 2 <= bl) by (unfold bl; clear - Bg2 Pdi P2; assert (bg * di <= GRID_BLKSIZE * di) by nia; nia).
    apply wp_bind. eapply wp_mono.
    - apply (bra1_of_reads zero one add mul sub_ opp Rth tJR tJI i_kp (i_l e) (nfj e) Li ltac:(lia) spin gctr pg _ _ y Hy bg ltac:(lia)).
      + rewrite <- Ei. exact Rc.
      + rewrite S1. exact T1.
      + rewrite S2. exact T1.
    - intros [u1R u1I] [A1 [A2 [A3 _]]]. cbn [fst snd] in *. apply wp_bind. eapply wp_mono.
      + apply (pair_block i_kp (i_l e) j_kp (j_l e) bg 1 (real_in spin y pg (N * nf e * i_ctr e * j_ctr e)) u1R u1I t2R t2I phase (bg * di));
          try assumption; try lia.
        rewrite <- Ej, Z.mul_1_l. exact A3.
      + intros [u2R u2I] [B1 [B2 [_ [Z0 [B4 B5]]]]]. cbn [fst snd] in *. apply wp_bind. eapply wp_mono.
        * apply (zcopy_grids_puts sz V (o + (nk * (ni * dj * jc + di * ic) + go)) u2R u2I nk ni nj bg di dj Z0); [exact Pdj| | |exact Ha].
          -- replace (bg * di * dj) with (dj * (bg * di)) by ring. exact B4.
          -- intros j i m Hj Hi Hm. specialize (B5 j 0 i m Hj ltac:(lia) Hi Hm).
             replace (((j * 1 + 0) * di + i) * bg + m) with ((j * di + i) * bg + m) in B5 by ring. rewrite B5.
             specialize (H t jc ic j i m Ht Hjc Hic). cbv zeta in H. rewrite <- Eg in H. fold bg in H. specialize (H Hj Hi Hm).
             replace (o + (nk * (ni * dj * jc + di * ic) + go) + ((j * ni + i) * nk + m))
               with (o + (((jc * dj + j) * ni + (ic * di + i)) * nk + (go + m))) by ring.
             rewrite Epg. unfold q.
             assert (Ex : forall w, Pair i_kp (i_l e) j_kp (j_l e) i j (fun a b => w (((b * 1 + 0) * ncart (i_l e) + a) * bg + m)) =
                          Pair i_kp (i_l e) j_kp (j_l e) i j (fun a b => w ((b * nfi e + a) * bg + m))).
             { intros w. unfold spinor_pair, ket_spinor, bra_spinor. apply csum_ext. intros b Hb. apply csum_ext. intros s Hs. f_equal.
               apply csum_ext. intros c Hc. apply csum_ext. intros s' Hs'. f_equal. f_equal. f_equal. rewrite Ei, len_cart_ncart by lia. ring. }
             rewrite Ex. exact H.
        * intros r Hr. cbn [wp fst snd]. split; [exact Hr|]. unfold J. repeat split; first [congruence|lia].
  Qed.
End O.
