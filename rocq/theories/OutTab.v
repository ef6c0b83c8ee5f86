(** OutTab.v — the per-shell transforms with the library's table, and the table's layout. *)
From Coq Require Import Reals.
From Verif Require Import Base BasModel FblasModel FblasSpec EnvModel OutModel OutSpec SphProof OutMore TabSph TabModel OutSetup TabProof.
Local Open Scope Z_scope.

Notation Tsph := (Tmat sph_coef c2s_off CINTlen_cart).
Notation Rprod := (prod 0%R Rplus Rmult).

Lemma Tsph_eq l m a : 0 <= l <= 15 -> Tmat sph_coef c2s_off len_cart l m a = Tsph l m a.
Proof. intros H. unfold Tmat. rewrite len_cart_eq by exact H. reflexivity. Qed.

Lemma braM_eq l X i j : 0 <= l <= 15 ->
  braM 0%R Rplus Rmult sph_coef l X i j = Rprod (CINTlen_cart l) (Tsph l) X i j.
Proof.
  intros H. unfold braM, prod. rewrite len_cart_eq by exact H. apply lsum_ext. intros a Ha.
  rewrite Tsph_eq by exact H. reflexivity.
Qed.
Lemma ketM_eq l X i j : 0 <= l <= 15 ->
  ketM 0%R Rplus Rmult sph_coef l X i j = Rprod (CINTlen_cart l) X (fun a m => Tsph l m a) i j.
Proof.
  intros H. unfold ketM, prod. rewrite len_cart_eq by exact H. apply lsum_ext. intros a Ha.
  rewrite Tsph_eq by exact H. reflexivity.
Qed.
Lemma exactly_eq {A} (a0 a : arr A) ld r c (M N : Z -> Z -> A) : (forall i j, M i j = N i j) ->
  stored_exactly a0 a ld r c M -> stored_exactly a0 a ld r c N.
Proof.
  intros E [H1 [H2 H3]]. split; [exact H1|]. split; [|exact H3].
  intros i j Hi Hj. rewrite <- E. apply H2; auto.
Qed.

Lemma bra_sph l nket X (g buf : arr R) : 0 <= l <= 15 -> 0 <= nket ->
  holds g (CINTlen_cart l) (CINTlen_cart l) nket X -> (2 <= l -> (l * 2 + 1) * nket <= asize buf) ->
  exists b r, CINTc2s_bra_sph 0%R Rplus Rmult sph_coef buf nket g l = Some (b, r) /\
    holds r (l * 2 + 1) (l * 2 + 1) nket (Rprod (CINTlen_cart l) (Tsph l) X) /\
    (l < 2 -> b = buf /\ r = g) /\
    (2 <= l -> b = r /\ stored_exactly buf r (l * 2 + 1) (l * 2 + 1) nket (Rprod (CINTlen_cart l) (Tsph l) X)).
Proof.
  intros Hl Hn Hx Hsz. rewrite <- len_cart_eq in Hx by exact Hl.
  destruct (bra_all 0%R 1%R Rplus Rmult Rminus Ropp RTheory sph_coef sph_table_ok l nket X g buf Hl Hn Hx Hsz)
    as [b [r [E [H1 [H2 H3]]]]].
  exists b, r. split; [exact E|]. split.
  - intros i j Hi Hj. rewrite <- braM_eq by exact Hl. apply H1; auto.
  - split; [exact H2|]. intros L. destruct (H3 L) as [H4 H5]. split; [exact H4|].
    eapply exactly_eq; [|exact H5]. intros i j. apply braM_eq. exact Hl.
Qed.
Lemma ket_sph l nbra X (g buf : arr R) : 0 <= l <= 15 -> 0 <= nbra ->
  holds g nbra nbra (CINTlen_cart l) X -> (2 <= l -> nbra * (l * 2 + 1) <= asize buf) ->
  exists b r, CINTc2s_ket_sph 0%R Rplus Rmult sph_coef buf nbra g l = Some (b, r) /\
    holds r nbra nbra (l * 2 + 1) (Rprod (CINTlen_cart l) X (fun a m => Tsph l m a)) /\
    (l < 2 -> b = buf /\ r = g) /\
    (2 <= l -> b = r /\ stored_exactly buf r nbra nbra (l * 2 + 1) (Rprod (CINTlen_cart l) X (fun a m => Tsph l m a))).
Proof.
  intros Hl Hn Hx Hsz. rewrite <- len_cart_eq in Hx by exact Hl.
  destruct (ket_all 0%R 1%R Rplus Rmult Rminus Ropp RTheory sph_coef sph_table_ok l nbra X g buf Hl Hn Hx Hsz)
    as [b [r [E [H1 [H2 H3]]]]].
  exists b, r. split; [exact E|]. split.
  - intros i j Hi Hj. rewrite <- ketM_eq by exact Hl. apply H1; auto.
  - split; [exact H2|]. intros L. destruct (H3 L) as [H4 H5]. split; [exact H4|].
    eapply exactly_eq; [|exact H5]. intros i j. apply ketM_eq. exact Hl.
Qed.
Lemma ket1_sph l lds nbra X (g buf : arr R) : 0 <= l <= 15 -> 0 <= nbra <= lds ->
  holds g nbra nbra (CINTlen_cart l) X -> lds * (l * 2) + nbra <= asize buf ->
  exists r, CINTc2s_ket_sph1 0%R Rplus Rmult sph_coef buf g lds nbra l = Some (r, r) /\
    stored_exactly buf r lds nbra (l * 2 + 1) (Rprod (CINTlen_cart l) X (fun a m => Tsph l m a)).
Proof.
  intros Hl Hn Hx Hsz. rewrite <- len_cart_eq in Hx by exact Hl.
  destruct (ket1_all 0%R 1%R Rplus Rmult Rminus Ropp RTheory sph_coef sph_table_ok l lds nbra X g buf Hl Hn Hx Hsz) as [r [E H]].
  exists r. split; [exact E|]. eapply exactly_eq; [|exact H]. intros i j. apply ketM_eq. exact Hl.
Qed.
Lemma bra_dense_sph l nket X (g buf : arr R) : 2 <= l <= 4 -> 0 <= nket ->
  holds g (CINTlen_cart l) (CINTlen_cart l) nket X -> (l * 2 + 1) * nket <= asize buf ->
  same (CINTc2s_bra_sph 0%R Rplus Rmult sph_coef buf nket g l) (a_bra_cart2spheric 0%R Rplus Rmult sph_coef buf nket g l).
Proof.
  intros Hl Hn Hx Hsz. rewrite <- len_cart_eq in Hx by lia.
  exact (bra_dense 0%R 1%R Rplus Rmult Rminus Ropp RTheory sph_coef sph_table_ok l nket X g buf Hl Hn Hx Hsz).
Qed.
Lemma ket_dense_sph l lds nbra X (g buf : arr R) : 2 <= l <= 4 -> 0 <= nbra <= lds ->
  holds g nbra nbra (CINTlen_cart l) X -> lds * (l * 2) + nbra <= asize buf ->
  same (CINTc2s_ket_sph1 0%R Rplus Rmult sph_coef buf g lds nbra l) (a_ket_cart2spheric 0%R Rplus Rmult sph_coef buf g lds nbra l).
Proof.
  intros Hl Hn Hx Hsz. rewrite <- len_cart_eq in Hx by lia.
  exact (ket_dense 0%R 1%R Rplus Rmult Rminus Ropp RTheory sph_coef sph_table_ok l lds nbra X g buf Hl Hn Hx Hsz).
Qed.
Lemma s2c_bra_sph l nket Y (gsph gcart : arr R) : 0 <= l <= 15 -> 0 <= nket ->
  holds gsph (l * 2 + 1) (l * 2 + 1) nket Y -> CINTlen_cart l * nket <= asize gcart ->
  exists r, CINTs2c_bra_sph 0%R Rplus Rmult sph_coef gsph nket gcart l = Some r /\
    stored_exactly gcart r (CINTlen_cart l) (CINTlen_cart l) nket (Rprod (l * 2 + 1) (fun a m => Tsph l m a) Y).
Proof.
  intros Hl Hn Hx Hsz. rewrite <- len_cart_eq in Hsz by exact Hl.
  destruct (s2c_bra_exact 0%R Rplus Rmult sph_coef l nket Y gsph gcart Hl Hn Hx Hsz) as [r [E H]].
  rewrite len_cart_eq in H by exact Hl.
  exists r. split; [exact E|]. eapply exactly_eq; [|exact H]. intros i j. unfold prod. apply lsum_ext. intros a Ha.
  rewrite Tsph_eq by exact Hl. reflexivity.
Qed.
Lemma s2c_ket_sph l nbra Y (gsph gcart : arr R) : 0 <= l <= 15 -> 0 <= nbra ->
  holds gsph nbra nbra (l * 2 + 1) Y -> nbra * CINTlen_cart l <= asize gcart ->
  exists r, CINTs2c_ket_sph 0%R Rplus Rmult sph_coef gsph nbra gcart l = Some r /\
    stored_exactly gcart r nbra nbra (CINTlen_cart l) (Rprod (l * 2 + 1) Y (Tsph l)).
Proof.
  intros Hl Hn Hx Hsz. rewrite <- len_cart_eq in Hsz by exact Hl.
  destruct (s2c_ket_exact 0%R Rplus Rmult sph_coef l nbra Y gsph gcart Hl Hn Hx Hsz) as [r [E H]].
  rewrite len_cart_eq in H by exact Hl.
  exists r. split; [exact E|]. eapply exactly_eq; [|exact H]. intros i j. unfold prod. apply lsum_ext. intros a Ha.
  rewrite Tsph_eq by exact Hl. reflexivity.
Qed.

(** ** Layout of the table *)
Lemma table_tiles : c2s_off 0 = 0 /\
  (forall l, 0 <= l < 15 -> c2s_off (l + 1) = c2s_off l + (l * 2 + 1) * CINTlen_cart l) /\
  c2s_off 15 + (15 * 2 + 1) * CINTlen_cart 15 = Z.of_nat (length g_trans_cart2sph_dec).
Proof.
  split; [reflexivity|]. split.
  - intros l Hl.
    assert (C : forallb (fun l => c2s_off (l + 1) =? c2s_off l + (l * 2 + 1) * CINTlen_cart l) [0;1;2;3;4;5;6;7;8;9;10;11;12;13;14] = true)
      by (vm_compute; reflexivity).
    rewrite forallb_forall in C. assert (I : In l [0;1;2;3;4;5;6;7;8;9;10;11;12;13;14]) by (cbn [In]; lia).
    specialize (C l I). lia.
  - rewrite units_length. vm_compute. reflexivity.
Qed.

(** every table entry belongs to one row of one block *)
Lemma table_onto q : 0 <= q < Z.of_nat (length g_trans_cart2sph_dec) ->
  exists l m a, 0 <= l <= 15 /\ 0 <= m < l * 2 + 1 /\ 0 <= a < CINTlen_cart l /\ q = c2s_off l + m * CINTlen_cart l + a.
Proof.
  destruct table_tiles as [T0 [T1 T2]]. intros Hq.
  assert (G : forall n, (n <= 15)%nat -> q < c2s_off (Z.of_nat n) + (Z.of_nat n * 2 + 1) * CINTlen_cart (Z.of_nat n) ->
     exists l, 0 <= l <= 15 /\ c2s_off l <= q < c2s_off l + (l * 2 + 1) * CINTlen_cart l).
  { induction n as [|k IH]; intros Hn H.
    - exists 0. change (Z.of_nat 0) with 0 in H. rewrite T0 in H. rewrite T0. lia.
    - rewrite Nat2Z.inj_succ in H. unfold Z.succ in H.
      destruct (Z_lt_le_dec q (c2s_off (Z.of_nat k) + (Z.of_nat k * 2 + 1) * CINTlen_cart (Z.of_nat k))) as [A|A]; [apply IH; [lia|exact A]|].
      exists (Z.of_nat k + 1). pose proof (T1 (Z.of_nat k) ltac:(lia)). lia. }
  destruct (G 15%nat ltac:(lia)) as [l [Hl H]]; [change (Z.of_nat 15) with 15; lia|].
  assert (P : 1 <= CINTlen_cart l) by (rewrite <- len_cart_eq by exact Hl; apply off_bound; exact Hl).
  exists l, ((q - c2s_off l) / CINTlen_cart l), ((q - c2s_off l) mod CINTlen_cart l).
  split; [exact Hl|]. split; [split; [apply Z.div_pos; lia|apply Z.div_lt_upper_bound; nia]|].
  split; [apply Z.mod_pos_bound; lia|]. pose proof (Z.div_mod (q - c2s_off l) (CINTlen_cart l) ltac:(lia)). lia.
Qed.

Lemma pairs_disjoint ld i0 m i j0 n j i0' m' i' j0' n' j' :
  0 <= i0 -> i0 + m <= ld -> 0 <= i0' -> i0' + m' <= ld ->
  (i0 + m <= i0' \/ i0' + m' <= i0 \/ j0 + n <= j0' \/ j0' + n' <= j0) ->
  0 <= i < m -> 0 <= j < n -> 0 <= i' < m' -> 0 <= j' < n' ->
  (i0 + ld * j0) + (j * ld + i) <> (i0' + ld * j0') + (j' * ld + i').
Proof.
  intros A1 A2 A3 A4 D Hi Hj Hi' Hj' E.
  assert (K : (j0 + j) * ld + (i0 + i) = (j0' + j') * ld + (i0' + i')) by lia.
  apply digit_inj in K; lia.
Qed.

Lemma p_shell_sph (v : Z -> R) : sph_ij 0%R Rplus Rmult sph_coef c2s_off CINTlen_cart 1 0 v 2 0 = v 2.
Proof.
  unfold sph_ij. destruct sph_table_ok as [Ts Tp _ _ _].
  unfold apply_T. rewrite <- !len_cart_eq by lia.
  assert (E : forall a, lsum 0%R Rplus (len_cart 0) (fun a0 => Rmult (Tsph 0 0 a0) (v (a0 * len_cart 1 + a))) = v a).
  { intros a. rewrite (lsum_ext _ _ _ _ (fun a0 => Rmult (Tmat sph_coef c2s_off len_cart 0 0 a0) (v (a0 * len_cart 1 + a)))).
    - etransitivity; [apply (identity_apply 0%R 1%R Rplus Rmult Rminus Ropp RTheory sph_coef 0 0 (fun b => v (b * len_cart 1 + a))); auto; cbn; lia|reflexivity].
    - intros b Hb. rewrite Tsph_eq by lia. reflexivity. }
  rewrite (lsum_ext _ _ _ _ (fun a => Rmult (Tmat sph_coef c2s_off len_cart 1 2 a) (v a))).
  - apply (identity_apply 0%R 1%R Rplus Rmult Rminus Ropp RTheory sph_coef 1 2 v); auto. change (len_cart 1) with 3. lia.
  - intros a Ha. rewrite E, Tsph_eq by lia. reflexivity.
Qed.
