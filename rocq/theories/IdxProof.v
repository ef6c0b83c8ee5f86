(** IdxProof.v — index tables. *)
From Verif Require Import Base BasModel BasSpec BasProof EnvModel IdxModel IdxSpec.

(** Exponent lookup by integer position. *)
Definition expo (l k d : Z) : Z := coord d (nth (Z.to_nat k) (cart_list l) (0, 0, 0)).
Notation ncart l := (Z.of_nat (length (cart_list l))).

Lemma expo_nth l k t d : nth_error (cart_list l) k = Some t -> expo l (Z.of_nat k) d = coord d t.
Proof. intros H. unfold expo. rewrite Nat2Z.id. erewrite nth_error_nth by exact H. reflexivity. Qed.

Lemma ncart_len l : 0 <= l -> ncart l = CINTlen_cart l.
Proof. intros H. rewrite cart_list_length, CINTlen_cart_ok; auto. Qed.

Lemma cart_fits l : 0 <= l <= 15 -> (l + 1) * (l + 2) / 2 <= CART_MAX.
Proof. intros H. unfold CART_MAX. apply Z.div_le_upper_bound; [lia|]. nia. Qed.

Definition compsP (l : Z) (c : comp_state) : Prop :=
  forall k, 0 <= k < ncart l ->
    rd (c_nx c) k = Some (expo l k 0) /\ rd (c_ny c) k = Some (expo l k 1) /\
    rd (c_nz c) k = Some (expo l k 2).

Lemma comps_ok l (Q : comp_state -> Prop) : 0 <= l <= 15 ->
  (forall c, compsP l c -> Q c) -> wp (comps l) Q.
Proof.
  intros Hl HQ. unfold comps.
  pose proof (cart_fits l Hl) as Hf.
  destruct (cart_comp_list (uninit CART_MAX) (uninit CART_MAX) (uninit CART_MAX) l) as (s & Hs & _ & Hc & _);
    [lia|exact Hf|exact Hf|exact Hf|].
  rewrite Hs. apply HQ. intros k Hk.
  destruct (nth_error (cart_list l) (Z.to_nat k)) as [t|] eqn:E.
  2:{ apply nth_error_None in E. lia. }
  pose proof (Hc _ _ E) as H. pose proof (expo_nth l _ t 0 E) as E0.
  pose proof (expo_nth l _ t 1 E) as E1. pose proof (expo_nth l _ t 2 E) as E2.
  rewrite Z2Nat.id in * by lia. rewrite E0, E1, E2. destruct t as [[x y] z]. exact H.
Qed.

(** Sequential appending of triples. *)
Section App.
  Variable a0 : arr Z.
  Variable spec : Z -> Z -> Z.
  Definition App (m : Z) (s : ist) : Prop :=
    snd s = 3 * m /\ asize (fst s) = asize a0 /\
    (forall p d, 0 <= p < m -> 0 <= d < 3 -> acell (fst s) (3 * p + d) = Some (spec p d)) /\
    (forall x, x < 0 \/ 3 * m <= x -> acell (fst s) x = acell a0 x).

  Lemma put3_ok m x y z s (Q : ist -> Prop) : 0 <= m -> 3 * m + 3 <= asize a0 ->
    App m s -> x = spec m 0 -> y = spec m 1 -> z = spec m 2 ->
    (forall s', App (m + 1) s' -> Q s') -> wp (put3 x y z s) Q.
  Proof.
    intros Hm Hs (H1 & H2 & H3 & H4) -> -> -> HQ. destruct s as [a n]. cbn [fst snd] in *. subst n.
    unfold put3. apply wp_bind, wp_wr; [lia|]. intros a1 S1 C1.
    apply wp_bind, wp_wr; [lia|]. intros a2 S2 C2.
    apply wp_bind, wp_wr; [lia|]. intros a3 S3 C3.
    apply HQ. split; [cbn [snd]; lia|]. split; [cbn [fst]; congruence|]. cbn [fst]. split.
    - intros p d Hp Hd. rewrite C3, C2, C1.
      destruct (Z.eq_dec p m) as [->|].
      + assert (d = 0 \/ d = 1 \/ d = 2) as [->|[->| ->]] by lia;
          repeat match goal with |- context[?u =? ?v] => destruct (Z.eqb_spec u v); try lia end; reflexivity.
      + repeat match goal with |- context[?u =? ?v] => destruct (Z.eqb_spec u v); try lia end.
        apply H3; lia.
    - intros x Hx. rewrite C3, C2, C1.
      repeat match goal with |- context[?u =? ?v] => destruct (Z.eqb_spec u v); try lia end.
      apply H4; lia.
  Qed.
End App.

(** The innermost loop over the first shell's components. *)
Lemma row_ok a0 spec li ic (bx bY bz di m : Z) s (Q : ist -> Prop) :
  compsP li ic -> 0 <= m -> 3 * (m + ncart li) <= asize a0 -> App a0 spec m s ->
  (forall i, 0 <= i < ncart li ->
     spec (m + i) 0 = bx + di * expo li i 0 /\ spec (m + i) 1 = bY + di * expo li i 1 /\
     spec (m + i) 2 = bz + di * expo li i 2) ->
  (forall s', App a0 spec (m + ncart li) s' -> Q s') ->
  wp (for_ 0 (ncart li) (fun i s =>
        ix <- rd (c_nx ic) i ;; iy <- rd (c_ny ic) i ;; iz <- rd (c_nz ic) i ;;
        put3 (bx + di * ix) (bY + di * iy) (bz + di * iz) s) s) Q.
Proof.
  intros Hc Hm Hs HA Hsp HQ.
  apply wp_for with (I := fun i s => App a0 spec (m + i) s).
  - lia.
  - rewrite Z.add_0_r. exact HA.
  - intros i s' Hi HA'. destruct (Hc i Hi) as (-> & -> & ->). cbn [bind].
    destruct (Hsp i Hi) as (E0 & E1 & E2).
    apply put3_ok with (a0 := a0) (spec := spec) (m := m + i); auto; try lia.
    intros s'' H''. replace (m + (i + 1)) with (m + i + 1) by lia. exact H''.
  - exact HQ.
Qed.

Lemma App_init a0 spec : App a0 spec 0 (a0, 0).
Proof. split; [reflexivity|]. split; [reflexivity|]. split; [intros; lia|reflexivity]. Qed.

Lemma App_rd a0 spec m s p d : App a0 spec m s -> 0 <= p < m -> 3 * m <= asize a0 -> 0 <= d < 3 ->
  rd (fst s) (3 * p + d) = Some (spec p d).
Proof. intros (H1 & H2 & H3 & H4) Hp Hm Hd. apply rd_spec. split; [lia|]. apply H3; lia. Qed.

Lemma App_Frame a0 spec m s : App a0 spec m s -> Frame (fun x => 0 <= x < 3 * m) a0 (fst s).
Proof. intros (H1 & H2 & H3 & H4). split; [exact H2|]. intros x Hx. apply H4. lia. Qed.

(** Mixed-radix decoding. *)
Lemma dm a b n : 0 <= b < n -> (a * n + b) mod n = b /\ (a * n + b) / n = a.
Proof.
  intros H. split.
  - rewrite Z.add_comm, Z.mod_add by lia. apply Z.mod_small; lia.
  - rewrite Z.div_add_l by lia. rewrite Z.div_small; lia.
Qed.

Lemma radix_lt a b m n : 0 <= a < m -> 0 <= b < n -> a * n + b < m * n.
Proof. intros. nia. Qed.

(** *** Two-index table *)
Lemma index2_ok e idx : 0 <= i_l e <= 15 -> 0 <= j_l e <= 15 ->
  nfi e = CINTlen_cart (i_l e) -> nfj e = CINTlen_cart (j_l e) ->
  3 * (nfi e * nfj e) <= asize idx ->
  exists idx', CINTg1e_index_xyz e idx = Some idx' /\
    table2 idx' (i_l e) (j_l e) (g_size e) (g_stride_i e) (g_stride_j e) /\
    Frame (fun x => 0 <= x < 3 * (nfi e * nfj e)) idx idx'.
Proof.
  intros Hi Hj Ei Ej Hs. apply wp_exists.
  rewrite <- ncart_len in Ei, Ej by lia.
  set (spec := fun p d => d * g_size e + g_stride_j e * expo (j_l e) (p / ncart (i_l e)) d
                          + g_stride_i e * expo (i_l e) (p mod ncart (i_l e)) d).
  unfold CINTg1e_index_xyz.
  apply wp_bind, comps_ok; [exact Hi|]. intros ic Hic.
  apply wp_bind, comps_ok; [exact Hj|]. intros jc Hjc.
  rewrite Ei, Ej in *. set (n := ncart (i_l e)) in *. set (m := ncart (j_l e)) in *.
  assert (Hn : 0 <= n) by (unfold n; lia). assert (Hm : 0 <= m) by (unfold m; lia).
  apply wp_bind, wp_for with (I := fun j s => App idx spec (j * n) s).
  - exact Hm.
  - apply App_init.
  - intros j s Hjr HA. destruct (Hjc j Hjr) as (-> & -> & ->). cbn [bind].
    apply row_ok with (a0 := idx) (spec := spec) (li := i_l e) (m := j * n); auto.
    + nia.
    + fold n. nia.
    + fold n. intros i Hir. destruct (dm j i n Hir) as [E1 E2].
      unfold spec. fold n. rewrite E1, E2. repeat split; lia.
    + fold n. intros s' HA'. replace ((j + 1) * n) with (j * n + n) by lia. exact HA'.
  - intros s HA. cbn [wp]. split; [|replace (n * m) with (m * n) by lia; apply (App_Frame _ _ _ _ HA)].
    intros i j ti tj d Hti Htj Hd. fold n.
    assert (Hi' : (i < length (cart_list (i_l e)))%nat) by (apply nth_error_Some; congruence).
    assert (Hj' : (j < length (cart_list (j_l e)))%nat) by (apply nth_error_Some; congruence).
    assert (Hiz : 0 <= Z.of_nat i < n) by (unfold n; lia).
    assert (Hjz : 0 <= Z.of_nat j < m) by (unfold m; lia).
    rewrite (App_rd idx spec _ s _ d HA); [|split; [nia|apply radix_lt; auto]|lia|exact Hd].
    unfold spec, cell. fold n. destruct (dm (Z.of_nat j) (Z.of_nat i) n Hiz) as [-> ->].
    rewrite (expo_nth _ _ _ d Hti), (expo_nth _ _ _ d Htj). f_equal. lia.
Qed.

(** *** Four-index table *)
Ltac evexpo := repeat match goal with
  | H : context[expo ?a ?b ?c] |- _ =>
      let v := eval vm_compute in (expo a b c) in change (expo a b c) with v in H end.

Lemma i_case_ok a0 spec li ic (bx bY bz di m : Z) s (Q : ist -> Prop) :
  0 <= li <= 15 ->
  compsP li ic -> 0 <= m -> 3 * (m + ncart li) <= asize a0 -> App a0 spec m s ->
  (forall i, 0 <= i < ncart li ->
     spec (m + i) 0 = bx + di * expo li i 0 /\ spec (m + i) 1 = bY + di * expo li i 1 /\
     spec (m + i) 2 = bz + di * expo li i 2) ->
  (forall s', App a0 spec (m + ncart li) s' -> Q s') ->
  wp (match li with
      | 0 => put3 bx bY bz s
      | 1 => s <- put3 (bx + di) bY bz s ;;
             s <- put3 bx (bY + di) bz s ;;
             put3 bx bY (bz + di) s
      | 2 => s <- put3 (bx + di * 2) bY bz s ;;
             s <- put3 (bx + di) (bY + di) bz s ;;
             s <- put3 (bx + di) bY (bz + di) s ;;
             s <- put3 bx (bY + di * 2) bz s ;;
             s <- put3 bx (bY + di) (bz + di) s ;;
             put3 bx bY (bz + di * 2) s
      | _ => for_ 0 (ncart li) (fun i s =>
               ix <- rd (c_nx ic) i ;; iy <- rd (c_ny ic) i ;; iz <- rd (c_nz ic) i ;;
               put3 (bx + di * ix) (bY + di * iy) (bz + di * iz) s) s
      end) Q.
Proof.
  intros Hli Hc Hm Hs HA Hsp HQ.
  assert (Hgen := fun Q' => row_ok a0 spec li ic bx bY bz di m s Q' Hc Hm Hs HA Hsp).
  destruct li as [|p|p]; [| |lia].
  - change (ncart 0) with 1 in *. pose proof (Hsp 0 ltac:(lia)) as (E0 & E1 & E2).
    rewrite Z.add_0_r in *. evexpo.
    apply put3_ok with (a0 := a0) (spec := spec) (m := m); auto; lia.
  - destruct p as [p|p|]; [apply Hgen, HQ| |].
    + destruct p as [p|p|]; [apply Hgen, HQ|apply Hgen, HQ|].
      clear Hgen. change (ncart 2) with 6 in *.
      pose proof (Hsp 0 ltac:(lia)) as (A0 & A1 & A2). pose proof (Hsp 1 ltac:(lia)) as (B0 & B1 & B2).
      pose proof (Hsp 2 ltac:(lia)) as (C0 & C1 & C2). pose proof (Hsp 3 ltac:(lia)) as (D0 & D1 & D2).
      pose proof (Hsp 4 ltac:(lia)) as (F0 & F1 & F2). pose proof (Hsp 5 ltac:(lia)) as (G0 & G1 & G2).
      rewrite Z.add_0_r in A0, A1, A2.
      clear Hsp; evexpo.
      apply wp_bind, put3_ok with (a0 := a0) (spec := spec) (m := m); auto; try lia. intros s1 H1.
      apply wp_bind, put3_ok with (a0 := a0) (spec := spec) (m := m + 1); auto; try lia. intros s2 H2.
      replace (m + 1 + 1) with (m + 2) in H2 by lia.
      apply wp_bind, put3_ok with (a0 := a0) (spec := spec) (m := m + 2); auto; try lia. intros s3 H3.
      replace (m + 2 + 1) with (m + 3) in H3 by lia.
      apply wp_bind, put3_ok with (a0 := a0) (spec := spec) (m := m + 3); auto; try lia. intros s4 H4.
      replace (m + 3 + 1) with (m + 4) in H4 by lia.
      apply wp_bind, put3_ok with (a0 := a0) (spec := spec) (m := m + 4); auto; try lia. intros s5 H5.
      replace (m + 4 + 1) with (m + 5) in H5 by lia.
      apply put3_ok with (a0 := a0) (spec := spec) (m := m + 5); auto; try lia. intros s6 H6.
      replace (m + 5 + 1) with (m + 6) in H6 by lia. apply HQ, H6.
    + clear Hgen. change (ncart 1) with 3 in *.
      pose proof (Hsp 0 ltac:(lia)) as (A0 & A1 & A2). pose proof (Hsp 1 ltac:(lia)) as (B0 & B1 & B2).
      pose proof (Hsp 2 ltac:(lia)) as (C0 & C1 & C2). rewrite Z.add_0_r in A0, A1, A2.
      clear Hsp; evexpo.
      apply wp_bind, put3_ok with (a0 := a0) (spec := spec) (m := m); auto; try lia. intros s1 H1.
      apply wp_bind, put3_ok with (a0 := a0) (spec := spec) (m := m + 1); auto; try lia. intros s2 H2.
      replace (m + 1 + 1) with (m + 2) in H2 by lia.
      apply put3_ok with (a0 := a0) (spec := spec) (m := m + 2); auto; try lia. intros s3 H3.
      replace (m + 2 + 1) with (m + 3) in H3 by lia. apply HQ, H3.
Qed.

Lemma index4_ok e idx :
  0 <= i_l e <= 15 -> 0 <= j_l e <= 15 -> 0 <= k_l e <= 15 -> 0 <= l_l e <= 15 ->
  nfi e = CINTlen_cart (i_l e) -> nfj e = CINTlen_cart (j_l e) ->
  nfk e = CINTlen_cart (k_l e) -> nfl e = CINTlen_cart (l_l e) ->
  3 * (nfi e * nfk e * nfl e * nfj e) <= asize idx ->
  exists idx', CINTg2e_index_xyz e idx = Some idx' /\
    table4 idx' (i_l e) (j_l e) (k_l e) (l_l e) (g_size e)
           (g_stride_i e) (g_stride_j e) (g_stride_k e) (g_stride_l e) /\
    Frame (fun x => 0 <= x < 3 * (nfi e * nfk e * nfl e * nfj e)) idx idx'.
Proof.
  intros Hi Hj Hk Hl Ei Ej Ek El Hs. apply wp_exists.
  rewrite <- ncart_len in Ei, Ej, Ek, El by lia.
  unfold CINTg2e_index_xyz.
  apply wp_bind, comps_ok; [exact Hi|]. intros ic Hic.
  apply wp_bind, comps_ok; [exact Hj|]. intros jc Hjc.
  apply wp_bind, comps_ok; [exact Hk|]. intros kc Hkc.
  apply wp_bind, comps_ok; [exact Hl|]. intros lc Hlc.
  rewrite Ei, Ej, Ek, El in *.
  set (ni := ncart (i_l e)) in *. set (nj := ncart (j_l e)) in *.
  set (nk := ncart (k_l e)) in *. set (nl := ncart (l_l e)) in *.
  set (spec := fun p d => d * g_size e + g_stride_j e * expo (j_l e) (p / ni / nk / nl) d
      + g_stride_l e * expo (l_l e) ((p / ni / nk) mod nl) d
      + g_stride_k e * expo (k_l e) ((p / ni) mod nk) d
      + g_stride_i e * expo (i_l e) (p mod ni) d).
  assert (Hspec : forall i j k l d, 0 <= i < ni -> 0 <= k < nk -> 0 <= l < nl ->
     spec (((j * nl + l) * nk + k) * ni + i) d = d * g_size e + g_stride_j e * expo (j_l e) j d
       + g_stride_l e * expo (l_l e) l d + g_stride_k e * expo (k_l e) k d
       + g_stride_i e * expo (i_l e) i d).
  { intros i j k l d Hi' Hk' Hl'. unfold spec.
    destruct (dm ((j * nl + l) * nk + k) i ni Hi') as [-> ->].
    destruct (dm (j * nl + l) k nk Hk') as [-> ->].
    destruct (dm j l nl Hl') as [-> ->]. reflexivity. }
  assert (Hni : 0 <= ni) by (unfold ni; lia). assert (Hnj : 0 <= nj) by (unfold nj; lia).
  assert (Hnk : 0 <= nk) by (unfold nk; lia). assert (Hnl : 0 <= nl) by (unfold nl; lia).
  apply wp_bind, wp_for with (I := fun j s => App idx spec (j * nl * nk * ni) s).
  - exact Hnj.
  - apply App_init.
  - intros j s Hjr HA.
    apply wp_for with (I := fun l s => App idx spec ((j * nl + l) * nk * ni) s); [exact Hnl| | |].
    { rewrite Z.add_0_r. exact HA. }
    2:{ intros s' H'. replace ((j + 1) * nl) with (j * nl + nl) by lia. exact H'. }
    clear s HA. intros l s Hlr HA.
    destruct (Hjc j Hjr) as (-> & -> & ->). destruct (Hlc l Hlr) as (-> & -> & ->). cbn [bind].
    apply wp_for with (I := fun k s => App idx spec (((j * nl + l) * nk + k) * ni) s); [exact Hnk| | |].
    { rewrite Z.add_0_r. exact HA. }
    2:{ intros s' H'. replace ((j * nl + (l + 1)) * nk) with ((j * nl + l) * nk + nk) by lia. exact H'. }
    clear s HA. intros k s Hkr HA.
    destruct (Hkc k Hkr) as (-> & -> & ->). cbn [bind].
    assert (Hb1 : j * nl + l + 1 <= nj * nl) by nia.
    assert (Hb2 : (j * nl + l) * nk + k + 1 <= nj * nl * nk) by nia.
    assert (Hb3 : ((j * nl + l) * nk + k + 1) * ni <= nj * nl * nk * ni) by nia.
    apply i_case_ok with (a0 := idx) (spec := spec) (m := ((j * nl + l) * nk + k) * ni); auto.
    + nia.
    + fold ni. lia.
    + fold ni. intros i Hir. rewrite !Hspec by assumption. repeat split; lia.
    + fold ni. intros s' H'. replace (((j * nl + l) * nk + (k + 1)) * ni)
        with (((j * nl + l) * nk + k) * ni + ni) by lia. exact H'.
  - intros s HA. cbn [wp].
    split; [|replace (ni * nk * nl * nj) with (nj * nl * nk * ni) by lia; apply (App_Frame _ _ _ _ HA)].
    intros i j k l ti tj tk tl d Hti Htj Htk Htl Hd. fold ni nk nl.
    assert (Hiz : 0 <= Z.of_nat i < ni)
      by (assert ((i < length (cart_list (i_l e)))%nat) by (apply nth_error_Some; congruence); unfold ni; lia).
    assert (Hjz : 0 <= Z.of_nat j < nj)
      by (assert ((j < length (cart_list (j_l e)))%nat) by (apply nth_error_Some; congruence); unfold nj; lia).
    assert (Hkz : 0 <= Z.of_nat k < nk)
      by (assert ((k < length (cart_list (k_l e)))%nat) by (apply nth_error_Some; congruence); unfold nk; lia).
    assert (Hlz : 0 <= Z.of_nat l < nl)
      by (assert ((l < length (cart_list (l_l e)))%nat) by (apply nth_error_Some; congruence); unfold nl; lia).
    set (I := Z.of_nat i) in *. set (J := Z.of_nat j) in *. set (K := Z.of_nat k) in *. set (L := Z.of_nat l) in *.
    assert (Hb1 : 0 <= J * nl + L < nj * nl) by (split; [nia|apply radix_lt; auto]).
    assert (Hb2 : 0 <= (J * nl + L) * nk + K < nj * nl * nk) by (split; [nia|apply radix_lt; auto]).
    rewrite (App_rd idx spec _ s _ d HA); [|split; [nia|apply radix_lt; auto]|lia|exact Hd].
    rewrite Hspec by assumption. unfold cell, I, J, K, L.
    rewrite (expo_nth _ _ _ d Hti), (expo_nth _ _ _ d Htj), (expo_nth _ _ _ d Htk), (expo_nth _ _ _ d Htl).
    f_equal. lia.
Qed.

(** *** Three-index table *)
Lemma index3_ok e idx :
  0 <= i_l e <= 15 -> 0 <= j_l e <= 15 -> 0 <= k_l e <= 15 ->
  nfi e = CINTlen_cart (i_l e) -> nfj e = CINTlen_cart (j_l e) -> nfk e = CINTlen_cart (k_l e) ->
  3 * (nfi e * nfj e * nfk e) <= asize idx ->
  exists idx', CINTg3c1e_index_xyz e idx = Some idx' /\
    table3 idx' (i_l e) (j_l e) (k_l e) (g_size e) 1 (g_stride_j e) (g_stride_k e) /\
    Frame (fun x => 0 <= x < 3 * (nfi e * nfj e * nfk e)) idx idx'.
Proof.
  intros Hi Hj Hk Ei Ej Ek Hs. apply wp_exists.
  rewrite <- ncart_len in Ei, Ej, Ek by lia.
  unfold CINTg3c1e_index_xyz.
  apply wp_bind, comps_ok; [exact Hi|]. intros ic Hic.
  apply wp_bind, comps_ok; [exact Hj|]. intros jc Hjc.
  apply wp_bind, comps_ok; [exact Hk|]. intros kc Hkc.
  rewrite Ei, Ej, Ek in *.
  set (ni := ncart (i_l e)) in *. set (nj := ncart (j_l e)) in *. set (nk := ncart (k_l e)) in *.
  set (spec := fun p d => d * g_size e + g_stride_k e * expo (k_l e) (p / ni / nj) d
      + g_stride_j e * expo (j_l e) ((p / ni) mod nj) d + 1 * expo (i_l e) (p mod ni) d).
  assert (Hspec : forall i j k d, 0 <= i < ni -> 0 <= j < nj ->
     spec ((k * nj + j) * ni + i) d = d * g_size e + g_stride_k e * expo (k_l e) k d
       + g_stride_j e * expo (j_l e) j d + 1 * expo (i_l e) i d).
  { intros i j k d Hi' Hj'. unfold spec.
    destruct (dm (k * nj + j) i ni Hi') as [-> ->]. destruct (dm k j nj Hj') as [-> ->]. reflexivity. }
  assert (Hni : 0 <= ni) by (unfold ni; lia). assert (Hnj : 0 <= nj) by (unfold nj; lia).
  assert (Hnk : 0 <= nk) by (unfold nk; lia).
  apply wp_bind, wp_for with (I := fun k s => App idx spec (k * nj * ni) s).
  - exact Hnk.
  - apply App_init.
  - intros k s Hkr HA. destruct (Hkc k Hkr) as (-> & -> & ->). cbn [bind].
    apply wp_for with (I := fun j s => App idx spec ((k * nj + j) * ni) s); [exact Hnj| | |].
    { rewrite Z.add_0_r. exact HA. }
    2:{ intros s' H'. replace ((k + 1) * nj) with (k * nj + nj) by lia. exact H'. }
    clear s HA. intros j s Hjr HA.
    destruct (Hjc j Hjr) as (-> & -> & ->). cbn [bind].
    assert (Hb1 : k * nj + j + 1 <= nk * nj) by nia.
    assert (Hb3 : (k * nj + j + 1) * ni <= nk * nj * ni) by nia.
    apply wp_for with (I := fun i s => App idx spec ((k * nj + j) * ni + i) s); [exact Hni| | |].
    { rewrite Z.add_0_r. exact HA. }
    2:{ intros s' H'. replace ((k * nj + (j + 1)) * ni) with ((k * nj + j) * ni + ni) by lia. exact H'. }
    clear s HA. intros i s Hir HA.
    destruct (Hic i Hir) as (-> & -> & ->). cbn [bind].
    apply put3_ok with (a0 := idx) (spec := spec) (m := (k * nj + j) * ni + i); auto; try nia.
    + rewrite Hspec by assumption. lia.
    + rewrite Hspec by assumption. lia.
    + rewrite Hspec by assumption. lia.
    + intros s' H'. rewrite Z.add_assoc. exact H'.
  - intros s HA. cbn [wp].
    split; [|replace (ni * nj * nk) with (nk * nj * ni) by lia; apply (App_Frame _ _ _ _ HA)].
    intros i j k ti tj tk d Hti Htj Htk Hd. fold ni nj.
    assert (Hiz : 0 <= Z.of_nat i < ni)
      by (assert ((i < length (cart_list (i_l e)))%nat) by (apply nth_error_Some; congruence); unfold ni; lia).
    assert (Hjz : 0 <= Z.of_nat j < nj)
      by (assert ((j < length (cart_list (j_l e)))%nat) by (apply nth_error_Some; congruence); unfold nj; lia).
    assert (Hkz : 0 <= Z.of_nat k < nk)
      by (assert ((k < length (cart_list (k_l e)))%nat) by (apply nth_error_Some; congruence); unfold nk; lia).
    set (I := Z.of_nat i) in *. set (J := Z.of_nat j) in *. set (K := Z.of_nat k) in *.
    assert (Hb1 : 0 <= K * nj + J < nk * nj) by (split; [nia|apply radix_lt; auto]).
    rewrite (App_rd idx spec _ s _ d HA); [|split; [nia|apply radix_lt; auto]|lia|exact Hd].
    rewrite Hspec by assumption. unfold cell, I, J, K.
    rewrite (expo_nth _ _ _ d Hti), (expo_nth _ _ _ d Htj), (expo_nth _ _ _ d Htk). f_equal. lia.
Qed.

(** *** Layouts *)
Lemma rad_bound nr n r i : 0 <= r < nr -> 0 <= i < n -> 0 <= r + nr * i < nr * n.
Proof. nia. Qed.
Lemma rad_inj nr r i r' i' : 0 <= r < nr -> 0 <= r' < nr -> r + nr * i = r' + nr * i' -> r = r' /\ i = i'.
Proof. intros. assert (i = i') by nia. nia. Qed.

(** Nested mixed-radix layout (root, i, k, l, j, direction). *)
Lemma layout_radix nr ni nk nl nj im jm km lm :
  im < ni -> jm < nj -> km < nk -> lm < nl ->
  layout_ok (nr * ni * nk * nl * nj) nr (nr * ni * nk * nl) (nr * ni) (nr * ni * nk) nr im jm km lm.
Proof.
  intros Hi Hj Hk Hl.
  assert (E : forall d r i j k l, cell (nr * ni * nk * nl * nj) nr (nr * ni * nk * nl) (nr * ni) (nr * ni * nk) d r i j k l
     = ((((r + nr * i) + (nr * ni) * k) + (nr * ni * nk) * l) + (nr * ni * nk * nl) * j) + (nr * ni * nk * nl * nj) * d).
  { intros. unfold cell. lia. }
  assert (B : forall r i j k l, 0 <= r < nr -> 0 <= i <= im -> 0 <= j <= jm -> 0 <= k <= km -> 0 <= l <= lm ->
     0 <= r + nr * i < nr * ni /\ 0 <= r + nr * i + nr * ni * k < nr * ni * nk /\
     0 <= r + nr * i + nr * ni * k + nr * ni * nk * l < nr * ni * nk * nl /\
     0 <= r + nr * i + nr * ni * k + nr * ni * nk * l + nr * ni * nk * nl * j < nr * ni * nk * nl * nj).
  { intros r i j k l Hr Hi' Hj' Hk' Hl'.
    pose proof (rad_bound nr ni r i Hr ltac:(lia)) as B1.
    pose proof (rad_bound (nr * ni) nk _ k B1 ltac:(lia)) as B2.
    pose proof (rad_bound (nr * ni * nk) nl _ l B2 ltac:(lia)) as B3.
    pose proof (rad_bound (nr * ni * nk * nl) nj _ j B3 ltac:(lia)) as B4. auto. }
  split.
  - intros d r i j k l Hd Hr Hi' Hj' Hk' Hl'. rewrite E.
    destruct (B r i j k l Hr Hi' Hj' Hk' Hl') as (_ & _ & _ & B4). lia.
  - intros d r i j k l d' r' i' j' k' l' Hd Hr Hi1 Hj1 Hk1 Hl1 Hd' Hr' Hi2 Hj2 Hk2 Hl2. rewrite !E. intros H.
    destruct (B r i j k l Hr Hi1 Hj1 Hk1 Hl1) as (B1 & B2 & B3 & B4).
    destruct (B r' i' j' k' l' Hr' Hi2 Hj2 Hk2 Hl2) as (B1' & B2' & B3' & B4').
    apply rad_inj in H; [|assumption|assumption]. destruct H as [H ->].
    apply rad_inj in H; [|assumption|assumption]. destruct H as [H ->].
    apply rad_inj in H; [|assumption|assumption]. destruct H as [H ->].
    apply rad_inj in H; [|assumption|assumption]. destruct H as [H ->].
    apply rad_inj in H; [|assumption|assumption]. destruct H as [H ->]. auto 7.
Qed.

(** Enlarging the array or dropping unused indices keeps a layout sound. *)
Lemma layout_mono gs gs' si sj sk sl nr im jm km lm :
  gs <= gs' -> 0 < nr -> 0 <= im -> 0 <= jm -> 0 <= km -> 0 <= lm ->
  layout_ok gs si sj sk sl nr im jm km lm ->
  layout_ok gs' si sj sk sl nr im jm km lm.
Proof.
  intros Hg Hnr0 Hi0 Hj0 Hk0 Hl0 [H1 H2].
  assert (E : forall d r i j k l, cell gs' si sj sk sl d r i j k l = cell gs si sj sk sl 0 r i j k l + d * gs')
    by (intros; unfold cell; lia).
  assert (B : forall r i j k l, 0 <= r < nr -> 0 <= i <= im -> 0 <= j <= jm -> 0 <= k <= km -> 0 <= l <= lm ->
     0 <= cell gs si sj sk sl 0 r i j k l < gs').
  { intros r i j k l Hr Hi Hj Hk Hl. pose proof (H1 0 r i j k l ltac:(lia) Hr Hi Hj Hk Hl). lia. }
  split.
  - intros d r i j k l Hd Hr Hi Hj Hk Hl. rewrite E. pose proof (B r i j k l Hr Hi Hj Hk Hl). lia.
  - intros d r i j k l d' r' i' j' k' l' Hd Hr Hi1 Hj1 Hk1 Hl1 Hd' Hr' Hi2 Hj2 Hk2 Hl2. rewrite !E. intros H.
    pose proof (B r i j k l Hr Hi1 Hj1 Hk1 Hl1). pose proof (B r' i' j' k' l' Hr' Hi2 Hj2 Hk2 Hl2).
    assert (d = d') by nia. subst d'.
    specialize (H2 0 r i j k l 0 r' i' j' k' l' ltac:(lia) Hr Hi1 Hj1 Hk1 Hl1 ltac:(lia) Hr' Hi2 Hj2 Hk2 Hl2 ltac:(lia)).
    destruct H2 as (_ & H2). auto.
Qed.

Lemma layout_cell gs si sj sk sl si' sj' sk' sl' nr im jm km lm :
  (forall d r i j k l, 0 <= i <= im -> 0 <= j <= jm -> 0 <= k <= km -> 0 <= l <= lm ->
     cell gs si sj sk sl d r i j k l = cell gs si' sj' sk' sl' d r i j k l) ->
  layout_ok gs si sj sk sl nr im jm km lm -> layout_ok gs si' sj' sk' sl' nr im jm km lm.
Proof.
  intros E [H1 H2]. split.
  - intros. rewrite <- E by assumption. apply H1; assumption.
  - intros d r i j k l d' r' i' j' k' l' Hd Hr Hi1 Hj1 Hk1 Hl1 Hd' Hr' Hi2 Hj2 Hk2 Hl2.
    rewrite <- !E by assumption. apply H2; assumption.
Qed.

(** *** Packaged statements, per initialiser *)
Definition ng_ok (ng : ngT) : Prop :=
  0 <= IINC ng /\ 0 <= JINC ng /\ 0 <= KINC ng /\ 0 <= LINC ng /\ 0 <= POS_E2 ng.

Lemma quot2_nonneg a : 0 <= a -> 0 <= Z.quot a 2.
Proof. intros. apply Z.quot_pos; lia. Qed.

Lemma sr_roots_pos b o : 0 < o -> 0 < sr_roots b o.
Proof. intros. unfold sr_roots. destruct (b && (o <=? 3)); lia. Qed.

Lemma len_cart0 : CINTlen_cart 0 = 1. Proof. reflexivity. Qed.

Lemma idx_int1e ng li lj ci cj (idx : arr Z) :
  ng_ok ng -> 0 <= li <= 15 -> 0 <= lj <= 15 ->
  let e := init_int1e ng li lj ci cj in
  3 * nf e <= asize idx ->
  exists idx', CINTg1e_index_xyz e idx = Some idx' /\
    table2 idx' li lj (g_size e) (g_stride_i e) (g_stride_j e) /\
    Frame (fun x => 0 <= x < 3 * nf e) idx idx' /\
    layout_ok (g_size e) (g_stride_i e) (g_stride_j e) 0 0 (nrys_roots e)
              (li + IINC ng) (lj + JINC ng) 0 0.
Proof.
  intros (HI & HJ & HK & HL & HR) Hli Hlj e Hs.
  destruct (index2_ok e idx) as (idx' & H1 & H2 & H3); [exact Hli|exact Hlj|reflexivity|reflexivity|exact Hs|].
  exists idx'. split; [exact H1|]. split; [exact H2|]. split; [exact H3|].
  unfold e, init_int1e. cbn [g_size g_stride_i g_stride_j nrys_roots].
  set (nr := if 0 <? POS_E2 ng then _ else _).
  set (dli := if _ >? _ then _ else _). set (dlj := if _ >? _ then _ else _).
  apply layout_cell with (si := nr) (sj := nr * dli * 1 * 1) (sk := nr * dli) (sl := nr * dli * 1).
  { intros. unfold cell. assert (k = 0) by lia. assert (l = 0) by lia. subst. lia. }
  replace (nr * dli * dlj) with (nr * dli * 1 * 1 * dlj) by lia.
  apply layout_radix; unfold dli, dlj; destruct (_ >? _); lia.
Qed.

Lemma idx_int1e_grids om ng li lj ci cj (idx : arr Z) :
  ng_ok ng -> 0 <= li <= 15 -> 0 <= lj <= 15 ->
  let e := init_int1e_grids om ng li lj ci cj in
  3 * nf e <= asize idx ->
  exists idx', CINTg1e_index_xyz e idx = Some idx' /\
    table2 idx' li lj (g_size e) (g_stride_i e) (g_stride_j e) /\
    Frame (fun x => 0 <= x < 3 * nf e) idx idx' /\
    layout_ok (g_size e) (g_stride_i e) (g_stride_j e) 0 0 (104 * nrys_roots e)
              (li + IINC ng) (lj + JINC ng) 0 0.
Proof.
  intros (HI & HJ & HK & HL & HR) Hli Hlj e Hs.
  destruct (index2_ok e idx) as (idx' & H1 & H2 & H3); [exact Hli|exact Hlj|reflexivity|reflexivity|exact Hs|].
  exists idx'. split; [exact H1|]. split; [exact H2|]. split; [exact H3|].
  unfold e, init_int1e_grids, init_int1e. cbn [g_size g_stride_i g_stride_j nrys_roots li_ceil lj_ceil].
  unfold GRID_BLKSIZE. set (nr := 104 * sr_roots _ _).
  set (dli := if _ >? _ then _ else _). set (dlj := if _ >? _ then _ else _).
  apply layout_cell with (si := nr) (sj := nr * dli * 1 * 1) (sk := nr * dli) (sl := nr * dli * 1).
  { intros. unfold cell. assert (k = 0) by lia. assert (l = 0) by lia. subst. lia. }
  replace (nr * dli * dlj) with (nr * dli * 1 * 1 * dlj) by lia.
  apply layout_radix; unfold dli, dlj; destruct (_ >? _); lia.
Qed.

Lemma idx_int2c2e om ng li lk ci ck (idx : arr Z) :
  ng_ok ng -> 0 <= li <= 15 -> 0 <= lk <= 15 ->
  let e := init_int2c2e om ng li lk ci ck in
  3 * nf e <= asize idx ->
  exists idx', CINTg1e_index_xyz e idx = Some idx' /\
    table2 idx' li lk (g_size e) (g_stride_i e) (g_stride_k e) /\
    Frame (fun x => 0 <= x < 3 * nf e) idx idx' /\
    layout_ok (g_size e) (g_stride_i e) (g_stride_k e) 0 0 (nrys_roots e)
              (li + IINC ng) (lk + KINC ng) 0 0.
Proof.
  intros (HI & HJ & HK & HL & HR) Hli Hlk e Hs.
  destruct (index2_ok e idx) as (idx' & H1 & H2 & H3); [exact Hli|exact Hlk|reflexivity|reflexivity|exact Hs|].
  exists idx'. split; [exact H1|]. split; [exact H2|]. split; [exact H3|].
  unfold e, init_int2c2e. cbn [g_size g_stride_i g_stride_k nrys_roots].
  set (nr := sr_roots _ _). set (dli := li + IINC ng + 1). set (dlk := lk + KINC ng + 1).
  apply layout_cell with (si := nr) (sj := nr * dli * 1 * 1) (sk := nr * dli) (sl := nr * dli * 1).
  { intros. unfold cell. assert (k = 0) by lia. assert (l = 0) by lia. subst. lia. }
  replace (nr * dli * dlk) with (nr * dli * 1 * 1 * dlk) by lia.
  apply layout_radix; unfold dli, dlk; lia.
Qed.

Lemma idx_4c nroots order ng li lj lk ll ci cj ck cl (idx : arr Z) :
  ng_ok ng -> 0 <= li <= 15 -> 0 <= lj <= 15 -> 0 <= lk <= 15 -> 0 <= ll <= 15 ->
  let e := init_4c nroots order ng li lj lk ll ci cj ck cl in
  3 * nf e <= asize idx ->
  exists idx', CINTg2e_index_xyz e idx = Some idx' /\
    table4 idx' li lj lk ll (g_size e) (g_stride_i e) (g_stride_j e) (g_stride_k e) (g_stride_l e) /\
    Frame (fun x => 0 <= x < 3 * nf e) idx idx' /\
    layout_ok (g_size e) (g_stride_i e) (g_stride_j e) (g_stride_k e) (g_stride_l e) (nrys_roots e)
              (li + IINC ng) (lj + JINC ng) (lk + KINC ng) (ll + LINC ng).
Proof.
  intros (HI & HJ & HK & HL & HR) Hli Hlj Hlk Hll e Hs.
  destruct (index4_ok e idx) as (idx' & H1 & H2 & H3);
    [exact Hli|exact Hlj|exact Hlk|exact Hll|reflexivity|reflexivity|reflexivity|reflexivity|exact Hs|].
  exists idx'. split; [exact H1|]. split; [exact H2|]. split; [exact H3|].
  unfold e, init_4c. cbn [g_size g_stride_i g_stride_j g_stride_k g_stride_l nrys_roots].
  destruct (li + IINC ng >? lj + JINC ng), (lk + KINC ng >? ll + LINC ng); apply layout_radix; lia.
Qed.

Lemma idx_int3c2e om ng li lj lk ci cj ck (idx : arr Z) :
  ng_ok ng -> 0 <= li <= 15 -> 0 <= lj <= 15 -> 0 <= lk <= 15 ->
  let e := init_int3c2e om ng li lj lk ci cj ck in
  3 * nf e <= asize idx ->
  exists idx', CINTg2e_index_xyz e idx = Some idx' /\
    table4 idx' li lj lk 0 (g_size e) (g_stride_i e) (g_stride_j e) (g_stride_k e) (g_stride_l e) /\
    Frame (fun x => 0 <= x < 3 * nf e) idx idx' /\
    layout_ok (g_size e) (g_stride_i e) (g_stride_j e) (g_stride_k e) (g_stride_l e) (nrys_roots e)
              (li + IINC ng) (lj + JINC ng) (lk + KINC ng) 0.
Proof.
  intros (HI & HJ & HK & HL & HR) Hli Hlj Hlk e Hs.
  assert (En : nf e = nfi e * nfk e * nfl e * nfj e).
  { unfold e, init_int3c2e. cbn [nf nfi nfk nfl nfj]. lia. }
  rewrite En in *.
  destruct (index4_ok e idx) as (idx' & H1 & H2 & H3);
    [exact Hli|exact Hlj|exact Hlk|cbn; lia|reflexivity|reflexivity|reflexivity|reflexivity|exact Hs|].
  exists idx'. split; [exact H1|]. split; [exact H2|]. split; [exact H3|].
  unfold e, init_int3c2e. cbn [g_size g_stride_i g_stride_j g_stride_k g_stride_l nrys_roots].
  set (nr := sr_roots _ _).
  set (dli := if _ >? _ then _ else _). set (dlj := if _ >? _ then _ else _). set (dlk := lk + KINC ng + 1).
  apply layout_cell with (si := nr) (sj := nr * dli * dlk * 1) (sk := nr * dli) (sl := nr * dli * dlk).
  { intros. unfold cell. assert (l = 0) by lia. subst. lia. }
  replace (nr * dli * dlk * dlj) with (nr * dli * dlk * 1 * dlj) by lia.
  apply layout_radix; unfold dli, dlj, dlk; try destruct (_ >? _); lia.
Qed.

Lemma layout_3c1e ng li lj lk ci cj ck :
  ng_ok ng -> 0 <= li -> 0 <= lj -> 0 <= lk ->
  let e := init_int3c1e ng li lj lk ci cj ck in
  layout_ok (g_size e) 1 (g_stride_j e) (g_stride_k e) (g_stride_l e) 1
              (li + IINC ng) (lj + JINC ng) (lk + KINC ng) 0.
Proof.
  intros (HI & HJ & HK & HL & HR) Hli Hlj Hlk e.
  unfold e, init_int3c1e. cbn [g_size g_stride_j g_stride_k g_stride_l].
  set (dli := li + IINC ng + 1). set (dlj := lj + JINC ng + (lk + KINC ng) + 1). set (dlk := lk + KINC ng + 1).
  apply layout_mono with (gs := dli * dlj * dlk); try lia.
  (* roles: j is the second index, k the third *)
  pose proof (layout_radix 1 dli dlj 1 dlk (li + IINC ng) (lk + KINC ng) (lj + JINC ng) 0) as H.
  destruct H as [H1 H2]; [unfold dli; lia|unfold dlk; lia|unfold dlj; lia|lia|].
  assert (E : forall d r i j k l, l = 0 -> cell (dli * dlj * dlk) 1 dli (dli * dlj) (dli * dlj) d r i j k l =
    cell (1 * dli * dlj * 1 * dlk) 1 (1 * dli * dlj * 1) (1 * dli) (1 * dli * dlj) d r i k j 0).
  { intros. subst. unfold cell. lia. }
  replace (1 * dli * dlj * 1 * dlk) with (dli * dlj * dlk) in * by lia.
  split.
  - intros d r i j k l Hd Hr Hi Hj Hk Hl. rewrite E by lia. apply H1; lia.
  - intros d r i j k l d' r' i' j' k' l' Hd Hr Hi Hj Hk Hl Hd' Hr' Hi' Hj' Hk' Hl'.
    rewrite !E by lia. intros HE. apply H2 in HE; lia.
Qed.

Lemma idx_int3c1e_2e ng li lj lk ci cj ck (idx : arr Z) :
  ng_ok ng -> 0 <= li <= 15 -> 0 <= lj <= 15 -> 0 <= lk <= 15 ->
  let e := init_int3c1e ng li lj lk ci cj ck in
  3 * nf e <= asize idx ->
  exists idx', CINTg2e_index_xyz e idx = Some idx' /\
    table4 idx' li lj lk 0 (g_size e) 1 (g_stride_j e) (g_stride_k e) (g_stride_l e) /\
    Frame (fun x => 0 <= x < 3 * nf e) idx idx' /\
    layout_ok (g_size e) 1 (g_stride_j e) (g_stride_k e) (g_stride_l e) 1
              (li + IINC ng) (lj + JINC ng) (lk + KINC ng) 0.
Proof.
  intros Hng Hli Hlj Hlk e Hs.
  assert (En : nf e = nfi e * nfk e * nfl e * nfj e).
  { unfold e, init_int3c1e. cbn [nf nfi nfk nfl nfj]. lia. }
  rewrite En in *.
  destruct (index4_ok e idx) as (idx' & H1 & H2 & H3);
    [exact Hli|exact Hlj|exact Hlk|cbn; lia|reflexivity|reflexivity|reflexivity|reflexivity|exact Hs|].
  exists idx'. split; [exact H1|]. split; [exact H2|]. split; [exact H3|].
  apply layout_3c1e; auto; lia.
Qed.

Lemma idx_int3c1e ng li lj lk ci cj ck (idx : arr Z) :
  ng_ok ng -> 0 <= li <= 15 -> 0 <= lj <= 15 -> 0 <= lk <= 15 ->
  let e := init_int3c1e ng li lj lk ci cj ck in
  3 * nf e <= asize idx ->
  exists idx', CINTg3c1e_index_xyz e idx = Some idx' /\
    table3 idx' li lj lk (g_size e) 1 (g_stride_j e) (g_stride_k e) /\
    Frame (fun x => 0 <= x < 3 * nf e) idx idx' /\
    layout_ok (g_size e) 1 (g_stride_j e) (g_stride_k e) (g_stride_l e) 1
              (li + IINC ng) (lj + JINC ng) (lk + KINC ng) 0.
Proof.
  intros Hng Hli Hlj Hlk e Hs.
  destruct (index3_ok e idx) as (idx' & H1 & H2 & H3);
    [exact Hli|exact Hlj|exact Hlk|reflexivity|reflexivity|reflexivity|exact Hs|].
  exists idx'. split; [exact H1|]. split; [exact H2|]. split; [exact H3|].
  apply layout_3c1e; auto; lia.
Qed.

(** l = 16 overruns the CART_MAX-sized component arrays. *)
Lemma idx_l16 : comps 16 = None.
Proof. vm_compute. reflexivity. Qed.

Lemma idx_int1e_l16_refuted :
  CINTg1e_index_xyz (init_int1e (mkng 0 0 0 0 0 1 0 1) 16 0 1 1) (uninit 1000) = None.
Proof. unfold CINTg1e_index_xyz. cbn [i_l init_int1e]. rewrite idx_l16. reflexivity. Qed.

Lemma example_index_int2e :
  exists a, CINTg2e_index_xyz (init_int2e false (mkng 1 0 0 0 1 1 1 3) 2 1 1 0 1 1 1 1) (uninit 162) = Some a /\
    map (rd a) [3; 4; 5] = [Some 48; Some 63; Some 120].
Proof. apply wp_exists. vm_compute. reflexivity. Qed.
