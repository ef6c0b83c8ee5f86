(** GoutProof.v — the primitive batch is the root-summed product. *)
From Verif Require Import Base BasModel BasSpec BasProof EnvModel IdxModel IdxSpec IdxProof GoutModel GoutSpec.

Lemma divmod_radix m q r : 0 <= r < m -> (q * m + r) mod m = r /\ (q * m + r) / m = q.
Proof.
  intros Hr. split.
  - rewrite Z.add_comm, Z.mod_add by lia. apply Z.mod_small, Hr.
  - rewrite Z.add_comm, Z.div_add by lia. rewrite Z.div_small by exact Hr. lia.
Qed.

Lemma wp_bind_inv {A B} (m : option A) (k : A -> option B) Q : wp (bind m k) Q -> wp m (fun x => wp (k x) Q).
Proof. destruct m; exact (fun H => H). Qed.

Section Gout.
  Context {F : Type} (zero : F) (add mul : F -> F -> F).
  Hypothesis add0 : forall x, add zero x = x.

  (** the shape CtrModel.f_gout assumes *)
  Definition gout_loop (empty : bool) (len : Z) (v : Z -> F) (a : arr F) : option (arr F) :=
    for_ 0 len (fun n a => if empty then wr a n (v n) else old <- rd a n ;; wr a n (add old (v n))) a.

  Lemma gout_loop_ok empty len v (a : arr F) : 0 <= len <= asize a ->
    (empty = false -> forall n, 0 <= n < len -> exists o, rd a n = Some o) ->
    wp (gout_loop empty len v a) (fun a' =>
      (forall n, 0 <= n < len -> rd a' n = accum add empty (rd a n) (v n)) /\
      Frame (fun p => 0 <= p < len) a a').
  Proof.
    intros Hl Ho. unfold gout_loop.
    apply wp_for with (I := fun k (a' : arr F) =>
      (forall n, 0 <= n < k -> rd a' n = accum add empty (rd a n) (v n)) /\ Frame (fun p => 0 <= p < k) a a').
    - lia.
    - split; [intros; lia|apply Frame_refl].
    - intros k a' Hk [H1 H2]. pose proof (proj1 H2) as Hsz.
      assert (Hold : rd a' k = rd a k).
      { unfold rd, inb. rewrite Hsz. rewrite (proj2 H2) by lia. reflexivity. }
      assert (Step : forall x, accum add empty (rd a k) (v k) = Some x -> wp (wr a' k x) (fun a'' =>
         (forall n, 0 <= n < k + 1 -> rd a'' n = accum add empty (rd a n) (v n)) /\ Frame (fun p => 0 <= p < k + 1) a a'')).
      { intros x Ex. apply wp_wr; [lia|]. intros a'' Hs'' Hc''. split.
        - intros n Hn. destruct (Z.eq_dec n k) as [->|].
          + rewrite Ex. apply rd_spec. split; [lia|]. rewrite Hc'', Z.eqb_refl. reflexivity.
          + rewrite <- H1 by lia. unfold rd, inb. rewrite Hs'', Hc''.
            replace (n =? k) with false by lia. reflexivity.
        - split; [lia|]. intros p Hp. rewrite Hc''. replace (p =? k) with false by lia. apply (proj2 H2). lia. }
      destruct empty.
      + apply Step. reflexivity.
      + rewrite Hold. destruct (Ho eq_refl k ltac:(lia)) as (o & E). rewrite E in *. cbn [bind]. apply Step. reflexivity.
    - auto.
  Qed.

  Lemma prod3_some g ix iy iz x y z : rd g ix = Some x -> rd g iy = Some y -> rd g iz = Some z ->
    prod3 mul g ix iy iz = Some (mul (mul x y) z).
  Proof. unfold prod3. intros -> -> ->. reflexivity. Qed.

  Section Row.
    Variables (g : arr F) (nr ix iy iz : Z) (X : Z -> Z -> F).
    Hypothesis Hx : forall r, 0 <= r < nr -> rd g (ix + r) = Some (X 0 r) /\ rd g (iy + r) = Some (X 1 r) /\ rd g (iz + r) = Some (X 2 r).
    Let P r := mul (mul (X 0 r) (X 1 r)) (X 2 r).
    Lemma prod3_row r : 0 <= r < nr -> prod3 mul g (ix + r) (iy + r) (iz + r) = Some (P r).
    Proof. intros Hr. destruct (Hx r Hr) as (E0 & E1 & E2). apply prod3_some; assumption. Qed.

    Lemma root_loop_ok : root_loop zero add mul g nr ix iy iz = Some (root_prod zero add mul nr X).
    Proof.
      destruct (Z.leb_spec nr 0).
      { unfold root_loop. rewrite for_nil by lia. unfold root_prod. rewrite lsum_0 by lia. reflexivity. }
      assert (W : wp (root_loop zero add mul g nr ix iy iz) (fun s => s = root_prod zero add mul nr X)).
      { unfold root_loop. apply wp_for with (I := fun k s => s = root_prod zero add mul k X).
        - lia.
        - unfold root_prod. rewrite lsum_0 by lia. reflexivity.
        - intros k s Hk ->. rewrite prod3_row by lia. cbn [bind wp]. unfold root_prod. rewrite lsum_succ by lia. reflexivity.
        - auto. }
      destruct (root_loop zero add mul g nr ix iy iz); cbn [wp] in W; [subst; reflexivity|contradiction].
    Qed.

    Lemma root_sum_other : nr < 1 \/ 8 < nr -> root_sum zero add mul g nr ix iy iz = root_loop zero add mul g nr ix iy iz.
    Proof.
      intros H. clear Hx. unfold root_sum. destruct nr as [|q|q]; try reflexivity.
      destruct q as [q|q|]; [destruct q as [q|q|]; [destruct q as [q|q|]| |]|destruct q as [q|q|]; [|destruct q as [q|q|]|]|];
        try reflexivity; try lia; destruct q as [q|q|]; try reflexivity; lia.
    Qed.
    Lemma root_sum_ok : root_sum zero add mul g nr ix iy iz = Some (root_prod zero add mul nr X).
    Proof.
      assert (P0 : 0 < nr -> prod3 mul g ix iy iz = Some (P 0)).
      { intros H. rewrite <- (prod3_row 0) by lia. rewrite !Z.add_0_r. reflexivity. }
      destruct (Z.leb_spec nr 0) as [Hn|Hn]; [rewrite root_sum_other by lia; exact root_loop_ok|].
      destruct (Z.leb_spec nr 8) as [Hn'|Hn']; [|rewrite root_sum_other by lia; exact root_loop_ok].
      pose proof prod3_row as PR.
      assert (C : nr = 1 \/ nr = 2 \/ nr = 3 \/ nr = 4 \/ nr = 5 \/ nr = 6 \/ nr = 7 \/ nr = 8) by lia.
      destruct C as [C|[C|[C|[C|[C|[C|[C|C]]]]]]].
      all: rewrite C in *; unfold root_sum, sum_of, root_prod; rewrite P0 by lia; cbn [bind terms].
      all: repeat (rewrite PR by lia; cbn [bind terms]).
      all: unfold lsum, P; match goal with |- context [lsumN _ _ ?n _] => let v := eval compute in n in change n with v end; cbn [lsumN]; rewrite add0; reflexivity.
    Qed.
  End Row.

  (** One row of any of the three routines. *)
  Definition rows (R : Z -> Z -> Z -> option F) (len : Z) (idx : arr Z) (empty : bool) (gout : arr F) : option (arr F) :=
    for_ 0 len (fun n gout =>
      ix <- rd idx (n * 3 + 0) ;; iy <- rd idx (n * 3 + 1) ;; iz <- rd idx (n * 3 + 2) ;;
      s <- R ix iy iz ;;
      put_gout add empty gout n s) gout.

  Lemma rows_loop R len idx empty (I : Z -> Z -> Z) (v : Z -> F) (gout : arr F) :
    (forall n d, 0 <= n < len -> 0 <= d < 3 -> rd idx (3 * n + d) = Some (I n d)) ->
    (forall n, 0 <= n < len -> R (I n 0) (I n 1) (I n 2) = Some (v n)) ->
    rows R len idx empty gout = gout_loop empty len v gout.
  Proof.
    intros HI HR. apply for_ext. intros n a Hn.
    replace (n * 3 + 0) with (3 * n + 0) by ring. replace (n * 3 + 1) with (3 * n + 1) by ring. replace (n * 3 + 2) with (3 * n + 2) by ring.
    rewrite !HI by lia. cbn [bind]. rewrite HR by exact Hn. reflexivity.
  Qed.

  Lemma len_pos4 n a b c d : 0 <= n < a * b * c * d -> 0 < a -> 0 < b -> 0 < c -> 0 < d ->
    let i := n mod a in let k := (n / a) mod b in let l := (n / a / b) mod c in let j := n / a / b / c in
    0 <= i < a /\ 0 <= k < b /\ 0 <= l < c /\ 0 <= j < d /\ n = ((j * c + l) * b + k) * a + i.
  Proof.
    intros Hn Ha Hb Hc Hd i k l j.
    pose proof (Z.mod_pos_bound n a Ha) as B1. pose proof (Z.mod_pos_bound (n / a) b Hb) as B2.
    pose proof (Z.mod_pos_bound (n / a / b) c Hc) as B3.
    pose proof (Z.div_mod n a ltac:(lia)) as D1. pose proof (Z.div_mod (n / a) b ltac:(lia)) as D2.
    pose proof (Z.div_mod (n / a / b) c ltac:(lia)) as D3.
    fold i in B1, D1. fold k in B2, D2. fold l in B3, D3. fold j in D3.
    set (n1 := n / a) in *. set (n2 := n1 / b) in *. clearbody i k l j n1 n2. subst n2. subst n1.
    repeat split; try lia.
    - assert (0 <= a * (b * (c * j + l) + k) + i) by lia. assert (0 <= b * (c * j + l) + k) by nia.
      assert (0 <= c * j + l) by nia. nia.
    - assert (a * (b * (c * j + l) + k) < a * b * c * d) by lia. assert (b * (c * j + l) + k < b * c * d) by nia.
      assert (c * j + l < c * d) by nia. nia.
  Qed.

  Lemma nth_exists l k : 0 <= k < ncart l -> exists t, nth_error (cart_list l) (Z.to_nat k) = Some t.
  Proof.
    intros Hk. destruct (nth_error (cart_list l) (Z.to_nat k)) as [t|] eqn:E; [eauto|].
    apply nth_error_None in E. lia.
  Qed.

  Lemma coord_bound l k t d : 0 <= l -> nth_error (cart_list l) k = Some t -> 0 <= d < 3 -> 0 <= coord d t <= l.
  Proof.
    intros Hl Ht Hd. apply nth_error_In in Ht. apply cart_list_In in Ht; [|exact Hl].
    destruct t as [[x y] z]. unfold nonneg, degree in Ht. unfold coord. destruct (d =? 0), (d =? 1); lia.
  Qed.

  Lemma ncart_pos l : 0 <= l -> 0 < ncart l.
  Proof.
    intros Hl. pose proof (cart_list_length l Hl) as E. rewrite E.
    apply Z.div_str_pos. nia.
  Qed.

  Lemma rows_batch4 R nr li lj lk ll gs si sj sk sl len idx (g gout : arr F) empty V :
    0 <= li -> 0 <= lj -> 0 <= lk -> 0 <= ll ->
    len = ncart li * ncart lk * ncart ll * ncart lj ->
    table4 idx li lj lk ll gs si sj sk sl -> cells4 g gs si sj sk sl nr li lj lk ll V ->
    (forall ix iy iz X, (forall r, 0 <= r < nr -> rd g (ix + r) = Some (X 0 r) /\ rd g (iy + r) = Some (X 1 r) /\ rd g (iz + r) = Some (X 2 r)) ->
       R ix iy iz = Some (root_prod zero add mul nr X)) ->
    len <= asize gout -> (empty = false -> forall n, 0 <= n < len -> exists o, rd gout n = Some o) ->
    (exists v, rows R len idx empty gout = gout_loop empty len v gout) /\
    wp (rows R len idx empty gout) (fun gout' =>
      batch4 zero add mul gout gout' empty nr li lj lk ll V /\ Frame (fun p => 0 <= p < len) gout gout').
  Proof.
    intros Hli Hlj Hlk Hll Hlen HT HC HR Hsz Hold.
    pose proof (ncart_pos li Hli) as Pi. pose proof (ncart_pos lj Hlj) as Pj.
    pose proof (ncart_pos lk Hlk) as Pk. pose proof (ncart_pos ll Hll) as Pl.
    set (ni := ncart li) in *. set (nj := ncart lj) in *. set (nk := ncart lk) in *. set (nl := ncart ll) in *.
    pose (ei := fun n d => expo li (n mod ni) d). pose (ek := fun n d => expo lk (n / ni mod nk) d).
    pose (el := fun n d => expo ll (n / ni / nk mod nl) d). pose (ej := fun n d => expo lj (n / ni / nk / nl) d).
    pose (I := fun n d => cell gs si sj sk sl d 0 (ei n d) (ej n d) (ek n d) (el n d)).
    pose (v := fun n => root_prod zero add mul nr (fun d r => V d r (ei n d) (ej n d) (ek n d) (el n d))).
    assert (ED : forall n, 0 <= n < len -> exists i j k l ti tj tk tl,
       nth_error (cart_list li) i = Some ti /\ nth_error (cart_list lj) j = Some tj /\
       nth_error (cart_list lk) k = Some tk /\ nth_error (cart_list ll) l = Some tl /\
       n = ((Z.of_nat j * nl + Z.of_nat l) * nk + Z.of_nat k) * ni + Z.of_nat i /\
       (forall d, ei n d = coord d ti /\ ej n d = coord d tj /\ ek n d = coord d tk /\ el n d = coord d tl)).
    { intros n Hn. rewrite Hlen in Hn. destruct (len_pos4 n ni nk nl nj Hn Pi Pk Pl Pj) as (Bi & Bk & Bl & Bj & En).
      destruct (nth_exists li _ Bi) as [ti Ti]. destruct (nth_exists lk _ Bk) as [tk Tk].
      destruct (nth_exists ll _ Bl) as [tl Tl]. destruct (nth_exists lj _ Bj) as [tj Tj].
      exists (Z.to_nat (n mod ni)), (Z.to_nat (n / ni / nk / nl)), (Z.to_nat (n / ni mod nk)), (Z.to_nat (n / ni / nk mod nl)), ti, tj, tk, tl.
      repeat match goal with |- _ /\ _ => split; [assumption|] end. rewrite !Z2Nat.id by lia. split; [exact En|].
      intros d. unfold ei, ej, ek, el.
      rewrite <- (expo_nth _ _ _ d Ti), <- (expo_nth _ _ _ d Tj), <- (expo_nth _ _ _ d Tk), <- (expo_nth _ _ _ d Tl).
      rewrite !Z2Nat.id by lia. auto. }
    assert (EL : rows R len idx empty gout = gout_loop empty len v gout).
    { apply rows_loop with (I := I).
      - intros n d Hn Hd. destruct (ED n Hn) as (i & j & k & l & ti & tj & tk & tl & Ti & Tj & Tk & Tl & En & Ec).
        pose proof (HT i j k l ti tj tk tl d Ti Tj Tk Tl Hd) as E. fold ni nj nk nl in E. rewrite <- En in E.
        rewrite E. unfold I. destruct (Ec d) as (-> & -> & -> & ->). reflexivity.
      - intros n Hn. apply HR. intros r Hr.
        destruct (ED n Hn) as (i & j & k & l & ti & tj & tk & tl & Ti & Tj & Tk & Tl & En & Ec).
        assert (Cell : forall d, 0 <= d < 3 -> rd g (I n d + r) = Some (V d r (ei n d) (ej n d) (ek n d) (el n d))).
        { intros d Hd. destruct (Ec d) as (E1 & E2 & E3 & E4).
          rewrite <- HC; try lia.
          - f_equal. unfold I, cell. lia.
          - rewrite E1. apply (coord_bound li i); assumption.
          - rewrite E2. apply (coord_bound lj j); assumption.
          - rewrite E3. apply (coord_bound lk k); assumption.
          - rewrite E4. apply (coord_bound ll l); assumption. }
        split; [apply Cell; lia|]. split; apply Cell; lia. }
    split; [exists v; exact EL|]. rewrite EL.
    eapply wp_mono; [apply gout_loop_ok|].
    - subst len. nia.
    - exact Hold.
    - intros gout' [H1 H2]. split; [|exact H2].
      intros i j k l ti tj tk tl Ti Tj Tk Tl n. fold ni nk nl in n.
      assert (Bi : 0 <= Z.of_nat i < ni) by (assert (i < length (cart_list li))%nat by (apply nth_error_Some; congruence); unfold ni; lia).
      assert (Bj : 0 <= Z.of_nat j < nj) by (assert (j < length (cart_list lj))%nat by (apply nth_error_Some; congruence); unfold nj; lia).
      assert (Bk : 0 <= Z.of_nat k < nk) by (assert (k < length (cart_list lk))%nat by (apply nth_error_Some; congruence); unfold nk; lia).
      assert (Bl : 0 <= Z.of_nat l < nl) by (assert (l < length (cart_list ll))%nat by (apply nth_error_Some; congruence); unfold nl; lia).
      assert (Bn : 0 <= n < len).
      { unfold n. subst len. clearbody ni nj nk nl. clear - Bi Bj Bk Bl.
        assert (Z.of_nat j * nl + Z.of_nat l <= nl * nj - 1) by nia.
        assert (0 <= Z.of_nat j * nl + Z.of_nat l) by nia.
        set (q1 := Z.of_nat j * nl + Z.of_nat l) in *. clearbody q1.
        assert (0 <= q1 * nk + Z.of_nat k <= nk * (nl * nj) - 1) by nia.
        set (q2 := q1 * nk + Z.of_nat k) in *. clearbody q2. replace (ni * nk * nl * nj) with (ni * (nk * (nl * nj))) by ring.
        set (M := nk * (nl * nj)) in *. clearbody M. nia. }
      rewrite H1 by exact Bn. f_equal. unfold v, root_prod.
      assert (Mi : n mod ni = Z.of_nat i /\ n / ni = (Z.of_nat j * nl + Z.of_nat l) * nk + Z.of_nat k).
      { apply divmod_radix; exact Bi. }
      destruct Mi as [Mi Di].
      destruct (divmod_radix nk (Z.of_nat j * nl + Z.of_nat l) (Z.of_nat k) Bk) as [Mk Dk].
      destruct (divmod_radix nl (Z.of_nat j) (Z.of_nat l) Bl) as [Ml Dl].
      unfold ei, ej, ek, el. rewrite Mi, Di, Mk, Dk, Ml, Dl.
      apply lsum_ext. intros r Hr.
      rewrite !(expo_nth _ _ _ _ Ti), !(expo_nth _ _ _ _ Tj), !(expo_nth _ _ _ _ Tk), !(expo_nth _ _ _ _ Tl). reflexivity.
  Qed.

  Lemma rows_batch2 R nr li lj gs si sj len idx (g gout : arr F) empty V :
    0 <= li -> 0 <= lj ->
    len = ncart li * ncart lj ->
    table2 idx li lj gs si sj -> cells2 g gs si sj nr li lj V ->
    (forall ix iy iz X, (forall r, 0 <= r < nr -> rd g (ix + r) = Some (X 0 r) /\ rd g (iy + r) = Some (X 1 r) /\ rd g (iz + r) = Some (X 2 r)) ->
       R ix iy iz = Some (root_prod zero add mul nr X)) ->
    len <= asize gout -> (empty = false -> forall n, 0 <= n < len -> exists o, rd gout n = Some o) ->
    (exists v, rows R len idx empty gout = gout_loop empty len v gout) /\
    wp (rows R len idx empty gout) (fun gout' =>
      batch2 zero add mul gout gout' empty nr li lj V /\ Frame (fun p => 0 <= p < len) gout gout').
  Proof.
    intros Hli Hlj Hlen HT HC HR Hsz Hold.
    assert (C0 : cart_list 0 = [(0, 0, 0)]) by reflexivity.
    destruct (rows_batch4 R nr li lj 0 0 gs si sj 0 0 len idx g gout empty (fun d r i j _ _ => V d r i j)) as [H1 H2]; try assumption; try lia.
    - rewrite Hlen, C0. cbn [length]. lia.
    - intros i j k l ti tj tk tl d Ti Tj Tk Tl Hd. rewrite C0 in *. cbn [length].
      destruct k as [|k]; [|destruct k; discriminate Tk]. destruct l as [|l]; [|destruct l; discriminate Tl].
      cbn in Tk, Tl. injection Tk as <-. injection Tl as <-.
      pose proof (HT i j ti tj d Ti Tj Hd) as E. etransitivity; [|etransitivity; [exact E|]].
      + f_equal. lia.
      + apply f_equal. unfold cell. lia.
    - intros d r i j k l Hd Hr Hi Hj Hk Hl. rewrite <- HC by assumption. unfold cell; apply f_equal; lia.
    - split; [exact H1|]. eapply wp_mono; [exact H2|]. intros gout' [HB HF]. split; [|exact HF].
      intros i j ti tj Ti Tj n. specialize (HB i j O O ti tj (0, 0, 0) (0, 0, 0) Ti Tj eq_refl eq_refl).
      cbv zeta in HB. rewrite C0 in HB. cbn [length] in HB. unfold n. etransitivity; [|etransitivity; [exact HB|]].
      + f_equal. lia.
      + f_equal. f_equal. lia.
  Qed.

  (** one component of the grid batch *)
  Lemma grid_sums (g : arr F) nr bg ix iy iz (X : Z -> Z -> Z -> F) : 0 <= bg <= 104 -> 0 <= nr ->
    (forall r ig, 0 <= r < nr -> 0 <= ig < bg -> rd g (ix + (ig + 104 * r)) = Some (X 0 r ig) /\
       rd g (iy + (ig + 104 * r)) = Some (X 1 r ig) /\ rd g (iz + (ig + 104 * r)) = Some (X 2 r ig)) ->
    wp (s <- for_ 0 bg (fun ig s => wr s ig zero) (uninit 104) ;;
        for_ 0 nr (fun i s =>
           for_ 0 bg (fun ig s =>
             p <- prod3 mul g (ix + (ig + 104 * i)) (iy + (ig + 104 * i)) (iz + (ig + 104 * i)) ;;
             v <- rd s ig ;; wr s ig (add v p)) s) s)
      (fun s => forall ig, 0 <= ig < bg -> rd s ig = Some (root_prod zero add mul nr (fun d r => X d r ig))).
  Proof.
    intros Hbg Hnr HX. apply wp_bind.
    apply wp_for with (I := fun k (s : arr F) => asize s = 104 /\ forall ig, 0 <= ig < k -> rd s ig = Some zero).
    - lia.
    - split; [reflexivity|intros; lia].
    - intros k s Hk [Hs H]. apply wp_wr; [lia|]. intros s' Hs' Hc. split; [lia|]. intros ig Hig.
      apply rd_spec. split; [lia|]. rewrite Hc. destruct (Z.eqb_spec ig k); [reflexivity|].
      apply (proj1 (rd_spec _ _ _) (H ig ltac:(lia))).
    - intros s [Hs H].
      apply wp_for with (I := fun r (s : arr F) => asize s = 104 /\
        forall ig, 0 <= ig < bg -> rd s ig = Some (root_prod zero add mul r (fun d r => X d r ig))).
      + exact Hnr.
      + split; [exact Hs|]. intros ig Hig. rewrite H by exact Hig. unfold root_prod. rewrite lsum_0 by lia. reflexivity.
      + intros r s1 Hr [Hs1 H1].
        apply wp_for with (I := fun k (s : arr F) => asize s = 104 /\
          forall ig, 0 <= ig < bg -> rd s ig = Some (root_prod zero add mul (if ig <? k then r + 1 else r) (fun d r => X d r ig))).
        * lia.
        * split; [exact Hs1|]. intros ig Hig. rewrite H1 by exact Hig. replace (ig <? 0) with false by lia. reflexivity.
        * intros k s2 Hk [Hs2 H2]. destruct (HX r k Hr Hk) as (E0 & E1 & E2).
          rewrite (prod3_some _ _ _ _ _ _ _ E0 E1 E2). cbn [bind]. rewrite H2 by exact Hk. cbn [bind].
          replace (k <? k) with false by lia.
          apply wp_wr; [lia|]. intros s3 Hs3 Hc. split; [lia|]. intros ig Hig. apply rd_spec. split; [lia|].
          rewrite Hc. destruct (Z.eqb_spec ig k) as [->|].
          -- replace (k <? k + 1) with true by lia. f_equal. unfold root_prod. rewrite lsum_succ by lia. reflexivity.
          -- replace (ig <? k + 1) with (ig <? k) by lia. apply (proj1 (rd_spec _ _ _) (H2 ig Hig)).
        * intros s2 [Hs2 H2]. split; [exact Hs2|]. intros ig Hig. rewrite H2 by exact Hig. replace (ig <? bg) with true by lia. reflexivity.
      + intros s1 [_ H1]. exact H1.
  Qed.

  Lemma gout_grids_rows nr bg len idx (g : arr F) empty (gout : arr F) I (v : Z -> Z -> F) e :
    0 <= bg <= 104 -> 0 <= nr -> 0 <= len -> nf e = len -> nrys_roots e = nr ->
    (forall n d, 0 <= n < len -> 0 <= d < 3 -> rd idx (3 * n + d) = Some (I n d)) ->
    (forall n, 0 <= n < len -> exists X : Z -> Z -> Z -> F,
       (forall d r ig, 0 <= d < 3 -> 0 <= r < nr -> 0 <= ig < bg -> rd g (I n d + (ig + 104 * r)) = Some (X d r ig)) /\
       forall ig, v n ig = root_prod zero add mul nr (fun d r => X d r ig)) ->
    bg * len <= asize gout -> (empty = false -> forall n, 0 <= n < bg * len -> exists o, rd gout n = Some o) ->
    wp (CINTgout1e_grids zero add mul e bg idx g empty gout) (fun gout' =>
      (forall n ig, 0 <= n < len -> 0 <= ig < bg ->
         rd gout' (ig + bg * n) = accum add empty (rd gout (ig + bg * n)) (v n ig)) /\
      Frame (fun p => 0 <= p < bg * len) gout gout').
  Proof.
    intros Hbg Hnr Hlen En Er HI HX Hsz Hold. unfold CINTgout1e_grids. rewrite En, Er.
    apply wp_for with (I := fun k (a : arr F) =>
      (forall n ig, 0 <= n < k -> 0 <= ig < bg -> rd a (ig + bg * n) = accum add empty (rd gout (ig + bg * n)) (v n ig)) /\
      Frame (fun p => 0 <= p < bg * k) gout a).
    - exact Hlen.
    - split; [intros; lia|apply Frame_refl].
    - intros k a Hk [H1 H2].
      replace (k * 3 + 0) with (3 * k + 0) by ring. replace (k * 3 + 1) with (3 * k + 1) by ring. replace (k * 3 + 2) with (3 * k + 2) by ring.
      rewrite !HI by lia. cbn [bind].
      destruct (HX k Hk) as (X & HXc & HXv).
      pose proof (grid_sums g nr bg (I k 0) (I k 1) (I k 2) X Hbg Hnr
        (fun r ig Hr Hi => conj (HXc 0 r ig ltac:(lia) Hr Hi) (conj (HXc 1 r ig ltac:(lia) Hr Hi) (HXc 2 r ig ltac:(lia) Hr Hi)))) as W.
      apply wp_bind_inv in W. apply wp_bind. eapply wp_mono; [exact W|]. intros s0 W0. apply wp_bind. eapply wp_mono; [exact W0|].
      intros s HS.
      apply wp_for with (I := fun q (a' : arr F) =>
        (forall n ig, 0 <= n <= k -> 0 <= ig < bg -> n < k \/ ig < q -> rd a' (ig + bg * n) = accum add empty (rd gout (ig + bg * n)) (v n ig)) /\
        Frame (fun p => 0 <= p < bg * k + q) gout a').
      + lia.
      + split; [intros n ig Hn Hig [?|?]; [apply H1; lia|lia]|]. refine (Frame_mono _ _ _ _ H2 _). intros p Hp; cbv beta in *; lia.
      + intros q a' Hq [H3 H4]. rewrite HS by exact Hq. cbn [bind]. rewrite <- HXv.
        assert (Hold' : rd a' (q + bg * k) = rd gout (q + bg * k)).
        { unfold rd, inb. rewrite (proj1 H4). rewrite (proj2 H4) by lia. reflexivity. }
        assert (Hin : 0 <= q + bg * k < bg * len) by nia.
        assert (Step : forall x, accum add empty (rd gout (q + bg * k)) (v k q) = Some x -> wp (wr a' (q + bg * k) x) (fun a'' =>
          (forall n ig, 0 <= n <= k -> 0 <= ig < bg -> n < k \/ ig < q + 1 -> rd a'' (ig + bg * n) = accum add empty (rd gout (ig + bg * n)) (v n ig)) /\
          Frame (fun p => 0 <= p < bg * k + (q + 1)) gout a'')).
        { intros x Ex. apply wp_wr; [rewrite (proj1 H4); lia|]. intros a'' Hs'' Hc''. split.
          - intros n ig Hn Hig Hor. destruct (Z.eq_dec (ig + bg * n) (q + bg * k)) as [E|E].
            + assert (n = k) by nia. subst n. assert (ig = q) by lia. subst ig. rewrite Ex. apply rd_spec.
              rewrite Hs'', (proj1 H4), Hc'', Z.eqb_refl. split; [lia|reflexivity].
            + rewrite <- H3; try lia.
              * unfold rd, inb. rewrite Hs'', Hc''. replace (ig + bg * n =? q + bg * k) with false by lia. reflexivity.
              * destruct (Z.eq_dec n k) as [->|]; [right; lia|left; lia].
          - split; [rewrite Hs''; apply (proj1 H4)|]. intros p Hp. rewrite Hc''. replace (p =? q + bg * k) with false by lia. apply (proj2 H4). lia. }
        unfold put_gout. destruct empty.
        * apply Step. reflexivity.
        * rewrite Hold'. destruct (Hold eq_refl (q + bg * k) Hin) as (o & E). rewrite E in *. cbn [bind]. apply Step. reflexivity.
      + intros a' [H3 H4]. split; [intros n ig Hn Hig; apply H3; lia|]. refine (Frame_mono _ _ _ _ H4 _). intros p Hp; cbv beta in *; lia.
    - auto.
  Qed.

  Lemma gout_grids_batch e bg li lj idx (g gout : arr F) empty V gs si sj :
    0 <= li -> 0 <= lj -> 0 <= bg <= 104 -> 0 <= nrys_roots e -> nf e = ncart li * ncart lj ->
    table2 idx li lj gs si sj ->
    (forall d r ig i j, 0 <= d < 3 -> 0 <= r < nrys_roots e -> 0 <= ig < bg -> 0 <= i <= li -> 0 <= j <= lj ->
       rd g (cell gs si sj 0 0 d (ig + 104 * r) i j 0 0) = Some (V d r ig i j)) ->
    bg * nf e <= asize gout -> (empty = false -> forall n, 0 <= n < bg * nf e -> exists o, rd gout n = Some o) ->
    wp (CINTgout1e_grids zero add mul e bg idx g empty gout) (fun gout' =>
      batch_grids zero add mul gout gout' empty bg (nrys_roots e) li lj V /\
      Frame (fun p => 0 <= p < bg * nf e) gout gout').
  Proof.
    intros Hli Hlj Hbg Hnr Hnf HT HV Hsz Hold.
    pose proof (ncart_pos li Hli) as Pi. pose proof (ncart_pos lj Hlj) as Pj.
    set (ni := ncart li) in *. set (nj := ncart lj) in *.
    pose (I := fun n d => cell gs si sj 0 0 d 0 (expo li (n mod ni) d) (expo lj (n / ni) d) 0 0).
    assert (ED : forall n, 0 <= n < ni * nj -> 0 <= n mod ni < ni /\ 0 <= n / ni < nj /\ n = (n / ni) * ni + n mod ni).
    { intros n Hn. pose proof (Z.mod_pos_bound n ni Pi). pose proof (Z.div_mod n ni ltac:(lia)).
      assert (n / ni < nj) by (apply Z.div_lt_upper_bound; lia). assert (0 <= n / ni) by (apply Z.div_pos; lia). lia. }
    eapply wp_mono; [apply (gout_grids_rows (nrys_roots e) bg (nf e) idx g empty gout I
       (fun n ig => root_prod zero add mul (nrys_roots e) (fun d r => V d r ig (expo li (n mod ni) d) (expo lj (n / ni) d))) e); try assumption; try reflexivity|].
    - rewrite Hnf. nia.
    - intros n d Hn Hd. rewrite Hnf in Hn. destruct (ED n Hn) as (Bi & Bj & En).
      destruct (nth_exists li _ Bi) as [ti Ti]. destruct (nth_exists lj _ Bj) as [tj Tj].
      pose proof (HT _ _ _ _ d Ti Tj Hd) as E. fold ni in E. rewrite !Z2Nat.id in E by lia. rewrite <- En in E. rewrite E.
      unfold I. rewrite <- (expo_nth _ _ _ d Ti), <- (expo_nth _ _ _ d Tj), !Z2Nat.id by lia. reflexivity.
    - intros n Hn. rewrite Hnf in Hn. destruct (ED n Hn) as (Bi & Bj & En).
      destruct (nth_exists li _ Bi) as [ti Ti]. destruct (nth_exists lj _ Bj) as [tj Tj].
      exists (fun d r ig => V d r ig (expo li (n mod ni) d) (expo lj (n / ni) d)). split; [|reflexivity].
      intros d r ig Hd Hr Hig. rewrite <- HV; try assumption.
      + unfold I, cell. f_equal. lia.
      + pose proof (expo_nth _ _ _ d Ti) as E. rewrite Z2Nat.id in E by lia. rewrite E. apply (coord_bound li _ _ d Hli Ti Hd).
      + pose proof (expo_nth _ _ _ d Tj) as E. rewrite Z2Nat.id in E by lia. rewrite E. apply (coord_bound lj _ _ d Hlj Tj Hd).
    - intros gout' [H1 H2]. split; [|exact H2]. intros i j ti tj ig Ti Tj Hig n. fold ni in n.
      assert (Bi : 0 <= Z.of_nat i < ni) by (assert (i < length (cart_list li))%nat by (apply nth_error_Some; congruence); unfold ni; lia).
      assert (Bj : 0 <= Z.of_nat j < nj) by (assert (j < length (cart_list lj))%nat by (apply nth_error_Some; congruence); unfold nj; lia).
      destruct (divmod_radix ni (Z.of_nat j) (Z.of_nat i) Bi) as [Mi Di].
      unfold n. rewrite H1; [|rewrite Hnf; nia|exact Hig]. rewrite Mi, Di. f_equal. unfold root_prod. apply lsum_ext. intros r Hr.
      rewrite !(expo_nth _ _ _ _ Ti), !(expo_nth _ _ _ _ Tj). reflexivity.
  Qed.
End Gout.

Section Plain.
  Context {F : Type} (zero : F) (add mul : F -> F -> F).
  Hypothesis add0 : forall x, add zero x = x.

  Lemma gout2e_batch e li lj lk ll gs si sj sk sl idx (g gout : arr F) empty V :
    0 <= li -> 0 <= lj -> 0 <= lk -> 0 <= ll ->
    nf e = ncart li * ncart lk * ncart ll * ncart lj ->
    table4 idx li lj lk ll gs si sj sk sl -> cells4 g gs si sj sk sl (nrys_roots e) li lj lk ll V ->
    nf e <= asize gout -> (empty = false -> forall n, 0 <= n < nf e -> exists o, rd gout n = Some o) ->
    wp (CINTgout2e zero add mul e idx g empty gout) (fun gout' =>
      batch4 zero add mul gout gout' empty (nrys_roots e) li lj lk ll V /\ Frame (fun p => 0 <= p < nf e) gout gout').
  Proof.
    intros H1 H2 H3 H4 Hn HT HC Hsz Ho.
    apply (rows_batch4 zero add mul add0 (fun ix iy iz => root_sum zero add mul g (nrys_roots e) ix iy iz)
             (nrys_roots e) li lj lk ll gs si sj sk sl (nf e) idx g gout empty V); try assumption.
    intros ix iy iz X HX. apply root_sum_ok; assumption.
  Qed.

  Lemma gout1e_nuc_batch e li lj gs si sj idx (g gout : arr F) empty V :
    0 <= li -> 0 <= lj -> nf e = ncart li * ncart lj ->
    table2 idx li lj gs si sj -> cells2 g gs si sj (nrys_roots e) li lj V ->
    nf e <= asize gout -> (empty = false -> forall n, 0 <= n < nf e -> exists o, rd gout n = Some o) ->
    wp (CINTgout1e_nuc zero add mul e idx g empty gout) (fun gout' =>
      batch2 zero add mul gout gout' empty (nrys_roots e) li lj V /\ Frame (fun p => 0 <= p < nf e) gout gout').
  Proof.
    intros H1 H2 Hn HT HC Hsz Ho.
    apply (rows_batch2 zero add mul add0 (fun ix iy iz => root_loop zero add mul g (nrys_roots e) ix iy iz)
             (nrys_roots e) li lj gs si sj (nf e) idx g gout empty V); try assumption.
    intros ix iy iz X HX. apply root_loop_ok; assumption.
  Qed.

  Lemma gout1e_batch e li lj gs si sj idx (g gout : arr F) empty V :
    0 <= li -> 0 <= lj -> nf e = ncart li * ncart lj ->
    table2 idx li lj gs si sj -> cells2 g gs si sj 1 li lj V ->
    nf e <= asize gout -> (empty = false -> forall n, 0 <= n < nf e -> exists o, rd gout n = Some o) ->
    wp (CINTgout1e add mul e idx g empty gout) (fun gout' =>
      batch2 zero add mul gout gout' empty 1 li lj V /\ Frame (fun p => 0 <= p < nf e) gout gout').
  Proof.
    intros H1 H2 Hn HT HC Hsz Ho.
    apply (rows_batch2 zero add mul add0 (fun ix iy iz => prod3 mul g ix iy iz) 1 li lj gs si sj (nf e) idx g gout empty V); try assumption.
    intros ix iy iz X HX. destruct (HX 0 ltac:(lia)) as (E0 & E1 & E2). rewrite !Z.add_0_r in *.
    rewrite (prod3_some mul _ _ _ _ _ _ _ E0 E1 E2). f_equal. unfold root_prod.
    change 1 with (0 + 1). rewrite lsum_succ, lsum_0 by lia. rewrite add0. reflexivity.
  Qed.
End Plain.
