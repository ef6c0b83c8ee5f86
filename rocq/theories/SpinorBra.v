(** SpinorBra.v — the bra transforms compute sums over Cartesian components. *)
From Verif Require Import Base OutModel OutSpec SpinorModel SpinorSpec SpinorFill.
From Coq Require Import ZifyBool.
Ltac Zify.zify_post_hook ::= Z.div_mod_to_equations.

Lemma len_cart_ncart l : 0 <= l <= 15 -> len_cart l = ncart l.
Proof.
  intros H. assert (E : l = 0 \/ l = 1 \/ l = 2 \/ l = 3 \/ l = 4 \/ l = 5 \/ l = 6 \/ l = 7 \/ l = 8 \/ l = 9 \/
    l = 10 \/ l = 11 \/ l = 12 \/ l = 13 \/ l = 14 \/ l = 15) by lia.
  repeat (destruct E as [->|E]; [reflexivity|]). subst. reflexivity.
Qed.
Lemma len_nspinor kappa l : len_spinor kappa l = nspinor kappa l.
Proof.
  unfold len_spinor, nspinor. destruct (0 =? kappa) eqn:A, (kappa <? 0) eqn:B, (0 <? kappa) eqn:C; lia.
Qed.
Lemma len_spinor_nonneg kappa l : 0 <= l -> 0 <= len_spinor kappa l.
Proof. intros H. unfold len_spinor. destruct (0 =? kappa), (kappa <? 0); lia. Qed.
Lemma ncart_pos l : 0 <= l -> 0 < ncart l.
Proof. intros H. unfold ncart. assert (2 <= (l + 1) * (l + 2)) by nia. lia. Qed.

(** row x of a matrix with rows of [ng] cells *)
Lemma dec2 ng r m : 0 <= m < ng -> (r * ng + m) / ng = r /\ (r * ng + m) mod ng = m.
Proof.
  intros H. rewrite Z.div_add_l, Z.div_small by lia. rewrite (Z.add_comm (r * ng) m), Z_mod_plus_full, Z.mod_small by lia. lia.
Qed.

Section B.
  Context {F : Type} (zero : F) (add : F -> F -> F).
  Context (tJR tJI : Z -> F).

  Notation Cjm := (Cj tJR tJI).
  Notation cart2j := (cart2j tJR tJI).

  Lemma rd_tab (t : Z -> F) o q : 0 <= o -> 0 <= q -> o + q < jtab_size ->
    rd (sub (of_fun jtab_size t) o) q = Some (t (o + q)).
  Proof.
    intros Ho Hq H. apply rd_spec. cbn [asize sub of_fun acell]. split; [lia|reflexivity].
  Qed.

  Lemma cart2j_at kappa l : 0 <= l <= 12 -> exists c, cart2j kappa l = Some c /\
    forall i s n, 0 <= i < nspinor kappa l -> 0 <= s < 2 -> 0 <= n < ncart l ->
      rd (fst c) (i * (2 * ncart l) + s * ncart l + n) = Some (fst (Cjm kappa l i s n)) /\
      rd (snd c) (i * (2 * ncart l) + s * ncart l + n) = Some (snd (Cjm kappa l i s n)).
  Proof.
    intros H.
    assert (E : exists o, nth_error (if kappa <? 0 then gt_off else lt_off) (Z.to_nat l) = Some o /\
      o = spinor_start kappa l /\ 0 <= o /\ o + nspinor kappa l * (2 * ncart l) <= jtab_size).
    { assert (E : l = 0 \/ l = 1 \/ l = 2 \/ l = 3 \/ l = 4 \/ l = 5 \/ l = 6 \/ l = 7 \/ l = 8 \/ l = 9 \/
        l = 10 \/ l = 11 \/ l = 12) by lia.
      unfold spinor_start, nspinor.
      assert (Hk : (kappa <? 0) = true \/ (kappa <? 0) = false) by (destruct (kappa <? 0); auto).
      destruct Hk as [K|K]; rewrite K.
      - repeat (destruct E as [->|E]; [eexists; split; [reflexivity|]; vm_compute; repeat split; congruence|]).
        subst. eexists; split; [reflexivity|]; vm_compute; repeat split; congruence.
      - destruct (0 <? kappa).
        + repeat (destruct E as [->|E]; [eexists; split; [reflexivity|]; vm_compute; repeat split; congruence|]).
          subst. eexists; split; [reflexivity|]; vm_compute; repeat split; congruence.
        + repeat (destruct E as [->|E]; [eexists; split; [reflexivity|]; vm_compute; repeat split; congruence|]).
          subst. eexists; split; [reflexivity|]; vm_compute; repeat split; congruence. }
    destruct E as [o [E1 [E2 [E3 E4]]]]. unfold SpinorModel.cart2j.
    replace ((0 <=? l) && (l <=? 15)) with true by lia. rewrite E1.
    eexists. split; [reflexivity|]. cbn [fst snd]. intros i s n Hi Hs Hn.
    assert (B : 0 <= i * (2 * ncart l) + s * ncart l + n < nspinor kappa l * (2 * ncart l)).
    { clear - Hi Hs Hn. set (N := ncart l) in *. set (D := nspinor kappa l) in *. nia. }
    rewrite !rd_tab by lia. unfold Cj. subst o. cbn [fst snd].
    split; f_equal; f_equal; ring.
  Qed.

  (** the four coefficients *)
  Definition C4 (kappa l i n : Z) : V4 :=
    (fst (Cjm kappa l i 0 n), snd (Cjm kappa l i 0 n), fst (Cjm kappa l i 1 n), snd (Cjm kappa l i 1 n)).

  Lemma cart2j_ok kappa l : 0 <= l <= 12 -> exists c, cart2j kappa l = Some c /\
    (forall i n, 0 <= i < len_spinor kappa l -> 0 <= n < len_cart l ->
       coef4 c i (len_cart l) n = Some (C4 kappa l i n)) /\
    (forall i n, 0 <= i < len_spinor kappa l -> 0 <= n < len_cart l * 2 ->
       rd (fst c) (i * (len_cart l * 2) + n) = Some (fst (Cjm kappa l i (n / len_cart l) (n mod len_cart l))) /\
       rd (snd c) (i * (len_cart l * 2) + n) = Some (snd (Cjm kappa l i (n / len_cart l) (n mod len_cart l)))).
  Proof.
    intros H. destruct (cart2j_at kappa l H) as [c [E1 E2]]. exists c. split; [exact E1|].
    rewrite len_nspinor, len_cart_ncart by lia. set (N := ncart l) in *. split.
    - intros i n Hi Hn. unfold coef4.
      destruct (E2 i 0 n Hi ltac:(lia) Hn) as [A1 A2]. destruct (E2 i 1 n Hi ltac:(lia) Hn) as [B1 B2].
      replace (i * N * 2 + n) with (i * (2 * N) + 0 * N + n) by ring.
      replace (i * N * 2 + N + n) with (i * (2 * N) + 1 * N + n) by ring.
      rewrite A1, A2, B1, B2. reflexivity.
    - intros i n Hi Hn.
      replace (i * (N * 2) + n) with (i * (2 * N) + n / N * N + n mod N).
      2:{ pose proof (Z.div_mod n N ltac:(lia)). lia. }
      apply E2; [exact Hi| |apply Z.mod_pos_bound; lia].
      split; [apply Z.div_pos; lia|apply Z.div_lt_upper_bound; lia].
  Qed.

  (** sums of quadruples *)
  Definition z4 : V4 := (zero, zero, zero, zero).
  Definition qadd (u v : V4) : V4 :=
    let '(a, b, c, d) := u in let '(a', b', c', d') := v in (add a a', add b b', add c c', add d d').

  Lemma inc4 b (a i : arr F) x (w d : V4) (u : Z -> V4) :
    0 <= x < b -> b + b <= asize a -> b + b <= asize i ->
    get4 b (a, i) x = emb4 w -> u x = qadd w d ->
    wp (let '(p, q, r, t) := d in
        a <- inc add a x p ;; i <- inc add i x q ;; a <- inc add a (b + x) r ;; i <- inc add i (b + x) t ;; Some (a, i))
       (Fill (get4 b) emb4 (dom4 b) (rest4 b) (fun y => y = x) u (a, i)).
  Proof.
    destruct d as [[[p q] r] t], w as [[[wp_ wq] wr_] wt]. intros Hx Ha Hi Hg Hu.
    unfold get4, emb4 in Hg. cbn [fst snd] in Hg. injection Hg as G1 G2 G3 G4.
    assert (L : forall (c : arr F) y v z, acell c y = Some v -> 0 <= y < asize c ->
              wp (inc add c y z) (fun c' => asize c' = asize c /\ forall k, acell c' k = if k =? y then Some (add v z) else acell c k)).
    { intros c y v z Hc Hy. unfold inc. assert (Hr : rd c y = Some v) by (apply rd_spec; auto).
      rewrite Hr. cbn [bind]. apply wp_wr; [exact Hy|]. auto. }
    apply wp_bind. eapply wp_mono; [apply (L a x wp_ p G1); lia|]. intros a1 [S1 C1].
    apply wp_bind. eapply wp_mono; [apply (L i x wq q G2); lia|]. intros i1 [S2 C2].
    apply wp_bind. eapply wp_mono; [apply (L a1 (b + x) wr_ r); [rewrite C1; replace (b + x =? x) with false by lia; exact G3|lia]|].
    intros a2 [S3 C3].
    apply wp_bind. eapply wp_mono; [apply (L i1 (b + x) wt t); [rewrite C2; replace (b + x =? x) with false by lia; exact G4|lia]|].
    intros i2 [S4 C4']. cbn [wp]. split.
    - split; [split; cbn [fst snd]; congruence|]. intros y Hy. cbn [fst snd]. rewrite C3, C4', C1, C2.
      replace (y =? b + x) with false by lia. replace (y =? x) with false by lia. auto.
    - intros y Hy. unfold dom4 in Hy. unfold get4. cbn [fst snd]. rewrite !C3, !C4', !C1, !C2.
      replace (y =? b + x) with false by lia. replace (b + y =? x) with false by lia.
      replace (b + y =? b + x) with (y =? x) by lia. split.
      + intros ->. rewrite Z.eqb_refl, Hu. reflexivity.
      + intros h. replace (y =? x) with false by lia. reflexivity.
  Qed.

  Variables (kappa l ng nket : Z).
  Hypothesis Hl : 0 <= l <= 12.
  Hypothesis Hng : 0 <= ng.
  Hypothesis Hnk : 0 <= nket.
  Variable term : V4 (F := F) -> Z -> option (V4 (F := F)).
  Variable T : Z -> Z -> Z -> V4 (F := F).   (* spinor i, component n, input index *)
  Let nf := len_cart l.
  Let nd := len_spinor kappa l.
  Hypothesis HT : forall i n q, 0 <= i < nd -> 0 <= n < nf -> 0 <= q < nket * nf * ng ->
    term (C4 kappa l i n) q = Some (T i n q).

  (** the first k terms of the sum for output cell x *)
  Definition bsum (k x : Z) : V4 :=
    lsum z4 qadd k (fun n => T ((x / ng) mod nd) n ((x / ng / nd * nf + n) * ng + x mod ng)).

  Lemma bsum_at k j i m : 0 <= i < nd -> 0 <= m < ng ->
    bsum k ((j * nd + i) * ng + m) = lsum z4 qadd k (fun n => T i n ((j * nf + n) * ng + m)).
  Proof.
    intros Hi Hm. unfold bsum. destruct (dec2 ng (j * nd + i) m Hm) as [-> ->].
    destruct (dec2 nd j i Hi) as [-> ->]. reflexivity.
  Qed.

  Lemma nd_nonneg : 0 <= nd. Proof. apply len_spinor_nonneg. lia. Qed.
  Lemma nf_pos : 0 < nf. Proof. unfold nf. rewrite len_cart_ncart by lia. apply ncart_pos. lia. Qed.

  Lemma addr_lt a N i d m g : 0 <= a < N -> 0 <= i < d -> 0 <= m < g -> 0 <= (a * d + i) * g + m < N * (d * g).
  Proof. clear. intros. assert (0 <= a * d + i < N * d) by nia. nia. Qed.

  Lemma bra1_fill aR aI : nket * (nd * ng) * 2 <= asize aR -> nket * (nd * ng) * 2 <= asize aI ->
    wp (bra1_loops zero add tJR tJI term aR aI ng nket kappa l)
       (Fill (get4 (nket * (nd * ng))) emb4 (dom4 (nket * (nd * ng))) (rest4 (nket * (nd * ng)))
          (fun x => 0 <= x < nket * (nd * ng)) (bsum nf) (aR, aI)).
  Proof.
    intros SR SI. unfold bra1_loops. destruct (cart2j_ok kappa l Hl) as [c [E1 [E2 _]]]. rewrite E1. cbn [bind].
    fold nf nd in E2 |- *. set (ndg := nd * ng) in *. set (b := nket * ndg) in *.
    pose proof nd_nonneg as Pd. pose proof nf_pos as Pf.
    assert (Pg : 0 <= ndg) by (apply Z.mul_nonneg_nonneg; lia).
    assert (Pb : 0 <= b) by (apply Z.mul_nonneg_nonneg; lia).
    eapply wp_mono; [apply (Fill_seq (get4 b) emb4 (dom4 b) (rest4 b) (rest4_refl b) (rest4_trans b) nket (fun j => j * ndg) (bsum nf))|].
    - exact Hnk.
    - intros j Hj. lia.
    - intros j s Hj [[Sa Sb] _] _. cbn [fst snd] in Sa, Sb.
      assert (Jb : 0 <= j * ndg /\ j * ndg + ndg <= b) by (unfold b; clear - Hj Pg; nia).
      apply wp_bind.
      eapply wp_mono.
      { apply (Fill_seq (get4 b) emb4 (dom4 b) (rest4 b) (rest4_refl b) (rest4_trans b) ndg (fun i => j * ndg + i) (fun _ => z4)).
        - exact Pg.
        - intros; lia.
        - intros i t Hi [[Ta Tb] _] _. destruct t as [tR tI]. cbn [fst snd] in Ta, Tb.
          eapply wp_mono; [apply (wr4 b tR tI (j * ndg + i) zero zero zero zero (fun _ => z4)); [lia|lia|lia|reflexivity]|].
          intros r Hr. eapply Fill_ext; [exact Hr| |reflexivity]. intros x _. cbv beta. lia. }
      intros s1 Z1. cbv beta in Z1.
      eapply wp_mono.
      { apply (Fill_seq (get4 b) emb4 (dom4 b) (rest4 b) (rest4_refl b) (rest4_trans b) nd (fun i => (j * nd + i) * ng) (bsum nf)).
        - exact Pd.
        - intros i Hi. lia.
        - intros i t Hi Rt Gt. assert (Rst : rest4 b s t) by (eapply rest4_trans; [apply Z1|exact Rt]). destruct Rst as [[Ta Tb] _].
          assert (Ib : 0 <= (j * nd + i) * ng /\ (j * nd + i) * ng + ng <= b /\ j * ndg <= (j * nd + i) * ng /\ (j * nd + i) * ng + ng <= j * ndg + ndg).
          { unfold b, ndg in *. clear - Hi Hj Hng Pd. assert (0 <= j * nd + i /\ j * nd + i + 1 <= nket * nd) by nia. nia. }
          eapply wp_mono.
          { apply (Fill_acc (get4 b) emb4 (dom4 b) (rest4 b) nf
                     (fun x => (j * nd + i) * ng <= x < (j * nd + (i + 1)) * ng) bsum _ t t).
            - lia.
            - split; [apply rest4_refl|]. intros x Hx. split; [|reflexivity]. intros hx.
              rewrite Gt by (auto; lia). unfold bsum. rewrite lsum_0 by lia.
              apply Z1; [exact Hx|lia].
            - intros n u Hn Hu. rewrite (E2 i n Hi Hn). cbn [bind].
              assert (Ru : rest4 b t u) by apply Hu. destruct Ru as [[Ua Ub] _].
              eapply wp_mono.
              { apply (Fill_seq (get4 b) emb4 (dom4 b) (rest4 b) (rest4_refl b) (rest4_trans b) ng (fun m => (j * nd + i) * ng + m) (bsum (n + 1))).
                - exact Hng.
                - intros; lia.
                - intros m v Hm [[Va Vb] _] Gv. destruct v as [vR vI]. cbn [fst snd] in *.
                  assert (Q : 0 <= (j * nf + n) * ng + m < nket * nf * ng).
                  { pose proof (addr_lt j nket n nf m ng Hj Hn Hm). lia. }
                  rewrite (HT i n _ Hi Hn Q). cbn [bind].
                  destruct (T i n ((j * nf + n) * ng + m)) as [[[p q] r] w] eqn:ET. 
                  eapply wp_mono.
                  { apply (inc4 b vR vI ((j * nd + i) * ng + m) (bsum n ((j * nd + i) * ng + m)) (p, q, r, w) (bsum (n + 1))).
                    - lia.
                    - lia.
                    - lia.
                    - rewrite Gv by (unfold dom4; lia). apply Hu; [unfold dom4; lia|lia].
                    - rewrite !bsum_at by auto. rewrite lsum_succ by lia. rewrite ET. reflexivity. }
                  intros z Hz. eapply Fill_ext; [exact Hz| |reflexivity]. intros x _. cbv beta. lia. }
              intros u' Hu'. cbv beta in Hu'. eapply Fill_over; [apply rest4_trans|exact Hu| |].
              + eapply Fill_ext; [exact Hu'| |reflexivity]. intros x _. cbv beta. lia.
              + auto. }
          intros u Hu. exact Hu. }
      intros s2 Z2. cbv beta in Z2. eapply Fill_over; [apply rest4_trans|exact Z1| |].
      + eapply Fill_ext; [exact Z2| |reflexivity]. intros x _. cbv beta. unfold ndg. lia.
      + intros x _. cbv beta. lia.
    - intros s Hs. cbv beta in Hs. eapply Fill_ext; [exact Hs| |reflexivity]. intros x _. cbv beta. unfold b. lia.
  Qed.
End B.
