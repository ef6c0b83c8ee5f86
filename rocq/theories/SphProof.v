(** SphProof.v — the Cartesian-to-spherical stages. *)
From Coq Require Import Ring.
From Verif Require Import Base BasModel FblasModel FblasSpec FblasProof EnvModel OutModel OutSpec OutRules OutProof.

Section Stage.
  Context {F : Type} (zero one : F) (add mul sub_ : F -> F -> F) (opp : F -> F).
  Hypothesis Rth : ring_theory zero one add mul sub_ opp eq.
  Add Ring Fr : Rth.
  Context (coef : Z -> F).
  Notation T := (Tmat coef c2s_off len_cart).
  Notation app := (apply_T zero add mul coef c2s_off len_cart).

  Record table_ok : Prop := {
    to_s : identity_block zero one coef c2s_off len_cart 0;
    to_p : identity_block zero one coef c2s_off len_cart 1;
    to_d : skips_zeros zero coef c2s_off len_cart 2 d_rows;
    to_f : skips_zeros zero coef c2s_off len_cart 3 f_rows;
    to_g : skips_zeros zero coef c2s_off len_cart 4 g_rows }.
  Hypothesis Htab : table_ok.

  Lemma l_cases l : 0 <= l <= 15 -> In l [0;1;2;3;4;5;6;7;8;9;10;11;12;13;14;15].
  Proof. intros H. cbn [In]. lia. Qed.

  Lemma off_bound l : 0 <= l <= 15 ->
    1 <= len_cart l /\ 0 <= c2s_off l /\ c2s_off l + (l * 2 + 1) * len_cart l <= g_trans_size.
  Proof.
    intros H. apply l_cases in H.
    assert (C : forallb (fun l => (1 <=? len_cart l) && (0 <=? c2s_off l) &&
      (c2s_off l + (l * 2 + 1) * len_cart l <=? g_trans_size)) [0;1;2;3;4;5;6;7;8;9;10;11;12;13;14;15] = true)
      by (vm_compute; reflexivity).
    rewrite forallb_forall in C. specialize (C l H). lia.
  Qed.

  Lemma len_cart_eq l : 0 <= l <= 15 -> len_cart l = CINTlen_cart l.
  Proof.
    intros H. apply l_cases in H.
    assert (C : forallb (fun l => len_cart l =? CINTlen_cart l) [0;1;2;3;4;5;6;7;8;9;10;11;12;13;14;15] = true)
      by (vm_compute; reflexivity).
    rewrite forallb_forall in C. specialize (C l H). lia.
  Qed.

  Lemma rd_cart2sph l m a : 0 <= l <= 15 -> 0 <= m < l * 2 + 1 -> 0 <= a < len_cart l ->
    rd (cart2sph coef l) (m * len_cart l + a) = Some (T l m a).
  Proof.
    intros Hl Hm Ha. destruct (off_bound l Hl) as [B1 [B2 B3]].
    assert (m * len_cart l + a < (l * 2 + 1) * len_cart l) by nia.
    assert (0 <= m * len_cart l + a) by nia.
    unfold cart2sph. rewrite rd_sub by lia. rewrite rd_of_fun by lia. unfold Tmat. f_equal. f_equal. ring.
  Qed.

  (** ** Sums *)
  Lemma lsum_zeros (f : Z -> F) lo n : 0 <= lo <= n -> (forall a, lo <= a < n -> f a = zero) ->
    lsum zero add n f = lsum zero add lo f.
  Proof.
    intros H Hz. replace n with (lo + Z.of_nat (Z.to_nat (n - lo))) by lia.
    assert (Hz' : forall a, lo <= a < lo + Z.of_nat (Z.to_nat (n - lo)) -> f a = zero) by (intros; apply Hz; lia).
    clear Hz. induction (Z.to_nat (n - lo)) as [|k IH].
    - rewrite Nat2Z.inj_0, Z.add_0_r. reflexivity.
    - rewrite Nat2Z.inj_succ. unfold Z.succ. rewrite Z.add_assoc, lsum_succ by lia.
      rewrite IH by (intros; apply Hz'; lia). rewrite Hz' by lia. ring.
  Qed.

  Lemma lsum_pick (f : Z -> F) m n : 0 <= m < n -> (forall a, 0 <= a < n -> a <> m -> f a = zero) ->
    lsum zero add n f = f m.
  Proof.
    intros Hm Hz. rewrite (lsum_zeros f (m + 1) n) by (try lia; intros; apply Hz; lia).
    rewrite lsum_succ by lia. rewrite (lsum_zeros f 0 m) by (try lia; intros; apply Hz; lia).
    rewrite lsum_0 by lia. ring.
  Qed.

  Lemma identity_apply l m x : identity_block zero one coef c2s_off len_cart l ->
    0 <= m < len_cart l -> app l m x = x m.
  Proof.
    intros Hid Hm. unfold apply_T. rewrite (lsum_pick _ m _ Hm).
    - rewrite (Hid m m Hm Hm), Z.eqb_refl. ring.
    - intros a Ha Hne. rewrite (Hid m a Hm Ha). destruct (Z.eqb_spec m a); [lia|ring].
  Qed.

  (** ** Hand-written rows *)
  (** structure of a row of the hand-written transforms: increasing Cartesian indices,
      and the coefficient index is the table position of that row *)
  Fixpoint row_inc (lo n base : Z) (r : list (Z * Z)) : bool :=
    match r with
    | [] => true
    | (c, a) :: r => (lo <=? a) && (a <? n) && (c =? base + a) && row_inc (a + 1) n base r
    end.

  Section Row.
    Variables (l m n : Z) (x : Z -> F) (gcart : arr F) (at_ : Z -> Z).
    Hypothesis Hl : 0 <= l <= 15.
    Hypothesis Hm : 0 <= m < l * 2 + 1.
    Hypothesis Hn : n = len_cart l.
    Hypothesis Hx : forall a, 0 <= a < n -> rd gcart (at_ a) = Some (x a).
    Let f a := mul (T l m a) (x a).

    Lemma row_more_sum r : forall lo, 0 <= lo <= n -> row_inc lo n (m * n) r = true ->
      (forall a, lo <= a < n -> ~ In a (map snd r) -> T l m a = zero) ->
      row_more add mul (cart2sph coef l) gcart at_ (lsum zero add lo f) r = Some (lsum zero add n f).
    Proof.
      induction r as [|[c a] r IH]; intros lo Hlo Hinc Hz; cbn [row_more].
      - f_equal. symmetry. apply lsum_zeros; [lia|]. intros a Ha. unfold f. rewrite Hz; [ring|lia|intros []].
      - cbn [row_inc] in Hinc. apply andb_prop in Hinc. destruct Hinc as [Hinc Hr].
        assert (Hc : c = m * n + a) by lia. assert (Ha : lo <= a < n) by lia. subst c.
        rewrite Hn at 1. rewrite rd_cart2sph by lia. cbn [bind]. rewrite Hx by lia. cbn [bind].
        replace (add (lsum zero add lo f) (mul (T l m a) (x a))) with (lsum zero add (a + 1) f).
        + apply IH; [lia|exact Hr|]. intros b Hb Hin. apply Hz; [lia|].
          cbn [map snd]. intros [E|E]; [lia|auto].
        + rewrite lsum_succ by lia. f_equal. apply lsum_zeros; [lia|]. intros b Hb. unfold f.
          rewrite Hz; [ring|lia|]. cbn [map snd]. intros [E|E]; [lia|].
          assert (G : forall r lo', row_inc lo' n (m * n) r = true -> In b (map snd r) -> lo' <= b).
          { clear -b. induction r as [|[c' a'] r IHr]; intros lo' H1 H2; [destruct H2|].
            cbn [row_inc] in H1. apply andb_prop in H1. destruct H1 as [H1 H3].
            destruct H2 as [E|E]; [cbn [snd] in E; lia|]. specialize (IHr _ H3 E). lia. }
          specialize (G r (a + 1) Hr E). lia.
    Qed.

    Lemma row_val_sum r : r <> [] -> row_inc 0 n (m * n) r = true ->
      (forall a, 0 <= a < n -> ~ In a (map snd r) -> T l m a = zero) ->
      row_val add mul (cart2sph coef l) gcart at_ r = Some (app l m x).
    Proof.
      intros Hne Hinc Hz. unfold apply_T. rewrite <- Hn. fold f.
      pose proof (row_more_sum r 0 ltac:(destruct (off_bound l Hl); lia) Hinc Hz) as H.
      destruct r as [|[c a] r]; [congruence|]. cbn [row_more] in H. cbn [row_val].
      destruct (rd (cart2sph coef l) c) as [cv|]; [|discriminate]. cbn [bind] in *.
      destruct (rd gcart (at_ a)) as [xv|]; [|discriminate]. cbn [bind] in *.
      rewrite lsum_0 in H by lia. replace (mul cv xv) with (add zero (mul cv xv)) by ring. exact H.
    Qed.
  End Row.

  Definition rows_chk (n : Z) (rs : list (list (Z * Z))) : bool :=
    forallb (fun p => match snd p with [] => false | _ => row_inc 0 n (Z.of_nat (fst p) * n) (snd p) end)
      (combine (seq 0 (length rs)) rs).

  Lemma rows_from_puts (sz : Z) (V : Z -> F -> Prop) l gcart at_ to x rs :
    0 <= l <= 15 ->
    Z.of_nat (length rs) = l * 2 + 1 ->
    (forall k r, nth_error rs k = Some r -> r <> [] /\ row_inc 0 (len_cart l) (Z.of_nat k * len_cart l) r = true) ->
    skips_zeros zero coef c2s_off len_cart l rs ->
    (forall a, 0 <= a < len_cart l -> rd gcart (at_ a) = Some (x a)) ->
    (forall m, 0 <= m < l * 2 + 1 -> 0 <= to m < sz /\ V (to m) (app l m x)) ->
    puts sz V (fun c => exists m, 0 <= m < l * 2 + 1 /\ c = to m)
      (fun gsph => rows_from add mul (cart2sph coef l) gcart at_ to 0 rs gsph).
  Proof.
    intros Hl Hlen Hrow Hskip Hx HV.
    assert (G : forall tl pre, rs = pre ++ tl -> forall gsph, asize gsph = sz ->
      wp (rows_from add mul (cart2sph coef l) gcart at_ to (Z.of_nat (length pre)) tl gsph)
        (Puts (fun c => exists m, Z.of_nat (length pre) <= m < l * 2 + 1 /\ c = to m) V gsph)).
    { induction tl as [|r tl IH]; intros pre E gsph Hs; cbn [rows_from].
      - cbn. apply Puts_none. intros c [m [Hm _]]. subst rs. rewrite app_length in Hlen. cbn in Hlen. lia.
      - assert (Hn : nth_error rs (length pre) = Some r)
          by (rewrite E, nth_error_app2, Nat.sub_diag by lia; reflexivity).
        destruct (Hrow _ _ Hn) as [Hne Hinc].
        assert (Hm : 0 <= Z.of_nat (length pre) < l * 2 + 1)
          by (subst rs; rewrite app_length in Hlen; cbn [length] in Hlen; lia).
        rewrite (row_val_sum l (Z.of_nat (length pre)) (len_cart l) x gcart at_ Hl Hm eq_refl Hx r Hne Hinc).
        2:{ intros a Ha Hin. apply (Hskip _ _ Hn a Ha Hin). }
        cbn [bind]. destruct (HV _ Hm) as [Hb Hv].
        apply wp_bind. eapply wp_mono; [apply (puts_wr sz V _ _ Hb Hv gsph Hs)|].
        intros g1 H1. replace (Z.of_nat (length pre) + 1) with (Z.of_nat (length (pre ++ [r])))
          by (rewrite app_length; cbn; lia).
        eapply wp_mono; [apply (IH (pre ++ [r])); [rewrite E, <- app_assoc; reflexivity|destruct H1; congruence]|].
        intros g2 H2. eapply Puts_iff; [eapply Puts_seq; [exact H1|exact H2]|].
        rewrite app_length; cbn [length]. intros c. split.
        + intros [m [Hm' ->]]. destruct (Z.eq_dec m (Z.of_nat (length pre))); [left; congruence|].
          right. exists m. split; [lia|reflexivity].
        + intros [->|[m [Hm' ->]]]; [exists (Z.of_nat (length pre)); split; [lia|reflexivity]|].
          exists m. split; [lia|reflexivity]. }
    intros gsph Hs. eapply wp_mono; [apply (G rs [] eq_refl gsph Hs)|].
    intros r Hr. eapply Puts_iff; [exact Hr|]. intros c. cbn. split; intros [m [Hm E]]; exists m; split; auto; lia.
  Qed.

  Lemma rows_chk_ok n rs : rows_chk n rs = true ->
    forall k r, nth_error rs k = Some r -> r <> [] /\ row_inc 0 n (Z.of_nat k * n) r = true.
  Proof.
    intros H k r Hk. unfold rows_chk in H. rewrite forallb_forall in H.
    assert (G : forall (rs : list (list (Z * Z))) s k r, nth_error rs k = Some r ->
              In ((s + k)%nat, r) (combine (seq s (length rs)) rs)).
    { induction rs0 as [|r0 rs0 IH]; intros s k0 r1 Hk0; [destruct k0; discriminate|].
      destruct k0 as [|k0]; cbn in *.
      - injection Hk0 as ->. left. f_equal. lia.
      - right. replace (s + S k0)%nat with (S s + k0)%nat by lia. apply IH. exact Hk0. }
    specialize (H _ (G rs 0%nat k r Hk)). cbn [fst snd] in H. destruct r; [discriminate|].
    split; [discriminate|exact H].
  Qed.

  (** ** Results as value functions *)
  (** [yields v N y]: the view holds the values [y] at 0..N-1. *)
  Definition val_of (v : arr F) (q : Z) : F := match rd v q with Some z => z | None => zero end.

  Lemma reads_val_of v N : (forall q, 0 <= q < N -> exists z, rd v q = Some z) -> reads v N (val_of v).
  Proof. intros H q Hq. destruct (H q Hq) as [z Hz]. unfold val_of. rewrite Hz. reflexivity. Qed.

  (** a two-radix family of cells *)
  Lemma reads_radix v r c (g : Z -> Z -> F) : 0 <= r ->
    (forall i j, 0 <= i < r -> 0 <= j < c -> rd v (j * r + i) = Some (g i j)) ->
    exists y, reads v (r * c) y /\ forall i j, 0 <= i < r -> 0 <= j < c -> y (j * r + i) = g i j.
  Proof.
    intros Hr H. exists (val_of v). split.
    - apply reads_val_of. intros q Hq. apply split_idx in Hq; [|exact Hr].
      destruct Hq as [j [Hj [i [Hi ->]]]]. exists (g i j). apply H; auto.
    - intros i j Hi Hj. unfold val_of. rewrite H by auto. reflexivity.
  Qed.

  Lemma Puts_radix (buf r : arr F) R C (g : Z -> Z -> F) (to : Z -> Z -> Z) : 0 <= R ->
    (forall i j, 0 <= i < R -> 0 <= j < C -> to i j = j * R + i) ->
    R * C <= asize buf ->
    Puts (fun c => exists i j, 0 <= i < R /\ 0 <= j < C /\ c = j * R + i)
      (fun c v => exists i j, 0 <= i < R /\ 0 <= j < C /\ c = j * R + i /\ v = g i j) buf r ->
    exists y, reads r (R * C) y /\ forall i j, 0 <= i < R -> 0 <= j < C -> y (j * R + i) = g i j.
  Proof.
    intros HR Hto Hsz [Hs H]. apply reads_radix; [exact HR|]. intros i j Hi Hj.
    apply rd_spec. split; [assert (j * R + i < R * C) by nia; nia|].
    destruct (H (j * R + i)) as [[_ [x [E [i' [j' [Hi' [Hj' [E1 ->]]]]]]]]|[h _]].
    - rewrite E. f_equal. assert (j = j') by nia. assert (i = i') by nia. subst. reflexivity.
    - exfalso. apply h. exists i, j. auto.
  Qed.

  (** ** The ket stage (lds = nbra) *)
  Definition ket_post (l nbra : Z) (x : Z -> F) (buf : arr F) (r : arr F * arr F) : Prop :=
    asize (fst r) = asize buf /\
    exists y, reads (snd r) (nbra * (l * 2 + 1)) y /\
      forall b m, 0 <= b < nbra -> 0 <= m < l * 2 + 1 ->
        y (m * nbra + b) = app l m (fun a => x (a * nbra + b)).

  Lemma sp_post_ket l nbra x g buf : l = 0 \/ l = 1 -> 0 <= nbra -> reads g (nbra * len_cart l) x ->
    wp (sp_ket_cart2spheric buf g nbra nbra l) (ket_post l nbra x buf).
  Proof.
    intros Hl Hn Hx. cbn. split; [reflexivity|]. exists x. split.
    - destruct Hl; subst l; exact Hx.
    - intros b m Hb Hm. symmetry. apply (identity_apply l m (fun a => x (a * nbra + b))).
      + destruct Hl; subst l; [apply to_s|apply to_p]; exact Htab.
      + destruct Hl; subst l; exact Hm.
  Qed.

  Lemma dfg_post_ket l nbra x g buf rs : 0 <= l <= 15 -> 0 <= nbra ->
    Z.of_nat (length rs) = l * 2 + 1 -> rows_chk (len_cart l) rs = true ->
    skips_zeros zero coef c2s_off len_cart l rs ->
    reads g (nbra * len_cart l) x -> nbra * (l * 2 + 1) <= asize buf ->
    wp (dfg_ket add mul coef l rs buf g nbra nbra) (ket_post l nbra x buf).
  Proof.
    intros Hl Hn Hlen Hchk Hskip Hx Hsz. unfold dfg_ket. apply wp_bind. eapply wp_mono.
    - apply (puts_for (asize buf) (fun c v => exists i j, 0 <= i < nbra /\ 0 <= j < l * 2 + 1 /\
               c = j * nbra + i /\ v = app l j (fun a => x (a * nbra + i)))
             (fun i c => exists m, 0 <= m < l * 2 + 1 /\ c = m * nbra + i)); [|reflexivity].
      intros i Hi. apply (rows_from_puts _ _ l g _ _ (fun a => x (a * nbra + i))); auto.
      + apply rows_chk_ok. exact Hchk.
      + intros a Ha. apply Hx. nia.
      + intros m Hm. split; [nia|]. exists i, m. auto.
    - intros r Hr. cbn. split; [exact (proj1 Hr)|].
      destruct (Puts_radix buf r nbra (l * 2 + 1) (fun i j => app l j (fun a => x (a * nbra + i)))
        (fun i j => j * nbra + i) Hn ltac:(reflexivity) Hsz) as [y [Hy1 Hy2]].
      + eapply Puts_iff; [exact Hr|]. intros c. split.
        * intros [i [j [Hi [Hj ->]]]]. exists i. split; [auto|]. exists j. auto.
        * intros [i [Hi [j [Hj ->]]]]. exists i, j. auto.
      + exists y. split; [exact Hy1|]. intros b m Hb Hm. apply Hy2; auto.
  Qed.

  Lemma a_post_ket l nbra x g buf : 0 <= l <= 15 -> 0 <= nbra ->
    reads g (nbra * len_cart l) x -> nbra * (l * 2 + 1) <= asize buf ->
    wp (a_ket_cart2spheric zero add mul coef buf g nbra nbra l) (ket_post l nbra x buf).
  Proof.
    intros Hl Hn Hx Hsz. unfold a_ket_cart2spheric. destruct (off_bound l Hl) as [B1 [B2 B3]].
    destruct (dgemm_NN1_ok zero add mul nbra (l * 2 + 1) (len_cart l) nbra g (cart2sph coef l) buf
      (fun i p => x (p * nbra + i)) (fun p j => T l j p)) as [c [E [Hs [Hh _]]]]; try lia.
    - intros i j Hi Hj. replace (i + nbra * j) with (j * nbra + i) by ring. apply Hx. nia.
    - intros p j Hp Hj. replace (p + len_cart l * j) with (j * len_cart l + p) by ring. apply rd_cart2sph; auto.
    - rewrite E. cbn. split; [exact Hs|].
      destruct (reads_radix c nbra (l * 2 + 1) (fun i j => app l j (fun a => x (a * nbra + i))) Hn) as [y [Hy1 Hy2]].
      + intros i j Hi Hj. rewrite (Z.add_comm (j * nbra)), (Z.mul_comm j). rewrite Hh by auto.
        f_equal. unfold prod, apply_T. apply lsum_ext. intros a Ha. ring.
      + exists y. split; [exact Hy1|]. intros b m Hb Hm. apply Hy2; auto.
  Qed.

  (** ** The bra stage *)
  Definition bra_post (l nket : Z) (x : Z -> F) (buf : arr F) (r : arr F * arr F) : Prop :=
    asize (fst r) = asize buf /\
    exists y, reads (snd r) ((l * 2 + 1) * nket) y /\
      forall m k, 0 <= m < l * 2 + 1 -> 0 <= k < nket ->
        y (k * (l * 2 + 1) + m) = app l m (fun a => x (k * len_cart l + a)).

  Lemma sp_post_bra l nket x g buf : l = 0 \/ l = 1 -> reads g (len_cart l * nket) x ->
    wp (sp_bra_cart2spheric buf nket g l) (bra_post l nket x buf).
  Proof.
    intros Hl Hx. cbn. split; [reflexivity|]. exists x. split.
    - destruct Hl; subst l; exact Hx.
    - intros m k Hm Hk. rewrite (identity_apply l m (fun a => x (k * len_cart l + a))).
      + destruct Hl; subst l; reflexivity.
      + destruct Hl; subst l; [apply to_s|apply to_p]; exact Htab.
      + destruct Hl; subst l; exact Hm.
  Qed.

  Lemma dfg_post_bra l nd nf nket x g buf rs : 0 <= l <= 15 -> nd = l * 2 + 1 -> nf = len_cart l ->
    Z.of_nat (length rs) = l * 2 + 1 -> rows_chk (len_cart l) rs = true ->
    skips_zeros zero coef c2s_off len_cart l rs ->
    reads g (len_cart l * nket) x -> (l * 2 + 1) * nket <= asize buf ->
    wp (dfg_bra add mul coef l nd nf rs buf nket g) (bra_post l nket x buf).
  Proof.
    intros Hl -> -> Hlen Hchk Hskip Hx Hsz. unfold dfg_bra. apply wp_bind.
    destruct (off_bound l Hl) as [B1 _]. eapply wp_mono.
    - apply (puts_for (asize buf) (fun c v => exists i j, 0 <= i < l * 2 + 1 /\ 0 <= j < nket /\
               c = j * (l * 2 + 1) + i /\ v = app l i (fun a => x (j * len_cart l + a)))
             (fun k c => exists m, 0 <= m < l * 2 + 1 /\ c = k * (l * 2 + 1) + m)); [|reflexivity].
      intros k Hk. apply (rows_from_puts _ _ l g _ _ (fun a => x (k * len_cart l + a))); auto.
      + apply rows_chk_ok. exact Hchk.
      + intros a Ha. apply Hx. nia.
      + intros m Hm. split; [nia|]. exists m, k. auto.
    - intros r Hr. cbn. split; [exact (proj1 Hr)|].
      destruct (Puts_radix buf r (l * 2 + 1) nket (fun i j => app l i (fun a => x (j * len_cart l + a)))
        (fun i j => j * (l * 2 + 1) + i) ltac:(lia) ltac:(reflexivity) Hsz) as [y [Hy1 Hy2]].
      + eapply Puts_iff; [exact Hr|]. intros c. split.
        * intros [i [j [Hi [Hj ->]]]]. exists j. split; [auto|]. exists i. auto.
        * intros [j [Hj [i [Hi ->]]]]. exists i, j. auto.
      + exists y. split; [exact Hy1|]. intros m k Hm Hk. apply Hy2; auto.
  Qed.

  Lemma a_post_bra l nket x g buf : 0 <= l <= 15 -> 0 <= nket ->
    reads g (len_cart l * nket) x -> (l * 2 + 1) * nket <= asize buf ->
    wp (a_bra_cart2spheric zero add mul coef buf nket g l) (bra_post l nket x buf).
  Proof.
    intros Hl Hn Hx Hsz. unfold a_bra_cart2spheric. destruct (off_bound l Hl) as [B1 [B2 B3]].
    destruct (dgemm_TN_ok zero add mul (l * 2 + 1) nket (len_cart l) (cart2sph coef l) g buf
      (fun i p => T l i p) (fun p j => x (j * len_cart l + p))) as [c [E [Hs [Hh _]]]]; try lia.
    - intros p j Hp Hj. replace (p + len_cart l * j) with (j * len_cart l + p) by ring. apply rd_cart2sph; auto.
    - intros p j Hp Hj. replace (p + len_cart l * j) with (j * len_cart l + p) by ring. apply Hx. nia.
    - rewrite E. cbn. split; [exact Hs|].
      destruct (reads_radix c (l * 2 + 1) nket (fun i j => app l i (fun a => x (j * len_cart l + a))) ltac:(lia)) as [y [Hy1 Hy2]].
      + intros i j Hi Hj. rewrite (Z.add_comm (j * (l * 2 + 1))), (Z.mul_comm j). rewrite Hh by auto. reflexivity.
      + exists y. split; [exact Hy1|]. intros m k Hm Hk. apply Hy2; auto.
  Qed.

  (** ** Dispatch *)
  Lemma ket_ok l nbra x g buf : 0 <= l <= 15 -> 0 <= nbra ->
    reads g (nbra * len_cart l) x -> (2 <= l -> nbra * (l * 2 + 1) <= asize buf) ->
    wp (ket <- c2s_ket_sph zero add mul coef l ;; ket buf g nbra nbra l) (ket_post l nbra x buf).
  Proof.
    intros Hl Hn Hx Hsz. unfold c2s_ket_sph.
    replace ((l <? 0) || (15 <? l)) with false by lia. cbn [bind].
    assert (C : (l = 0 \/ l = 1) \/ l = 2 \/ l = 3 \/ l = 4 \/ 5 <= l) by lia.
    destruct C as [C|[C|[C|[C|C]]]].
    - pose proof (sp_post_ket l nbra x g buf C Hn Hx) as H. destruct C; subst l; exact H.
    - subst l. apply (dfg_post_ket 2 nbra x g buf d_rows); first [exact (to_d Htab)|apply Hsz; lia|assumption|reflexivity|lia].
    - subst l. apply (dfg_post_ket 3 nbra x g buf f_rows); first [exact (to_f Htab)|apply Hsz; lia|assumption|reflexivity|lia].
    - subst l. apply (dfg_post_ket 4 nbra x g buf g_rows); first [exact (to_g Htab)|apply Hsz; lia|assumption|reflexivity|lia].
    - pose proof (a_post_ket l nbra x g buf Hl Hn Hx (Hsz ltac:(lia))) as H.
      destruct l as [|p|p]; try lia. do 3 (destruct p as [p|p|]; try lia; try exact H).
  Qed.

  Lemma bra_ok l nket x g buf : 0 <= l <= 15 -> 0 <= nket ->
    reads g (len_cart l * nket) x -> (2 <= l -> (l * 2 + 1) * nket <= asize buf) ->
    wp (bra <- c2s_bra_sph zero add mul coef l ;; bra buf nket g l) (bra_post l nket x buf).
  Proof.
    intros Hl Hn Hx Hsz. unfold c2s_bra_sph.
    replace ((l <? 0) || (15 <? l)) with false by lia. cbn [bind].
    assert (C : (l = 0 \/ l = 1) \/ l = 2 \/ l = 3 \/ l = 4 \/ 5 <= l) by lia.
    destruct C as [C|[C|[C|[C|C]]]].
    - pose proof (sp_post_bra l nket x g buf C Hx) as H. destruct C; subst l; exact H.
    - subst l. apply (dfg_post_bra 2 5 6 nket x g buf d_rows); first [exact (to_d Htab)|apply Hsz; lia|assumption|reflexivity|lia].
    - subst l. apply (dfg_post_bra 3 7 10 nket x g buf f_rows); first [exact (to_f Htab)|apply Hsz; lia|assumption|reflexivity|lia].
    - subst l. apply (dfg_post_bra 4 9 15 nket x g buf g_rows); first [exact (to_g Htab)|apply Hsz; lia|assumption|reflexivity|lia].
    - pose proof (a_post_bra l nket x g buf Hl Hn Hx (Hsz ltac:(lia))) as H.
      destruct l as [|p|p]; try lia. do 3 (destruct p as [p|p|]; try lia; try exact H).
  Qed.

  (** ** Inner stage: ncall kets side by side *)
  Definition inner_post (l nb nc : Z) (x : Z -> F) (buf : arr F) (r : arr F * arr F) : Prop :=
    asize (fst r) = asize buf /\
    exists y, reads (snd r) (nb * (l * 2 + 1) * nc) y /\
      forall b m n, 0 <= b < nb -> 0 <= m < l * 2 + 1 -> 0 <= n < nc ->
        y ((n * (l * 2 + 1) + m) * nb + b) = app l m (fun a => x ((n * len_cart l + a) * nb + b)).

  Lemma inner_calls_ok ket l nb nc x g buf : 0 <= l <= 15 -> 0 <= nb -> 0 <= nc ->
    (forall s gv xv, reads gv (nb * len_cart l) xv -> nb * (l * 2 + 1) <= asize s ->
       wp (ket s gv nb nb l) (fun r => ket_post l nb xv s r /\ snd r = fst r)) ->
    reads g (nb * len_cart l * nc) x -> nb * (l * 2 + 1) * nc <= asize buf ->
    wp (inner_calls ket buf g l nb nc (nb * (l * 2 + 1)) (nb * len_cart l)) (inner_post l nb nc x buf).
  Proof.
    intros Hl Hnb Hnc Hket Hx Hsz. unfold inner_calls. apply wp_bind.
    destruct (off_bound l Hl) as [B1 _].
    set (S := nb * (l * 2 + 1)) in *. set (C := nb * len_cart l) in *.
    assert (PS : 0 <= S) by (unfold S; nia). assert (PC : 0 <= C) by (unfold C; nia).
    eapply (wp_for (fun n (r : arr F) => asize r = asize buf /\
       forall n' b m, 0 <= n' < n -> 0 <= b < nb -> 0 <= m < l * 2 + 1 ->
         rd r (n' * S + (m * nb + b)) = Some (app l m (fun a => x ((n' * len_cart l + a) * nb + b))))); [exact Hnc| | |].
    - split; [reflexivity|]. intros; lia.
    - intros n r Hn [Hs Hr]. unfold onsub. apply wp_bind. apply wp_bind.
      assert (HnS : n * S + S <= S * nc) by nia. assert (0 <= n * S) by nia.
      assert (HnC : n * C + C <= C * nc) by nia. assert (0 <= n * C) by nia.
      eapply wp_mono; [apply (Hket (sub r (n * S)) (sub g (n * C)) (fun q => x (n * C + q)))|].
      + eapply reads_sub; [lia| |exact Hx]. lia.
      + cbn [asize sub]. lia.
      + intros [s v] [[H1 [y [H2 H3]]] E]. cbn [fst snd wp] in *. subst v.
        split; [exact Hs|]. intros n' b m Hn' Hb Hm.
        assert (Hq : 0 <= m * nb + b < S) by (unfold S; nia).
        unfold rd, inb, splice. cbn [asize acell].
        destruct (Z.eq_dec n' n) as [->|Hne].
        * replace ((0 <=? n * S + (m * nb + b)) && (n * S + (m * nb + b) <? asize r)) with true by nia.
          replace (n * S <=? n * S + (m * nb + b)) with true by lia.
          replace (n * S + (m * nb + b) - n * S) with (m * nb + b) by lia.
          assert (Hy : rd s (m * nb + b) = Some (y (m * nb + b))) by (apply H2; exact Hq).
          apply rd_spec in Hy. destruct Hy as [_ Hy]. rewrite Hy, H3 by auto. f_equal. 
          unfold apply_T. apply lsum_ext. intros a Ha. do 2 f_equal. unfold C. ring.
        * assert (n' * S + (m * nb + b) < n * S) by nia.
          specialize (Hr n' b m ltac:(lia) Hb Hm). apply rd_spec in Hr. destruct Hr as [Hr1 Hr2].
          replace ((0 <=? n' * S + (m * nb + b)) && (n' * S + (m * nb + b) <? asize r)) with true by lia.
          replace (n * S <=? n' * S + (m * nb + b)) with false by lia. exact Hr2.
    - intros r [Hs Hr]. cbn. split; [exact Hs|].
      exists (val_of r). split.
      + apply reads_val_of. intros q Hq. apply split_idx in Hq; [|exact PS].
        destruct Hq as [n [Hn [q1 [Hq1 ->]]]]. unfold S in Hq1. apply split_idx in Hq1; [|exact Hnb].
        destruct Hq1 as [m [Hm [b [Hb ->]]]]. eexists. apply Hr; auto.
      + intros b m n Hb Hm Hn. unfold val_of.
        replace ((n * (l * 2 + 1) + m) * nb + b) with (n * S + (m * nb + b)) by (unfold S; ring).
        rewrite Hr by auto. reflexivity.
  Qed.

  Lemma bind_wp2 {X Y B} (m : option X) (g : X -> option Y) (k : Y -> option B) Q :
    wp (f <- m ;; g f) (fun r => wp (k r) Q) -> wp (f <- m ;; r <- g f ;; k r) Q.
  Proof. destruct m as [f|]; cbn; [|auto]. destruct (g f); cbn; auto. Qed.

  Lemma wp_same_dfg l rs buf g lds nbra Q : wp (dfg_ket add mul coef l rs buf g lds nbra) Q ->
    wp (dfg_ket add mul coef l rs buf g lds nbra) (fun r => Q r /\ snd r = fst r).
  Proof. unfold dfg_ket. destruct (for_ _ _ _ _); cbn; auto. Qed.
  Lemma wp_same_a l buf g lds nbra Q : wp (a_ket_cart2spheric zero add mul coef buf g lds nbra l) Q ->
    wp (a_ket_cart2spheric zero add mul coef buf g lds nbra l) (fun r => Q r /\ snd r = fst r).
  Proof. unfold a_ket_cart2spheric. destruct (CINTdgemm_NN1 _ _ _ _ _ _ _ _ _ _); cbn; auto. Qed.

  Lemma inner_ok l nb nc x g buf S C : 0 <= l <= 15 -> 0 <= nb -> 0 <= nc ->
    S = nb * (l * 2 + 1) -> C = nb * len_cart l ->
    reads g (nb * len_cart l * nc) x -> (2 <= l -> nb * (l * 2 + 1) * nc <= asize buf) ->
    wp (sph2e_inner zero add mul coef buf g l nb nc S C) (inner_post l nb nc x buf).
  Proof.
    intros Hl Hnb Hnc -> -> Hx Hsz.
    assert (Cs : (l = 0 \/ l = 1) \/ l = 2 \/ l = 3 \/ l = 4 \/ 5 <= l) by lia.
    destruct Cs as [Cs|[Cs|[Cs|[Cs|Cs]]]].
    - assert (E : sph2e_inner zero add mul coef buf g l nb nc (nb * (l * 2 + 1)) (nb * len_cart l) = Some (buf, g))
        by (destruct Cs; subst l; reflexivity).
      rewrite E. cbn. split; [reflexivity|]. exists x. split.
      + destruct Cs; subst l; exact Hx.
      + intros b m n Hb Hm Hn. rewrite (identity_apply l m (fun a => x ((n * len_cart l + a) * nb + b))).
        * destruct Cs; subst l; reflexivity.
        * destruct Cs; subst l; [apply to_s|apply to_p]; exact Htab.
        * destruct Cs; subst l; exact Hm.
    - subst l. apply (inner_calls_ok (d_ket_cart2spheric add mul coef) 2 nb nc x g buf); auto; [|apply Hsz; lia].
      intros s gv xv Hg Hs. apply wp_same_dfg. apply (dfg_post_ket 2 nb xv gv s d_rows); first [exact (to_d Htab)|assumption|reflexivity|lia].
    - subst l. apply (inner_calls_ok (f_ket_cart2spheric add mul coef) 3 nb nc x g buf); auto; [|apply Hsz; lia].
      intros s gv xv Hg Hs. apply wp_same_dfg. apply (dfg_post_ket 3 nb xv gv s f_rows); first [exact (to_f Htab)|assumption|reflexivity|lia].
    - subst l. apply (inner_calls_ok (g_ket_cart2spheric add mul coef) 4 nb nc x g buf); auto; [|apply Hsz; lia].
      intros s gv xv Hg Hs. apply wp_same_dfg. apply (dfg_post_ket 4 nb xv gv s g_rows); first [exact (to_g Htab)|assumption|reflexivity|lia].
    - assert (H : wp (inner_calls (a_ket_cart2spheric zero add mul coef) buf g l nb nc (nb * (l * 2 + 1)) (nb * len_cart l))
          (inner_post l nb nc x buf)).
      { apply inner_calls_ok; auto; [|apply Hsz; lia].
        intros s gv xv Hg Hs. apply wp_same_a. apply a_post_ket; auto. }
      destruct l as [|p|p]; try lia. do 3 (destruct p as [p|p|]; try lia; try exact H).
  Qed.

  Lemma sph_le_cart l : 0 <= l <= 15 -> 1 <= l * 2 + 1 <= len_cart l.
  Proof.
    intros H. apply l_cases in H.
    assert (C : forallb (fun l => (1 <=? l * 2 + 1) && (l * 2 + 1 <=? len_cart l)) [0;1;2;3;4;5;6;7;8;9;10;11;12;13;14;15] = true)
      by (vm_compute; reflexivity).
    rewrite forallb_forall in C. specialize (C l H). lia.
  Qed.
End Stage.
