(** OutMore.v — the hand-written transforms against the dense product, the transposed
    transforms, complex zero fill, and what fails. *)
From Coq Require Import Ring.
From Verif Require Import Base BasModel FblasModel FblasSpec FblasProof EnvModel OutModel OutSpec OutRules OutProof SphProof SphOut2 OutFinal.

(** ** Cells of a matrix *)
Lemma cell_inj ld r (i j i' j' : Z) : r <= ld -> 0 <= i < r -> 0 <= i' < r -> i + ld * j = i' + ld * j' -> i = i' /\ j = j'.
Proof. intros. assert (j = j') by nia. subst. lia. Qed.

Lemma Puts_exactly {F} (a0 a : arr F) ld r c (M : Z -> Z -> F) (W : Z -> Prop) :
  0 <= r <= ld -> (forall i j, 0 <= i < r -> 0 <= j < c -> 0 <= i + ld * j < asize a0) ->
  (forall x, W x <-> exists i j, 0 <= i < r /\ 0 <= j < c /\ x = i + ld * j) ->
  Puts W (fun x v => exists i j, 0 <= i < r /\ 0 <= j < c /\ x = i + ld * j /\ v = M i j) a0 a ->
  stored_exactly a0 a ld r c M.
Proof.
  intros Hr Hb HW [Hs H]. split; [exact Hs|]. split.
  - intros i j Hi Hj. apply rd_spec. split; [rewrite Hs; auto|].
    destruct (H (i + ld * j)) as [[_ [v [E [i' [j' [Hi' [Hj' [Ex ->]]]]]]]]|[h _]].
    + apply (cell_inj ld r) in Ex; try lia. destruct Ex; subst. exact E.
    + exfalso. apply h. apply HW. exists i, j. auto.
  - intros x Hx. destruct (H x) as [[h _]|[_ h]]; [|exact h].
    apply HW in h. destruct h as [i [j [Hi [Hj E]]]]. exfalso. exact (Hx i j Hi Hj E).
Qed.

Lemma exactly_unique {F} (a0 a b : arr F) ld r c (M : Z -> Z -> F) : r <= ld ->
  stored_exactly a0 a ld r c M -> stored_exactly a0 b ld r c M ->
  asize a = asize b /\ forall x, acell a x = acell b x.
Proof.
  intros Hr [A1 [A2 A3]] [B1 [B2 B3]]. split; [congruence|]. intros x.
  destruct (Z_le_gt_dec ld 0) as [E|E].
  { rewrite A3, B3; [reflexivity| |]; intros; lia. }
  destruct (Z_lt_le_dec (x mod ld) r) as [H1|H1]; [destruct (Z_lt_le_dec (x / ld) c) as [H2|H2]; [destruct (Z_le_gt_dec 0 (x / ld)) as [H3|H3]|]|].
  - pose proof (Z.mod_pos_bound x ld ltac:(lia)). pose proof (Z.div_mod x ld ltac:(lia)).
    specialize (A2 (x mod ld) (x / ld) ltac:(lia) ltac:(lia)). specialize (B2 (x mod ld) (x / ld) ltac:(lia) ltac:(lia)).
    replace (x mod ld + ld * (x / ld)) with x in A2, B2 by lia.
    apply rd_spec in A2. apply rd_spec in B2. destruct A2, B2. congruence.
  - rewrite A3, B3; [reflexivity| |]; intros i j Hi Hj ->;
      rewrite (Z.mul_comm ld), Z.div_add, (Z.div_small i ld) in H3 by lia; lia.
  - rewrite A3, B3; [reflexivity| |]; intros i j Hi Hj ->;
      rewrite (Z.mul_comm ld), Z.div_add, (Z.div_small i ld) in H2 by lia; lia.
  - rewrite A3, B3; [reflexivity| |]; intros i j Hi Hj ->;
      rewrite (Z.mul_comm ld), Z.mod_add, (Z.mod_small i ld) in H1 by lia; lia.
Qed.

Section Stage2.
  Context {F : Type} (zero one : F) (add mul sub_ : F -> F -> F) (opp : F -> F).
  Hypothesis Rth : ring_theory zero one add mul sub_ opp eq.
  Add Ring Fr2 : Rth.
  Context (coef : Z -> F).
  Notation T := (Tmat coef c2s_off len_cart).
  Hypothesis Htab : table_ok zero one coef.

  Definition braM (l : Z) (X : Z -> Z -> F) := prod zero add mul (len_cart l) (fun m a => T l m a) X.
  Definition ketM (l : Z) (X : Z -> Z -> F) := prod zero add mul (len_cart l) X (fun a m => T l m a).

  Lemma app_bra l X m k : apply_T zero add mul coef c2s_off len_cart l m (fun a => X a k) = braM l X m k.
  Proof. reflexivity. Qed.
  Lemma app_ket l X b m : apply_T zero add mul coef c2s_off len_cart l m (fun a => X b a) = ketM l X b m.
  Proof. unfold apply_T, ketM, prod. apply lsum_ext. intros a Ha. ring. Qed.

  Lemma dfg_bra_exact l nd nf nket X g buf rs : 0 <= l <= 15 -> nd = l * 2 + 1 -> nf = len_cart l ->
    Z.of_nat (length rs) = l * 2 + 1 -> rows_chk (len_cart l) rs = true ->
    skips_zeros zero coef c2s_off len_cart l rs -> 0 <= nket ->
    holds g nf nf nket X -> (l * 2 + 1) * nket <= asize buf ->
    exists r, dfg_bra add mul coef l nd nf rs buf nket g = Some (r, r) /\
      stored_exactly buf r nd nd nket (braM l X).
  Proof.
    intros Hl -> -> Hlen Hchk Hskip Hn Hx Hsz. unfold dfg_bra.
    destruct (off_bound l Hl) as [B1 _].
    assert (P : wp (for_ 0 nket (fun i gsph => rows_from add mul (cart2sph coef l) g (fun a => i * len_cart l + a)
                (fun m => i * (l * 2 + 1) + m) 0 rs gsph) buf)
              (fun r => stored_exactly buf r (l * 2 + 1) (l * 2 + 1) nket (braM l X))).
    { eapply wp_mono.
      - apply (puts_for (asize buf) (fun x v => exists i j, 0 <= i < l * 2 + 1 /\ 0 <= j < nket /\
               x = i + (l * 2 + 1) * j /\ v = braM l X i j)
             (fun k c => exists m, 0 <= m < l * 2 + 1 /\ c = k * (l * 2 + 1) + m)); [|reflexivity].
        intros k Hk. apply (rows_from_puts zero one add mul sub_ opp Rth coef _ _ l g _ _ (fun a => X a k)); auto.
        + apply rows_chk_ok. exact Hchk.
        + intros a Ha. rewrite <- (Hx a k Ha Hk). f_equal. ring.
        + intros m Hm. split; [nia|]. exists m, k. rewrite app_bra. split; [exact Hm|split; [exact Hk|split; [ring|reflexivity]]].
      - intros r Hr. eapply Puts_exactly; [lia| | |exact Hr].
        + intros i j Hi Hj. nia.
        + intros x. split.
          * intros [k [Hk [m [Hm ->]]]]. exists m, k. split; [exact Hm|split; [exact Hk|ring]].
          * intros [i [j [Hi [Hj ->]]]]. exists j. split; [exact Hj|]. exists i. split; [exact Hi|ring]. }
    unfold wp in P. destruct (for_ 0 nket _ buf) as [r|]; [|contradiction]. exists r. split; [reflexivity|exact P].
  Qed.

  Lemma dfg_ket_exact l lds nbra X g buf rs : 0 <= l <= 15 ->
    Z.of_nat (length rs) = l * 2 + 1 -> rows_chk (len_cart l) rs = true ->
    skips_zeros zero coef c2s_off len_cart l rs -> 0 <= nbra <= lds ->
    holds g nbra nbra (len_cart l) X -> lds * (l * 2) + nbra <= asize buf ->
    exists r, dfg_ket add mul coef l rs buf g lds nbra = Some (r, r) /\
      stored_exactly buf r lds nbra (l * 2 + 1) (ketM l X).
  Proof.
    intros Hl Hlen Hchk Hskip Hn Hx Hsz. unfold dfg_ket.
    assert (P : wp (for_ 0 nbra (fun i gsph => rows_from add mul (cart2sph coef l) g (fun a => a * nbra + i)
                (fun m => m * lds + i) 0 rs gsph) buf)
              (fun r => stored_exactly buf r lds nbra (l * 2 + 1) (ketM l X))).
    { eapply wp_mono.
      - apply (puts_for (asize buf) (fun x v => exists i j, 0 <= i < nbra /\ 0 <= j < l * 2 + 1 /\
               x = i + lds * j /\ v = ketM l X i j)
             (fun i c => exists m, 0 <= m < l * 2 + 1 /\ c = m * lds + i)); [|reflexivity].
        intros i Hi. apply (rows_from_puts zero one add mul sub_ opp Rth coef _ _ l g _ _ (fun a => X i a)); auto.
        + apply rows_chk_ok. exact Hchk.
        + intros a Ha. rewrite <- (Hx i a Hi Ha). f_equal. ring.
        + intros m Hm. split; [nia|]. exists i, m. rewrite app_ket. split; [exact Hi|split; [exact Hm|split; [ring|reflexivity]]].
      - intros r Hr. eapply Puts_exactly; [lia| | |exact Hr].
        + intros i j Hi Hj. nia.
        + intros x. split.
          * intros [i [Hi [m [Hm ->]]]]. exists i, m. split; [exact Hi|split; [exact Hm|ring]].
          * intros [i [j [Hi [Hj ->]]]]. exists i. split; [exact Hi|]. exists j. split; [exact Hj|ring]. }
    unfold wp in P. destruct (for_ 0 nbra _ buf) as [r|]; [|contradiction]. exists r. split; [reflexivity|exact P].
  Qed.

  Lemma a_bra_exact l nket X g buf : 0 <= l <= 15 -> 0 <= nket ->
    holds g (len_cart l) (len_cart l) nket X -> (l * 2 + 1) * nket <= asize buf ->
    exists r, a_bra_cart2spheric zero add mul coef buf nket g l = Some (r, r) /\
      stored_exactly buf r (l * 2 + 1) (l * 2 + 1) nket (braM l X).
  Proof.
    intros Hl Hn Hx Hsz. unfold a_bra_cart2spheric. destruct (off_bound l Hl) as [B1 [B2 B3]].
    destruct (dgemm_TN_ok zero add mul (l * 2 + 1) nket (len_cart l) (cart2sph coef l) g buf
      (fun i p => T l i p) X) as [c [E H]]; try lia.
    - intros p j Hp Hj. replace (p + len_cart l * j) with (j * len_cart l + p) by ring. apply rd_cart2sph; auto.
    - exact Hx.
    - exists c. rewrite E. split; [reflexivity|exact H].
  Qed.

  Lemma a_ket_exact l lds nbra X g buf : 0 <= l <= 15 -> 0 <= nbra <= lds ->
    holds g nbra nbra (len_cart l) X -> lds * (l * 2) + nbra <= asize buf ->
    exists r, a_ket_cart2spheric zero add mul coef buf g lds nbra l = Some (r, r) /\
      stored_exactly buf r lds nbra (l * 2 + 1) (ketM l X).
  Proof.
    intros Hl Hn Hx Hsz. unfold a_ket_cart2spheric. destruct (off_bound l Hl) as [B1 [B2 B3]].
    destruct (dgemm_NN1_ok zero add mul nbra (l * 2 + 1) (len_cart l) lds g (cart2sph coef l) buf
      X (fun p j => T l j p)) as [c [E H]]; try lia.
    - exact Hx.
    - intros p j Hp Hj. replace (p + len_cart l * j) with (j * len_cart l + p) by ring. apply rd_cart2sph; auto.
    - exists c. rewrite E. split; [reflexivity|exact H].
  Qed.

  (** the l = 2, 3, 4 routines and the dense ones leave the same memory *)
  Definition same {A} (a b : option (arr A * arr A)) : Prop :=
    exists r s, a = Some (r, r) /\ b = Some (s, s) /\ asize r = asize s /\ forall x, acell r x = acell s x.

  Lemma bra_same l nket X g buf : 2 <= l <= 4 -> 0 <= nket ->
    holds g (len_cart l) (len_cart l) nket X -> (l * 2 + 1) * nket <= asize buf ->
    exists r, CINTc2s_bra_sph zero add mul coef buf nket g l = Some (r, r) /\
      stored_exactly buf r (l * 2 + 1) (l * 2 + 1) nket (braM l X).
  Proof.
    intros Hl Hn Hx Hsz. unfold CINTc2s_bra_sph, c2s_bra_sph.
    replace ((l <? 0) || (15 <? l)) with false by lia. cbn [bind].
    assert (C : l = 2 \/ l = 3 \/ l = 4) by lia. destruct Htab as [_ _ Td Tf Tg].
    destruct C as [->|[->| ->]].
    - apply (dfg_bra_exact 2); auto; lia.
    - apply (dfg_bra_exact 3); auto; lia.
    - apply (dfg_bra_exact 4); auto; lia.
  Qed.

  Lemma bra_all l nket X g buf : 0 <= l <= 15 -> 0 <= nket ->
    holds g (len_cart l) (len_cart l) nket X -> (2 <= l -> (l * 2 + 1) * nket <= asize buf) ->
    exists b r, CINTc2s_bra_sph zero add mul coef buf nket g l = Some (b, r) /\
      holds r (l * 2 + 1) (l * 2 + 1) nket (braM l X) /\
      (l < 2 -> b = buf /\ r = g) /\ (2 <= l -> b = r /\ stored_exactly buf r (l * 2 + 1) (l * 2 + 1) nket (braM l X)).
  Proof.
    intros Hl Hn Hx Hsz.
    assert (C : (l = 0 \/ l = 1) \/ 2 <= l <= 4 \/ 5 <= l) by lia. destruct C as [C|[C|C]].
    - exists buf, g. split; [destruct C; subst l; reflexivity|]. split; [|split; [auto|lia]].
      intros m k Hm Hk.
      assert (E : braM l X m k = X m k).
      { rewrite <- app_bra. apply (identity_apply zero one add mul sub_ opp Rth coef l m (fun a => X a k)).
        - destruct C; subst l; [apply to_s|apply to_p]; exact Htab.
        - destruct C; subst l; exact Hm. }
      rewrite E. destruct C; subst l; apply Hx; auto.
    - destruct (bra_same l nket X g buf C Hn Hx ltac:(lia)) as [r [E H]].
      exists r, r. split; [exact E|]. split; [apply H|]. split; [lia|auto].
    - destruct (a_bra_exact l nket X g buf Hl Hn Hx ltac:(lia)) as [r [E H]].
      exists r, r. split; [|split; [apply H|split; [lia|auto]]].
      rewrite <- E. unfold CINTc2s_bra_sph, c2s_bra_sph. replace ((l <? 0) || (15 <? l)) with false by lia. cbn [bind].
      destruct l as [|[[[p|p|]|[p|p|]|]|[[p|p|]|[p|p|]|]|]|]; try reflexivity; lia.
  Qed.

  Lemma p_ket_exact lds nbra (X : Z -> Z -> F) g buf : 0 <= nbra <= lds ->
    holds g nbra nbra 3 X -> lds * 2 + nbra <= asize buf ->
    exists r, p_ket_cart2spheric_copy buf g lds nbra 1 = Some (r, r) /\ stored_exactly buf r lds nbra 3 X.
  Proof.
    intros Hn Hx Hsz. unfold p_ket_cart2spheric_copy.
    match goal with |- context [for_ 0 nbra ?b buf] => set (body := b) end.
    assert (P : wp (for_ 0 nbra body buf) (fun r => stored_exactly buf r lds nbra 3 X)).
    { eapply wp_mono.
      - apply (puts_for (asize buf) (fun x v => exists i j, 0 <= i < nbra /\ 0 <= j < 3 /\ x = i + lds * j /\ v = X i j)
             (fun i c => c = 0 * lds + i \/ c = 1 * lds + i \/ c = 2 * lds + i)); [|reflexivity].
        intros i Hi. unfold body.
        pose proof (Hx i 0 Hi ltac:(lia)) as R0. pose proof (Hx i 1 Hi ltac:(lia)) as R1. pose proof (Hx i 2 Hi ltac:(lia)) as R2.
        replace (i + nbra * 0) with (0 * nbra + i) in R0 by ring.
        replace (i + nbra * 1) with (1 * nbra + i) in R1 by ring.
        replace (i + nbra * 2) with (2 * nbra + i) in R2 by ring.
        intros a Ha. rewrite R0, R1, R2. cbn [bind].
        apply (puts_seq (asize buf) _ _ _ (fun a => wr a (0 * lds + i) (X i 0))
          (fun a => a <- wr a (1 * lds + i) (X i 1) ;; wr a (2 * lds + i) (X i 2))); [| |exact Ha].
        + apply puts_wr; [lia|]. exists i, 0. repeat split; try lia.
        + apply puts_seq; apply puts_wr; try nia; [exists i, 1|exists i, 2]; repeat split; lia.
      - intros r Hr. eapply Puts_exactly; [lia| | |exact Hr].
        + intros i j Hi Hj. nia.
        + intros x. split.
          * intros [i [Hi [->|[->| ->]]]]; [exists i, 0|exists i, 1|exists i, 2]; repeat split; lia.
          * intros [i [j [Hi [Hj ->]]]]. exists i. split; [exact Hi|].
            assert (C : j = 0 \/ j = 1 \/ j = 2) by lia. destruct C as [->|[->| ->]]; lia. }
    unfold wp in P. destruct (for_ 0 nbra body buf) as [r|]; [|contradiction]. exists r. split; [reflexivity|exact P].
  Qed.
  Lemma s_ket_exact lds nbra (X : Z -> Z -> F) g buf : 0 <= nbra <= lds ->
    holds g nbra nbra 1 X -> nbra <= asize buf ->
    exists r, s_ket_cart2spheric_copy buf g lds nbra 0 = Some (r, r) /\ stored_exactly buf r lds nbra 1 X.
  Proof.
    intros Hn Hx Hsz. unfold s_ket_cart2spheric_copy.
    assert (P : wp (for_ 0 nbra (fun i gsph => v <- rd g i ;; wr gsph i v) buf) (fun r => stored_exactly buf r lds nbra 1 X)).
    { eapply wp_mono.
      - apply (puts_for (asize buf) (fun x v => exists i j, 0 <= i < nbra /\ 0 <= j < 1 /\ x = i + lds * j /\ v = X i j)
             (fun i c => c = i)); [|reflexivity].
        intros i Hi. pose proof (Hx i 0 Hi ltac:(lia)) as R0. replace (i + nbra * 0) with i in R0 by ring.
        apply (puts_copy _ _ g i i _ R0); [lia|]. exists i, 0. repeat split; lia.
      - intros r Hr. eapply Puts_exactly; [lia| | |exact Hr].
        + intros i j Hi Hj. nia.
        + intros x. split.
          * intros [i [Hi ->]]. exists i, 0. repeat split; lia.
          * intros [i [j [Hi [Hj ->]]]]. exists i. split; [exact Hi|]. replace j with 0 by lia. ring. }
    unfold wp in P. destruct (for_ 0 nbra _ buf) as [r|]; [|contradiction]. exists r. split; [reflexivity|exact P].
  Qed.

  Lemma exactly_ext {A} (a0 a : arr A) ld r c (M N : Z -> Z -> A) : (forall i j, 0 <= i < r -> 0 <= j < c -> M i j = N i j) ->
    stored_exactly a0 a ld r c M -> stored_exactly a0 a ld r c N.
  Proof.
    intros E [H1 [H2 H3]]. split; [exact H1|]. split; [|exact H3].
    intros i j Hi Hj. rewrite <- E by auto. apply H2; auto.
  Qed.

  Lemma ket1_all l lds nbra X g buf : 0 <= l <= 15 -> 0 <= nbra <= lds ->
    holds g nbra nbra (len_cart l) X -> lds * (l * 2) + nbra <= asize buf ->
    exists r, CINTc2s_ket_sph1 zero add mul coef buf g lds nbra l = Some (r, r) /\
      stored_exactly buf r lds nbra (l * 2 + 1) (ketM l X).
  Proof.
    intros Hl Hn Hx Hsz. unfold CINTc2s_ket_sph1, c2s_ket_sph1.
    replace ((l <? 0) || (15 <? l)) with false by lia. cbn [bind].
    assert (C : l = 0 \/ l = 1 \/ l = 2 \/ l = 3 \/ l = 4 \/ 5 <= l) by lia.
    assert (EI : identity_block zero one coef c2s_off len_cart l -> forall i j, 0 <= j < len_cart l -> X i j = ketM l X i j).
    { intros Hid i j Hj. rewrite <- app_ket. symmetry.
      apply (identity_apply zero one add mul sub_ opp Rth coef l j (fun a => X i a)); auto. }
    destruct C as [->|[->|C]].
    - destruct (s_ket_exact lds nbra X g buf Hn Hx ltac:(lia)) as [r [E H]]. exists r. split; [exact E|].
      eapply exactly_ext; [|exact H]. intros. apply EI; [apply to_s; exact Htab|exact H1].
    - destruct (p_ket_exact lds nbra X g buf Hn Hx ltac:(lia)) as [r [E H]]. exists r. split; [exact E|].
      eapply exactly_ext; [|exact H]. intros. apply EI; [apply to_p; exact Htab|exact H1].
    - destruct Htab as [_ _ Td Tf Tg]. destruct C as [->|[->|[->|C]]].
      + apply (dfg_ket_exact 2); auto.
      + apply (dfg_ket_exact 3); auto.
      + apply (dfg_ket_exact 4); auto.
      + destruct (a_ket_exact l lds nbra X g buf Hl Hn Hx Hsz) as [r [E H]].
        exists r. split; [|exact H]. rewrite <- E.
        destruct l as [|[[[p|p|]|[p|p|]|]|[[p|p|]|[p|p|]|]|]|]; try reflexivity; lia.
  Qed.

  Lemma ket_all l nbra X g buf : 0 <= l <= 15 -> 0 <= nbra ->
    holds g nbra nbra (len_cart l) X -> (2 <= l -> nbra * (l * 2 + 1) <= asize buf) ->
    exists b r, CINTc2s_ket_sph zero add mul coef buf nbra g l = Some (b, r) /\
      holds r nbra nbra (l * 2 + 1) (ketM l X) /\
      (l < 2 -> b = buf /\ r = g) /\ (2 <= l -> b = r /\ stored_exactly buf r nbra nbra (l * 2 + 1) (ketM l X)).
  Proof.
    intros Hl Hn Hx Hsz.
    assert (C : (l = 0 \/ l = 1) \/ 2 <= l) by lia. destruct C as [C|C].
    - exists buf, g. split; [destruct C; subst l; reflexivity|]. split; [|split; [auto|lia]].
      intros m k Hm Hk. rewrite <- app_ket.
      rewrite (identity_apply zero one add mul sub_ opp Rth coef l k (fun a => X m a)).
      + destruct C; subst l; apply Hx; auto.
      + destruct C; subst l; [apply to_s|apply to_p]; exact Htab.
      + destruct C; subst l; exact Hk.
    - destruct (ket1_all l nbra nbra X g buf Hl ltac:(lia) Hx ltac:(lia)) as [r [E H]].
      exists r, r. split; [|split; [apply H|split; [lia|auto]]].
      rewrite <- E. unfold CINTc2s_ket_sph, CINTc2s_ket_sph1, c2s_ket_sph, c2s_ket_sph1.
      replace ((l <? 0) || (15 <? l)) with false by lia. cbn [bind].
      destruct l as [|[[[p|p|]|[p|p|]|]|[[p|p|]|[p|p|]|]|]|]; try reflexivity; lia.
  Qed.

  Lemma bra_dense l nket X g buf : 2 <= l <= 4 -> 0 <= nket ->
    holds g (len_cart l) (len_cart l) nket X -> (l * 2 + 1) * nket <= asize buf ->
    same (CINTc2s_bra_sph zero add mul coef buf nket g l) (a_bra_cart2spheric zero add mul coef buf nket g l).
  Proof.
    intros Hl Hn Hx Hsz. destruct (bra_same l nket X g buf Hl Hn Hx Hsz) as [r [E H]].
    destruct (a_bra_exact l nket X g buf ltac:(lia) Hn Hx Hsz) as [s [E' H']].
    exists r, s. split; [exact E|]. split; [exact E'|]. eapply exactly_unique; [|exact H|exact H']. lia.
  Qed.
  Lemma ket_dense l lds nbra X g buf : 2 <= l <= 4 -> 0 <= nbra <= lds ->
    holds g nbra nbra (len_cart l) X -> lds * (l * 2) + nbra <= asize buf ->
    same (CINTc2s_ket_sph1 zero add mul coef buf g lds nbra l) (a_ket_cart2spheric zero add mul coef buf g lds nbra l).
  Proof.
    intros Hl Hn Hx Hsz. destruct (ket1_all l lds nbra X g buf ltac:(lia) Hn Hx Hsz) as [r [E H]].
    destruct (a_ket_exact l lds nbra X g buf ltac:(lia) Hn Hx Hsz) as [s [E' H']].
    exists r, s. split; [exact E|]. split; [exact E'|]. eapply exactly_unique; [|exact H|exact H']. lia.
  Qed.

  (** ** The transposed transforms *)
  Lemma s2c_bra_exact l nket Y gsph gcart : 0 <= l <= 15 -> 0 <= nket ->
    holds gsph (l * 2 + 1) (l * 2 + 1) nket Y -> len_cart l * nket <= asize gcart ->
    exists r, CINTs2c_bra_sph zero add mul coef gsph nket gcart l = Some r /\
      stored_exactly gcart r (len_cart l) (len_cart l) nket (prod zero add mul (l * 2 + 1) (fun a m => T l m a) Y).
  Proof.
    intros Hl Hn Hx Hsz. unfold CINTs2c_bra_sph. cbv zeta. rewrite <- len_cart_eq by exact Hl.
    destruct (off_bound l Hl) as [B1 [B2 B3]].
    destruct (dgemm_NN1_ok zero add mul (len_cart l) nket (l * 2 + 1) (len_cart l) (cart2sph coef l) gsph gcart
      (fun a m => T l m a) Y) as [c [E H]]; try lia.
    - intros a m Ha Hm. rewrite (Z.add_comm a), (Z.mul_comm (len_cart l)). apply rd_cart2sph; auto.
    - exact Hx.
    - exists c. auto.
  Qed.
  Lemma s2c_ket_exact l nbra Y gsph gcart : 0 <= l <= 15 -> 0 <= nbra ->
    holds gsph nbra nbra (l * 2 + 1) Y -> nbra * len_cart l <= asize gcart ->
    exists r, CINTs2c_ket_sph zero add mul coef gsph nbra gcart l = Some r /\
      stored_exactly gcart r nbra nbra (len_cart l) (prod zero add mul (l * 2 + 1) Y (fun m a => T l m a)).
  Proof.
    intros Hl Hn Hx Hsz. unfold CINTs2c_ket_sph. cbv zeta. rewrite <- len_cart_eq by exact Hl.
    destruct (off_bound l Hl) as [B1 [B2 B3]].
    destruct (dgemm_NT_ok zero add mul nbra (len_cart l) (l * 2 + 1) gsph (cart2sph coef l) gcart
      Y (fun m a => T l m a)) as [c [E H]]; try lia.
    - exact Hx.
    - intros a m Ha Hm. rewrite (Z.add_comm a), (Z.mul_comm (len_cart l)). apply rd_cart2sph; auto.
    - exists c. auto.
  Qed.
End Stage2.
