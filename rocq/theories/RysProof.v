From Coq Require Import Reals Lra ZifyBool.
From Verif Require Import Base BoysModel BoysSpec BoysProof RysModel RysSpec.
Ltac Zify.zify_post_hook ::= Z.div_mod_to_equations.

(** ** reading and writing *)
Definition inited {A} (a : arr A) (lo hi : Z) : Prop := forall i, lo <= i < hi -> readable a i.
(** [a'] has every readable cell of [a] *)
Definition more {A} (a a' : arr A) : Prop :=
  asize a' = asize a /\ forall i, readable a i -> readable a' i.

Lemma more_refl {A} (a : arr A) : more a a.
Proof. split; auto. Qed.
Lemma more_trans {A} (a b c : arr A) : more a b -> more b c -> more a c.
Proof. intros [A1 A2] [B1 B2]. split; [congruence|auto]. Qed.

Lemma more_inited {A} (a a' : arr A) lo hi : more a a' -> inited a lo hi -> inited a' lo hi.
Proof. intros [_ H] I i Hi. apply H, I, Hi. Qed.
Lemma inited_sub {A} (a : arr A) lo hi lo' hi' : inited a lo hi -> lo <= lo' -> hi' <= hi -> inited a lo' hi'.
Proof. intros I H1 H2 i Hi. apply I. lia. Qed.
Lemma inited_nil {A} (a : arr A) lo hi : hi <= lo -> inited a lo hi.
Proof. intros H i Hi. lia. Qed.
Lemma inited_snoc {A} (a : arr A) lo hi : inited a lo hi -> readable a hi -> inited a lo (hi + 1).
Proof. intros I R i Hi. destruct (Z.eq_dec i hi) as [->|N]; [exact R|]. apply I. lia. Qed.

Lemma wpr {A} (a : arr A) i (Q : A -> Prop) : readable a i -> (forall v, rd a i = Some v -> Q v) -> wp (rd a i) Q.
Proof. intros [v E] H. rewrite E. apply H, E. Qed.

Lemma wpw {A} (a : arr A) i v (Q : arr A -> Prop) : 0 <= i < asize a ->
  (forall a', more a a' -> readable a' i -> Q a') -> wp (wr a i v) Q.
Proof.
  intros Hi H. apply wp_wr; [exact Hi|]. intros a' Hs Hc. apply H.
  - split; [exact Hs|]. intros j [x Hx]. apply rd_spec in Hx. destruct (j =? i) eqn:E.
    + exists v. apply rd_spec. rewrite Hs, Hc, E. split; [lia|reflexivity].
    + exists x. apply rd_spec. rewrite Hs, Hc, E. exact Hx.
  - exists v. apply rd_spec. rewrite Hs, Hc, Z.eqb_refl. split; [lia|reflexivity].
Qed.

Lemma wp_fill n f a : 0 <= n <= asize a -> wp (fill n f a) (fun a' => more a a' /\ inited a' 0 n).
Proof.
  intros Hn. unfold fill. apply (wp_for (fun i a' => more a a' /\ inited a' 0 i)); [lia| | |auto].
  - split; [apply more_refl|apply inited_nil; lia].
  - intros i g Hi [M I]. apply wpw; [destruct M; lia|]. intros g' M' R. split; [eapply more_trans; eauto|].
    apply inited_snoc; [eapply more_inited; eauto|exact R].
Qed.

(** ** the moments *)
Lemma fmt_first f f' m P : (0 <= m)%Z -> first_cells f f' m P -> asize f' = asize f /\ (m < asize f -> inited f' 0 (m + 1)).
Proof.
  intros Hm [S [C _]]. split; [exact S|]. intros _ i Hi. destruct (C (Z.to_nat i) ltac:(lia)) as [v [Hv _]].
  rewrite Z2Nat.id in Hv by lia. exists v. exact Hv.
Qed.

Lemma fmt_runs sml f t l m : (0 <= m < asize f)%Z -> (m < 40)%Z -> (0 <= t)%R -> (0 <= l <= 1)%R -> (0 < sml < 1)%R ->
  exists n, forall fuel, (n <= fuel)%nat -> wp (fmt_erfc_like sml fuel f t l m) (fun f' => asize f' = asize f /\ inited f' 0 (m + 1)).
Proof.
  intros Hm Hm' Ht Hl Hs. destruct (Rle_dec (t * (l * l)) 200) as [L|L].
  - destruct (erfc_ok sml f t l m Hm Hm' Ht Hl L Hs) as [n H]. exists n. intros fuel Hf.
    destruct (H fuel Hf) as [f' [E C]]. rewrite E. apply fmt_first in C; [|lia]. destruct C as [C1 C2]. split; [exact C1|apply C2; lia].
  - exists O. intros fuel _. assert (l <> 0)%R by (intros ->; apply L; lra).
    destruct (erfc_zero sml fuel f t l m Hm ltac:(lra) Ht ltac:(lra)) as [f' [E C]].
    rewrite E. apply fmt_first in C; [|lia]. destruct C as [C1 C2]. split; [exact C1|apply C2; lia].
Qed.

Lemma gamma_runs sml f t m : (0 <= m < asize f)%Z -> (m < 40)%Z -> (0 <= t)%R -> (0 < sml < 1)%R ->
  exists n, forall fuel, (n <= fuel)%nat -> wp (gamma_inc_like sml fuel f t m) (fun f' => asize f' = asize f /\ inited f' 0 (m + 1)).
Proof.
  intros Hm Hm' Ht Hs. destruct (gamma_inc_ok sml f t m Hm Hm' Ht Hs) as [n H]. exists n. intros fuel Hf.
  destruct (H fuel Hf) as [f' [E C]]. rewrite E. apply fmt_first in C; [|lia]. destruct C as [C1 C2]. split; [exact C1|apply C2; lia].
Qed.

Lemma tri_mono i rows : 0 <= i < rows -> forall k, 0 <= k <= i -> 0 <= i * (i + 1) / 2 + k < rows * (rows + 1) / 2.
Proof. intros H k Hk. assert (i * (i + 1) / 2 + i + 1 = (i + 1) * (i + 2) / 2) by lia.
  assert ((i + 1) * (i + 2) <= rows * (rows + 1)) by nia. assert (0 <= i * (i + 1)) by nia. lia. Qed.

Lemma order_rd ord rows i j : order_table ord rows -> 0 <= i < rows -> 0 <= j <= i ->
  exists k, rd ord (i * (i + 1) / 2 + j) = Some k /\ 0 <= k <= i.
Proof.
  intros [_ H] Hi Hj. destruct (H i Hi) as [l [H1 [H2 [H3 H4]]]]. exists (nth (Z.to_nat j) l 0).
  split; [apply H1; lia|]. apply H4. apply nth_In. lia.
Qed.

Section Moments.
  Variable ord : arr Z.
  Variable rows0 : Z.
  Hypothesis Hord : order_table ord rows0.
  Variable p : prec.
  Variables rows len extra : Z.
  Hypothesis Hp : has_tables p rows len extra.
  Hypothesis Hrows : rows <= rows0.

  Lemma naive_runs n t l : 1 <= n <= 40 -> n <= rows -> (0 <= t)%R -> (0 <= l <= 1)%R ->
    exists N, forall fuel, (N <= fuel)%nat -> forall mus, n <= asize mus ->
      wp (naive_jacobi_moments fuel p ord n t l mus) (fun mus' => more mus mus' /\ inited mus' 0 n).
  Proof.
    intros Hn Hr Ht Hl. destruct Hp as [_ [_ [_ [_ [Hc [_ Hs]]]]]].
    destruct (fmt_runs (pSML p) (uninit (MXRYSROOTS * 2)) t l (n - 1) ltac:(unfold MXRYSROOTS; cbn [asize uninit]; lia) ltac:(lia) Ht Hl Hs) as [N H].
    exists N. intros fuel Hf mus Hm. unfold naive_jacobi_moments. apply wp_bind. eapply wp_mono; [apply H, Hf|].
    intros fmt [_ If]. apply (wp_for (fun i a' => more mus a' /\ inited a' 0 i)); [lia| | |auto].
    - split; [apply more_refl|apply inited_nil; lia].
    - intros i g Hi [M I]. cbv zeta. apply wp_bind.
      apply (wp_for (fun _ _ => True)); [lia|exact Logic.I| |].
      + intros j s Hj _. destruct (order_rd ord rows0 i j Hord ltac:(lia) ltac:(lia)) as [k [Ek Hk]].
        apply wp_bind. rewrite Ek. cbn [wp]. apply wp_bind. destruct Hc as [_ Hc].
        apply wpr; [apply Hc; apply tri_mono; lia|]. intros c _.
        apply wp_bind. apply wpr; [apply If; lia|]. intros; exact Logic.I.
      + intros s _. apply wpw; [destruct M; lia|]. intros g' M' R. split; [eapply more_trans; eauto|].
        apply inited_snoc; [eapply more_inited; eauto|exact R].
  Qed.

  Lemma flocke_runs n t : 1 <= n <= 40 -> n <= rows -> 1 <= extra -> n - 1 + extra < len -> (0 <= t)%R ->
    exists N, forall fuel, (N <= fuel)%nat -> forall mus, n <= asize mus ->
      wp (flocke_jacobi_moments fuel p ord n t mus) (fun mus' => more mus mus' /\ inited mus' 0 n).
  Proof.
    intros Hn Hr He Hlen Ht. destruct (naive_runs n t 0 Hn Hr Ht ltac:(lra)) as [N H]. exists N.
    intros fuel Hf mus Hm. unfold flocke_jacobi_moments. destruct (Rlt_dec t SMALLX_LIMIT) as [L|L]; [apply H; auto|].
    destruct Hp as [_ [_ [[_ Hrn] [[_ Hsn] [_ [Ee _]]]]]]. rewrite Ee. cbv zeta.
    apply wp_bind. apply (wp_fordown (fun i st => i < n - 1 + extra -> snd st <> None)); [lia|intros; lia| |].
    - intros i [[mu1 mu2] o] Hi _. apply wp_bind. apply wpr; [apply Hrn; lia|]. intros r _.
      apply wp_bind. apply wpr; [apply Hsn; lia|]. intros s _. cbn [wp snd]. intros _. discriminate.
    - intros st Hst. apply wp_bind.
      apply (wp_fordown (fun i a => snd (snd a) <> None /\ more mus (fst a) /\ inited (fst a) (i + 1) n)); [lia| | |].
      + cbn [fst snd]. split; [apply Hst; lia|]. split; [apply more_refl|apply inited_nil; lia].
      + intros i [g [[mu1 mu2] o]] Hi [A [M I]]. cbn [fst snd] in *.
        apply wp_bind. apply wp_bind. apply wpr; [apply Hrn; lia|]. intros r _.
        apply wp_bind. apply wpr; [apply Hsn; lia|]. intros s _. cbn [wp snd bind].
        apply wp_bind. apply wpw; [destruct M; lia|]. intros g' M' R. cbn [wp fst snd].
        split; [discriminate|]. split; [eapply more_trans; eauto|].
        intros k Hk. destruct (Z.eq_dec k i) as [->|Hki]; [exact R|]. apply (proj2 M'). apply I. lia.
      + intros [g st'] [A [M I]]. cbn [fst snd] in *. destruct (snd st') as [mu0|]; [|contradiction]. cbn [bind].
        eapply wp_for with (I := fun _ a' => more mus a' /\ inited a' 0 n); [lia| | |auto].
        * split; [exact M|]. eapply inited_sub; [exact I|lia|lia].
        * intros i h Hi [M2 I2]. apply wp_bind. apply wpr; [apply I2; lia|]. intros v _.
          apply wpw; [destruct M2; lia|]. intros h' M3 _. split; [eapply more_trans; eauto|eapply more_inited; eauto].
  Qed.
End Moments.

Lemma laguerre_runs n t l al be mo : 2 <= n -> n - 1 <= asize al -> n - 1 <= asize be -> n <= asize mo ->
  wp (laguerre_moments n t l al be mo) (fun r => let '(al', be', mo') := r in
    more al al' /\ more be be' /\ more mo mo' /\ inited al' 0 (n - 1) /\ inited be' 0 (n - 1) /\ inited mo' 0 n).
Proof.
  intros Hn Ha Hb Hm. unfold laguerre_moments. cbv zeta.
  apply wp_bind. apply wpw; [lia|]. intros a1 Ma1 Ra1. apply wp_bind. apply wpw; [lia|]. intros b1 Mb1 Rb1.
  destruct (Req_EM_T l 0).
  - apply wp_bind. apply wpw; [lia|]. intros m1 Mm1 Rm1. apply wp_bind. apply wpw; [destruct Mm1; lia|]. intros m2 Mm2 Rm2.
    apply wp_bind.
    apply (wp_for (fun i st => let '(a, b, m, _, _) := st in more al a /\ more be b /\ more mo m /\
      inited a 0 i /\ inited b 0 i /\ inited m 0 (i + 1))); [lia| | |].
    + split; [exact Ma1|]. split; [exact Mb1|]. split; [eapply more_trans; eauto|].
      split; [intros k Hk; replace k with 0 by lia; exact Ra1|].
      split; [intros k Hk; replace k with 0 by lia; exact Rb1|].
      intros k Hk. assert (k = 0 \/ k = 1) as [->| ->] by lia; [apply (proj2 Mm2), Rm1|exact Rm2].
    + intros i [[[[a b] m] l00] l01] Hi [A1 [A2 [A3 [A4 [A5 A6]]]]].
      apply wp_bind. apply wpw; [destruct A1; lia|]. intros a' B1 R1.
      apply wp_bind. apply wpw; [destruct A2; lia|]. intros b' B2 R2.
      apply wp_bind. apply wpw; [destruct A3; lia|]. intros m' B3 R3. cbn [wp].
      split; [eapply more_trans; eauto|]. split; [eapply more_trans; eauto|]. split; [eapply more_trans; eauto|].
      split; [apply inited_snoc; [eapply more_inited; eauto|exact R1]|].
      split; [apply inited_snoc; [eapply more_inited; eauto|exact R2]|].
      apply inited_snoc; [eapply more_inited; eauto|exact R3].
    + intros [[[[a b] m] l00] l01] [A1 [A2 [A3 [A4 [A5 A6]]]]]. cbn [wp].
      repeat (split; [assumption|]). replace n with (n - 1 + 1) by lia. assumption.
  - apply wp_bind. apply wpw; [lia|]. intros m1 Mm1 Rm1. apply wp_bind. apply wpw; [destruct Mm1; lia|]. intros m2 Mm2 Rm2.
    apply wp_bind.
    apply (wp_for (fun i st => let '(a, b, m, _, _, _, _) := st in more al a /\ more be b /\ more mo m /\
      inited a 0 i /\ inited b 0 i /\ inited m 0 (i + 1))); [lia| | |].
    + split; [exact Ma1|]. split; [exact Mb1|]. split; [eapply more_trans; eauto|].
      split; [intros k Hk; replace k with 0 by lia; exact Ra1|].
      split; [intros k Hk; replace k with 0 by lia; exact Rb1|].
      intros k Hk. assert (k = 0 \/ k = 1) as [->| ->] by lia; [apply (proj2 Mm2), Rm1|exact Rm2].
    + intros i [[[[[[a b] m] l00] l01] l10] l11] Hi [A1 [A2 [A3 [A4 [A5 A6]]]]].
      apply wp_bind. apply wpw; [destruct A1; lia|]. intros a' B1 R1.
      apply wp_bind. apply wpw; [destruct A2; lia|]. intros b' B2 R2.
      apply wp_bind. apply wpw; [destruct A3; lia|]. intros m' B3 R3. cbn [wp].
      split; [eapply more_trans; eauto|]. split; [eapply more_trans; eauto|]. split; [eapply more_trans; eauto|].
      split; [apply inited_snoc; [eapply more_inited; eauto|exact R1]|].
      split; [apply inited_snoc; [eapply more_inited; eauto|exact R2]|].
      apply inited_snoc; [eapply more_inited; eauto|exact R3].
    + intros [[[[[[a b] m] l00] l01] l10] l11] [A1 [A2 [A3 [A4 [A5 A6]]]]]. cbn [wp].
      repeat (split; [assumption|]). replace n with (n - 1 + 1) by lia. assumption.
Qed.

(** ** Wheeler's recursion *)
Lemma wheeler_runs n al be mo a b : 1 <= n <= 32 -> inited al 0 (2 * n - 1) -> inited be 0 (2 * n - 1) ->
  inited mo 0 (2 * n) -> 2 * n <= asize mo -> n <= asize a -> n <= asize b ->
  wp (wheeler_recursion n al be mo a b) (fun r => more a (fst r) /\ more b (snd r) /\ inited (fst r) 0 n /\ inited (snd r) 0 n).
Proof.
  intros Hn Ial Ibe Imo Hmo Ha Hb. unfold wheeler_recursion.
  apply wp_bind. apply wpr; [apply Ial; lia|]. intros al0 _.
  apply wp_bind. apply wpr; [apply Imo; lia|]. intros m1 _. apply wp_bind. apply wpr; [apply Imo; lia|]. intros m0 _. cbv zeta.
  apply wp_bind. apply wpw; [lia|]. intros a1 Ma Ra. apply wp_bind. apply wpw; [lia|]. intros b1 Mb Rb.
  apply wp_bind. apply (wp_for (fun i s => asize s = n * 2 /\ inited s 2 i)); [lia| | |].
  { split; [reflexivity|apply inited_nil; lia]. }
  { intros i s Hi [S I]. apply wpw; [lia|]. intros s' M R. split; [destruct M; lia|].
    apply inited_snoc; [eapply more_inited; eauto|exact R]. }
  intros sm [Ssm Ism]. apply wp_bind.
  apply (wp_for (fun i st => let '(s0, sm, sk, _, _, a', b') := st in
    2 * n <= asize s0 /\ 2 * n <= asize sm /\ 2 * n <= asize sk /\
    inited s0 0 (2 * (n - i) + 2) /\ inited sm 2 (2 * (n - i) + 2) /\
    more a a' /\ more b b' /\ inited a' 0 i /\ inited b' 0 i)); [lia| | |].
  - split; [lia|]. split; [lia|]. split; [cbn [asize uninit]; unfold MXRYSROOTS; lia|].
    split; [eapply inited_sub; [exact Imo|lia|lia]|]. split; [eapply inited_sub; [exact Ism|lia|lia]|].
    split; [exact Ma|]. split; [exact Mb|]. split; intros k Hk; replace k with 0 by lia; assumption.
  - intros i [[[[[[s0 sm'] sk] a0] b0] a'] b'] Hi (S1 & S2 & S3 & I1 & I2 & M1 & M2 & I3 & I4).
    apply wp_bind. apply (wp_for (fun j s => more sk s /\ inited s 0 j)); [lia| | |].
    + split; [apply more_refl|apply inited_nil; lia].
    + intros j s Hj [M I]. apply wp_bind. apply wpr; [apply I1; lia|]. intros ? _.
      apply wp_bind. apply wpr; [apply Ial; lia|]. intros ? _.
      apply wp_bind. apply wpr; [apply I1; lia|]. intros ? _.
      apply wp_bind. apply wpr; [apply I2; lia|]. intros ? _.
      apply wp_bind. apply wpr; [apply Ibe; lia|]. intros ? _.
      apply wp_bind. apply wpr; [apply I1; lia|]. intros ? _.
      apply wpw; [destruct M; lia|]. intros s' M' R. split; [eapply more_trans; eauto|].
      apply inited_snoc; [eapply more_inited; eauto|exact R].
    + intros sk' [M I]. apply wp_bind. apply wpr; [apply Ial; lia|]. intros ? _.
      apply wp_bind. apply wpr; [apply I1; lia|]. intros ? _.
      apply wp_bind. apply wpr; [apply I1; lia|]. intros ? _.
      apply wp_bind. apply wpr; [apply I; lia|]. intros ? _.
      apply wp_bind. apply wpr; [apply I; lia|]. intros ? _. cbv zeta.
      apply wp_bind. apply wpw; [destruct M1; lia|]. intros a2 N1 R1.
      apply wp_bind. apply wpw; [destruct M2; lia|]. intros b2 N2 R2. cbn [wp].
      split; [destruct M; lia|]. split; [exact S1|]. split; [exact S2|].
      split; [eapply inited_sub; [exact I|lia|lia]|]. split; [eapply inited_sub; [exact I1|lia|lia]|].
      split; [eapply more_trans; eauto|]. split; [eapply more_trans; eauto|].
      split; (apply inited_snoc; [eapply more_inited; eauto|assumption]).
  - intros [[[[[[s0 sm'] sk] a0] b0] a'] b'] (S1 & S2 & S3 & I1 & I2 & M1 & M2 & I3 & I4). cbn [wp fst snd]. auto.
Qed.

Definition okres (n : Z) (u w : arr R) (r : res) : Prop :=
  let '(e, u', w') := r in more u u' /\ more w w' /\ (e = 0 -> inited u' 0 n /\ inited w' 0 n).

Lemma more_uninit {A} n (a' : arr A) : more (uninit n) a' -> asize a' = n.
Proof. intros [H _]. exact H. Qed.

Section Solve.
  Variable diagonalize : Z -> (Z -> option R) -> (Z -> option R) -> Z * (Z -> R) * (Z -> R).
  Variable polynomial_roots : (Z -> option R) -> Z -> Z * (Z -> R).

  Lemma partial_runs p n al be mo u w : 1 <= n <= 32 -> inited al 0 (2 * n - 1) -> inited be 0 (2 * n - 1) ->
    inited mo 0 (2 * n) -> 2 * n <= asize mo -> n <= asize u -> n <= asize w ->
    wp (rys_wheeler_partial diagonalize p n al be mo u w) (okres n u w).
  Proof.
    intros Hn Ial Ibe Imo Hmo Hu Hw. unfold rys_wheeler_partial.
    apply wp_bind. apply wpr; [apply Imo; lia|]. intros mu0 _.
    apply wp_bind. eapply wp_mono; [apply (wheeler_runs n al be mo (uninit n) (uninit n)); auto; cbn; lia|].
    intros [a b] [Ma [Mb [Ia Ib]]]. cbn [fst snd] in *. apply wp_bind.
    apply (wp_for (fun i st => more b (fst (fst st)))); [lia|apply more_refl| |].
    - intros i [[b' first] bad] Hi M. cbn [fst] in M. destruct bad; [exact M|].
      apply wp_bind. apply wpr; [apply (proj2 M), Ib; lia|]. intros bi _.
      assert (B : 0 <= i < asize b') by (destruct M as [M _]; rewrite M, (more_uninit _ _ Mb); lia).
      destruct (Rlt_dec bi (pSING p)).
      + destruct (negb first || Rltb bi 0); [exact M|]. apply wp_bind. apply wpw; [exact B|]. intros b2 M2 _. eapply more_trans; eauto.
      + apply wp_bind. apply wpw; [exact B|]. intros b2 M2 _. eapply more_trans; eauto.
    - intros [[b' first] bad] M. destruct bad.
      + apply wp_bind. eapply wp_mono; [apply wp_fill; lia|]. intros u' [Mu Iu].
        apply wp_bind. eapply wp_mono; [apply wp_fill; lia|]. intros w' [Mw Iw]. cbn [wp okres]. auto.
      + destruct (diagonalize n (acell a) (fun i => acell b' (i + 1))) as [[error eig] vec].
        apply wp_bind. eapply wp_mono; [apply wp_fill; cbn [asize uninit]; unfold MXRYSROOTS; nia|]. intros c0 [Mc Ic].
        apply wp_bind. eapply wp_mono; [apply wp_fill; lia|]. intros u1 [Mu Iu].
        apply wp_bind. apply (wp_for (fun i st => more u1 (fst st) /\ more w (snd st) /\ inited (snd st) 0 i)); [lia| | |].
        * cbn [fst snd]. split; [apply more_refl|]. split; [apply more_refl|apply inited_nil; lia].
        * intros i [u2 w2] Hi [A1 [A2 A3]]. cbn [fst snd] in *.
          apply wp_bind. apply wpr; [apply (proj2 A1), Iu; lia|]. intros r _.
          apply wp_bind. apply wpw; [destruct A1, Mu; lia|]. intros u3 M3 _.
          apply wp_bind. apply wpr; [apply Ic; nia|]. intros c _.
          apply wp_bind. apply wpw; [destruct A2; lia|]. intros w3 N3 R3. cbn [wp fst snd].
          split; [eapply more_trans; eauto|]. split; [eapply more_trans; eauto|].
          apply inited_snoc; [eapply more_inited; eauto|exact R3].
        * intros [u2 w2] [A1 [A2 A3]]. cbn [fst snd wp okres] in *. split; [eapply more_trans; eauto|]. split; [exact A2|].
          intros _. split; [eapply more_inited; eauto|exact A3].
  Qed.

  Lemma lag_runs p n x l u w : 1 <= n <= 32 -> n <= asize u -> n <= asize w ->
    wp (rys_laguerre diagonalize p n x l u w) (okres n u w).
  Proof.
    intros Hn Hu Hw. unfold rys_laguerre. apply wp_bind.
    eapply wp_mono; [apply laguerre_runs; cbn [asize uninit]; unfold MXRYSROOTS; lia|].
    intros [[al be] mo] (M1 & M2 & M3 & I1 & I2 & I3). apply partial_runs; auto.
    - eapply inited_sub; [exact I1|lia|lia].
    - eapply inited_sub; [exact I2|lia|lia].
    - eapply inited_sub; [exact I3|lia|lia].
    - rewrite (more_uninit _ _ M3). lia.
  Qed.

  Lemma jac_runs ord rows0 p rows len extra n x l : order_table ord rows0 -> has_tables p rows len extra -> rows <= rows0 ->
    1 <= n <= 20 -> 2 * n <= rows -> (0 <= x)%R -> (0 <= l <= 1)%R -> (l = 0%R -> 1 <= extra /\ 2 * n - 1 + extra < len) ->
    exists N, forall fuel, (N <= fuel)%nat -> forall u w, n <= asize u -> n <= asize w ->
    wp (rys_jacobi fuel ord diagonalize p n x l u w) (okres n u w).
  Proof.
    intros Ho Hp Hr Hn Hn2 Hx Hl Hf. unfold rys_jacobi. destruct (Req_EM_T l 0) as [E|E].
    - destruct (Hf E) as [F1 F2].
      destruct (flocke_runs ord rows0 Ho p rows len extra Hp Hr (n * 2) x ltac:(lia) ltac:(lia) F1 ltac:(lia) Hx) as [N H].
      exists N. intros fuel Hfu u w Hu Hw. apply wp_bind.
      eapply wp_mono; [apply H; [exact Hfu|cbn [asize uninit]; unfold MXRYSROOTS; lia]|]. intros mo [M I].
      destruct Hp as [[_ Ta] [[_ Tb] _]]. apply partial_runs; auto; try lia.
      + intros i Hi. apply Ta; lia.
      + intros i Hi. apply Tb; lia.
      + eapply inited_sub; [exact I|lia|lia].
      + rewrite (more_uninit _ _ M). unfold MXRYSROOTS. lia.
    - destruct (naive_runs ord rows0 Ho p rows len extra Hp Hr (n * 2) x l ltac:(lia) ltac:(lia) Hx Hl) as [N H].
      exists N. intros fuel Hfu u w Hu Hw. apply wp_bind.
      eapply wp_mono; [apply H; [exact Hfu|cbn [asize uninit]; unfold MXRYSROOTS; lia]|]. intros mo [M I].
      destruct Hp as [[_ Ta] [[_ Tb] _]]. apply partial_runs; auto; try lia.
      + intros i Hi. apply Ta; lia.
      + intros i Hi. apply Tb; lia.
      + eapply inited_sub; [exact I|lia|lia].
      + rewrite (more_uninit _ _ M). unfold MXRYSROOTS. lia.
  Qed.

  (** lower triangle of the first [m] rows *)
  Definition lower_tri (cs : arr R) (n m : Z) : Prop := forall k i, 0 <= k < m -> 0 <= i <= k -> readable cs (i + k * n).

  Lemma tri_idx i k n : 0 <= k < n -> 0 <= i < n -> 0 <= i + k * n < n * n.
  Proof. intros. nia. Qed.

  Lemma set_zero_runs cs n st : 0 <= st <= n -> n * n <= asize cs ->
    wp (SET_ZERO cs n st) (fun cs' => more cs cs' /\ forall k i, st <= k < n -> 0 <= i < n -> readable cs' (i + k * n)).
  Proof.
    intros Hs Hc. unfold SET_ZERO.
    apply (wp_for (fun m c => more cs c /\ forall k i, st <= k < m -> 0 <= i < n -> readable c (i + k * n))); [lia| | |auto].
    - split; [apply more_refl|]. intros; lia.
    - intros k c Hk [M I]. apply (wp_for (fun m c' => more c c' /\ forall i, 0 <= i < m -> readable c' (i + k * n))); [lia| | |].
      + split; [apply more_refl|]. intros; lia.
      + intros i c' Hi [M' I']. pose proof (tri_idx i k n ltac:(lia) ltac:(lia)). apply wpw; [destruct M, M'; lia|]. intros c2 M2 R.
        split; [eapply more_trans; eauto|]. intros i' Hi'. destruct (Z.eq_dec i' i) as [->|]; [exact R|]. apply (proj2 M2), I'. lia.
      + intros c' [M' I']. split; [eapply more_trans; eauto|]. intros k' i Hk' Hi.
        destruct (Z.eq_dec k' k) as [->|]; [apply I'; lia|]. apply (proj2 M'), I; lia.
  Qed.

  Lemma smit_runs cs f n : 3 <= n <= 32 -> n * n <= asize cs -> inited f 0 (2 * n - 1) ->
    wp (R_dsmit cs f n) (fun r => more cs (fst r) /\ (snd r = 0 -> lower_tri (fst r) n n)).
  Proof.
    intros Hn Hc If. unfold R_dsmit.
    apply wp_bind. apply wpr; [apply If; lia|]. intros f1 _. apply wp_bind. apply wpr; [apply If; lia|]. intros f0 _.
    apply wp_bind. apply wpr; [apply If; lia|]. intros f2 _. cbv zeta.
    destruct (Rle_dec (f2 + - f1 / f0 * f1) 0).
    { apply wp_bind. eapply wp_mono; [apply set_zero_runs; lia|]. intros c' [M _]. cbn [wp fst snd]. split; [exact M|discriminate]. }
    apply wp_bind. apply wpw; [nia|]. intros c1 M1 R1. apply wp_bind. apply wpw; [destruct M1; nia|]. intros c2 M2 R2.
    apply wp_bind. apply wpw; [destruct M1, M2; nia|]. intros c3 M3 R3. apply wp_bind.
    apply (wp_for (fun j st => let '(c, ret, v) := st in more cs c /\ asize v = 32 /\
       match ret with None => lower_tri c n j | Some e => lower_tri c n n end)); [lia| | |].
    - split; [repeat (eapply more_trans; [eassumption|]); apply more_refl|]. split; [reflexivity|].
      intros k i Hk Hi. assert (k = 0 /\ i = 0 \/ k = 1 /\ i = 0 \/ k = 1 /\ i = 1) as [[-> ->]|[[-> ->]|[-> ->]]] by lia.
      + apply (proj2 M3), (proj2 M2), R1.
      + apply (proj2 M3), R2.
      + exact R3.
    - intros j [[c ret] v] Hj [M [Sv T]]. destruct ret as [e|]; [cbn [wp]; auto|].
      apply wp_bind. apply (wp_for (fun k v => asize v = 32 /\ inited v 0 k)); [lia|split; [exact Sv|apply inited_nil; lia]| |].
      { intros k v' Hk [S I]. apply wpw; [lia|]. intros v2 M2' R. split; [destruct M2'; lia|].
        apply inited_snoc; [eapply more_inited; eauto|exact R]. }
      intros v1 [S1 I1]. apply wp_bind. apply wpr; [apply If; lia|]. intros fac _. apply wp_bind.
      apply (wp_for (fun _ st => asize (fst st) = 32 /\ inited (fst st) 0 j)); [lia|split; assumption| |].
      { intros k [v2 fac2] Hk [S2 I2]. cbn [fst] in *. apply wp_bind.
        apply (wp_for (fun _ _ => True)); [lia|exact Logic.I| |].
        - intros i dot Hi _. apply wp_bind. apply wpr; [apply T; lia|]. intros ? _. apply wp_bind. apply wpr; [apply If; lia|]. intros; exact Logic.I.
        - intros dot _. apply wp_bind. apply (wp_for (fun _ v3 => asize v3 = 32 /\ inited v3 0 j)); [lia|auto| |].
          + intros i v3 Hi [S3 I3]. apply wp_bind. apply wpr; [apply I3; lia|]. intros ? _.
            apply wp_bind. apply wpr; [apply T; lia|]. intros ? _. apply wpw; [lia|]. intros vv M4 _.
            split; [destruct M4; lia|eapply more_inited; eauto].
          + intros v3 [S3 I3]. cbn [wp fst]. auto. }
      intros [v2 fac2] [S2 I2]. cbn [fst] in *. destruct (Rle_dec fac2 0).
      + apply wp_bind. eapply wp_mono; [apply set_zero_runs; [lia|destruct M; lia]|]. intros c' [M' Z']. cbn [wp].
        split; [eapply more_trans; eauto|]. split; [exact S2|]. intros k i Hk Hi. destruct (Z_lt_dec k j).
        * apply (proj2 M'), T; lia.
        * apply Z'; lia.
      + cbv zeta. apply wp_bind. pose proof (tri_idx j j n ltac:(lia) ltac:(lia)). apply wpw; [destruct M; lia|]. intros c' M' R'.
        apply wp_bind. apply (wp_for (fun k c2 => more c' c2 /\ forall i, 0 <= i < k -> readable c2 (i + j * n))); [lia| | |].
        * split; [apply more_refl|intros; lia].
        * intros k c4 Hk [M4 I4]. apply wp_bind. apply wpr; [apply I2; lia|]. intros ? _.
          pose proof (tri_idx k j n ltac:(lia) ltac:(lia)). apply wpw; [destruct M, M', M4; lia|]. intros c5 M5 R5.
          split; [eapply more_trans; eauto|]. intros i Hi. destruct (Z.eq_dec i k) as [->|]; [exact R5|]. apply (proj2 M5), I4. lia.
        * intros c4 [M4 I4]. cbn [wp]. split; [repeat (eapply more_trans; [eassumption|]); apply more_refl|]. split; [exact S2|].
          intros k i Hk Hi. destruct (Z.eq_dec k j) as [->|].
          -- destruct (Z.eq_dec i j) as [->|]; [apply (proj2 M4), R'|apply I4; lia].
          -- apply (proj2 M4), (proj2 M'), T; lia.
    - intros [[c ret] v] [M [Sv T]]. cbn [wp fst snd]. split; [exact M|]. intros _. destruct ret; exact T.
  Qed.

  Lemma rdk_runs n f u w : 1 <= n <= 31 -> inited f 0 (2 * n + 1) -> n <= asize u -> n <= asize w ->
    wp (rdk_rys_roots polynomial_roots n f u w) (okres n u w).
  Proof.
    intros Hn If Hu Hw. unfold rdk_rys_roots. cbv zeta. apply wp_bind. apply wpr; [apply If; lia|]. intros f0 _.
    destruct (Req_EM_T f0 0).
    { apply wp_bind. eapply wp_mono; [apply wp_fill; lia|]. intros u' [Mu Iu].
      apply wp_bind. eapply wp_mono; [apply wp_fill; lia|]. intros w' [Mw Iw]. cbn [wp okres]. auto. }
    destruct (n =? 1) eqn:E1.
    { apply wp_bind. apply wpr; [apply If; lia|]. intros f1 _. apply wp_bind. apply wpw; [lia|]. intros u' M R.
      apply wp_bind. apply wpw; [lia|]. intros w' M' R'. cbn [wp okres]. split; [exact M|]. split; [exact M'|].
      intros _. split; intros i Hi; replace i with 0 by lia; assumption. }
    apply wp_bind. eapply wp_mono; [apply smit_runs; [lia|cbn [asize uninit]; unfold MXRYSROOTS; nia|eapply inited_sub; [exact If|lia|lia]]|].
    intros [cs error] [_ T]. cbn [fst snd] in T. destruct (error =? 0) eqn:Ee; cbn [negb].
    2: { cbn [wp okres]. split; [apply more_refl|]. split; [apply more_refl|discriminate]. }
    specialize (T ltac:(lia)). destruct (polynomial_roots (acell cs) n) as [error2 rts].
    destruct (error2 =? 0) eqn:Ee2; cbn [negb].
    2: { cbn [wp okres]. split; [apply more_refl|]. split; [apply more_refl|lia]. }
    apply wp_bind. eapply wp_mono; [apply wp_fill; cbn [asize uninit]; lia|]. intros rt [_ Ir]. apply wp_bind.
    apply (wp_for (fun k st => more u (fst st) /\ more w (snd st) /\ inited (fst st) 0 k /\ inited (snd st) 0 k)); [lia| | |].
    - cbn [fst snd]. repeat split; auto; apply inited_nil; lia.
    - intros k [u' w'] Hk (A1 & A2 & A3 & A4). cbn [fst snd] in *. apply wp_bind. apply wpr; [apply Ir; lia|]. intros root _.
      assert (Fin : forall x y, wp (u2 <- wr u' k x ;; w2 <- wr w' k y ;; Some (u2, w2))
        (fun st => more u (fst st) /\ more w (snd st) /\ inited (fst st) 0 (k + 1) /\ inited (snd st) 0 (k + 1))).
      { intros x y. apply wp_bind. apply wpw; [destruct A1; lia|]. intros u2 M R. apply wp_bind. apply wpw; [destruct A2; lia|]. intros w2 M' R'.
        cbn [wp fst snd]. split; [eapply more_trans; eauto|]. split; [eapply more_trans; eauto|].
        split; (apply inited_snoc; [eapply more_inited; eauto|assumption]). }
      destruct (Req_EM_T root 1); [apply Fin|]. apply wp_bind.
      apply (wp_for (fun _ _ => True)); [lia|exact Logic.I| |intros; apply Fin].
      intros j dum Hj _. apply wp_bind. replace (j * (n + 1) + j) with (j + j * (n + 1)) by lia. apply wpr; [apply T; lia|]. intros p0 _.
      apply wp_bind. apply (wp_for (fun _ _ => True)); [lia|exact Logic.I| |intros; exact Logic.I].
      intros i q Hi _. apply wp_bind. replace (j * (n + 1) + (j - i)) with ((j - i) + j * (n + 1)) by lia.
      apply wpr; [apply T; lia|]. intros; exact Logic.I.
    - intros [u' w'] (A1 & A2 & A3 & A4). cbn [fst snd wp okres] in *. auto.
  Qed.

  Lemma sch_runs p n x l : (0 < pSML p < 1)%R -> 1 <= n <= 19 -> (0 <= x)%R -> (0 <= l <= 1)%R ->
    exists N, forall fuel, (N <= fuel)%nat -> forall u w, n <= asize u -> n <= asize w ->
    wp (rys_schmidt fuel polynomial_roots p n x l u w) (okres n u w).
  Proof.
    intros Hp Hn Hx Hl. unfold rys_schmidt. destruct (Req_EM_T l 0) as [E|E].
    - destruct (gamma_runs (pSML p) (uninit (MXRYSROOTS * 2)) x (n * 2) ltac:(unfold MXRYSROOTS; cbn [asize uninit]; lia) ltac:(lia) Hx Hp) as [N H].
      exists N. intros fuel Hf u w Hu Hw. apply wp_bind. eapply wp_mono; [apply H, Hf|]. intros f [_ I].
      apply rdk_runs; auto; [lia|]. eapply inited_sub; [exact I|lia|lia].
    - destruct (fmt_runs (pSML p) (uninit (MXRYSROOTS * 2)) x l (n * 2) ltac:(unfold MXRYSROOTS; cbn [asize uninit]; lia) ltac:(lia) Hx Hl Hp) as [N H].
      exists N. intros fuel Hf u w Hu Hw. apply wp_bind. eapply wp_mono; [apply H, Hf|]. intros f [_ I].
      apply rdk_runs; auto; [lia|]. eapply inited_sub; [exact I|lia|lia].
  Qed.
End Solve.
