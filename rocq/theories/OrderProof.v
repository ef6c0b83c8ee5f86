From Coq Require Import Reals Lra ZifyBool Permutation FinFun.
From Verif Require Import Base BoysModel RysModel RysSpec RysProof OrderTab.
Ltac Zify.zify_post_hook ::= Z.div_mod_to_equations.

(** rys_wheeler.c:3168-3233: the rows one after the other *)
Definition JACOBI_COEF_ORDER : arr Z :=
  mkarr 2080 (fun i => nth_error (concat order_rows) (Z.to_nat i)).

(** row number [i] has [i+1] entries, in range, without repetition *)
Fixpoint nodupb (l : list Z) : bool :=
  match l with [] => true | x :: t => negb (existsb (Z.eqb x) t) && nodupb t end.
Definition rowb (i : Z) (l : list Z) : bool :=
  (Z.of_nat (length l) =? i + 1) && forallb (fun x => (0 <=? x) && (x <=? i)) l && nodupb l.
Fixpoint rowsb (i : Z) (ls : list (list Z)) : bool :=
  match ls with [] => true | l :: t => rowb i l && rowsb (i + 1) t end.

Lemma rows_ok : (Z.of_nat (length order_rows) =? 64) && rowsb 0 order_rows = true.
Proof. vm_compute. reflexivity. Qed.

Lemma nodupb_ok l : nodupb l = true -> NoDup l.
Proof.
  induction l as [|x t IH]; [constructor|]. cbn [nodupb]. intros H. apply andb_prop in H. destruct H as [H1 H2].
  constructor; [|apply IH, H2]. intros I. rewrite (proj2 (existsb_exists (Z.eqb x) t)) in H1; [discriminate|].
  exists x. split; [exact I|apply Z.eqb_refl].
Qed.

Lemma perm_row i l : 0 <= i -> length l = Z.to_nat (i + 1) -> (forall x, In x l -> 0 <= x <= i) -> NoDup l ->
  forall k, In k l <-> 0 <= k <= i.
Proof.
  intros Hi Hl Hr Hd k. split; [apply Hr|]. intros Hk.
  apply (NoDup_length_incl (l := l) (l' := map Z.of_nat (seq 0 (Z.to_nat (i + 1))))); [exact Hd| | |].
  - rewrite map_length, seq_length. lia.
  - intros x Hx. apply Hr in Hx. apply in_map_iff. exists (Z.to_nat x). split; [lia|apply in_seq; lia].
  - apply in_map_iff. exists (Z.to_nat k). split; [lia|apply in_seq; lia].
Qed.

Lemma rows_nth ls : forall i0, 0 <= i0 -> rowsb i0 ls = true -> forall k, (k < length ls)%nat ->
  let l := nth k ls [] in let i := i0 + Z.of_nat k in
  length l = Z.to_nat (i + 1) /\ NoDup l /\ forall x, In x l <-> 0 <= x <= i.
Proof.
  induction ls as [|l t IH]; intros i0 Hi H k Hk; [cbn in Hk; lia|]. cbn [rowsb] in H. apply andb_prop in H. destruct H as [H1 H2].
  destruct k as [|k].
  - cbn [nth]. cbv zeta. rewrite Z.add_0_r. unfold rowb in H1. apply andb_prop in H1. destruct H1 as [H1 H3]. apply andb_prop in H1. destruct H1 as [H1 H4].
    assert (L : length l = Z.to_nat (i0 + 1)) by lia. apply nodupb_ok in H3. split; [exact L|]. split; [exact H3|].
    apply perm_row; auto. intros x Hx. rewrite forallb_forall in H4. specialize (H4 x Hx). lia.
  - cbn [nth]. cbv zeta. replace (i0 + Z.of_nat (S k)) with (i0 + 1 + Z.of_nat k) by lia. apply IH; [lia|exact H2|cbn in Hk; lia].
Qed.

Lemma concat_nth ls : forall i0 k j, 0 <= i0 -> rowsb i0 ls = true -> (k < length ls)%nat -> (j < length (nth k ls []))%nat ->
  nth_error (concat ls) (Z.to_nat ((i0 + Z.of_nat k) * (i0 + Z.of_nat k + 1) / 2 - i0 * (i0 + 1) / 2) + j) = Some (nth j (nth k ls []) 0).
Proof.
  induction ls as [|l t IH]; intros i0 k j Hi H Hk Hj; [cbn in Hk; lia|].
  cbn [rowsb] in H. apply andb_prop in H. destruct H as [H1 H2]. cbn [concat].
  assert (L : length l = Z.to_nat (i0 + 1)) by (unfold rowb in H1; lia).
  destruct k as [|k].
  - cbn [nth] in *. replace (Z.to_nat _ + j)%nat with j by lia. rewrite nth_error_app1 by exact Hj. apply nth_error_nth'. exact Hj.
  - cbn [nth] in *. cbn [length] in Hk.
    assert (T : i0 * (i0 + 1) / 2 + (i0 + 1) = (i0 + 1) * (i0 + 1 + 1) / 2) by lia.
    assert (M : (i0 + 1) * (i0 + 1 + 1) / 2 <= (i0 + 1 + Z.of_nat k) * (i0 + 1 + Z.of_nat k + 1) / 2) by (apply Z.div_le_mono; nia).
    rewrite nth_error_app2.
    + rewrite <- (IH (i0 + 1) k j) by (auto; lia). f_equal. rewrite L.
      replace (i0 + Z.of_nat (S k)) with (i0 + 1 + Z.of_nat k) by lia. clear - T M Hi. lia.
    + rewrite L. replace (i0 + Z.of_nat (S k)) with (i0 + 1 + Z.of_nat k) by lia. clear - T M Hi. lia.
Qed.

Theorem order_ok : order_table JACOBI_COEF_ORDER 64.
Proof.
  pose proof rows_ok as H. apply andb_prop in H. destruct H as [HL HR]. assert (L : length order_rows = 64%nat) by lia. clear HL.
  split; [reflexivity|]. intros i Hi. exists (nth (Z.to_nat i) order_rows []).
  destruct (rows_nth order_rows 0 ltac:(lia) HR (Z.to_nat i) ltac:(lia)) as [A [B C]].
  cbv zeta in *. rewrite !Z.add_0_l, !Z2Nat.id in * by lia. split; [|auto].
  intros j Hj. apply rd_spec. split.
  - cbn [asize JACOBI_COEF_ORDER]. apply (tri_mono i 64); lia.
  - cbn [acell JACOBI_COEF_ORDER]. rewrite <- (concat_nth order_rows 0 (Z.to_nat i) (Z.to_nat j)); [|lia|exact HR|lia|lia].
    f_equal. rewrite Z.add_0_l, Z2Nat.id by lia. assert (0 <= i * (i + 1) / 2) by (apply Z.div_pos; nia). lia.
Qed.

(** ** sums in any order *)
Fixpoint rsum (l : list R) : R := match l with [] => 0%R | x :: t => (x + rsum t)%R end.

Lemma rsum_perm l l' : Permutation l l' -> rsum l = rsum l'.
Proof. induction 1; cbn [rsum]; lra. Qed.

Lemma rsum_f f n : rsum (map f (map Z.of_nat (seq 0 (S n)))) = sum_f_R0 (fun k => f (Z.of_nat k)) n.
Proof.
  induction n as [|n IH]; [cbn; ring|]. rewrite seq_S, !map_app. cbn [sum_f_R0]. rewrite <- IH.
  set (a := map f (map Z.of_nat (seq 0 (S n)))). clearbody a. cbn [map Nat.add].
  induction a as [|x a IHa]; cbn [app rsum]; [ring|]. rewrite IHa. ring.
Qed.

Section Naive.
  Variable fuel : nat.
  Variable p : prec.
  Variable ord : arr Z.
  Variable rows : Z.
  Hypothesis Hord : order_table ord rows.

  (** Whatever the incomplete-gamma routine left in its array: if the routine returns, moment
      number i is the full sum over all its i+1 coefficients. *)
  Lemma naive_sum n t l mus fmt : fmt_erfc_like (pSML p) fuel (uninit (MXRYSROOTS * 2)) t l (n - 1) = Some fmt ->
    0 <= n <= rows -> n <= asize mus -> forall C F,
    (forall i k, 0 <= i < n -> 0 <= k <= i -> rd (pCOEF p) (i * (i + 1) / 2 + k) = Some (C i k)) ->
    (forall k, 0 <= k < n -> rd fmt k = Some (F k)) ->
    exists mus', naive_jacobi_moments fuel p ord n t l mus = Some mus' /\
      forall i, 0 <= i < n -> rd mus' i = Some (sum_f_R0 (fun k => C i (Z.of_nat k) * F (Z.of_nat k))%R (Z.to_nat i)).
  Proof.
    intros E Hn Hm C F HC HF. unfold naive_jacobi_moments. rewrite E. cbn [bind].
    apply wp_exists.
    apply (wp_for (fun m g => asize g = asize mus /\ forall i, 0 <= i < m -> rd g i =
       Some (sum_f_R0 (fun k => C i (Z.of_nat k) * F (Z.of_nat k))%R (Z.to_nat i)))); [lia| | |].
    - split; [reflexivity|]. intros; lia.
    - intros i g Hi [Sg G]. cbv zeta. apply wp_bind.
      destruct (proj2 Hord i ltac:(lia)) as [ls [O1 [O2 [O3 O4]]]].
      apply (wp_for (fun j s => s = rsum (map (fun k => C i k * F k)%R (firstn (Z.to_nat j) ls)))); [lia|reflexivity| |].
      + intros j s Hj Es. rewrite O1 by lia. cbn [bind].
        assert (K : 0 <= nth (Z.to_nat j) ls 0 <= i) by (apply O4, nth_In; lia).
        rewrite HC, HF by lia. cbn [bind wp]. rewrite Es.
        replace (Z.to_nat (j + 1)) with (S (Z.to_nat j)) by lia.
        assert (Q : forall (l : list Z) m, (m < length l)%nat -> firstn (S m) l = firstn m l ++ [nth m l 0]).
        { induction l0 as [|x l0 IH]; intros m Hm'; [cbn in Hm'; lia|]. destruct m; [reflexivity|].
          cbn [firstn nth app]. rewrite <- IH by (cbn in Hm'; lia). reflexivity. }
        rewrite (Q ls (Z.to_nat j)) by lia. rewrite map_app. cbn [map].
        generalize (map (fun k => C i k * F k)%R (firstn (Z.to_nat j) ls)). intros a.
        induction a as [|x a IHa]; cbn [app rsum]; lra.
      + intros s ->. rewrite firstn_all2 by lia. apply wp_wr; [lia|]. intros g' S' G'. split; [lia|].
        intros i' Hi'. apply rd_spec. rewrite S', G'. split; [lia|]. destruct (i' =? i) eqn:Ei.
        * assert (i' = i) by lia. subst i'. f_equal. rewrite <- rsum_f with (f := fun k => (C i k * F k)%R).
          apply rsum_perm, Permutation_map, NoDup_Permutation; [exact O3| |].
          -- apply Injective_map_NoDup; [intros a b; lia|apply seq_NoDup].
          -- intros k. rewrite O4, in_map_iff. split; [intros Hk; exists (Z.to_nat k); split; [lia|apply in_seq; lia]|intros [m [<- Hm']]; apply in_seq in Hm'; lia].
        * apply rd_spec. apply G. lia.
    - intros g [_ G]. exact G.
  Qed.
End Naive.
