(** CtrFinal.v — the contraction step in the vocabulary of the property statements. *)
From Coq Require Import Ring Permutation.
From Verif Require Import Base BasSpec BasProof FblasModel CtrModel CtrSpec CtrProof LoopSpec LoopProof
  Loop2eModel Loop2eSpec Loop2eFinal.

Lemma filter_perm {A} (f : A -> bool) (l : list A) :
  Permutation (filter f l ++ filter (fun x => negb (f x)) l) l.
Proof.
  induction l as [|a l IH]; cbn; [constructor|]. destruct (f a); cbn.
  - constructor. exact IH.
  - apply Permutation_sym, Permutation_cons_app, Permutation_sym. exact IH.
Qed.

Lemma non0coeff_exact {F} (isz : F -> bool) (c : arr F) np nctr (cf : Z -> Z -> F) (s0 n0 : arr Z) :
  0 <= np -> 0 <= nctr -> np * nctr <= asize s0 -> np <= asize n0 ->
  (forall ic p, 0 <= ic < nctr -> 0 <= p < np -> rd c (np * ic + p) = Some (cf ic p)) ->
  exists s1 n1, CINTOpt_non0coeff_byshell isz s0 n0 c np nctr = Some (s1, n1) /\
    (forall p, 0 <= p < np -> exists l count,
       rd n1 p = Some (Z.of_nat count) /\
       (forall i, 0 <= i < nctr -> rd s1 (p * nctr + i) = nth_error l (Z.to_nat i)) /\
       Permutation l (zseq nctr) /\
       (forall j, In j (firstn count l) <-> 0 <= j < nctr /\ isz (cf j p) = false) /\
       (forall j, In j (skipn count l) <-> 0 <= j < nctr /\ isz (cf j p) = true)) /\
    (forall x, ~ (0 <= x < np * nctr) -> acell s1 x = acell s0 x) /\
    (forall x, ~ (0 <= x < np) -> acell n1 x = acell n0 x).
Proof.
  intros H1 H2 H3 H4 H5. pose proof (non0coeff_ok isz c np nctr cf s0 n0 H1 H2 H3 H4 H5) as K.
  apply wp_exists in K. destruct K as [[s1 n1] [E (_ & _ & K1 & K2 & K3)]]. cbn [fst snd] in *.
  exists s1, n1. split; [exact E|]. split; [|auto].
  intros p Hp. destruct (K1 p Hp) as [C R].
  exists (sorted_row isz cf nctr p), (length (filter (fun j => negb (isz (cf j p))) (zseq nctr))).
  split; [exact C|]. split; [|split; [|split]].
  - intros i Hi. specialize (R (Z.to_nat i)). rewrite Z2Nat.id in R by lia. apply R.
    rewrite zseq_length. lia.
  - unfold sorted_row. pose proof (filter_perm (fun j => negb (isz (cf j p))) (zseq nctr)) as P.
    erewrite (filter_ext (fun x => negb (negb (isz (cf x p))))) in P; [exact P|].
    intros a. apply negb_involutive.
  - intros j. unfold sorted_row. rewrite firstn_app, firstn_all, Nat.sub_diag, firstn_O, app_nil_r.
    rewrite filter_In, zseq_In, negb_true_iff. reflexivity.
  - intros j. unfold sorted_row. rewrite skipn_app, skipn_all, Nat.sub_diag. cbn [app skipn].
    rewrite filter_In, zseq_In. reflexivity.
Qed.

Section Step.
  Context {F : Type} (zero one : F) (add mul sub : F -> F -> F) (opp : F -> F).
  Hypothesis Rth : ring_theory zero one add mul sub opp (@eq F).
  Variable isz : F -> bool.
  Hypothesis isz_zero : forall c, isz c = true -> c = zero.
  Add Ring FrC : Rth.

  Lemma prim_add (s : shl F) cf p (gc gp : arr F) nf (Sv : Z -> F) (b : Z -> Z -> F) :
    shell_of isz s cf -> 0 <= p < s_np s -> 0 <= nf -> nf * s_ctr s <= asize gc ->
    (forall n, 0 <= n < nf -> rd gp n = Some (Sv n)) ->
    (forall j n, 0 <= j < s_ctr s -> 0 <= n < nf -> rd gc (nf * j + n) = Some (b j n)) ->
    exists k gc', rd (s_non0 s) p = Some k /\
      CINTprim_to_ctr_1 add mul gc gp (s_c s) p nf (s_np s) k (s_sidx s) (p * s_ctr s) = Some gc' /\
      asize gc' = asize gc /\
      (forall j n, 0 <= j < s_ctr s -> 0 <= n < nf ->
         rd gc' (nf * j + n) = Some (add (b j n) (mul (cf j p) (Sv n)))) /\
      (forall x, ~ (0 <= x < nf * s_ctr s) -> acell gc' x = acell gc x).
  Proof.
    intros Hs Hp Hnf Hsz Hgp Hb. apply (shell_of_ok zero one isz isz_zero) in Hs.
    destruct Hs as (Hnp & Hct & Hcf & Hsp). destruct (Hsp p Hp) as [Hk Hrow].
    set (l := filter (fun j => negb (isz (cf j p))) (zseq (s_ctr s))) in *.
    exists (Z.of_nat (length l)).
    pose proof (prim1_ok add mul gc gp (s_c s) (s_sidx s) (p * s_ctr s) p nf (s_np s) (s_ctr s) l
                  (fun j => cf j p) Sv b Hnf Hsz Hgp) as K.
    assert (Hll : (length l <= length (zseq (s_ctr s)))%nat).
    { unfold l. generalize (zseq (s_ctr s)). intros k. induction k as [|a k IH]; cbn; [lia|]. destruct (negb _); cbn; lia. }
    apply wp_exists in K.
    - destruct K as [gc' (E & K1 & K2 & K3)]. exists gc'. split; [exact Hk|]. split; [exact E|].
      split; [exact K1|]. split; [|exact K3].
      intros j n Hj Hn. apply rd_spec. split; [rewrite K1; nia|]. rewrite K2 by assumption. f_equal.
      unfold l. rewrite (sparse_in zero one isz isz_zero) by exact Hj. destruct (isz (cf j p)) eqn:Ez; cbn [negb]; [|reflexivity].
      rewrite (isz_zero _ Ez). ring.
    - intros i Hi. rewrite <- (Hcf i p) by lia. f_equal. lia.
    - unfold l. apply NoDup_filter. apply (zseq_NoDup zero one isz isz_zero).
    - intros j Hj. unfold l in Hj. apply filter_In in Hj. apply zseq_In. apply Hj.
    - intros i Hi. rewrite Hrow by lia. unfold sorted_row. fold l. apply nth_error_app1. exact Hi.
    - intros j n Hj Hn. specialize (Hb j n Hj Hn). apply rd_spec in Hb. apply Hb.
  Qed.
End Step.
