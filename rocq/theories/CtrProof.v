(** CtrProof.v — proofs about the sparse lists and the contraction kernels. *)
From Verif Require Import Base BasSpec BasProof FblasModel FblasSpec FblasProof CtrModel CtrSpec.
From Coq Require Import ZifyBool ZifyNat.

Lemma firstn_S_nth {A} (l : list A) : forall n v, nth_error l n = Some v ->
  firstn (S n) l = firstn n l ++ [v].
Proof.
  induction l as [|x l IH]; intros [|n] v H; cbn in *; try discriminate.
  - congruence.
  - f_equal. apply IH. exact H.
Qed.

Lemma filter_split_length {A} (f : A -> bool) (l : list A) :
  (length (filter (fun x => negb (f x)) l) + length (filter f l))%nat = length l.
Proof. induction l as [|x l IH]; cbn; [reflexivity|]. destruct (f x); cbn; lia. Qed.

Lemma sorted_row_length {F} (isz : F -> bool) cf nctr p :
  length (sorted_row isz cf nctr p) = Z.to_nat nctr.
Proof. unfold sorted_row. rewrite app_length, filter_split_length. apply zseq_length. Qed.

(** ** C14 *)
Section Sparse.
  Context {F : Type} (isz : F -> bool).

  Lemma filter_zseq_succ (f : Z -> bool) j : 0 <= j ->
    filter f (zseq (j + 1)) = filter f (zseq j) ++ (if f j then [j] else []).
  Proof. intros H. rewrite zseq_succ by exact H. rewrite filter_app. reflexivity. Qed.

  Definition lst_at (a : arr Z) (off : Z) (l : list Z) : Prop :=
    forall i, (i < length l)%nat -> acell a (off + Z.of_nat i) = nth_error l i.

  Lemma lst_at_snoc a a' off l x :
    lst_at a off l -> acell a' (off + Z.of_nat (length l)) = Some x ->
    (forall i, (i < length l)%nat -> acell a' (off + Z.of_nat i) = acell a (off + Z.of_nat i)) ->
    lst_at a' off (l ++ [x]).
  Proof.
    intros H1 H2 H3 i Hi. rewrite app_length in Hi. cbn [length] in Hi.
    destruct (Nat.eq_dec i (length l)) as [->|Hne].
    - rewrite nth_error_app2, Nat.sub_diag by lia. exact H2.
    - rewrite nth_error_app1, H3 by lia. apply H1. lia.
  Qed.

  Lemma non0coeff_ok (c : arr F) np nctr (cf : Z -> Z -> F) (s0 n0 : arr Z) :
    0 <= np -> 0 <= nctr -> np * nctr <= asize s0 -> np <= asize n0 ->
    (forall ic p, 0 <= ic < nctr -> 0 <= p < np -> rd c (np * ic + p) = Some (cf ic p)) ->
    wp (CINTOpt_non0coeff_byshell isz s0 n0 c np nctr) (fun r =>
      asize (fst r) = asize s0 /\ asize (snd r) = asize n0 /\
      (forall p, 0 <= p < np ->
         rd (snd r) p = Some (Z.of_nat (length (filter (fun j => negb (isz (cf j p))) (zseq nctr)))) /\
         (forall i, (i < length (zseq nctr))%nat ->
            rd (fst r) (p * nctr + Z.of_nat i) = nth_error (sorted_row isz cf nctr p) i)) /\
      (forall x, ~ (0 <= x < np * nctr) -> acell (fst r) x = acell s0 x) /\
      (forall x, ~ (0 <= x < np) -> acell (snd r) x = acell n0 x)).
  Proof.
    intros Hnp Hc Hs Hn Hcf. unfold CINTOpt_non0coeff_byshell.
    apply wp_for with (I := fun ip r =>
      asize (fst r) = asize s0 /\ asize (snd r) = asize n0 /\
      (forall p, 0 <= p < ip ->
         acell (snd r) p = Some (Z.of_nat (length (filter (fun j => negb (isz (cf j p))) (zseq nctr)))) /\
         lst_at (fst r) (p * nctr) (sorted_row isz cf nctr p)) /\
      (forall x, ~ (0 <= x < np * nctr) -> acell (fst r) x = acell s0 x) /\
      (forall x, ~ (0 <= x < np) -> acell (snd r) x = acell n0 x)).
    - exact Hnp.
    - cbn [fst snd]. repeat split; try reflexivity; lia.
    - intros ip [sidx non0] Hip [Hs1 [Hn1 [Hrow [Hx Hy]]]]. cbn [fst snd] in *.
      set (nz := fun j => negb (isz (cf j ip))).
      set (z := fun j => isz (cf j ip)).
      apply wp_bind. apply wp_for with (I := fun j r =>
        let '(sx, zi, k, kp) := r in
        asize sx = asize sidx /\ asize zi = nctr /\
        k = Z.of_nat (length (filter nz (zseq j))) /\
        kp = Z.of_nat (length (filter z (zseq j))) /\
        k + kp = j /\
        lst_at sx (ip * nctr) (filter nz (zseq j)) /\
        lst_at zi 0 (filter z (zseq j)) /\
        (forall x, ~ (ip * nctr <= x < ip * nctr + j) -> acell sx x = acell sidx x)).
      + exact Hc.
      + cbn. repeat split; try reflexivity; intros i Hi; cbn in Hi; lia.
      + intros j [[[sx zi] k] kp] Hj (Ha & Hb & Hk & Hkp & Hsum & Hl & Hz & Hfr).
        apply wp_bind. rewrite (Hcf j ip) by lia. cbn [wp].
        assert (Ez : z j = isz (cf j ip)) by reflexivity.
        assert (En : nz j = negb (isz (cf j ip))) by reflexivity.
        destruct (isz (cf j ip)) eqn:E; cbn [negb].
        * apply wp_bind. apply wp_wr; [lia|]. intros zi' Hsz Hcz. cbn [wp].
          rewrite !filter_zseq_succ by lia. rewrite Ez, En. cbn [negb].
          rewrite app_nil_r. rewrite app_length. cbn [length].
          repeat split; try lia.
          -- exact Hl.
          -- apply lst_at_snoc with (a := zi); [exact Hz| |].
             ++ rewrite Hcz. replace (0 + Z.of_nat (length (filter z (zseq j))) =? kp) with true by lia. reflexivity.
             ++ intros i Hi. rewrite Hcz. replace (0 + Z.of_nat i =? kp) with false by lia. reflexivity.
          -- intros x Hx'. apply Hfr. lia.
        * apply wp_bind. apply wp_wr; [nia|]. intros sx' Hsz Hcz. cbn [wp].
          rewrite !filter_zseq_succ by lia. rewrite Ez, En. cbn [negb].
          rewrite app_nil_r. rewrite app_length. cbn [length].
          repeat split; try lia.
          -- apply lst_at_snoc with (a := sx); [exact Hl| |].
             ++ rewrite Hcz. replace (ip * nctr + Z.of_nat (length (filter nz (zseq j))) =? ip * nctr + k) with true by lia. reflexivity.
             ++ intros i Hi. rewrite Hcz. replace (ip * nctr + Z.of_nat i =? ip * nctr + k) with false by lia. reflexivity.
          -- exact Hz.
          -- intros x Hx'. rewrite Hcz. replace (x =? ip * nctr + k) with false by lia. apply Hfr. lia.
      + intros [[[sx zi] k] kp] (Ha & Hb & Hk & Hkp & Hsum & Hl & Hz & Hfr).
        apply wp_bind. apply wp_for with (I := fun j sx' =>
          asize sx' = asize sidx /\
          lst_at sx' (ip * nctr) (filter nz (zseq nctr) ++ firstn (Z.to_nat j) (filter z (zseq nctr))) /\
          (forall x, ~ (ip * nctr <= x < ip * nctr + nctr) -> acell sx' x = acell sidx x)).
        * lia.
        * cbn [Z.to_nat firstn]. rewrite app_nil_r. repeat split; try assumption.
        * intros j sx' Hj (Ha' & Hl' & Hfr').
          destruct (nth_error (filter z (zseq nctr)) (Z.to_nat j)) as [v|] eqn:Ev.
          2:{ apply nth_error_None in Ev. lia. }
          apply wp_bind. apply wp_rd with (v := v).
          { apply rd_spec. split; [lia|].
            specialize (Hz (Z.to_nat j) ltac:(lia)). rewrite Ev in Hz. rewrite <- Hz. f_equal. lia. }
          apply wp_wr; [nia|]. intros sx'' Hsz Hcz. split; [lia|]. split.
          -- replace (Z.to_nat (j + 1)) with (S (Z.to_nat j)) by lia.
             rewrite (firstn_S_nth _ _ _ Ev). rewrite app_assoc.
             assert (El : length (filter nz (zseq nctr) ++ firstn (Z.to_nat j) (filter z (zseq nctr))) = (Z.to_nat (k + j))).
             { rewrite app_length, firstn_length. lia. }
             apply lst_at_snoc with (a := sx'); [exact Hl'| |]; rewrite El.
             ++ rewrite Hcz. replace (ip * nctr + Z.of_nat (Z.to_nat (k + j)) =? ip * nctr + (k + j)) with true by lia. reflexivity.
             ++ intros i Hi. rewrite Hcz. replace (ip * nctr + Z.of_nat i =? ip * nctr + (k + j)) with false by lia. reflexivity.
          -- intros x Hx'. rewrite Hcz. replace (x =? ip * nctr + (k + j)) with false by lia. apply Hfr'. exact Hx'.
        * intros sx' (Ha' & Hl' & Hfr'). apply wp_bind. apply wp_wr; [lia|].
          intros non0' Hsn Hcn. cbn [wp fst snd]. repeat split; try lia.
          -- rewrite Hcn. destruct (p =? ip) eqn:Ep.
             ++ assert (p = ip) by lia. subst p. rewrite Hk. reflexivity.
             ++ apply Hrow. lia.
          -- destruct (Z.eq_dec p ip) as [->|Hne].
             ++ rewrite firstn_all2 in Hl' by lia. exact Hl'.
             ++ intros i Hi. rewrite Hfr'.
                ** apply Hrow; [lia|exact Hi].
                ** rewrite sorted_row_length in Hi. nia.
          -- intros x Hx'. rewrite Hfr' by nia. apply Hx. exact Hx'.
          -- intros x Hx'. rewrite Hcn. replace (x =? ip) with false by lia. apply Hy. exact Hx'.
    - intros [sidx non0] (Hs1 & Hn1 & Hrow & Hx & Hy). cbn [fst snd] in *.
      split; [exact Hs1|]. split; [exact Hn1|]. split; [|split; assumption].
      intros p Hp. destruct (Hrow p Hp) as [H1 H2]. split.
      + apply rd_spec. split; [lia|exact H1].
      + intros i Hi. specialize (H2 i). rewrite sorted_row_length in H2.
        rewrite zseq_length in Hi. unfold rd.
        replace (inb sidx (p * nctr + Z.of_nat i)) with true; [apply H2; lia|].
        unfold inb. symmetry. assert (p * nctr + Z.of_nat i < np * nctr) by nia. nia.
  Qed.
End Sparse.

(** ** C15 *)
Section P2C.
  Context {F : Type} (add mul : F -> F -> F).

  Lemma addr_split nf i n j n' : 0 <= n < nf -> 0 <= n' < nf ->
    nf * i + n = nf * j + n' -> i = j /\ n = n'.
  Proof. intros H H' E. destruct (radix2_inj nf n i n' j H H') as [-> ->]; [lia|]. auto. Qed.

  Lemma prim0_ok (gc gp c : arr F) p nf nprim nctr (cf Sv : Z -> F) :
    0 <= nf -> 0 <= nctr -> nf * nctr <= asize gc ->
    (forall n, 0 <= n < nf -> rd gp n = Some (Sv n)) ->
    (forall i, 0 <= i < nctr -> rd c (p + nprim * i) = Some (cf i)) ->
    wp (CINTprim_to_ctr_0 mul gc gp c p nf nprim nctr) (fun gc' =>
      asize gc' = asize gc /\
      (forall i n, 0 <= i < nctr -> 0 <= n < nf -> acell gc' (nf * i + n) = Some (mul (cf i) (Sv n))) /\
      (forall x, ~ (0 <= x < nf * nctr) -> acell gc' x = acell gc x)).
  Proof.
    intros Hnf Hn Hsz Hgp Hc. unfold CINTprim_to_ctr_0.
    apply wp_for with (I := fun i gc' => asize gc' = asize gc /\
      (forall i' n, 0 <= i' < i -> 0 <= n < nf -> acell gc' (nf * i' + n) = Some (mul (cf i') (Sv n))) /\
      (forall x, ~ (0 <= x < nf * nctr) -> acell gc' x = acell gc x)).
    - exact Hn.
    - repeat split; try reflexivity. intros; lia.
    - intros i gc1 Hi (H1 & H2 & H3). apply wp_bind. rewrite Hc by lia. cbn [wp].
      apply wp_for with (I := fun n gc' => asize gc' = asize gc /\
        (forall i' n', 0 <= n' < nf -> (0 <= i' < i \/ i' = i /\ n' < n) ->
           acell gc' (nf * i' + n') = Some (mul (cf i') (Sv n'))) /\
        (forall x, ~ (0 <= x < nf * nctr) -> acell gc' x = acell gc x)).
      + exact Hnf.
      + repeat split; try assumption. intros i' n' Hn' [Hi'|[-> Hx]]; [apply H2; lia|lia].
      + intros n gc2 Hn2 (G1 & G2 & G3). apply wp_bind. rewrite Hgp by lia. cbn [wp].
        apply wp_wr; [nia|]. intros gc3 K1 K2. split; [lia|]. split.
        * intros i' n' Hn' Hor. rewrite K2. destruct (nf * i' + n' =? nf * i + n) eqn:E.
          -- destruct (addr_split nf i' n' i n) as [-> ->]; [lia..|]. reflexivity.
          -- apply G2; [lia|]. destruct Hor as [?|[-> ?]]; [left; lia|right].
             split; [reflexivity|]. assert (n' <> n) by (intros ->; lia). lia.
        * intros x Hx. rewrite K2. replace (x =? nf * i + n) with false by nia. apply G3. exact Hx.
      + intros gc2 (G1 & G2 & G3). split; [exact G1|]. split; [|exact G3].
        intros i' n' Hi' Hn'. apply G2; [lia|]. destruct (Z.eq_dec i' i); [right; lia|left; lia].
    - intros gc1 H. exact H.
  Qed.

  Lemma prim1_ok (gc gp c : arr F) (sidx : arr Z) so p nf nprim nctr (l : list Z) (cf Sv : Z -> F)
      (b : Z -> Z -> F) :
    0 <= nf -> nf * nctr <= asize gc ->
    (forall n, 0 <= n < nf -> rd gp n = Some (Sv n)) ->
    (forall i, 0 <= i < nctr -> rd c (p + nprim * i) = Some (cf i)) ->
    NoDup l -> (forall j, In j l -> 0 <= j < nctr) ->
    (forall i, (i < length l)%nat -> rd sidx (so + Z.of_nat i) = nth_error l i) ->
    (forall j n, 0 <= j < nctr -> 0 <= n < nf -> acell gc (nf * j + n) = Some (b j n)) ->
    wp (CINTprim_to_ctr_1 add mul gc gp c p nf nprim (Z.of_nat (length l)) sidx so) (fun gc' =>
      asize gc' = asize gc /\
      (forall j n, 0 <= j < nctr -> 0 <= n < nf -> acell gc' (nf * j + n) =
         Some (if existsb (Z.eqb j) l then add (b j n) (mul (cf j) (Sv n)) else b j n)) /\
      (forall x, ~ (0 <= x < nf * nctr) -> acell gc' x = acell gc x)).
  Proof.
    intros Hnf Hsz Hgp Hc Hnd Hin Hl Hb. unfold CINTprim_to_ctr_1.
    apply wp_for with (I := fun i gc' => asize gc' = asize gc /\
      (forall j n, 0 <= j < nctr -> 0 <= n < nf -> acell gc' (nf * j + n) =
         Some (if existsb (Z.eqb j) (firstn (Z.to_nat i) l) then add (b j n) (mul (cf j) (Sv n)) else b j n)) /\
      (forall x, ~ (0 <= x < nf * nctr) -> acell gc' x = acell gc x)).
    - lia.
    - repeat split; try reflexivity. exact Hb.
    - intros i gc1 Hi (H1 & H2 & H3).
      destruct (nth_error l (Z.to_nat i)) as [j|] eqn:Ej.
      2:{ apply nth_error_None in Ej. lia. }
      assert (Hj : 0 <= j < nctr) by (apply Hin; eapply nth_error_In; exact Ej).
      assert (Hnew : existsb (Z.eqb j) (firstn (Z.to_nat i) l) = false).
      { destruct (existsb (Z.eqb j) (firstn (Z.to_nat i) l)) eqn:E; [|reflexivity].
        apply existsb_exists in E. destruct E as [x [Hx Ex]]. assert (x = j) by lia. subst x.
        exfalso. apply In_nth_error in Hx. destruct Hx as [k Hk].
        assert (Hk' : (k < Z.to_nat i)%nat).
        { assert (k < length (firstn (Z.to_nat i) l))%nat by (apply nth_error_Some; congruence).
          rewrite firstn_length in H. lia. }
        assert (nth_error l k = Some j).
        { rewrite <- (firstn_skipn (Z.to_nat i) l). rewrite nth_error_app1; [exact Hk|].
          apply nth_error_Some. congruence. }
        assert (k = Z.to_nat i).
        { apply (proj1 (NoDup_nth_error l) Hnd); [apply nth_error_Some; congruence|congruence]. }
        lia. }
      apply wp_bind. apply wp_rd with (v := j).
      { replace (so + i) with (so + Z.of_nat (Z.to_nat i)) by lia. rewrite Hl by lia. exact Ej. }
      apply wp_bind. rewrite Hc by lia. cbn [wp].
      apply wp_for with (I := fun n gc' => asize gc' = asize gc /\
        (forall j' n', 0 <= j' < nctr -> 0 <= n' < nf -> acell gc' (nf * j' + n') =
           Some (if existsb (Z.eqb j') (firstn (Z.to_nat i) l) || ((j' =? j) && (n' <? n))
                 then add (b j' n') (mul (cf j') (Sv n')) else b j' n')) /\
        (forall x, ~ (0 <= x < nf * nctr) -> acell gc' x = acell gc x)).
      + exact Hnf.
      + repeat split; try assumption. intros j' n' Hj' Hn'. rewrite H2 by lia.
        replace (n' <? 0) with false by lia. rewrite andb_false_r, orb_false_r. reflexivity.
      + intros n gc2 Hn2 (G1 & G2 & G3). apply wp_bind. rewrite Hgp by lia. cbn [wp].
        apply wp_bind. apply wp_rd with (v := b j n).
        { apply rd_spec. split; [nia|]. rewrite G2 by lia. rewrite Hnew.
          replace (n <? n) with false by lia. rewrite andb_false_r. reflexivity. }
        apply wp_wr; [nia|]. intros gc3 K1 K2. split; [lia|]. split.
        * intros j' n' Hj' Hn'. rewrite K2. destruct (nf * j' + n' =? nf * j + n) eqn:E.
          -- destruct (addr_split nf j' n' j n) as [-> ->]; [lia..|].
             replace (j =? j) with true by lia. replace (n <? n + 1) with true by lia.
             rewrite orb_true_r. reflexivity.
          -- rewrite G2 by lia. repeat f_equal. destruct (j' =? j) eqn:E2; [|reflexivity].
             assert (j' = j) by lia. subst j'. assert (n' <> n) by (intros ->; lia).
             destruct (existsb (Z.eqb j) (firstn (Z.to_nat i) l)); cbn [andb orb]; [reflexivity|].
             replace (n' <? n + 1) with (n' <? n) by lia. reflexivity.
        * intros x Hx. rewrite K2. replace (x =? nf * j + n) with false by nia. apply G3. exact Hx.
      + intros gc2 (G1 & G2 & G3). split; [exact G1|]. split; [|exact G3].
        intros j' n' Hj' Hn'. rewrite G2 by lia.
        replace (Z.to_nat (i + 1)) with (S (Z.to_nat i)) by lia.
        rewrite (firstn_S_nth _ _ _ Ej), existsb_app. cbn [existsb].
        replace (n' <? nf) with true by lia. rewrite andb_true_r, orb_false_r. reflexivity.
    - intros gc1 (H1 & H2 & H3). split; [exact H1|]. split; [|exact H3].
      intros j n Hj Hn. rewrite H2 by lia. rewrite Nat2Z.id, firstn_all. reflexivity.
  Qed.
End P2C.
