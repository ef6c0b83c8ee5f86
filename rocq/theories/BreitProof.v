(** BreitProof.v — what the Breit driver leaves behind. *)
From Verif Require Import Base BasModel OutModel OutSpec OutRules BreitModel.
From Coq Require Import Ring.

Section P.
  Context {F : Type} (zero one : F) (add mul sub : F -> F -> F) (opp : F -> F) (half : F).
  Hypothesis RT : ring_theory zero one add mul sub opp eq.
  Add Ring FR : RT.

  Definition blk (a0 a : arr F) (o n : Z) (v : Z -> F) : Prop :=
    asize a = asize a0 /\
    forall x, acell a x = if (o <=? x) && (x <? o + n) then Some (v (x - o)) else acell a0 x.

  Lemma wp_store a0 o n v f : 0 <= n -> 0 <= o -> o + n <= asize a0 ->
    (forall i a, 0 <= i < n -> asize a = asize a0 -> (forall x, o + i <= x -> acell a x = acell a0 x) ->
       (forall x, x < o -> acell a x = acell a0 x) -> f i a = wr a (o + i) (v i)) ->
    wp (for_ 0 n f a0) (fun a => blk a0 a o n v).
  Proof.
    intros Hn Ho Hs Hf.
    eapply (wp_for (fun i a => blk a0 a o i v)); [lia| | |].
    - split; [reflexivity|]. intros x. replace ((o <=? x) && (x <? o + 0)) with false by lia. reflexivity.
    - intros i a Hi [S1 S2]. rewrite Hf; [|lia|lia| |].
      + apply wp_wr; [lia|]. intros a' E1 E2. split; [congruence|].
        intros x. rewrite E2, S2.
        destruct (x =? o + i) eqn:E.
        * replace ((o <=? x) && (x <? o + (i + 1))) with true by lia. do 2 f_equal. lia.
        * replace ((o <=? x) && (x <? o + (i + 1))) with ((o <=? x) && (x <? o + i)) by lia. reflexivity.
      + intros x Hx. rewrite S2. replace ((o <=? x) && (x <? o + i)) with false by lia. reflexivity.
      + intros x Hx. rewrite S2. replace ((o <=? x) && (x <? o + i)) with false by lia. reflexivity.
    - intros a Ha. exact Ha.
  Qed.

  Lemma wp_call q n a0 o : 0 <= n -> 0 <= o -> o + n <= asize a0 ->
    wp (call q n a0 o) (fun r => snd r = i_flag q /\ blk a0 (fst r) o n (i_val q)).
  Proof.
    intros. unfold call. apply wp_bind. eapply wp_mono.
    - apply (wp_store a0 o n (i_val q)); auto.
    - intros r Hr. cbn. auto.
  Qed.

  Lemma blk_rd a0 a o n v i : blk a0 a o n v -> 0 <= i < n -> 0 <= o -> o + n <= asize a0 ->
    rd a (o + i) = Some (v i).
  Proof.
    intros [H1 H2] Hi Ho Hs. apply rd_spec. split; [lia|].
    rewrite H2. replace ((o <=? o + i) && (o + i <? o + n)) with true by lia. do 2 f_equal. lia.
  Qed.

  Lemma wp_pass (g : F -> F -> F) n a0 o b x y : 0 <= n -> 0 <= o -> o + n <= asize a0 ->
    (forall i, 0 <= i < n -> rd a0 (o + i) = Some (x i)) ->
    (forall i, 0 <= i < n -> rd b i = Some (y i)) ->
    wp (for_ 0 n (fun i a => u <- rd a (o + i) ;; w <- rd b i ;; wr a (o + i) (g u w)) a0)
       (fun a => blk a0 a o n (fun i => g (x i) (y i))).
  Proof.
    intros Hn Ho Hs Hx Hy. apply wp_store; auto. intros i a Hi Ha K1 K2.
    assert (E : rd a (o + i) = Some (x i)).
    { specialize (Hx i Hi). apply rd_spec in Hx. apply rd_spec. split; [lia|]. rewrite K1 by lia. tauto. }
    rewrite E. cbn [bind]. rewrite Hy by lia. reflexivity.
  Qed.

  Lemma wp_passs (g : F -> F -> F) n a0 x y : 0 <= n -> n * 2 <= asize a0 ->
    (forall i, 0 <= i < n -> rd a0 (n + i) = Some (x i)) ->
    (forall i, 0 <= i < n -> rd a0 i = Some (y i)) ->
    wp (for_ 0 n (fun i a => u <- rd a (n + i) ;; w <- rd a i ;; wr a (n + i) (g u w)) a0)
       (fun a => blk a0 a n n (fun i => g (x i) (y i))).
  Proof.
    intros Hn Hs Hx Hy. apply wp_store; [lia|lia|lia|]. intros i a Hi Ha K1 K2.
    assert (E : rd a (n + i) = Some (x i)).
    { specialize (Hx i Hi). apply rd_spec in Hx. apply rd_spec. split; [lia|]. rewrite K1 by lia. tauto. }
    assert (E' : rd a i = Some (y i)).
    { specialize (Hy i Hi). apply rd_spec in Hy. apply rd_spec. split; [lia|]. rewrite K2 by lia. tauto. }
    rewrite E. cbn [bind]. rewrite E'. reflexivity.
  Qed.

  Variables c0 c1 c2 c3 : Z.
  Hypothesis C0 : 0 <= c0. Hypothesis C1 : 0 <= c1. Hypothesis C2 : 0 <= c2. Hypothesis C3 : 0 <= c3.
  Variables gaunt r1 r2 : ingredient (F:=F).
  Let nop := c0 * c1 * c2 * c3 * 1.
  Definition honest (q : ingredient (F:=F)) : Prop :=
    i_flag q = 0 -> forall i, 0 <= i < c0 * c1 * c2 * c3 -> i_val q i = zero.
  Hypothesis HG : honest gaunt. Hypothesis H1 : honest r1. Hypothesis H2 : honest r2.

  Definition combined (i : Z) : F :=
    mul half (add (sub (opp (i_val gaunt i)) (i_val r1 i)) (i_val r2 i)).

  Let flag := lor (i_flag r2) (lor (i_flag r1) (i_flag gaunt)).

  Lemma nop_pos : 0 <= nop.
  Proof. unfold nop. nia. Qed.

  Lemma flag_nz : flag <> 0 <-> (i_flag gaunt <> 0 \/ i_flag r1 <> 0 \/ i_flag r2 <> 0).
  Proof.
    unfold flag, lor. destruct (i_flag r2 =? 0) eqn:E2, (i_flag r1 =? 0) eqn:E1, (i_flag gaunt =? 0) eqn:E0; cbn; lia.
  Qed.

  (* the block after the first pass, skipped or not *)
  Let mid (i : Z) : F := if negb (lor (i_flag r1) (i_flag gaunt) =? 0)
    then sub (opp (i_val gaunt i)) (i_val r1 i) else i_val gaunt i.
  Let fin (i : Z) : F := if negb (flag =? 0) then mul (add (mid i) (i_val r2 i)) half else mid i.

  Lemma fin_ok i : 0 <= i < nop -> fin i = combined i.
  Proof.
    intros Hi. unfold nop in Hi. unfold fin, mid, flag, lor, combined.
    destruct (i_flag r2 =? 0) eqn:E2, (i_flag r1 =? 0) eqn:E1, (i_flag gaunt =? 0) eqn:E0; cbn [negb Z.eqb];
    repeat match goal with
    | H : (i_flag gaunt =? 0) = true |- _ => apply Z.eqb_eq in H; rewrite (HG H i) by lia; clear H
    | H : (i_flag r1 =? 0) = true |- _ => apply Z.eqb_eq in H; rewrite (H1 H i) by lia; clear H
    | H : (i_flag r2 =? 0) = true |- _ => apply Z.eqb_eq in H; rewrite (H2 H i) by lia; clear H
    end; try ring.
  Qed.

  Lemma run_null out : nop <= asize out ->
    wp (breit_drv add mul sub opp half 1 (c0, c1, c2, c3) out None gaunt r1 r2)
       (fun r => snd r = flag /\ blk out (fst r) 0 nop combined).
  Proof.
    intros Hs. pose proof nop_pos as Hp. unfold breit_drv. fold nop. cbv zeta.
    apply wp_bind. eapply wp_mono; [apply wp_call; lia|]. intros [o1 hv] [E1 B1]. cbn [fst snd] in *. subst hv.
    apply wp_bind. eapply wp_mono; [apply wp_call; [lia|lia|cbn; lia]|]. intros [b1 f] [E2 B2]. cbn [fst snd] in *. subst f.
    assert (R1 : forall i, 0 <= i < nop -> rd o1 (0 + i) = Some (i_val gaunt i)).
    { intros i Hi. eapply blk_rd; eauto; lia. }
    assert (R2 : forall i, 0 <= i < nop -> rd b1 i = Some (i_val r1 i)).
    { intros i Hi. change i with (0 + i) at 1. eapply blk_rd; eauto; cbn; lia. }
    assert (Sz1 : asize o1 = asize out) by apply B1.
    assert (Sb1 : asize b1 = nop * 2) by (rewrite (proj1 B2); reflexivity).
    apply wp_bind. apply (wp_mono _ (fun a => blk out a 0 nop mid)).
    { unfold mid. destruct (negb (lor (i_flag r1) (i_flag gaunt) =? 0)).
      - unfold pass1. eapply wp_mono; [apply (wp_pass (fun u w => sub (opp u) w)); eauto; lia|].
        intros a [A1 A2]. split; [congruence|]. intros x. rewrite A2. cbv beta.
        destruct ((0 <=? x) && (x <? 0 + nop)) eqn:E; [reflexivity|]. rewrite (proj2 B1), E. reflexivity.
      - cbn. exact B1. }
    intros o2 B3. assert (Sz2 : asize o2 = asize out) by apply B3.
    apply wp_bind. eapply wp_mono; [apply wp_call; [lia|lia|lia]|]. intros [b2 f] [E3 B4]. cbn [fst snd] in *. subst f.
    fold flag. apply wp_bind. apply (wp_mono _ (fun a => blk out a 0 nop fin)).
    { unfold fin. destruct (negb (flag =? 0)).
      - unfold pass2. eapply wp_mono; [apply (wp_pass (fun u w => mul (add u w) half) nop o2 0 b2 mid (i_val r2)); [lia|lia|lia| |]|].
        + intros i Hi. eapply blk_rd; eauto; lia.
        + intros i Hi. change i with (0 + i) at 1. eapply blk_rd; eauto; lia.
        + intros a [A1 A2]. split; [congruence|]. intros x. rewrite A2.
          destruct ((0 <=? x) && (x <? 0 + nop)) eqn:E; [reflexivity|]. rewrite (proj2 B3), E. reflexivity.
      - cbn. exact B3. }
    intros o3 [B5 B6]. cbn. split; [reflexivity|]. split; [exact B5|].
    intros x. rewrite B6. destruct ((0 <=? x) && (x <? 0 + nop)) eqn:E; [|reflexivity].
    rewrite fin_ok by lia. reflexivity.
  Qed.

  Variables n0 n1 n2 n3 : Z.
  Hypothesis N0 : c0 <= n0. Hypothesis N1 : c1 <= n1. Hypothesis N2 : c2 <= n2. Hypothesis N3 : c3 <= n3.

  Lemma copy_ok out inp : room (asize out) 1 n0 n1 n2 n3 c0 c1 c2 c3 ->
    (forall i, 0 <= i < nop -> rd inp (nop + i) = Some (combined i)) ->
    exists out', copy_to_out out inp nop n0 n1 n2 c0 c1 c2 c3 = Some out' /\
      stored_block out out' 1 n0 n1 n2 n3 c0 c1 c2 c3
        (fun _ i j k l => combined (((l * c2 + k) * c1 + j) * c0 + i)).
  Proof.
    intros Hs Hr.
    set (V := blkV 1 n0 n1 n2 n3 c0 c1 c2 c3 (fun _ i j k l => combined (((l * c2 + k) * c1 + j) * c0 + i))).
    apply wp_puts_stored with (c := fun out => copy_to_out out inp nop n0 n1 n2 c0 c1 c2 c3); try lia; try assumption.
    assert (PR : forall i j k l, 0 <= i < c0 -> 0 <= j < c1 -> 0 <= k < c2 -> 0 <= l < c3 ->
      puts (asize out) V (fun x => x = place n0 n1 n2 n3 0 i j k l)
        (fun out => v <- rd inp (nop + l * (c0 * c1 * c2) + k * (c0 * c1) + (j * c0 + i)) ;;
           wr out (l * (n0 * n1 * n2) + k * (n0 * n1) + (j * n0 + i)) v)).
    { intros i j k l Hi Hj Hk Hl.
      assert (P : 0 <= ((l * c2 + k) * c1 + j) * c0 + i < nop).
      { pose proof (place_range c0 c1 c2 c3 c0 c1 c2 c3 1 0 i j k l ltac:(lia) ltac:(lia) ltac:(lia) ltac:(lia) ltac:(lia) Hi Hj Hk Hl) as K.
        unfold place in K. unfold nop.
        replace (((0 * c3 + l) * c2 + k) * c1 + j) with ((l * c2 + k) * c1 + j) in K by ring. lia. }
      replace (l * (n0 * n1 * n2) + k * (n0 * n1) + (j * n0 + i)) with (place n0 n1 n2 n3 0 i j k l) by (unfold place; ring).
      apply puts_copy with (v := combined (((l * c2 + k) * c1 + j) * c0 + i)).
      - rewrite <- Hr by exact P. f_equal. ring.
      - pose proof (place_range n0 n1 n2 n3 c0 c1 c2 c3 1 0 i j k l N0 N1 N2 N3 ltac:(lia) Hi Hj Hk Hl).
        pose proof (Hs 0 i j k l ltac:(lia) Hi Hj Hk Hl). lia.
      - unfold V, blkV. exists 0, i, j, k, l. repeat split; try lia. }
    eapply puts_iff.
    - unfold copy_to_out. cbv zeta.
      eapply (puts_run _ _ _ (fun q : Z * Z => q = (nop + 0 * (c0 * c1 * c2), 0 * (n0 * n1 * n2)))
                         (fun q : Z * Z => q = (nop + c3 * (c0 * c1 * c2), c3 * (n0 * n1 * n2)))).
      + apply (putsS_for _ _ (fun l x => exists k, 0 <= k < c2 /\ exists j, 0 <= j < c1 /\ exists i, 0 <= i < c0 /\
                 x = place n0 n1 n2 n3 0 i j k l)
               (fun l q => q = (nop + l * (c0 * c1 * c2), l * (n0 * n1 * n2)))); [lia|].
        intros l Hl a q Ha ->. apply wp_bind. eapply wp_mono.
        * assert (PP : puts (asize out) V (fun x => exists k, 0 <= k < c2 /\ exists j, 0 <= j < c1 /\ exists i, 0 <= i < c0 /\
                 x = place n0 n1 n2 n3 0 i j k l)
             (fun a => for_ 0 c2 (fun k out0 => for_ 0 c1 (fun j out1 => for_ 0 c0 (fun i out2 =>
               v <- rd inp (nop + l * (c0 * c1 * c2) + k * (c0 * c1) + (j * c0 + i)) ;;
               wr out2 (l * (n0 * n1 * n2) + k * (n0 * n1) + (j * n0 + i)) v) out1) out0) a)).
          { apply puts_for. intros k Hk. apply puts_for. intros j Hj. apply puts_for. intros i Hi. apply PR; assumption. }
          apply PP. exact Ha.
        * intros r Hr'. cbn. split; [exact Hr'|]. f_equal; ring.
      + f_equal; ring.
    - intros x. unfold blkW. split.
      + intros [n [i [j [k [l [Hn [Hi [Hj [Hk [Hl E]]]]]]]]]]. exists l. split; [lia|]. exists k. split; [lia|].
        exists j. split; [lia|]. exists i. split; [lia|]. rewrite E. replace n with 0 by lia. reflexivity.
      + intros [l [Hl [k [Hk [j [Hj [i [Hi E]]]]]]]]. exists 0, i, j, k, l. repeat split; try lia.
  Qed.

  Lemma run_dims out d : room (asize out) 1 n0 n1 n2 n3 c0 c1 c2 c3 ->
    rd d 0 = Some n0 -> rd d 1 = Some n1 -> rd d 2 = Some n2 ->
    exists out', breit_drv add mul sub opp half 1 (c0, c1, c2, c3) out (Some d) gaunt r1 r2 = Some (out', flag) /\
      stored_block out out' 1 n0 n1 n2 n3 c0 c1 c2 c3
        (fun _ i j k l => combined (((l * c2 + k) * c1 + j) * c0 + i)).
  Proof.
    intros Hs D0 D1 D2. pose proof nop_pos as Hp.
    assert (W : wp (breit_drv add mul sub opp half 1 (c0, c1, c2, c3) out (Some d) gaunt r1 r2)
       (fun r => snd r = flag /\ stored_block out (fst r) 1 n0 n1 n2 n3 c0 c1 c2 c3
        (fun _ i j k l => combined (((l * c2 + k) * c1 + j) * c0 + i)))).
    { unfold breit_drv. fold nop. cbv zeta.
      apply wp_bind. eapply wp_mono; [apply wp_call; [lia|lia|cbn; lia]|]. intros [b1 hv] [E1 B1]. cbn [fst snd] in *. subst hv.
      assert (S1 : asize b1 = nop * 2) by (rewrite (proj1 B1); reflexivity).
      apply wp_bind. eapply wp_mono; [apply wp_call; lia|]. intros [b2 f] [E2 B2]. cbn [fst snd] in *. subst f.
      assert (S2 : asize b2 = nop * 2) by (rewrite (proj1 B2); exact S1).
      apply wp_bind. apply (wp_mono _ (fun a => asize a = nop * 2 /\ forall i, 0 <= i < nop -> rd a (nop + i) = Some (mid i))).
      { assert (X : forall i, 0 <= i < nop -> rd b2 (nop + i) = Some (i_val gaunt i)).
        { intros i Hi. apply rd_spec. split; [lia|]. rewrite (proj2 B2).
          replace ((0 <=? nop + i) && (nop + i <? 0 + nop)) with false by lia.
          pose proof (blk_rd _ _ _ _ _ i B1 Hi ltac:(lia) ltac:(cbn; lia)) as Q. apply rd_spec in Q. tauto. }
        unfold mid. destruct (negb (lor (i_flag r1) (i_flag gaunt) =? 0)).
        - unfold pass1s. eapply wp_mono; [apply (wp_passs (fun u w => sub (opp u) w) nop b2 (i_val gaunt) (i_val r1)); [lia|lia|exact X|]|].
          + intros i Hi. change i with (0 + i) at 1. eapply blk_rd; eauto; lia.
          + intros a A. split; [rewrite (proj1 A); exact S2|]. intros i Hi. rewrite (blk_rd _ _ _ _ _ i A); auto; lia.
        - cbn. split; [exact S2|exact X]. }
      intros b3 [S3 X3].
      apply wp_bind. eapply wp_mono; [apply wp_call; lia|]. intros [b4 f] [E4 B4]. cbn [fst snd] in *. subst f. fold flag.
      assert (S4 : asize b4 = nop * 2) by (rewrite (proj1 B4); exact S3).
      apply wp_bind. apply (wp_mono _ (fun a => forall i, 0 <= i < nop -> rd a (nop + i) = Some (fin i))).
      { assert (X : forall i, 0 <= i < nop -> rd b4 (nop + i) = Some (mid i)).
        { intros i Hi. apply rd_spec. split; [lia|]. rewrite (proj2 B4).
          replace ((0 <=? nop + i) && (nop + i <? 0 + nop)) with false by lia.
          specialize (X3 i Hi). apply rd_spec in X3. tauto. }
        unfold fin. destruct (negb (flag =? 0)).
        - unfold pass2s. eapply wp_mono; [apply (wp_passs (fun u w => mul (add u w) half) nop b4 mid (i_val r2)); [lia|lia|exact X|]|].
          + intros i Hi. change i with (0 + i) at 1. eapply blk_rd; eauto; lia.
          + intros a A i Hi. rewrite (blk_rd _ _ _ _ _ i A); auto; lia.
        - cbn. exact X. }
      intros b5 X5. rewrite D0, D1, D2. cbn [bind].
      destruct (copy_ok out b5 Hs) as [out' [Q1 Q2]].
      { intros i Hi. rewrite X5 by exact Hi. rewrite fin_ok by exact Hi. reflexivity. }
      rewrite Q1. cbn. auto. }
    destruct (breit_drv add mul sub opp half 1 (c0, c1, c2, c3) out (Some d) gaunt r1 r2) as [[o f]|]; cbn in W; [|contradiction].
    destruct W as [-> W]. exists o. auto.
  Qed.
End P.

Section T.
  Context {F : Type} (zero one : F) (add mul sub : F -> F -> F) (opp : F -> F) (half : F).
  Hypothesis RT : ring_theory zero one add mul sub opp eq.

  Lemma breit_total c0 c1 c2 c3 (gaunt r1 r2 : ingredient (F:=F)) n0 n1 n2 n3 out dims :
    0 <= c0 <= n0 -> 0 <= c1 <= n1 -> 0 <= c2 <= n2 -> 0 <= c3 <= n3 ->
    honest zero c0 c1 c2 c3 gaunt -> honest zero c0 c1 c2 c3 r1 -> honest zero c0 c1 c2 c3 r2 ->
    dims_are dims 3 [n0; n1; n2; n3] [c0; c1; c2; c3] ->
    0 <= asize out -> room (asize out) 1 n0 n1 n2 n3 c0 c1 c2 c3 ->
    exists out' f,
      breit_drv add mul sub opp half 1 (c0, c1, c2, c3) out dims gaunt r1 r2 = Some (out', f) /\
      stored_block out out' 1 n0 n1 n2 n3 c0 c1 c2 c3 (fun _ i j k l =>
        combined add mul sub opp half gaunt r1 r2 (place c0 c1 c2 c3 0 i j k l)) /\
      (f <> 0 <-> i_flag gaunt <> 0 \/ i_flag r1 <> 0 \/ i_flag r2 <> 0).
  Proof.
    intros L0 L1 L2 L3 HG H1 H2 Hd Hz Hs.
    assert (PE : forall i j k l, place c0 c1 c2 c3 0 i j k l = ((l * c2 + k) * c1 + j) * c0 + i) by (intros; unfold place; ring).
    destruct dims as [d|].
    - cbn [dims_are] in Hd.
      destruct (run_dims zero one add mul sub opp half RT c0 c1 c2 c3 ltac:(lia) ltac:(lia) ltac:(lia) ltac:(lia)
        gaunt r1 r2 HG H1 H2 n0 n1 n2 n3 ltac:(lia) ltac:(lia) ltac:(lia) ltac:(lia) out d Hs
        (Hd 0%nat ltac:(lia)) (Hd 1%nat ltac:(lia)) (Hd 2%nat ltac:(lia))) as [o [E B]].
      exists o. eexists. split; [exact E|]. split; [|apply flag_nz; auto].
      destruct B as [B1 [B2 B3]]. split; [exact B1|]. split; [|exact B3].
      intros. rewrite PE. apply B2; auto.
    - cbn [dims_are] in Hd. injection Hd as -> -> -> ->.
      assert (Hfit : c0 * c1 * c2 * c3 <= asize out).
      { destruct (Z.eq_dec c0 0) as [->|]; [lia|]. destruct (Z.eq_dec c1 0) as [->|]; [lia|].
        destruct (Z.eq_dec c2 0) as [->|]; [lia|]. destruct (Z.eq_dec c3 0) as [->|]; [lia|].
        pose proof (Hs 0 (c0 - 1) (c1 - 1) (c2 - 1) (c3 - 1) ltac:(lia) ltac:(lia) ltac:(lia) ltac:(lia) ltac:(lia)) as K.
        unfold place in K. replace (c0 * c1 * c2 * c3) with (((((0 * c3 + (c3 - 1)) * c2 + (c2 - 1)) * c1 + (c1 - 1)) * c0 + (c0 - 1)) + 1) by ring. lia. }
      pose proof (run_null zero one add mul sub opp half RT c0 c1 c2 c3 ltac:(lia) ltac:(lia) ltac:(lia) ltac:(lia)
        gaunt r1 r2 HG H1 H2 out ltac:(lia)) as W.
      destruct (breit_drv add mul sub opp half 1 (c0, c1, c2, c3) out None gaunt r1 r2) as [[o f]|]; cbn in W; [|contradiction].
      destruct W as [-> W]. exists o. eexists. split; [reflexivity|]. split; [|apply flag_nz; auto].
      split; [apply W|]. split.
      + intros n i j k l Hn Hi Hj Hk Hl. replace n with 0 by lia.
        pose proof (place_range c0 c1 c2 c3 c0 c1 c2 c3 1 0 i j k l ltac:(lia) ltac:(lia) ltac:(lia) ltac:(lia) ltac:(lia) Hi Hj Hk Hl) as K.
        change (place c0 c1 c2 c3 0 i j k l) with (0 + place c0 c1 c2 c3 0 i j k l) at 1.
        eapply blk_rd; [exact W|lia|lia|lia].
      + intros x Hx. rewrite (proj2 W).
        destruct ((0 <=? x) && (x <? 0 + c0 * c1 * c2 * c3 * 1)) eqn:E; [|reflexivity]. exfalso.
        assert (Hx' : 0 <= x < c0 * c1 * c2 * c3) by lia. clear E.
        assert (P0 : 0 < c0) by nia. assert (P1 : 0 < c1) by nia. assert (P2 : 0 < c2) by nia.
        apply (Hx 0 (x mod c0) (x / c0 mod c1) (x / c0 / c1 mod c2) (x / c0 / c1 / c2)).
        * lia.
        * apply Z.mod_pos_bound; lia.
        * apply Z.mod_pos_bound; lia.
        * apply Z.mod_pos_bound; lia.
        * split; [repeat apply Z.div_pos; lia|].
          apply Z.div_lt_upper_bound; [lia|]. apply Z.div_lt_upper_bound; [lia|]. apply Z.div_lt_upper_bound; [lia|]. lia.
        * rewrite PE.
          pose proof (Z.div_mod x c0 ltac:(lia)) as D0.
          pose proof (Z.div_mod (x / c0) c1 ltac:(lia)) as D1.
          pose proof (Z.div_mod (x / c0 / c1) c2 ltac:(lia)) as D2.
          rewrite (Z.mul_comm (x / c0 / c1 / c2)), <- D2, (Z.mul_comm (x / c0 / c1)), <- D1, (Z.mul_comm (x / c0)). exact D0.
  Qed.
End T.
