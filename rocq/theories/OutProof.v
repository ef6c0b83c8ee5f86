(** OutProof.v — the copy and zero-fill routines, and the Cartesian output routines. *)
From Verif Require Import Base BasModel FblasModel EnvModel OutModel OutSpec OutRules.

Lemma rd_sub {A} (a : arr A) o i : 0 <= i -> 0 <= o -> rd (sub a o) i = rd a (o + i).
Proof.
  intros Hi Ho. unfold rd, inb, sub; cbn [asize acell].
  replace ((0 <=? i) && (i <? asize a - o)) with ((0 <=? o + i) && (o + i <? asize a)) by lia.
  reflexivity.
Qed.

Lemma reads_sub {A} (a : arr A) o n N (x : Z -> A) : 0 <= o -> o + n <= N -> reads a N x ->
  reads (sub a o) n (fun q => x (o + q)).
Proof. intros Ho Hn H q Hq. rewrite rd_sub by lia. apply H. lia. Qed.

Lemma rd_arr4 a b c d : rd (arr4 a b c d) 0 = Some a /\ rd (arr4 a b c d) 1 = Some b /\
  rd (arr4 a b c d) 2 = Some c /\ rd (arr4 a b c d) 3 = Some d.
Proof. repeat split. Qed.

Section Copy.
  Context {A : Type}.
  Variable sz : Z.
  Variable V : Z -> A -> Prop.
  Let ok (x : Z) (v : A) := 0 <= x < sz /\ V x v.

  Lemma dcopy_ij_puts o (g : arr A) ni nj mi mj y :
    reads g (mi * mj) y ->
    (forall j i, 0 <= j < mj -> 0 <= i < mi -> ok (o + (j * ni + i)) (y (j * mi + i))) ->
    puts sz V (fun x => exists j, 0 <= j < mj /\ exists i, 0 <= i < mi /\ x = o + (j * ni + i))
      (fun out => dcopy_ij out o g ni nj mi mj).
  Proof.
    intros Hy H. unfold dcopy_ij. apply puts_for. intros j Hj. apply puts_for. intros i Hi.
    destruct (H j i Hj Hi) as [Hr Hv].
    apply puts_copy with (v := y (j * mi + i)); auto. apply Hy. nia.
  Qed.

  Lemma dcopy_grids_puts o (g : arr A) Ng ni nj mg mi mj y : 0 <= mj ->
    reads g (mg * mi * mj) y ->
    (forall j i m, 0 <= j < mj -> 0 <= i < mi -> 0 <= m < mg ->
       ok (o + ((j * ni + i) * Ng + m)) (y ((j * mi + i) * mg + m))) ->
    puts sz V (fun x => exists j, 0 <= j < mj /\ exists i, 0 <= i < mi /\ exists m, 0 <= m < mg /\
                 x = o + ((j * ni + i) * Ng + m))
      (fun out => dcopy_grids_ij out o g Ng ni nj mg mi mj).
  Proof.
    intros Hmj Hy H. unfold dcopy_grids_ij; cbv zeta.
    apply puts_run with (I := fun s => s = (o, 0))
      (J := fun s => s = (o + Ng * ni * mj, mg * mi * mj)); [|reflexivity].
    eapply putsS_iff; [|intros x; split; exact (fun h => h)].
    replace (fun s : Z * Z => s = (o, 0)) with
      (fun s : Z * Z => s = (o + Ng * ni * 0, mg * mi * 0)) by (rewrite !Z.mul_0_r, Z.add_0_r; reflexivity).
    apply (putsS_for sz V _ (fun j s => s = (o + Ng * ni * j, mg * mi * j))); [exact Hmj|].
    intros j Hj a s Ha Hs. subst s. apply wp_bind.
    eapply wp_mono.
    - eapply (puts_for sz V (fun i x => exists m, 0 <= m < mg /\ x = o + ((j * ni + i) * Ng + m))); [|exact Ha].
      intros i Hi. apply (puts_for sz V (fun m x => x = o + ((j * ni + i) * Ng + m))).
      intros m Hm. destruct (H j i m Hj Hi Hm) as [Hr Hv].
      replace (o + Ng * ni * j + (i * Ng + m)) with (o + ((j * ni + i) * Ng + m)) by ring.
      apply puts_copy with (v := y ((j * mi + i) * mg + m)); auto.
      replace (mg * mi * j + (i * mg + m)) with ((j * mi + i) * mg + m) by ring. apply Hy. 
      assert (0 <= j * mi + i < mi * mj) by nia. nia.
    - intros b Hb. cbn [wp fst snd]. split; [exact Hb|]. f_equal; ring.
  Qed.

  Definition rowlist_ok (is : list Z) (mi : Z) : Prop := forall i, In i is <-> 0 <= i < mi.

  Lemma row_list_puts is : forall (g : arr A) pg po,
    (forall i, In i is -> exists v, rd g (pg + i) = Some v /\ ok (po + i) v) ->
    puts sz V (fun x => exists i, In i is /\ x = po + i) (fun out => row_list is g pg po out).
  Proof.
    induction is as [|i is IH]; intros g pg po H a Ha; cbn [row_list].
    - apply Puts_none. intros x [i [[] _]].
    - destruct (H i (or_introl eq_refl)) as [v [Hr [Hb Hv]]]. rewrite Hr. cbn [bind].
      apply wp_bind. eapply wp_mono; [apply (puts_wr sz V _ v Hb Hv a Ha)|].
      intros b Hp. eapply wp_mono; [apply (IH g pg po)|].
      + intros k Hk. apply H. right. exact Hk.
      + destruct Hp; congruence.
      + intros c Hc. eapply Puts_iff; [eapply Puts_seq; [exact Hp|exact Hc]|].
        intros x. split.
        * intros [k [[->|Hk] ->]]; [left; reflexivity|right; exists k; auto].
        * intros [->|[k [Hk ->]]]; [exists i|exists k]; split; auto; [left; reflexivity|right; exact Hk].
  Qed.

  Lemma row_loop_puts mi (g : arr A) pg po :
    (forall i, 0 <= i < mi -> exists v, rd g (pg + i) = Some v /\ ok (po + i) v) ->
    puts sz V (fun x => exists i, 0 <= i < mi /\ x = po + i) (fun out => row_loop mi g pg po out).
  Proof.
    intros H. unfold row_loop. apply puts_for. intros i Hi.
    destruct (H i Hi) as [v [Hr [Hb Hv]]]. apply puts_copy with (v := v); auto.
  Qed.

  Lemma iklj_rows_puts row o (g : arr A) ni nj nk mi mj mk ml y : 0 <= ml ->
    reads g (mi * mk * ml * mj) y ->
    (forall l k j i, 0 <= l < ml -> 0 <= k < mk -> 0 <= j < mj -> 0 <= i < mi ->
       ok (o + (((l * nk + k) * nj + j) * ni + i)) (y (((j * ml + l) * mk + k) * mi + i))) ->
    (forall pg po, (forall i, 0 <= i < mi -> exists v, rd g (pg + i) = Some v /\ ok (po + i) v) ->
       puts sz V (fun x => exists i, 0 <= i < mi /\ x = po + i) (fun out => row g pg po out)) ->
    puts sz V (fun x => exists l, 0 <= l < ml /\ exists k, 0 <= k < mk /\ exists j, 0 <= j < mj /\
                 exists i, 0 <= i < mi /\ x = o + (((l * nk + k) * nj + j) * ni + i))
      (fun out => iklj_rows row out o g ni (ni * nj) (ni * nj * nk) mi (mi * mk) (mi * mk * ml) mj mk ml).
  Proof.
    intros Hml Hy H Hrow. unfold iklj_rows; cbv zeta.
    apply puts_run with (I := fun s => s = (o, 0))
      (J := fun s => s = (o + ni * nj * nk * ml, mi * mk * ml)); [|reflexivity].
    replace (fun s : Z * Z => s = (o, 0)) with
      (fun s : Z * Z => s = (o + ni * nj * nk * 0, mi * mk * 0)) by (rewrite !Z.mul_0_r, Z.add_0_r; reflexivity).
    apply (putsS_for sz V _ (fun l s => s = (o + ni * nj * nk * l, mi * mk * l))); [exact Hml|].
    intros l Hl a s Ha Hs. subst s. apply wp_bind.
    eapply wp_mono.
    - eapply (puts_for sz V (fun k x => exists j, 0 <= j < mj /\ exists i, 0 <= i < mi /\
                 x = o + (((l * nk + k) * nj + j) * ni + i))); [|exact Ha].
      intros k Hk. apply (puts_for sz V (fun j x => exists i, 0 <= i < mi /\
                 x = o + (((l * nk + k) * nj + j) * ni + i))).
      intros j Hj. eapply puts_iff; [apply Hrow|].
      + intros i Hi. exists (y (((j * ml + l) * mk + k) * mi + i)). split.
        * replace (mi * mk * l + k * mi + mi * mk * ml * j + i) with (((j * ml + l) * mk + k) * mi + i) by ring.
          apply Hy. assert (0 <= j * ml + l < ml * mj) by nia.
          assert (0 <= (j * ml + l) * mk + k < mk * (ml * mj)) by nia. nia.
        * replace (o + ni * nj * nk * l + k * (ni * nj) + ni * j + i)
            with (o + (((l * nk + k) * nj + j) * ni + i)) by ring. apply H; auto.
      + intros x. split; intros [i [Hi E]]; exists i; split; auto; rewrite E; ring.
    - intros b Hb. cbn [wp fst snd]. split; [exact Hb|]. f_equal; ring.
  Qed.

  Lemma dcopy_iklj_puts o (g : arr A) ni nj nk nl mi mj mk ml y : 0 <= ml ->
    reads g (mi * mk * ml * mj) y ->
    (forall l k j i, 0 <= l < ml -> 0 <= k < mk -> 0 <= j < mj -> 0 <= i < mi ->
       ok (o + (((l * nk + k) * nj + j) * ni + i)) (y (((j * ml + l) * mk + k) * mi + i))) ->
    puts sz V (fun x => exists l, 0 <= l < ml /\ exists k, 0 <= k < mk /\ exists j, 0 <= j < mj /\
                 exists i, 0 <= i < mi /\ x = o + (((l * nk + k) * nj + j) * ni + i))
      (fun out => dcopy_iklj out o g ni nj nk nl mi mj mk ml).
  Proof.
    intros Hml Hy H.
    assert (HL : forall is, rowlist_ok is mi -> forall pg po,
       (forall i, 0 <= i < mi -> exists v, rd g (pg + i) = Some v /\ ok (po + i) v) ->
       puts sz V (fun x => exists i, 0 <= i < mi /\ x = po + i) (fun out => row_list is g pg po out)).
    { intros is His pg po Hi. eapply puts_iff; [apply row_list_puts|].
      - intros i Hin. apply Hi, His, Hin.
      - intros x. split; intros [i [Hin E]]; exists i; split; auto; apply His; exact Hin. }
    assert (C : mi = 1 \/ mi = 3 \/ mi = 5 \/ mi = 6 \/ mi = 7 \/
                (mi <> 1 /\ mi <> 3 /\ mi <> 5 /\ mi <> 6 /\ mi <> 7)) by lia.
    destruct C as [->|[->|[->|[->|[->|C]]]]].
    1-5: unfold dcopy_iklj; cbv zeta;
         apply (iklj_rows_puts (row_list _) o g ni nj nk _ mj mk ml y Hml Hy H); apply HL;
         intros i; cbn [In]; lia.
    assert (E : forall out, dcopy_iklj out o g ni nj nk nl mi mj mk ml =
      iklj_rows (row_loop mi) out o g ni (ni * nj) (ni * nj * nk) mi (mi * mk) (mi * mk * ml) mj mk ml).
    { intros out. unfold dcopy_iklj; cbv zeta. destruct mi as [|p|p]; try reflexivity.
      do 3 (destruct p as [p|p|]; try reflexivity; try lia). }
    intros a Ha. cbv beta. rewrite E.
    refine (iklj_rows_puts (row_loop mi) o g ni nj nk mi mj mk ml y Hml Hy H _ a Ha).
    intros pg po Hi. apply row_loop_puts. exact Hi.
  Qed.
End Copy.

(** ** Loops that also advance the source pointer *)
Section Nest.
  Context {A S : Type}.
  Variable sz : Z.
  Variable V : Z -> A -> Prop.
  Variable J : Z -> S -> Prop.

  Lemma nest (W : Z -> Z -> Prop) p step n body : 0 <= n ->
    (forall i, 0 <= i < n -> putsS sz V (W i) (J (p + step * i)) (J (p + step * (i + 1))) (body i)) ->
    putsS sz V (fun x => exists i, 0 <= i < n /\ W i x) (J p) (J (p + step * n)) (fun s => for_ 0 n body s).
  Proof.
    intros Hn H. replace (J p) with (J (p + step * 0)) by (f_equal; ring).
    apply (putsS_for sz V W (fun i => J (p + step * i))); auto.
  Qed.

  Lemma putsS_conv W p q p' q' c : putsS sz V W (J p) (J q) c -> p' = p -> q' = q ->
    putsS sz V W (J p') (J q') c.
  Proof. intros H -> ->. exact H. Qed.
End Nest.

Lemma split_idx d c I : 0 <= d -> 0 <= I < d * c <-> exists t, 0 <= t < c /\ exists i, 0 <= i < d /\ I = t * d + i.
Proof.
  intros Hd. split.
  - intros H. assert (0 < d) by (destruct (Z.eq_dec d 0); [subst; lia|lia]). exists (I / d). split.
    + split; [apply Z.div_pos; lia|]. apply Z.div_lt_upper_bound; lia.
    + exists (I mod d). split; [apply Z.mod_pos_bound; lia|]. pose proof (Z.div_mod I d). lia.
  - intros [t [Ht [i [Hi ->]]]]. nia.
Qed.
Lemma idx_div d t i : 0 <= i < d -> (t * d + i) / d = t.
Proof. intros H. symmetry. apply (Z.div_unique_pos _ _ _ i); lia. Qed.
Lemma idx_mod d t i : 0 <= i < d -> (t * d + i) mod d = i.
Proof. intros H. symmetry. apply (Z.mod_unique_pos _ _ t); lia. Qed.

(** the cells of one block at offset [o] *)
Definition blkO (o n1 n2 n3 m1 m2 m3 m4 x : Z) : Prop :=
  exists i4, 0 <= i4 < m4 /\ exists i3, 0 <= i3 < m3 /\ exists i2, 0 <= i2 < m2 /\ exists i1, 0 <= i1 < m1 /\
    x = o + (((i4 * n3 + i3) * n2 + i2) * n1 + i1).

Lemma blkO_place n1 n2 n3 n4 m1 m2 m3 m4 n x :
  blkO (n1 * n2 * n3 * n4 * n) n1 n2 n3 m1 m2 m3 m4 x <-> blkW1 n1 n2 n3 n4 m1 m2 m3 m4 n x.
Proof.
  unfold blkO, blkW1, place. split.
  - intros [i4 [H4 [i3 [H3 [i2 [H2 [i1 [H1 ->]]]]]]]]. exists i1, i2, i3, i4.
    repeat (split; [assumption|]). ring.
  - intros [i1 [i2 [i3 [i4 [H1 [H2 [H3 [H4 ->]]]]]]]]. exists i4; split; [exact H4|].
    exists i3; split; [exact H3|]. exists i2; split; [exact H2|]. exists i1; split; [exact H1|]. ring.
Qed.

(** a block made of contraction sub-blocks *)
Lemma blkO_split o n1 n2 n3 d1 d2 d3 d4 c1 c2 c3 c4 x :
  0 <= d1 -> 0 <= d2 -> 0 <= d3 -> 0 <= d4 ->
  blkO o n1 n2 n3 (d1 * c1) (d2 * c2) (d3 * c3) (d4 * c4) x <->
  exists lc, 0 <= lc < c4 /\ exists kc, 0 <= kc < c3 /\ exists jc, 0 <= jc < c2 /\ exists ic, 0 <= ic < c1 /\
    exists l, 0 <= l < d4 /\ exists k, 0 <= k < d3 /\ exists j, 0 <= j < d2 /\ exists i, 0 <= i < d1 /\
      x = (o + n1 * n2 * n3 * d4 * lc + n1 * n2 * d3 * kc + n1 * d2 * jc + d1 * ic)
          + (((l * n3 + k) * n2 + j) * n1 + i).
Proof.
  intros P1 P2 P3 P4. unfold blkO. split.
  - intros [i4 [H4 [i3 [H3 [i2 [H2 [i1 [H1 ->]]]]]]]].
    apply split_idx in H1; [|assumption]. apply split_idx in H2; [|assumption].
    apply split_idx in H3; [|assumption]. apply split_idx in H4; [|assumption].
    destruct H1 as [ic [? [i [? ->]]]]. destruct H2 as [jc [? [j [? ->]]]].
    destruct H3 as [kc [? [k [? ->]]]]. destruct H4 as [lc [? [l [? ->]]]].
    exists lc; split; [assumption|]. exists kc; split; [assumption|]. exists jc; split; [assumption|].
    exists ic; split; [assumption|]. exists l; split; [assumption|]. exists k; split; [assumption|].
    exists j; split; [assumption|]. exists i; split; [assumption|]. ring.
  - intros [lc [? [kc [? [jc [? [ic [? [l [? [k [? [j [? [i [? ->]]]]]]]]]]]]]]]].
    exists (lc * d4 + l). split; [apply split_idx; [assumption|eauto]|].
    exists (kc * d3 + k). split; [apply split_idx; [assumption|eauto]|].
    exists (jc * d2 + j). split; [apply split_idx; [assumption|eauto]|].
    exists (ic * d1 + i). split; [apply split_idx; [assumption|eauto]|]. ring.
Qed.

Lemma flat4 o n1 n2 n3 n4 x : 0 <= n1 -> 0 <= n2 -> 0 <= n3 -> 0 <= n4 ->
  (exists q, 0 <= q < n1 * n2 * n3 * n4 /\ x = o + q) <-> blkO o n1 n2 n3 n1 n2 n3 n4 x.
Proof.
  intros P1 P2 P3 P4. split.
  - intros [q [Hq ->]].
    apply split_idx in Hq; [|repeat apply Z.mul_nonneg_nonneg; assumption]. destruct Hq as [i4 [H4 [q3 [H3 ->]]]].
    apply split_idx in H3; [|repeat apply Z.mul_nonneg_nonneg; assumption]. destruct H3 as [i3 [H3 [q2 [H2 ->]]]].
    apply split_idx in H2; [|assumption]. destruct H2 as [i2 [H2 [i1 [H1 ->]]]].
    exists i4; split; [exact H4|]. exists i3; split; [exact H3|]. exists i2; split; [exact H2|].
    exists i1; split; [exact H1|]. ring.
  - intros [i4 [H4 [i3 [H3 [i2 [H2 [i1 [H1 ->]]]]]]]].
    exists (((i4 * n3 + i3) * n2 + i2) * n1 + i1). split; [|reflexivity].
    assert (0 <= i4 * n3 + i3 < n3 * n4) by nia.
    assert (0 <= (i4 * n3 + i3) * n2 + i2 < n2 * (n3 * n4)) by (set (q := i4 * n3 + i3) in *; nia).
    set (q := (i4 * n3 + i3) * n2 + i2) in *. nia.
Qed.

(** ** Zero fill *)
Section Zero.
  Context {A : Type} (zero : A).
  Variable sz : Z.
  Variable V : Z -> A -> Prop.

  Lemma dset0_dims_puts o (dims counts : arr Z) ni nj nk di dj dk dl : 0 <= dl ->
    rd dims 0 = Some ni -> rd dims 1 = Some nj -> rd dims 2 = Some nk ->
    rd counts 0 = Some di -> rd counts 1 = Some dj -> rd counts 2 = Some dk -> rd counts 3 = Some dl ->
    (forall x, blkO o ni nj nk di dj dk dl x -> 0 <= x < sz /\ V x zero) ->
    puts sz V (blkO o ni nj nk di dj dk dl) (fun out => c2s_dset0 zero out o dims counts false).
  Proof.
    intros Hdl D0 D1 D2 C0 C1 C2 C3 H. unfold c2s_dset0. rewrite D0, D1, D2, C0, C1, C2, C3. cbn [bind]. cbv zeta.
    apply puts_run with (I := fun s => s = o) (J := fun s => s = o + ni * nj * nk * dl); [|reflexivity].
    eapply putsS_conv with (J := fun p s => s = p); [|reflexivity|reflexivity].
    apply (nest sz V (fun p s => s = p)); [exact Hdl|].
    intros l Hl a s Ha ->. apply wp_bind. eapply wp_mono.
    - eapply (puts_for sz V (fun k x => exists j, 0 <= j < dj /\ exists i, 0 <= i < di /\
                 x = o + (((l * nk + k) * nj + j) * ni + i))); [|exact Ha].
      intros k Hk. apply (puts_for sz V (fun j x => exists i, 0 <= i < di /\
                 x = o + (((l * nk + k) * nj + j) * ni + i))).
      intros j Hj. apply (puts_for sz V (fun i x => x = o + (((l * nk + k) * nj + j) * ni + i))).
      intros i Hi.
      replace (o + ni * nj * nk * l + k * (ni * nj) + (j * ni + i)) with (o + (((l * nk + k) * nj + j) * ni + i)) by ring.
      destruct (H (o + (((l * nk + k) * nj + j) * ni + i))) as [Hr Hv].
      { exists l; split; [lia|]. exists k; split; [lia|]. exists j; split; [lia|]. exists i; split; [lia|reflexivity]. }
      apply puts_wr; auto.
    - intros b Hb. cbn [wp fst snd]. split; [exact Hb|ring].
  Qed.

  Lemma dset0_alias_puts o (dims : arr Z) ni nj nk nl : 0 <= ni -> 0 <= nj -> 0 <= nk -> 0 <= nl ->
    rd dims 0 = Some ni -> rd dims 1 = Some nj -> rd dims 2 = Some nk -> rd dims 3 = Some nl ->
    (forall x, blkO o ni nj nk ni nj nk nl x -> 0 <= x < sz /\ V x zero) ->
    puts sz V (blkO o ni nj nk ni nj nk nl) (fun out => c2s_dset0 zero out o dims dims true).
  Proof.
    intros N1 N2 N3 N4 D0 D1 D2 D3 H. unfold c2s_dset0. rewrite D0, D1, D2, D3. cbn [bind]. cbv zeta.
    eapply puts_iff.
    - apply (puts_for sz V (fun i x => x = o + i)). intros i Hi.
      destruct (H (o + i)) as [Hr Hv].
      { assert (E : exists q, 0 <= q < ni * nj * nk * nl /\ o + i = o + q) by (exists i; auto).
        apply flat4 in E; assumption. }
      apply puts_wr; auto.
    - intros x. symmetry. apply flat4; assumption.
  Qed.
End Zero.

(** ** Cartesian output *)
Record env_ok (e : envs) : Prop := {
  eo_l : 0 <= i_l e <= 15 /\ 0 <= j_l e <= 15 /\ 0 <= k_l e <= 15 /\ 0 <= l_l e <= 15;
  eo_f : nfi e = CINTlen_cart (i_l e) /\ nfj e = CINTlen_cart (j_l e);
  eo_c : 0 <= i_ctr e /\ 0 <= j_ctr e /\ 0 <= k_ctr e /\ 0 <= l_ctr e }.

Lemma len_cart_pos l : 0 <= l -> 1 <= CINTlen_cart l.
Proof.
  intros H. unfold CINTlen_cart. rewrite Z.quot_div_nonneg by nia.
  apply Z.div_le_lower_bound; nia.
Qed.

Section Cart.
  Context {A : Type}.
  Variable sz : Z.
  Variable V : Z -> A -> Prop.
  Variable e : envs.
  Variable dims : arr Z.
  Variables ni nj nk nl : Z.
  Hypothesis D0 : rd dims 0 = Some ni.
  Hypothesis D1 : rd dims 1 = Some nj.
  Variable gctr : arr A.
  Variable y : Z -> A.
  Hypothesis Hci : 0 <= i_ctr e.
  Hypothesis Hcj : 0 <= j_ctr e.
  Hypothesis Pfi : 0 <= nfi e.
  Hypothesis Pfj : 0 <= nfj e.

  Lemma c2s_cart_1e_puts o :
    nf e = nfi e * nfj e ->
    reads gctr (nf e * i_ctr e * j_ctr e) y ->
    (forall jc ic j i, 0 <= jc < j_ctr e -> 0 <= ic < i_ctr e -> 0 <= j < nfj e -> 0 <= i < nfi e ->
       let x := o + ((jc * nfj e + j) * ni + (ic * nfi e + i)) in
       0 <= x < sz /\ V x (y ((jc * i_ctr e + ic) * nf e + (j * nfi e + i)))) ->
    puts sz V (blkO o ni nj nk (nfi e * i_ctr e) (nfj e * j_ctr e) 1 1)
      (fun out => c2s_cart_1e out o gctr dims e).
  Proof.
    intros Hnf Hy H. unfold c2s_cart_1e. rewrite D0, D1. cbn [bind]. cbv zeta.
    eapply puts_run with (I := fun s => s = 0); [|reflexivity].
    eapply putsS_iff.
    - apply (nest sz V (fun p s => s = p)) with (step := nf e * i_ctr e)
        (W := fun jc x => exists ic, 0 <= ic < i_ctr e /\ exists j, 0 <= j < nfj e /\ exists i, 0 <= i < nfi e /\
                x = o + ni * nfj e * jc + nfi e * ic + (j * ni + i)); [exact Hcj|].
      intros jc Hjc. eapply putsS_conv with (J := fun p s => s = p); [|reflexivity|].
      + apply (nest sz V (fun p s => s = p)) with (step := nf e)
          (W := fun ic x => exists j, 0 <= j < nfj e /\ exists i, 0 <= i < nfi e /\
                x = o + ni * nfj e * jc + nfi e * ic + (j * ni + i)); [exact Hci|].
        intros ic Hic a s Ha ->. apply wp_bind. eapply wp_mono.
        * eapply (dcopy_ij_puts sz V); [| |exact Ha].
          -- assert (B : 0 <= jc * i_ctr e + ic < i_ctr e * j_ctr e) by nia.
             assert (Pnf : 0 <= nf e) by (rewrite Hnf; apply Z.mul_nonneg_nonneg; assumption).
             set (q := jc * i_ctr e + ic) in *.
             replace (0 + nf e * i_ctr e * jc + nf e * ic) with (nf e * q) by (unfold q; ring).
             eapply reads_sub; [| |exact Hy]; [nia|]. rewrite <- Hnf.
             replace (nf e * i_ctr e * j_ctr e) with (nf e * (i_ctr e * j_ctr e)) by ring. nia.
          -- intros j i Hj Hi. cbv beta. specialize (H jc ic j i Hjc Hic Hj Hi). cbv zeta in H.
             match goal with |- 0 <= ?a < _ /\ V _ (y ?b) =>
               replace a with (o + ((jc * nfj e + j) * ni + (ic * nfi e + i))) by ring;
               replace b with ((jc * i_ctr e + ic) * nf e + (j * nfi e + i)) by ring
             end. exact H.
        * intros b Hb. cbn [wp fst snd]. split; [exact Hb|ring].
      + ring.
    - intros x. replace (blkO o ni nj nk (nfi e * i_ctr e) (nfj e * j_ctr e) 1 1 x) with
        (blkO o ni nj nk (nfi e * i_ctr e) (nfj e * j_ctr e) (1 * 1) (1 * 1) x) by reflexivity.
      rewrite blkO_split by lia. split.
      + intros [lc [? [kc [? [jc [? [ic [? [l [? [k [? [j [? [i [? ->]]]]]]]]]]]]]]]].
        exists jc; split; [assumption|]. exists ic; split; [assumption|]. exists j; split; [assumption|].
        exists i; split; [assumption|]. replace lc with 0 by lia. replace kc with 0 by lia.
        replace l with 0 by lia. replace k with 0 by lia. ring.
      + intros [jc [? [ic [? [j [? [i [? ->]]]]]]]].
        exists 0; split; [lia|]. exists 0; split; [lia|]. exists jc; split; [assumption|].
        exists ic; split; [assumption|]. exists 0; split; [lia|]. exists 0; split; [lia|].
        exists j; split; [assumption|]. exists i; split; [assumption|]. ring.
  Qed.

  Hypothesis D2 : rd dims 2 = Some nk.
  Hypothesis Hck : 0 <= k_ctr e.
  Hypothesis Pfk : 0 <= nfk e.

  Lemma c2s_cart_3c2e1_puts o :
    nf e = nfi e * nfk e * nfj e ->
    reads gctr (nf e * i_ctr e * j_ctr e * k_ctr e) y ->
    (forall kc jc ic k j i, 0 <= kc < k_ctr e -> 0 <= jc < j_ctr e -> 0 <= ic < i_ctr e ->
       0 <= k < nfk e -> 0 <= j < nfj e -> 0 <= i < nfi e ->
       let x := o + (((kc * nfk e + k) * nj + (jc * nfj e + j)) * ni + (ic * nfi e + i)) in
       0 <= x < sz /\ V x (y (((kc * j_ctr e + jc) * i_ctr e + ic) * nf e + ((j * nfk e + k) * nfi e + i)))) ->
    puts sz V (blkO o ni nj nk (nfi e * i_ctr e) (nfj e * j_ctr e) (nfk e * k_ctr e) 1)
      (fun out => c2s_cart_3c2e1 out o gctr dims e).
  Proof.
    intros Hnf Hy H. unfold c2s_cart_3c2e1. rewrite D0, D1, D2. cbn [bind]. cbv zeta.
    eapply puts_run with (I := fun s => s = 0); [|reflexivity].
    pose (P := fun kc jc ic x => exists l, 0 <= l < 1 /\ exists k, 0 <= k < nfk e /\ exists j, 0 <= j < nfj e /\
                 exists i, 0 <= i < nfi e /\
                x = o + ni * nj * nfk e * kc + ni * nfj e * jc + nfi e * ic + (((l * nk + k) * nj + j) * ni + i)).
    eapply putsS_iff.
    - apply (nest sz V (fun p s => s = p)) with (step := nf e * i_ctr e * j_ctr e)
        (W := fun kc x => exists jc, 0 <= jc < j_ctr e /\ exists ic, 0 <= ic < i_ctr e /\ P kc jc ic x); [exact Hck|].
      intros kc Hkc. eapply putsS_conv with (J := fun p s => s = p); [|reflexivity|].
      + apply (nest sz V (fun p s => s = p)) with (step := nf e * i_ctr e)
          (W := fun jc x => exists ic, 0 <= ic < i_ctr e /\ P kc jc ic x); [exact Hcj|].
        intros jc Hjc. eapply putsS_conv with (J := fun p s => s = p); [|reflexivity|].
        * apply (nest sz V (fun p s => s = p)) with (step := nf e) (W := fun ic x => P kc jc ic x); [exact Hci|].
          intros ic Hic a s Ha ->. apply wp_bind. eapply wp_mono.
          -- eapply (dcopy_iklj_puts sz V); [lia| | |exact Ha].
             ++ assert (Pnf : 0 <= nf e) by (rewrite Hnf; repeat apply Z.mul_nonneg_nonneg; assumption).
                assert (B : 0 <= (kc * j_ctr e + jc) * i_ctr e + ic < i_ctr e * j_ctr e * k_ctr e).
                { assert (0 <= kc * j_ctr e + jc < j_ctr e * k_ctr e) by nia.
                  set (q := kc * j_ctr e + jc) in *. nia. }
                set (q := (kc * j_ctr e + jc) * i_ctr e + ic) in *.
                replace (0 + nf e * i_ctr e * j_ctr e * kc + nf e * i_ctr e * jc + nf e * ic) with (nf e * q)
                  by (unfold q; ring).
                eapply reads_sub; [| |exact Hy]; [nia|].
                replace (nfi e * nfk e * 1 * nfj e) with (nf e) by (rewrite Hnf; ring).
                replace (nf e * i_ctr e * j_ctr e * k_ctr e) with
                     (nf e * (i_ctr e * j_ctr e * k_ctr e)) by ring. nia.
             ++ intros l k j i Hl Hk Hj Hi. cbv beta. specialize (H kc jc ic k j i Hkc Hjc Hic Hk Hj Hi). cbv zeta in H.
                replace l with 0 by lia.
                match goal with |- 0 <= ?a < _ /\ V _ (y ?b) =>
                  replace a with (o + (((kc * nfk e + k) * nj + (jc * nfj e + j)) * ni + (ic * nfi e + i))) by ring;
                  replace b with (((kc * j_ctr e + jc) * i_ctr e + ic) * nf e + ((j * nfk e + k) * nfi e + i)) by ring
                end. exact H.
          -- intros b Hb. cbn [wp fst snd]. split; [exact Hb|ring].
        * ring.
      + ring.
    - intros x. replace (blkO o ni nj nk (nfi e * i_ctr e) (nfj e * j_ctr e) (nfk e * k_ctr e) 1 x) with
        (blkO o ni nj nk (nfi e * i_ctr e) (nfj e * j_ctr e) (nfk e * k_ctr e) (1 * 1) x) by reflexivity.
      rewrite blkO_split by lia. unfold P. split.
      + intros [lc [? [kc [? [jc [? [ic [? [l [? [k [? [j [? [i [? ->]]]]]]]]]]]]]]]].
        exists kc; split; [assumption|]. exists jc; split; [assumption|]. exists ic; split; [assumption|].
        exists l; split; [assumption|]. exists k; split; [assumption|].
        exists j; split; [assumption|]. exists i; split; [assumption|]. replace lc with 0 by lia. ring.
      + intros [kc [? [jc [? [ic [? [l [? [k [? [j [? [i [? ->]]]]]]]]]]]]]].
        exists 0; split; [lia|]. exists kc; split; [assumption|]. exists jc; split; [assumption|].
        exists ic; split; [assumption|]. exists l; split; [assumption|]. exists k; split; [assumption|].
        exists j; split; [assumption|]. exists i; split; [assumption|]. ring.
  Qed.

  Hypothesis D3 : rd dims 3 = Some nl.
  Hypothesis Hcl : 0 <= l_ctr e.
  Hypothesis Pfl : 0 <= nfl e.

  Lemma c2s_cart_2e1_puts o :
    nf e = nfi e * nfk e * nfl e * nfj e ->
    reads gctr (nf e * i_ctr e * j_ctr e * k_ctr e * l_ctr e) y ->
    (forall lc kc jc ic l k j i, 0 <= lc < l_ctr e -> 0 <= kc < k_ctr e -> 0 <= jc < j_ctr e -> 0 <= ic < i_ctr e ->
       0 <= l < nfl e -> 0 <= k < nfk e -> 0 <= j < nfj e -> 0 <= i < nfi e ->
       let x := o + ((((lc * nfl e + l) * nk + (kc * nfk e + k)) * nj + (jc * nfj e + j)) * ni + (ic * nfi e + i)) in
       0 <= x < sz /\ V x (y ((((lc * k_ctr e + kc) * j_ctr e + jc) * i_ctr e + ic) * nf e
                              + (((j * nfl e + l) * nfk e + k) * nfi e + i)))) ->
    puts sz V (blkO o ni nj nk (nfi e * i_ctr e) (nfj e * j_ctr e) (nfk e * k_ctr e) (nfl e * l_ctr e))
      (fun out => c2s_cart_2e1 out o gctr dims e).
  Proof.
    intros Hnf Hy H. unfold c2s_cart_2e1. rewrite D0, D1, D2, D3. cbn [bind]. cbv zeta.
    assert (Pnf : 0 <= nf e).
    { rewrite Hnf. repeat apply Z.mul_nonneg_nonneg; assumption. }
    eapply puts_run with (I := fun s => s = 0); [|reflexivity].
    pose (P := fun lc kc jc ic x => exists l, 0 <= l < nfl e /\ exists k, 0 <= k < nfk e /\ exists j, 0 <= j < nfj e /\
                 exists i, 0 <= i < nfi e /\
                x = o + ni * nj * nk * nfl e * lc + ni * nj * nfk e * kc + ni * nfj e * jc + nfi e * ic
                    + (((l * nk + k) * nj + j) * ni + i)).
    eapply putsS_iff.
    - apply (nest sz V (fun p s => s = p)) with (step := nf e * i_ctr e * j_ctr e * k_ctr e)
        (W := fun lc x => exists kc, 0 <= kc < k_ctr e /\ exists jc, 0 <= jc < j_ctr e /\
                exists ic, 0 <= ic < i_ctr e /\ P lc kc jc ic x); [exact Hcl|].
      intros lc Hlc. eapply putsS_conv with (J := fun p s => s = p); [|reflexivity|].
      + apply (nest sz V (fun p s => s = p)) with (step := nf e * i_ctr e * j_ctr e)
          (W := fun kc x => exists jc, 0 <= jc < j_ctr e /\ exists ic, 0 <= ic < i_ctr e /\ P lc kc jc ic x); [exact Hck|].
        intros kc Hkc. eapply putsS_conv with (J := fun p s => s = p); [|reflexivity|].
        * apply (nest sz V (fun p s => s = p)) with (step := nf e * i_ctr e)
            (W := fun jc x => exists ic, 0 <= ic < i_ctr e /\ P lc kc jc ic x); [exact Hcj|].
          intros jc Hjc. eapply putsS_conv with (J := fun p s => s = p); [|reflexivity|].
          -- apply (nest sz V (fun p s => s = p)) with (step := nf e) (W := fun ic x => P lc kc jc ic x); [exact Hci|].
             intros ic Hic a s Ha ->. apply wp_bind.
             assert (B : 0 <= ((lc * k_ctr e + kc) * j_ctr e + jc) * i_ctr e + ic
                         < i_ctr e * j_ctr e * k_ctr e * l_ctr e).
             { assert (0 <= lc * k_ctr e + kc < k_ctr e * l_ctr e) by nia.
               assert (0 <= (lc * k_ctr e + kc) * j_ctr e + jc < j_ctr e * (k_ctr e * l_ctr e))
                 by (set (q := lc * k_ctr e + kc) in *; nia).
               set (q := (lc * k_ctr e + kc) * j_ctr e + jc) in *. nia. }
             set (q := ((lc * k_ctr e + kc) * j_ctr e + jc) * i_ctr e + ic) in *.
             replace (0 + nf e * i_ctr e * j_ctr e * k_ctr e * lc + nf e * i_ctr e * j_ctr e * kc + nf e * i_ctr e * jc +
                      nf e * ic) with (nf e * q) by (unfold q; ring).
             eapply wp_mono.
             ++ eapply (dcopy_iklj_puts sz V); [lia| | |exact Ha].
                ** eapply reads_sub; [| |exact Hy]; [nia|].
                   rewrite <- Hnf. 
                   replace (nf e * i_ctr e * j_ctr e * k_ctr e * l_ctr e) with
                     (nf e * (i_ctr e * j_ctr e * k_ctr e * l_ctr e)) by ring. nia.
                ** intros l k j i Hl Hk Hj Hi. cbv beta.
                   specialize (H lc kc jc ic l k j i Hlc Hkc Hjc Hic Hl Hk Hj Hi). cbv zeta in H.
                   match goal with |- 0 <= ?a < _ /\ V _ (y ?b) =>
                     replace a with (o + ((((lc * nfl e + l) * nk + (kc * nfk e + k)) * nj + (jc * nfj e + j)) * ni
                                          + (ic * nfi e + i))) by ring;
                     replace b with (q * nf e + (((j * nfl e + l) * nfk e + k) * nfi e + i)) by ring
                   end. exact H.
             ++ intros b Hb. cbn [wp fst snd]. split; [exact Hb|unfold q; ring].
          -- ring.
        * ring.
      + ring.
    - intros x. rewrite blkO_split by lia. unfold P. reflexivity.
  Qed.
End Cart.
