(** IntgProps.v — the facts of PropsIntg.v from the evaluated checks. *)
From Coq Require Import Reals Lra QArith Qreals String.
From Coquelicot Require Import Coquelicot.
From Verif Require Import Base BasSpec EnvModel IdxModel IdxSpec RecRModel Rec1Real OpSpec IntgModel IntgSpec IntgTab IntgStmt IntgCheck IntgFinal IntgAll
  IntgEx IntgOvlp IntgReal.
Local Open Scope Z_scope.

Lemma named_in l t : named l t = true <-> In (en_name (t_e t)) l.
Proof.
  unfold named. rewrite existsb_exists. split.
  - intros (s & Hs & E). apply String.eqb_eq in E. rewrite E. exact Hs.
  - intros H. exists (en_name (t_e t)). split; [exact H|apply String.eqb_refl].
Qed.
Lemma named_out l t : ~ In (en_name (t_e t)) l -> named l t = false.
Proof. rewrite <- named_in. apply Bool.not_true_iff_false. Qed.

Lemma factor_facts t : In t catalogue ->
  (forall n d n' d', en_cart (t_e t) = Some (n, d) -> en_sph (t_e t) = Some (n', d') -> n * Z.pos d' = n' * Z.pos d) /\
  (forall n d n' d', en_sph (t_e t) = Some (n, d) -> en_spinor (t_e t) = Some (n', d') ->
     n * Z.pos d' = (if in_dec string_dec (en_name (t_e t)) spinor_flipped then -1 else 1) * n' * Z.pos d).
Proof.
  intros Ht. pose proof (proj1 (forallb_forall _ _) facs_checked t Ht) as E. unfold fac_ok in E. apply andb_true_iff in E.
  destruct E as [E1 E2]. split; intros n d n' d' H1 H2.
  - unfold same_fac in E1. rewrite H1, H2 in E1. lia.
  - destruct (in_dec string_dec (en_name (t_e t)) spinor_flipped) as [Hi|Hi].
    + rewrite (proj2 (named_in _ _) Hi) in E2. unfold opp_fac in E2. rewrite H1, H2 in E2. lia.
    + rewrite (named_out _ _ Hi) in E2. unfold same_fac in E2. rewrite H1, H2 in E2. lia.
Qed.

Lemma in_ip1 : In e_int2e_ip1 catalogue.
Proof. apply (nth_error_In catalogue 74). reflexivity. Qed.

Lemma integrands_ok t : In t catalogue -> ~ In (en_name (t_e t)) except_names ->
  forall ng om l ctr x I pw empty idx m gout, call t ng om l ctr x I pw empty idx m gout ->
  (In (en_name (t_e t)) parts_names -> by_parts (x_a x) (x_R x) I) ->
  computes cq1 (components (t_d t) (sis (en_c2s1 (t_e t))) (sis (en_c2s2 (t_e t)))) t x I pw empty idx m gout.
Proof.
  intros Ht He ng om l ctr x I pw empty idx m gout Hc Hp.
  refine (ent_ok_sound _ _ _ _ (ent_of_all t Ht (named_out _ _ He)) _ _ _ _ _ _ _ _ _ _ _ Hc _).
  intros H. apply Hp, named_in, H.
Qed.

Lemma not_stored_ok t : In t catalogue -> ~ In (en_name (t_e t)) except_names ->
  forall a A O I rts pw qs s1 s2, (In (en_name (t_e t)) parts_names -> by_parts a A I) -> In qs (spec_pairs (t_d t)) ->
  ~ (In s1 (stored (sis (en_c2s1 (t_e t)))) /\ In s2 (stored (sis (en_c2s2 (t_e t))))) ->
  den a A O I rts pw (spec_of (t_d t) qs s1 s2) = RtoC 0.
Proof.
  intros Ht He a A O I rts pw qs s1 s2 Hp. apply (unstored_zero _ _ _ _ (ent_of_all t Ht (named_out _ _ He))).
  intros H. apply Hp, named_in, H.
Qed.

Lemma exc_parts : forallb (ent_ok false cq1 transpose) [e_int1e_ippnucpip; e_int1e_ipprinvpip] = true /\
  forallb (ent_ok false (cneg cq1) (fun l => l)) [e_int2e_breit_r1p2; e_int2e_breit_r2p2] = true.
Proof. apply andb_true_iff. exact exc_checked. Qed.

Lemma transposed_ok t : In t [e_int1e_ippnucpip; e_int1e_ipprinvpip] ->
  forall ng om l ctr x I pw empty idx m gout, call t ng om l ctr x I pw empty idx m gout ->
  computes cq1 (transpose (components (t_d t) (sis (en_c2s1 (t_e t))) (sis (en_c2s2 (t_e t))))) t x I pw empty idx m gout.
Proof.
  intros Ht ng om l ctr x I pw empty idx m gout Hc.
  refine (ent_ok_sound false cq1 transpose t (proj1 (forallb_forall _ _) (proj1 exc_parts) t Ht) _ _ _ _ _ _ _ _ _ _ _ Hc _).
  discriminate.
Qed.
Lemma breit_ok t : In t [e_int2e_breit_r1p2; e_int2e_breit_r2p2] ->
  forall ng om l ctr x I pw empty idx m gout, call t ng om l ctr x I pw empty idx m gout ->
  computes (cneg cq1) (components (t_d t) (sis (en_c2s1 (t_e t))) (sis (en_c2s2 (t_e t)))) t x I pw empty idx m gout.
Proof.
  intros Ht ng om l ctr x I pw empty idx m gout Hc.
  refine (ent_ok_sound false (cneg cq1) (fun l => l) t (proj1 (forallb_forall _ _) (proj2 exc_parts) t Ht) _ _ _ _ _ _ _ _ _ _ _ Hc _).
  discriminate.
Qed.
Lemma ipvg1_ok ng om l ctr x I pw empty idx m gout : let t := more_j e_int2e_ipvg1_xp1 in
  call t ng om l ctr x I pw empty idx m gout ->
  computes cq1 (components (t_d t) (sis (en_c2s1 (t_e t))) (sis (en_c2s2 (t_e t)))) t x I pw empty idx m gout.
Proof.
  intros t Hc. refine (ent_ok_sound false cq1 (fun l => l) t more_j_checked _ _ _ _ _ _ _ _ _ _ _ Hc _). discriminate.
Qed.
Lemma r6_ok ng om l ctr x I pw empty idx m gout : let t := with_g76 e_int3c1e_ip1_r6_origk in
  call t ng om l ctr x I pw empty idx m gout ->
  computes cq1 (components (t_d t) (sis (en_c2s1 (t_e t))) (sis (en_c2s2 (t_e t)))) t x I pw empty idx m gout.
Proof.
  intros t Hc. refine (ent_ok_sound false cq1 (fun l => l) t with_g76_checked _ _ _ _ _ _ _ _ _ _ _ Hc _). discriminate.
Qed.

Lemma transposed_refuted : exists a A O I rts pw,
  let c := components (t_d e_int1e_ippnucpip) false false in
  exists s1 s2 q s1' s2' q', nth_error c 1 = Some (s1, s2, q) /\ nth_error (transpose c) 1 = Some (s1', s2', q') /\
  den a A O I rts pw q = RtoC 2 /\ den a A O I rts pw q' = RtoC 0.
Proof.
  exists (fun _ => 0%R), (fun _ _ => 0%R), (fun _ => 0%R), tr_I, [0], tr_pw. cbv zeta.
  exists S1, S1, (tr_comp 1), S1, S1, (tr_comp 3).
  split; [vm_compute; reflexivity|]. split; [vm_compute; reflexivity|]. exact tr_differ.
Qed.

Lemma bind_some {A B} (o : option A) (f : A -> option B) v : (x <- o ;; f x) = Some v -> exists x, o = Some x /\ f x = Some v.
Proof. destruct o; cbn; [eauto|discriminate]. Qed.

Lemma r6_refuted : exists x (m m' : arr Z) idx g g',
  x_env x = fam_env F3c1e false (mkng 1 0 6 0 7 1 1 3) (fun _ => 0) (fun _ => 1) /\
  ent_ng e_int3c1e_ip1_r6_origk = Some (mkng 1 0 6 0 7 1 1 3) /\
  asize m = (2 ^ 7 + 1) * (3 * g_size (x_env x)) /\ asize m' = asize m /\
  (forall q, 0 <= q < 3 * g_size (x_env x) -> rd m q = rd m' q) /\
  run_gout 0 1 Z.add Z.mul Z.sub (fun z => z) x (t_f e_int3c1e_ip1_r6_origk) true idx m (uninit 3) = Some g /\
  run_gout 0 1 Z.add Z.mul Z.sub (fun z => z) x (t_f e_int3c1e_ip1_r6_origk) true idx m' (uninit 3) = Some g' /\
  rd g 1 <> rd g' 1.
Proof.
  destruct r6_runs as [E0 E1]. unfold r6_run in E0, E1.
  apply bind_some in E0. apply bind_some in E1. destruct E0 as (g & G0 & E0). destruct E1 as (g' & G1 & E1).
  exists r6_x, (r6_buf 0), (r6_buf 1), r6_idx, g, g'.
  split; [reflexivity|]. split; [reflexivity|]. split; [reflexivity|]. split; [reflexivity|].
  split; [|split; [exact G0|split; [exact G1|congruence]]].
  intros q Hq. unfold r6_buf, rd, of_fun, inb. cbn [asize acell]. destruct (_ && _)%bool; [|reflexivity].
  replace (q <? 3 * g_size (x_env r6_x)) with true by lia. reflexivity.
Qed.

Lemma ipovlp_example : exists idx' g' gout' v,
  let e := init_int1e (mkng 1 0 0 0 1 1 1 3) 0 0 1 1 in
  let a (_ : centre) := 1%R in
  let A c ax := (match c with CI => if ax =? 0 then 1 else 0 | _ => 0 end)%R in
  ent_ng e_int1e_ipovlp = Some (mkng 1 0 0 0 1 1 1 3) /\
  CINTg1e_index_xyz e (uninit 3) = Some idx' /\
  R_ovlp e (1 * pair_eij (square3 (fun ax => A CI ax - A CJ ax)) 1 1)%R 1%R 1%R (A CI) (A CJ) (of_fun 18 (fun _ => 0%R)) = Some g' /\
  run_gout 0%R 1%R Rplus Rmult Rminus IZR (mkgin e 0 a A (fun _ => 0%R)) (t_f e_int1e_ipovlp) true idx' g' (uninit 3) = Some gout' /\
  rd gout' 0 = Some v /\
  v = (line (fun x => Derive (phi 1 1 0) x * phi 1 0 0 x) * line (fun x => phi 1 0 0 x * phi 1 0 0 x) * line (fun x => phi 1 0 0 x * phi 1 0 0 x))%R.
Proof.
  set (A := fun (c : centre) (ax : Z) => (match c with CI => if ax =? 0 then 1 else 0 | _ => 0 end)%R).
  assert (Hin : In e_int1e_ipovlp catalogue) by (apply (nth_error_In catalogue 64); reflexivity).
  destruct (overlap_real e_int1e_ipovlp (mkng 1 0 0 0 1 1 1 3) 0 0 1 1 1 (fun _ => 1%R) A (fun _ => 0%R) (uninit 3) (of_fun 18 (fun _ => 0%R)) (uninit 3) true
    Hin eq_refl eq_refl) as (idx' & g' & gout' & f & E1 & E2 & E3 & E4 & _ & H); try (cbn; lia); try lra; try discriminate.
  { intros q Hq. cbn in Hq. exists 0%R. unfold rd, of_fun, inb. cbn. replace ((0 <=? q) && (q <? 18))%bool with true by lia. reflexivity. }
  destruct (nth_error (components (t_d e_int1e_ipovlp) (sis (en_c2s1 (t_e e_int1e_ipovlp))) (sis (en_c2s2 (t_e e_int1e_ipovlp)))) 0) as [[[s1 s2] q]|] eqn:Eq;
    [|vm_compute in Eq; discriminate].
  destruct (H 0%nat 0%nat 0%nat (0, 0, 0) (0, 0, 0) s1 s2 q eq_refl eq_refl Eq) as (v & old & V1 & V2 & V3).
  exists idx', g', gout', (old + v)%R. cbv zeta. split; [reflexivity|]. split; [exact E1|]. split; [exact E2|]. split; [exact E3|].
  split; [exact V1|]. cbn in V2. rewrite V2, Rplus_0_l.
  vm_compute in Eq. injection Eq as <- <- <-. vm_compute in E4. injection E4 as <-.
  apply (f_equal fst) in V3.
  unfold den, mval, kpow, term, word_fun, word_at, base, powers, overlap, A, cval, phase in V3. cbn [map snd fst m_k m_w rsum csum fold_right] in V3.
  change (Z.to_nat 0) with 0%nat in V3. change (Z.to_nat 1) with 1%nat in V3. change (Z.to_nat 2) with 2%nat in V3.
  cbn -[line phi Derive Q2R] in V3. unfold Q2R in V3. cbn -[line phi Derive] in V3.
  rewrite Rinv_1 in V3. lra.
Qed.
