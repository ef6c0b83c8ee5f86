(** GiaoProof.v — the early returns of the gauge-origin entry points: checks and proofs. *)
From Coq Require Import Reals Lra QArith Qreals String.
From Coquelicot Require Import Coquelicot.
From Verif Require Import Base EnvModel OpSpec OutModel SpinorModel IntgModel IntgSpec IntgTab IntgStmt IntgCheck IntgFinal IntgAll IntgEx IntgProps GiaoModel.
Local Open Scope Z_scope.

(** ** Evaluated check: every term of every component has a factor of the tested pair *)
Definition off (p : centre * centre) : nat := match fst p with CK | CL => 3 | _ => 0 end.
Definition has_diff (p : centre * centre) (m : mono) : bool :=
  (0 <? nth (off p) (m_k m) 0 + nth (off p + 1) (m_k m) 0 + nth (off p + 2) (m_k m) 0)%nat.
Definition std_pair (p : centre * centre) : bool := match p with (CI, CJ) | (CK, CL) => true | _ => false end.
Definition spins : list spin := [S1; SX; SY; SZ].
Definition pairs_of (t : ent) : list (centre * centre) :=
  flat_map (fun r => if String.eqb (fst r) (en_name (t_e t)) then snd r else []) same_pair.
Definition diff_ok (t : ent) : bool :=
  forallb (fun p => std_pair p && forallb (fun qs => forallb (fun s1 => forallb (fun s2 =>
    forallb (fun u => has_diff p (snd u)) (spec_of (t_d t) qs s1 s2)) spins) spins) (spec_pairs (t_d t))) (pairs_of t) &&
  match factor (t_e t) with Some f => negb (fst f =? 0) | None => false end &&
  (match en_fam (t_e t), pairs_of t with
   | _, [] => true
   | F3c2e, _ => forallb (fun g => POS_E2 g =? 1) (en_ng (t_e t))
   | (F1e | F1nuc | F1rinv | F2e), _ => true
   | _, _ => false
   end).
Lemma diff_checked : forallb diff_ok catalogue = true.
Proof. vm_cast_no_check (eq_refl true). Qed.
(** each name of the table is an entry of the catalogue *)
Lemma names_checked : forallb (fun r => existsb (fun t => String.eqb (fst r) (en_name (t_e t))) catalogue) same_pair = true.
Proof. vm_cast_no_check (eq_refl true). Qed.

Lemma pairs_of_early t shls : early (en_name (t_e t)) shls = true ->
  exists p, In p (pairs_of t) /\ shls (slot (fst p)) = shls (slot (snd p)).
Proof.
  unfold early. rewrite existsb_exists. intros (r & Hr & E). apply andb_true_iff in E. destruct E as [E1 E2].
  apply existsb_exists in E2. destruct E2 as (p & Hp & E3). exists p. split; [|lia].
  apply in_flat_map. exists r. split; [exact Hr|]. rewrite E1. exact Hp.
Qed.

Lemma mval_zero a A O I rts pw p m : std_pair p = true -> has_diff p m = true -> (forall ax, 0 <= ax < 3 -> A (fst p) ax = A (snd p) ax) ->
  mval a A O I rts pw m = 0%R.
Proof.
  intros Hp Hm HA. unfold has_diff in Hm. apply Nat.ltb_lt in Hm.
  assert (K : forall ax, 0 <= ax < 3 -> (0 < nth (off p + Z.to_nat ax) (m_k m) 0)%nat -> kpow A m p (off p) ax = 0%R).
  { intros ax Hax Hk. unfold kpow. rewrite HA, Rminus_diag_eq by (exact Hax || reflexivity). apply pow_ne_zero. lia. }
  pose proof (K 0 ltac:(lia)) as K0. pose proof (K 1 ltac:(lia)) as K1. pose proof (K 2 ltac:(lia)) as K2. clear K.
  change (Z.to_nat 0) with 0%nat in K0. change (Z.to_nat 1) with 1%nat in K1. change (Z.to_nat 2) with 2%nat in K2. rewrite Nat.add_0_r in K0.
  assert (X : (0 < nth (off p) (m_k m) 0 \/ 0 < nth (off p + 1) (m_k m) 0 \/ 0 < nth (off p + 2) (m_k m) 0)%nat) by lia. clear Hm.
  unfold mval. destruct p as [c d]. destruct c, d; try discriminate; change (off _) with 0%nat in * || change (off _) with 3%nat in *;
    destruct X as [X|[X|X]]; [rewrite (K0 X)|rewrite (K1 X)|rewrite (K2 X)|rewrite (K0 X)|rewrite (K1 X)|rewrite (K2 X)]; ring.
Qed.
Lemma den_zero a A O I rts pw q : (forall u, In u q -> mval a A O I rts pw (snd u) = 0%R) -> den a A O I rts pw q = RtoC 0.
Proof.
  intros H. unfold den. induction q as [|u q IH]; [reflexivity|]. cbn [map csum fold_right].
  rewrite (H u (or_introl eq_refl)), Cmult_0_r, Cplus_0_l. apply IH. intros v Hv. apply H. right. exact Hv.
Qed.

Lemma early_zero t shls (pt : Z -> Z -> R) a O I rts pw qs s1 s2 : In t catalogue -> early (en_name (t_e t)) shls = true ->
  In qs (spec_pairs (t_d t)) -> den a (fun c ax => pt (shls (slot c)) ax) O I rts pw (spec_of (t_d t) qs s1 s2) = RtoC 0.
Proof.
  intros Ht He Hq. destruct (pairs_of_early t shls He) as (p & Hp & E).
  pose proof (proj1 (forallb_forall _ _) diff_checked t Ht) as C1. unfold diff_ok in C1. apply andb_true_iff in C1. destruct C1 as [C1 _].
  apply andb_true_iff in C1. destruct C1 as [C1 _].
  pose proof (proj1 (forallb_forall _ _) C1 p Hp) as C2. cbv beta in C2. apply andb_true_iff in C2. destruct C2 as [Hs C2].
  pose proof (proj1 (forallb_forall _ _) C2 qs Hq) as C3. cbv beta in C3.
  assert (Hin : forall s, In s spins) by (intros []; cbn; tauto).
  pose proof (proj1 (forallb_forall _ _) C3 s1 (Hin s1)) as C4. cbv beta in C4.
  pose proof (proj1 (forallb_forall _ _) C4 s2 (Hin s2)) as C5. cbv beta in C5.
  apply den_zero. intros u Hu. apply (mval_zero _ _ _ _ _ _ p); [exact Hs|exact (proj1 (forallb_forall _ _) C5 u Hu)|].
  intros ax _. cbv beta. rewrite E. reflexivity.
Qed.

Lemma components_spec d b1 b2 s1 s2 q : In (s1, s2, q) (components d b1 b2) -> exists qs, In qs (spec_pairs d) /\ q = spec_of d qs s1 s2.
Proof.
  unfold components. intros H. apply in_flat_map in H. destruct H as (qs & Hq & H). apply in_flat_map in H. destruct H as (s2' & _ & H).
  apply in_map_iff in H. destruct H as (s1' & E & _). injection E as <- <- <-. exists qs. auto.
Qed.

Lemma cval_mul x y : cval (cqmul x y) = (cval x * cval y)%C.
Proof.
  unfold cval, cqmul, Cmult. cbn [fst snd]. rewrite !(Qeq_eqR _ _ (Qred_correct _)).
  rewrite Q2R_minus, Q2R_plus, !Q2R_mult. reflexivity.
Qed.
Lemma cqpow_ne n : cval (cqpow n) <> RtoC 0.
Proof.
  unfold cqpow. induction n as [|n IH].
  - unfold cval, cq1. cbn. rewrite RMicromega.Q2R_1. intros E. injection E as E _. lra.
  - cbn [Nat.iter nat_rect]. rewrite cval_mul. apply Cmult_neq_0; [|exact IH].
    unfold cval, cqi. cbn. rewrite RMicromega.Q2R_1. intros E. injection E as _ E. lra.
Qed.
Lemma factor_ne t f s1 s2 : In t catalogue -> factor (t_e t) = Some f -> cval (cqmul cq1 (cqmul (qfac f) (phase (t_e t) s1 s2))) <> RtoC 0.
Proof.
  intros Ht Ef. pose proof (proj1 (forallb_forall _ _) diff_checked t Ht) as C1. unfold diff_ok in C1. apply andb_true_iff in C1. destruct C1 as [C1 _].
  apply andb_true_iff in C1. destruct C1 as [_ C1]. rewrite Ef in C1. apply negb_true_iff, Z.eqb_neq in C1.
  rewrite !cval_mul. repeat apply Cmult_neq_0.
  - unfold cval, cq1. cbn. rewrite RMicromega.Q2R_1. intros E. injection E as E _. lra.
  - unfold cval, qfac. cbn [fst snd]. intros E. injection E as E _. unfold Q2R in E. cbn in E.
    apply Rmult_integral in E. destruct E as [E|E].
    + apply C1. apply eq_IZR. exact E.
    + revert E. apply Rinv_neq_0_compat. apply not_0_IZR. discriminate.
  - apply cqpow_ne.
Qed.

Lemma early_gout t : In t catalogue -> ~ In (en_name (t_e t)) except_names ->
  forall shls (pt : Z -> Z -> R) ng om l ctr x I pw empty idx m gout, early (en_name (t_e t)) shls = true ->
  x_R x = (fun c ax => pt (shls (slot c)) ax) ->
  call t ng om l ctr x I pw empty idx m gout ->
  (In (en_name (t_e t)) parts_names -> by_parts (x_a x) (x_R x) I) ->
  exists gout', run_gout 0%R 1%R Rplus Rmult Rminus IZR x (t_f t) empty idx m gout = Some gout' /\
    forall n ig k, valid x t n ig k -> if empty then rd gout' (pos x t n ig k) = Some 0%R else rd gout' (pos x t n ig k) = rd gout (pos x t n ig k).
Proof.
  intros Ht Hn shls pt ng om l ctr x I pw empty idx m gout He Hx Hc Hp.
  destruct (integrands_ok t Ht Hn ng om l ctr x I pw empty idx m gout Hc Hp) as (Hlen & f & gout' & Ef & Er & _ & Hv).
  exists gout'. split; [exact Er|]. intros n ig k Hval.
  destruct (nth_error (components (t_d t) (sis (en_c2s1 (t_e t))) (sis (en_c2s2 (t_e t)))) (Z.to_nat k)) as [[[s1 s2] q]|] eqn:Ek.
  2:{ apply nth_error_None in Ek. destruct Hval as (_ & _ & Hk). rewrite Hlen in Ek. lia. }
  destruct (Hv n ig k s1 s2 q Hval Ek) as (v & old & V1 & V2 & V3).
  destruct (components_spec _ _ _ _ _ _ (nth_error_In _ _ Ek)) as (qs & Hqs & ->).
  rewrite Hx, (early_zero t shls pt _ _ _ _ _ qs s1 s2 Ht He Hqs) in V3.
  assert (Hv0 : v = 0%R).
  { destruct (Req_dec v 0) as [E|E]; [exact E|exfalso]. revert V3. apply Cmult_neq_0; [apply factor_ne; assumption|].
    intros E'. apply E. injection E' as E'. exact E'. }
  rewrite V1, Hv0, Rplus_0_r. destruct empty; [rewrite V2; reflexivity|symmetry; exact V2].
Qed.

(** the environments of the entries *)
Lemma three_e2 t ng : In t catalogue -> In (en_name (t_e t)) (map fst same_pair) -> en_fam (t_e t) = F3c2e -> ent_ng t = Some ng -> POS_E2 ng = 1.
Proof.
  intros Ht Hn Hf En. pose proof (proj1 (forallb_forall _ _) diff_checked t Ht) as C1. unfold diff_ok in C1. apply andb_true_iff in C1. destruct C1 as [_ C1].
  rewrite Hf in C1. assert (Hp : pairs_of t <> []).
  { apply in_map_iff in Hn. destruct Hn as (r & Er & Hr). intros E. unfold pairs_of in E.
    assert (X : forall p, In p (snd r) -> False).
    { intros p Hp. assert (Y : In p []) by (rewrite <- E; apply in_flat_map; exists r; split; [exact Hr|]; rewrite Er, String.eqb_refl; exact Hp). exact Y. }
    assert (Ne : forallb (fun r => match snd r with [] => false | _ => true end) same_pair = true) by reflexivity.
    pose proof (proj1 (forallb_forall _ _) Ne r Hr) as Z1. cbv beta in Z1. destruct (snd r) as [|p ps]; [discriminate|]. exact (X p (or_introl eq_refl)). }
  destruct (pairs_of t); [congruence|]. unfold ent_ng in En. destruct (en_ng (t_e t)) as [|g gs]; [discriminate|].
  cbn in En. injection En as ->. cbn in C1. lia.
Qed.
