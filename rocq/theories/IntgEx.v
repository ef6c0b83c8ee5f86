(** IntgEx.v — table facts and witnesses. *)
From Coq Require Import Reals Lra QArith String FunctionalExtensionality.
From Coquelicot Require Import Coquelicot.
From Verif Require Import Base EnvModel OpSpec OpReal IntgModel IntgSpec IntgTab IntgStmt IntgCheck IntgSem IntgDen IntgFinal IntgAll.
Local Open Scope Z_scope.

(** ** Tables *)
Definition table_ok (t : ent) : bool :=
  match en_ng (t_e t) with
  | [] => false
  | g :: r =>
    forallb (fun h => (IINC h =? IINC g) && (JINC h =? JINC g) && (KINC h =? KINC g) && (LINC h =? LINC g) &&
      (GSHIFT h =? GSHIFT g) && (POS_E1 h =? POS_E1 g) && (POS_E2 h =? POS_E2 g) && (TENSOR h =? TENSOR g)) r &&
    (Z.of_nat (g_nblk (t_f t)) <=? 2 ^ GSHIFT g + 1) &&
    (POS_E1 g =? (if sis (en_c2s1 (t_e t)) then 4 else 1)) &&
    (Z.max 1 (POS_E2 g) =? (if sis (en_c2s2 (t_e t)) then 4 else 1)) &&
    (Z.of_nat (length (g_rows (t_f t))) =? POS_E1 g * Z.max 1 (POS_E2 g) * TENSOR g)
  end.
Lemma tables_checked : forallb table_ok catalogue = true.
Proof. vm_cast_no_check (eq_refl true). Qed.

Definition same_fac (a b : option (Z * positive)) : bool :=
  match a, b with Some (n, d), Some (n', d') => n * Z.pos d' =? n' * Z.pos d | _, _ => true end.
Definition opp_fac (a b : option (Z * positive)) : bool :=
  match a, b with Some (n, d), Some (n', d') => n * Z.pos d' =? - n' * Z.pos d | _, _ => false end.
Definition spinor_flipped : list string :=
  ["int2e_gauge_r1_ssp1ssp2"; "int2e_gauge_r1_ssp1sps2"; "int2e_gauge_r1_sps1ssp2"; "int2e_gauge_r1_sps1sps2";
   "int2e_gauge_r2_ssp1ssp2"; "int2e_gauge_r2_ssp1sps2"; "int2e_gauge_r2_sps1ssp2"; "int2e_gauge_r2_sps1sps2";
   "int2e_ssp1ssp2"; "int2e_ssp1sps2"; "int2e_sps1ssp2"; "int2e_sps1sps2"]%string.
Definition fac_ok (t : ent) : bool :=
  same_fac (en_cart (t_e t)) (en_sph (t_e t)) &&
  if named spinor_flipped t then opp_fac (en_sph (t_e t)) (en_spinor (t_e t)) else same_fac (en_sph (t_e t)) (en_spinor (t_e t)).
Lemma facs_checked : forallb fac_ok catalogue = true.
Proof. vm_cast_no_check (eq_refl true). Qed.

Lemma table_facts t : In t catalogue -> exists g, (forall h, In h (en_ng (t_e t)) -> h = g) /\ en_ng (t_e t) <> [] /\
  Z.of_nat (g_nblk (t_f t)) <= 2 ^ GSHIFT g + 1 /\
  POS_E1 g = (if sis (en_c2s1 (t_e t)) then 4 else 1) /\ Z.max 1 (POS_E2 g) = (if sis (en_c2s2 (t_e t)) then 4 else 1) /\
  Z.of_nat (length (g_rows (t_f t))) = POS_E1 g * Z.max 1 (POS_E2 g) * TENSOR g.
Proof.
  intros Ht. pose proof (proj1 (forallb_forall _ _) tables_checked t Ht) as E. unfold table_ok in E.
  destruct (en_ng (t_e t)) as [|g r]; [discriminate|]. rewrite !andb_true_iff in E. destruct E as ((((E1 & E2) & E3) & E4) & E5).
  exists g. split; [|split; [discriminate|lia]].
  intros h [<-|Hh]; [reflexivity|]. rewrite forallb_forall in E1. specialize (E1 h Hh). rewrite !andb_true_iff in E1.
  destruct g, h; cbn in E1. f_equal; lia.
Qed.
Lemma unstored_zero parts sc perm t : ent_ok parts sc perm t = true -> forall a A O I rts pw qs s1 s2,
  (parts = true -> by_parts a A I) -> In qs (spec_pairs (t_d t)) ->
  ~ (In s1 (stored (sis (en_c2s1 (t_e t)))) /\ In s2 (stored (sis (en_c2s2 (t_e t))))) ->
  den a A O I rts pw (spec_of (t_d t) qs s1 s2) = RtoC 0.
Proof.
  unfold ent_ok. intros E a A O I rts pw qs s1 s2 Hp Hq Hs. destruct (sym_ent t); [|discriminate]. destruct (factor (t_e t)); [|discriminate].
  cbv zeta in E. apply andb_true_iff in E. destruct E as [_ E]. unfold unstored_ok in E.
  rewrite forallb_forall in E. specialize (E qs Hq). rewrite forallb_forall in E. assert (In s1 all_spins) by (destruct s1; cbn; auto).
  specialize (E s1 ltac:(assumption)). rewrite forallb_forall in E. assert (In s2 all_spins) by (destruct s2; cbn; auto).
  specialize (E s2 ltac:(assumption)). cbn beta in E.
  destruct (storedb _ s1 && storedb _ s2)%bool eqn:Es.
  - exfalso. apply Hs. apply andb_true_iff in Es. destruct Es as [A1 A2]. unfold storedb, stored in *.
    split; [destruct (sis (en_c2s1 (t_e t))), s1|destruct (sis (en_c2s2 (t_e t))), s2]; cbn in *; try discriminate; tauto.
  - apply (peqb'_ok a A O I rts pw) in E; [|exact Hp]. exact E.
Qed.

(** ** int3c1e_ip1_r6_origk: the result depends on block 76 *)
Definition r6_ng : ngT := mkng 1 0 6 0 7 1 1 3.
Definition r6_x : gin Z := mkgin (fam_env F3c1e false r6_ng (fun _ => 0) (fun _ => 1)) 0 (fun _ => 1) (fun _ _ => 0) (fun _ => 0).
Definition r6_buf (b : Z) : arr Z :=
  let gs := g_size (x_env r6_x) in
  of_fun (129 * (3 * gs)) (fun q => if q <? 3 * gs then q + 1 else if (q / (3 * gs) =? 76) then b else 0).
Definition r6_idx : arr Z := of_fun 3 (fun q => q * g_size (x_env r6_x)).
Definition r6_gout (b : Z) : option (arr Z) :=
  run_gout 0 1 Z.add Z.mul Z.sub (fun z => z) r6_x (t_f e_int3c1e_ip1_r6_origk) true r6_idx (r6_buf b) (uninit 3).
Definition r6_run (b : Z) : option Z := g <- r6_gout b ;; rd g 1.
Lemma r6_runs : r6_run 0 = Some (-29951040) /\ r6_run 1 = Some (-29911890).
Proof. split; [vm_cast_no_check (eq_refl (Some (-29951040)))|vm_cast_no_check (eq_refl (Some (-29911890)))]. Qed.


(** ** int1e_ippnucpip: the two orders of the tensor differ *)
Definition tr_I (ax o : Z) (F : funs) : R := (F CI 1 * F CJ 1)%R.
Definition tr_pw (ax : Z) (c : centre) : Z := match c with CI => if ax =? 0 then 2 else 0 | CJ => if ax =? 2 then 0 else 1 | _ => 0 end.
Definition tr_comp (k : nat) : poly :=
  match nth_error (components (t_d e_int1e_ippnucpip) false false) k with Some (_, _, q) => q | None => [] end.
Definition tr_den (k : nat) : C := den (fun _ => 0%R) (fun _ _ => 0%R) (fun _ => 0%R) tr_I [0] tr_pw (tr_comp k).

Lemma tr_D n : Derive (phi 0 0 n) = fun x => (INR n * phi 0 0 (pred n) x)%R.
Proof. extensionality x. rewrite (is_derive_unique _ _ _ (phi_derive 0 0 n x)). ring. Qed.
Lemma tr_phi n : phi 0 0 n 1 = 1%R.
Proof. unfold phi. replace (1 - 0)%R with 1%R by ring. rewrite pow1. replace (- (0 * (1 * 1)))%R with 0%R by ring. rewrite exp_0. ring. Qed.
Lemma tr_differ : tr_den 1 = RtoC 2 /\ tr_den 3 = RtoC 0.
Proof.
  unfold tr_den.
  assert (E1 : tr_comp 1 = ltac:(let r := eval vm_compute in (tr_comp 1) in exact r)) by (vm_compute; reflexivity).
  assert (E3 : tr_comp 3 = ltac:(let r := eval vm_compute in (tr_comp 3) in exact r)) by (vm_compute; reflexivity).
  rewrite E1, E3. clear.
  unfold den, mval, kpow, term, word_fun, word_at, base, tr_pw, tr_I. cbn [Z.eqb Pos.eqb].
  change (Z.to_nat 0) with 0%nat. change (Z.to_nat 1) with 1%nat. change (Z.to_nat 2) with 2%nat.
  cbn -[phi Derive INR]. change (Pos.to_nat 1) with 1%nat. change (Pos.to_nat 2) with 2%nat. cbn -[phi Derive INR Q2R].
  rewrite ?tr_D. cbn -[phi Derive INR Q2R]. rewrite ?Derive_scal, ?tr_D, ?tr_phi. cbn -[INR Q2R]. rewrite ?tr_phi.
  split; apply injective_projections; cbn; unfold Q2R; cbn; field.
Qed.
