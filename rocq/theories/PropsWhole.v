(** PropsWhole.v — C62: a one-electron driver call, from the shells in the tables to the caller's array.

    The earlier properties are about single functions or about the primitive call; here the whole of
    CINT1e_drv is one program: factor set by the entry point, environment, pair data and screening,
    index table, contraction loops with the real recurrences and integrand functions inside, spherical
    transformation and output.  For every overlap-type, 1/r and nuclear attraction entry of the
    catalogue, all shells (l <= 15, any number of primitives and contractions) and all work arrays
    with arbitrary numbers in them, the call succeeds and the caller's array receives the contracted
    integrals of the documented operator over the primitive pairs whose size estimate is below the
    cutoff.  Real numbers instead of doubles; the root finder's results are a hypothesis. *)
From Coq Require Import Reals Lra QArith Qreals String.
From Coquelicot Require Import Coquelicot.
From Verif Require Import Base BasModel BasSpec EnvModel IdxModel IdxSpec IdxProof CtrModel
  OptModel OptSpec OptPair ScreenSpec OutModel OutSpec TabModel
  OpSpec RecModel RecSpec GaussInt Rec1Real IntgModel IntgSpec IntgTab IntgStmt IntgAll IntgOvlp IntgReal QuadSpec OperSpec
  WholeModel WholeSpec WholeBatch Whole1e.
Local Open Scope R_scope.

(** The Cartesian functions of a one-electron entry point.  Y k ic jc a b is the value for component k, contractions ic, jc
    and Cartesian functions number a, b of the shells. *)
Theorem C62_1e_cart nbas (V : view) (ev : Z -> R) (lm : Z -> Z -> R) at_ natm rys t ng i j dims idx (g : arr R) (m : mem R) (out : arr R) n1 n2 :
  let li := v_l V i in let lj := v_l V j in let ci := v_nc V i in let cj := v_nc V j in
  let e := init_int1e ng li lj ci cj in let nc := Z.of_nat (length (g_rows (t_f t))) in let fam := en_fam (t_e t) in
  let fi := CINTlen_cart li in let fj := CINTlen_cart lj in
  let est := pair_est V ev lm i j (li + IINC ng + (lj + JINC ng)) in let U := user_cutoff (ev 0%Z) in
  (* shells *)
  good_shells nbas V ev lm -> (0 <= i < nbas)%Z -> (0 <= j < nbas)%Z -> (0 <= li <= 15)%Z -> (0 <= lj <= 15)%Z ->
  (0 <= v_np V i)%Z -> (0 <= v_np V j)%Z -> (1 <= ci)%Z -> (1 <= cj)%Z ->
  (* entry point *)
  In t catalogue -> ent_ng t = Some ng -> fam = F1e \/ fam = F1rinv \/ fam = F1nuc ->
  (fam <> F1e -> ~ In (en_name (t_e t)) except_names /\ finds_roots rys (nrys_roots e)) -> (fam = F1nuc -> (1 <= natm)%Z) ->
  (* work arrays: large enough, with arbitrary numbers in them *)
  (3 * nf e <= asize idx)%Z -> filled g -> ((2 ^ GSHIFT ng + 1) * (3 * g_size e) <= asize g)%Z -> (forall s, filled (buf m s)) ->
  (ci <> 1 -> nf e * nc <= asize (buf m 0))%Z -> (cj <> 1 -> nf e * nc * ci <= asize (buf m 1))%Z ->
  (nc <> 1 -> nf e * nc * ci * cj <= asize (buf m 2))%Z -> (nf e * (ci * cj) * nc <= asize (buf m 5))%Z ->
  (* the caller's array *)
  (fi * ci <= n1)%Z -> (fj * cj <= n2)%Z -> dims_are dims 2 [n1; n2] [(fi * ci)%Z; (fj * cj)%Z] -> (forall d, dims = Some d -> exists n, rd d 2 = Some n) ->
  room (asize out) nc n1 n2 1 1 (fi * ci) (fj * cj) 1 1 ->
  exists out' hv Y, int1e_drv V ev at_ natm rys t ng i j CartK dims idx g m out = Some (out', hv) /\
    stored_block out out' nc n1 n2 1 1 (fi * ci) (fj * cj) 1 1 (fun k I J _ _ => Y k (I / fi) (J / fj) (I mod fi) (J mod fj))%Z /\
    (forall (a b k : nat) ic jc ti tj s1 s2 q, nth_error (cart_list li) a = Some ti -> nth_error (cart_list lj) b = Some tj ->
       nth_error (components (t_d t) (sis (en_c2s1 (t_e t))) (sis (en_c2s2 (t_e t)))) k = Some (s1, s2, q) ->
       exists S, contracted2 V ev (fun ip jp => est ip jp < U) i j ic jc (fun ip jp => prim_integral V ev at_ natm fam i j ip jp ti tj q) S /\
         (cval (phase (t_e t) s1 s2) * RtoC (Y (Z.of_nat k) ic jc (Z.of_nat a) (Z.of_nat b)) = RtoC (CINTcommon_fac_sp li * CINTcommon_fac_sp lj) * S)%C) /\
    ((exists ip jp, (0 <= ip < v_np V i)%Z /\ (0 <= jp < v_np V j)%Z /\ est ip jp < U) -> hv = true) /\
    (hv = true -> exists ip jp, (0 <= ip < v_np V i)%Z /\ (0 <= jp < v_np V j)%Z /\ est ip jp <= U).
Proof.
  intros li lj ci cj e nc fam fi fj est U HG Hi Hj Hli Hlj Hpi Hpj Hci Hcj Ht En Hf Hr Hn Hidx Hgf Hgs Hm W0 W1 W2 W5 D1 D2 D3 D4 D5.
  destruct (whole1_f t Ht Hf) as [f Ef]. destruct (index_ok t ng li lj ci cj idx Ht Hf En Hli Hlj Hidx) as [idx' Eidx].
  destruct (type_ok fam Hf) as [ty Ety].
  exact (drv_cart nbas V ev lm at_ natm rys t ng i j f HG Hi Hj (conj Hpi Hci) (conj Hpj Hcj) Ht En Ef Hli Hlj Hf Hr Hn ty Ety idx idx' (asize g) Hidx Eidx Hgs
    m g Hm (conj Hgf eq_refl) W0 W1 W2 W5 dims out n1 n2 D1 D2 D3 D4 D5).
Qed.
Print Assumptions C62_1e_cart.

(** The spherical functions: the same values transformed with the tables of C25. *)
Theorem C62_1e_sph nbas (V : view) (ev : Z -> R) (lm : Z -> Z -> R) at_ natm rys t ng i j dims idx (g : arr R) (m : mem R) (out : arr R) n1 n2 :
  let li := v_l V i in let lj := v_l V j in let ci := v_nc V i in let cj := v_nc V j in
  let e := init_int1e ng li lj ci cj in let nc := Z.of_nat (length (g_rows (t_f t))) in let fam := en_fam (t_e t) in
  let si := (li * 2 + 1)%Z in let sj := (lj * 2 + 1)%Z in
  let est := pair_est V ev lm i j (li + IINC ng + (lj + JINC ng)) in let U := user_cutoff (ev 0%Z) in
  good_shells nbas V ev lm -> (0 <= i < nbas)%Z -> (0 <= j < nbas)%Z -> (0 <= li <= 15)%Z -> (0 <= lj <= 15)%Z ->
  (0 <= v_np V i)%Z -> (0 <= v_np V j)%Z -> (1 <= ci)%Z -> (1 <= cj)%Z ->
  In t catalogue -> ent_ng t = Some ng -> fam = F1e \/ fam = F1rinv \/ fam = F1nuc ->
  (fam <> F1e -> ~ In (en_name (t_e t)) except_names /\ finds_roots rys (nrys_roots e)) -> (fam = F1nuc -> (1 <= natm)%Z) ->
  (3 * nf e <= asize idx)%Z -> filled g -> ((2 ^ GSHIFT ng + 1) * (3 * g_size e) <= asize g)%Z -> (forall s, filled (buf m s)) ->
  (ci <> 1 -> nf e * nc <= asize (buf m 0))%Z -> (cj <> 1 -> nf e * nc * ci <= asize (buf m 1))%Z ->
  (nc <> 1 -> nf e * nc * ci * cj <= asize (buf m 2))%Z -> (nf e * (ci * cj) * nc <= asize (buf m 5))%Z ->
  (si * ci <= n1)%Z -> (sj * cj <= n2)%Z -> dims_are dims 2 [n1; n2] [(si * ci)%Z; (sj * cj)%Z] -> (forall d, dims = Some d -> exists n, rd d 2 = Some n) ->
  room (asize out) nc n1 n2 1 1 (si * ci) (sj * cj) 1 1 ->
  exists out' hv Y, int1e_drv V ev at_ natm rys t ng i j SphK dims idx g m out = Some (out', hv) /\
    stored_block out out' nc n1 n2 1 1 (si * ci) (sj * cj) 1 1 (fun k I J _ _ =>
      apply_T 0%R Rplus Rmult sph_coef c2s_off CINTlen_cart li (I mod si) (fun a =>
      apply_T 0%R Rplus Rmult sph_coef c2s_off CINTlen_cart lj (J mod sj) (fun b => Y k (I / si) (J / sj) a b)))%Z /\
    (forall (a b k : nat) ic jc ti tj s1 s2 q, nth_error (cart_list li) a = Some ti -> nth_error (cart_list lj) b = Some tj ->
       nth_error (components (t_d t) (sis (en_c2s1 (t_e t))) (sis (en_c2s2 (t_e t)))) k = Some (s1, s2, q) ->
       exists S, contracted2 V ev (fun ip jp => est ip jp < U) i j ic jc (fun ip jp => prim_integral V ev at_ natm fam i j ip jp ti tj q) S /\
         (cval (phase (t_e t) s1 s2) * RtoC (Y (Z.of_nat k) ic jc (Z.of_nat a) (Z.of_nat b)) = RtoC (CINTcommon_fac_sp li * CINTcommon_fac_sp lj) * S)%C) /\
    ((exists ip jp, (0 <= ip < v_np V i)%Z /\ (0 <= jp < v_np V j)%Z /\ est ip jp < U) -> hv = true) /\
    (hv = true -> exists ip jp, (0 <= ip < v_np V i)%Z /\ (0 <= jp < v_np V j)%Z /\ est ip jp <= U).
Proof.
  intros li lj ci cj e nc fam si sj est U HG Hi Hj Hli Hlj Hpi Hpj Hci Hcj Ht En Hf Hr Hn Hidx Hgf Hgs Hm W0 W1 W2 W5 D1 D2 D3 D4 D5.
  destruct (whole1_f t Ht Hf) as [f Ef]. destruct (index_ok t ng li lj ci cj idx Ht Hf En Hli Hlj Hidx) as [idx' Eidx].
  destruct (type_ok fam Hf) as [ty Ety].
  exact (drv_sph nbas V ev lm at_ natm rys t ng i j f HG Hi Hj (conj Hpi Hci) (conj Hpj Hcj) Ht En Ef Hli Hlj Hf Hr Hn ty Ety idx idx' (asize g) Hidx Eidx Hgs
    m g Hm (conj Hgf eq_refl) W0 W1 W2 W5 dims out n1 n2 D1 D2 D3 D4 D5).
Qed.
Print Assumptions C62_1e_sph.

(** The contracted integral is determined by the tables, the operator and the functions. *)
Theorem C62_unique V ev at_ natm fam i j keep ic jc ti tj q S S' :
  contracted2 V ev keep i j ic jc (fun ip jp => prim_integral V ev at_ natm fam i j ip jp ti tj q) S ->
  contracted2 V ev keep i j ic jc (fun ip jp => prim_integral V ev at_ natm fam i j ip jp ti tj q) S' -> S = S'.
Proof. exact (contracted_unique V ev at_ natm fam i j keep ic jc ti tj q S S'). Qed.
Print Assumptions C62_unique.

(** One s shell with exponents 1, 2 and coefficients 1, 3 at the origin: int1e_ovlp of the shell with itself. *)
Definition ex_view : view := mkview (fun _ => 0%Z) (fun _ => 2%Z) (fun _ => 1%Z) (fun _ => 20%Z) (fun _ => 30%Z) (fun _ => 40%Z).
Definition ex_env (x : Z) : R := if (x =? 20)%Z then 1 else if (x =? 21)%Z then 2 else if (x =? 30)%Z then 1 else if (x =? 31)%Z then 3 else 0.
Definition ex_mem : mem R := mkmem (fun _ => of_fun 1 (fun _ => 5)) (fun _ => true).

Definition ex_lm (i p : Z) : R := if (p =? 0)%Z then ln 1 else ln 3.
Lemma ex_good : good_shells 1 ex_view ex_env ex_lm.
Proof.
  intros i p Hi Hp. cbn in Hp. assert (Hp' : p = 0%Z \/ p = 1%Z) by lia. unfold ex_lm.
  destruct Hp' as [-> | ->]; cbn [Z.eqb]; (split; [cbn; lra|]).
  - exists 1. split; [lra|]. cbn. split; [intros k Hk; assert (k = 0%Z) as -> by lia; cbn; rewrite Rabs_R1; lra|]. split; [exists 0%Z; split; [lia|cbn; apply Rabs_R1]|reflexivity].
  - exists 3. split; [lra|]. cbn. split; [intros k Hk; assert (k = 0%Z) as -> by lia; cbn; rewrite Rabs_right; lra|]. split; [exists 0%Z; split; [lia|cbn; rewrite Rabs_right; lra]|reflexivity].
Qed.
Lemma ex_kept ip jp : (0 <= ip < 2)%Z -> (0 <= jp < 2)%Z -> pair_est ex_view ex_env ex_lm 0 0 0 ip jp < user_cutoff (ex_env 0).
Proof.
  intros Hi Hj. unfold user_cutoff. cbn [ex_env Z.eqb]. destruct (Req_EM_T 0 0); [|lra].
  unfold pair_est, estimate, log_size. cbn [Z.ltb Z.compare].
  assert (Ed : dist_sq (ctr ex_view ex_env 0) (ctr ex_view ex_env 0) = 0) by (unfold dist_sq, ctr; cbn; ring). rewrite Ed, Rmult_0_r.
  assert (L3 : 0 < ln 3) by (rewrite <- ln_1; apply ln_increasing; lra).
  assert (Lm : forall p, 0 <= ex_lm 0 p) by (intros p; unfold ex_lm; destruct (p =? 0)%Z; [rewrite ln_1|]; lra).
  pose proof (Lm ip). pose proof (Lm jp).
  assert (L4 : ln (last_ex ex_view ex_env 0 + last_ex ex_view ex_env 0) < 4).
  { unfold last_ex, ex. cbn. replace (2 + 2) with (2 * 2) by ring. rewrite ln_mult by lra.
    assert (ln 2 < 2 - 0); [|lra]. apply exp_lt_inv. rewrite exp_ln by lra. pose proof (exp_ineq1 2 ltac:(lra)). replace (2 - 0) with 2 by ring. lra. }
  lra.
Qed.
Definition ovlp_poly : poly := [((1 # 1)%Q, (0 # 1)%Q, mkm [0; 0; 0; 0; 0; 0]%nat [[]; []; []; []; []; []; []; []; []; []; []; []])].
Lemma ex_prim ip jp : (0 <= ip < 2)%Z -> (0 <= jp < 2)%Z ->
  prim_integral ex_view ex_env (fun _ _ => 0%Z) 0 F1e 0 0 ip jp (0, 0, 0)%Z (0, 0, 0)%Z ovlp_poly (RtoC (sqrt (PI / (ex ex_view ex_env 0 ip + ex ex_view ex_env 0 jp)) ^ 3)).
Proof.
  intros Hi Hj. unfold prim_integral. cbv zeta. set (a := ex ex_view ex_env 0 ip). set (b := ex ex_view ex_env 0 jp).
  assert (Hab : 0 < a + b). { destruct (ex_good 0%Z ip ltac:(lia) Hi) as [Ha _]. destruct (ex_good 0%Z jp ltac:(lia) Hj) as [Hb _]. unfold a, b. lra. }
  assert (HL : forall ax, (0 <= ax < 3)%Z -> line (fun x => phi a (ctr ex_view ex_env 0 ax) 0 x * phi b (ctr ex_view ex_env 0 ax) 0 x) = sqrt (PI / (a + b))).
  { intros ax Hax. apply line_val. eapply line_ext; [|exact (line_gauss (a + b) 0 Hab)]. intros x. unfold phi.
    assert (Ec : ctr ex_view ex_env 0 ax = 0). { unfold ctr. cbn [v_xyz ex_view]. assert (ax = 0 \/ ax = 1 \/ ax = 2)%Z as [-> | [-> | ->]] by lia; reflexivity. }
    rewrite Ec. cbn [pow]. rewrite !Rmult_1_l, <- exp_plus. f_equal. ring. }
  unfold den, ovlp_poly. cbn [map csum fold_right fst snd]. unfold mval, kpow, rsum, term. cbn [map fold_right].
  unfold overlap, word_at. cbn [m_k m_w Z.to_nat cnum nth Nat.add Nat.mul fst snd pow].
  change (Pos.to_nat 1) with 1%nat. change (Pos.to_nat 2) with 2%nat. cbn [nth Nat.add Nat.mul pow word_fun].
  unfold base. cbn [exps2 centres2 powers coord]. fold a b.
  unfold cval. cbn [fst snd]. rewrite RMicromega.Q2R_1, RMicromega.Q2R_0. change (1, 0) with (RtoC 1).
  transitivity (RtoC (line (fun x => phi a (ctr ex_view ex_env 0 0) 0 x * phi b (ctr ex_view ex_env 0 0) 0 x) *
    line (fun x => phi a (ctr ex_view ex_env 0 1) 0 x * phi b (ctr ex_view ex_env 0 1) 0 x) * line (fun x => phi a (ctr ex_view ex_env 0 2) 0 x * phi b (ctr ex_view ex_env 0 2) 0 x))).
  - rewrite !HL by lia. f_equal. ring.
  - cbn. match goal with |- ?u = ?v => assert (X : forall r : R, (RtoC 1 * RtoC (1 * 1 * 1 * (1 * 1 * 1) * (r + 0)) + RtoC 0)%C = RtoC r) end.
    { intros r. rewrite <- RtoC_mult, <- RtoC_plus. f_equal. ring. }
    symmetry. exact (X _).
Qed.
Example C62_example : exists out', int1e_drv ex_view ex_env (fun _ _ => 0%Z) 0 (fun _ _ => (fun _ => 0, fun _ => 0)) e_int1e_ovlp (mkng 0 0 0 0 0 1 1 1) 0 0 CartK None
    (uninit 3) (of_fun 6 (fun _ => 7)) ex_mem (uninit 1) = Some (out', true) /\
  rd out' 0 = Some (CINTcommon_fac_sp 0 * CINTcommon_fac_sp 0 *
    (sqrt (PI / 2) ^ 3 + 2 * (3 * sqrt (PI / 3) ^ 3) + 9 * sqrt (PI / 4) ^ 3)).
Proof.
  destruct (C62_1e_cart 1 ex_view ex_env ex_lm (fun _ _ => 0%Z) 0 (fun _ _ => (fun _ => 0, fun _ => 0)) e_int1e_ovlp (mkng 0 0 0 0 0 1 1 1) 0 0 None
    (uninit 3) (of_fun 6 (fun _ => 7)) ex_mem (uninit 1) 1 1) as (out' & hv & Y & H1 & H2 & H3 & H4 & _); try (vm_compute; intuition congruence).
  - exact ex_good.
  - apply filled_of.
  - intros s. apply filled_of.
  - intros n a b c d Hn Ha Hb Hc Hd. revert Hn Ha Hb Hc Hd. vm_compute (CINTlen_cart _). cbn. unfold OutSpec.place. lia.
  - exists out'. assert (hv = true) as -> by (apply H4; exists 0%Z, 0%Z; split; [cbn; lia|]; split; [cbn; lia|]; apply ex_kept; lia).
    split; [exact H1|]. destruct H2 as (_ & H2 & _). specialize (H2 0 0 0 0 0 ltac:(cbn; lia) ltac:(vm_compute; intuition congruence) ltac:(vm_compute; intuition congruence) ltac:(lia) ltac:(lia))%Z.
    change (OutSpec.place 1 1 1 1 0 0 0 0 0) with 0%Z in H2. rewrite H2. f_equal. clear H2.
    destruct (H3 0%nat 0%nat 0%nat 0%Z 0%Z (0, 0, 0)%Z (0, 0, 0)%Z S1 S1 ovlp_poly eq_refl eq_refl eq_refl) as (S & S1' & S2).
    set (SS := sqrt (PI / 2) ^ 3 + 2 * (3 * sqrt (PI / 3) ^ 3) + 9 * sqrt (PI / 4) ^ 3).
    assert (ES : S = RtoC SS).
    { eapply C62_unique; [exact S1'|].
      exists (fun ip jp => RtoC (sqrt (PI / (ex ex_view ex_env 0 ip + ex ex_view ex_env 0 jp)) ^ 3)), (fun _ _ => true). split.
      - intros ip jp Hip Hjp. split; [exact (ex_prim ip jp Hip Hjp)|]. split; [intros _; exact (ex_kept ip jp Hip Hjp)|reflexivity].
      - unfold csumz. change (lsum (RtoC 0) Cplus (v_np ex_view 0)) with (fun f : Z -> C => (RtoC 0 + f 0%Z + f 1%Z)%C). cbv beta.
        unfold cf, ex. cbn. rewrite <- !RtoC_mult, <- !RtoC_plus. f_equal. unfold SS.
        replace (1 + 1) with 2 by ring. replace (2 + 1) with 3 by ring. replace (1 + 2) with 3 by ring. replace (2 + 2) with 4 by ring. ring. }
    rewrite ES in S2. change (cval (phase (t_e e_int1e_ovlp) S1 S1)) with (Q2R 1, Q2R 0) in S2. rewrite RMicromega.Q2R_1, RMicromega.Q2R_0 in S2. change (1, 0) with (RtoC 1) in S2.
    rewrite <- !RtoC_mult in S2. rewrite Rmult_1_l in S2. injection S2 as S2. exact S2.
Qed.
