(** PropsWhole6.v — C67, C68: spinor driver calls, from the shells in the tables to the caller's array of complex numbers.

    CINT1e_spinor_drv, CINT2e_spinor_drv, CINT3c2e_spinor_drv and CINT2c2e_spinor_drv as whole programs.  Each stored complex
    number is the matrix element, between two-component spinor functions, of the documented operator of the entry point:
    its parts with sigma_x, sigma_y, sigma_z and 1 are taken with the Pauli matrices and summed over spins with the coefficients
    of the tables [tR], [tI] (WholeSpinSpec.v), and each part is the contracted integral over the primitives that the
    screening keeps.  A complex array is an array of twice as many real numbers: position p along the first index is the
    real (p even) or imaginary part (p odd) of entry p / 2.  l <= 12 for shells with spinor functions: the coefficient tables
    of the library end there.  Real numbers instead of doubles; the root finders' results are a hypothesis. *)
From Coq Require Import Reals Lra QArith Qreals String.
From Coquelicot Require Import Coquelicot.
From Verif Require Import Base BasModel BasSpec EnvModel IdxModel IdxSpec IdxProof CtrModel
  OptModel OptSpec OptPair ScreenSpec ScreenProof ScreenFinal OutModel OutSpec TabModel
  OpSpec RecModel RecSpec GaussInt Gauss2Int Rec1Real IntgModel IntgSpec IntgTab IntgStmt IntgAll IntgOvlp IntgReal QuadSpec OperSpec OperModel Oper2e PropsOper
  WholeModel WholeSpec WholeBatch Whole1e Whole2Model Whole2Batch Whole2Spec Whole4c WholeOptModel WholeOptSpec
  WholeSpinSpec WholeSpinAlg WholeSpinModel PropsWhole PropsWhole2 PropsWhole3.
From Verif Require SpinorSpec Whole3c Whole2c WholeOpt4 WholeOpt3.
Local Open Scope R_scope.
Notation nspinor := SpinorSpec.nspinor.
Notation ncart := SpinorSpec.ncart.
Notation part := SpinorSpec.part.
Lemma l12 l : (0 <= l <= 12 -> 0 <= l <= 15)%Z.
Proof. lia. Qed.
Definition one_op (f : gfam) : Prop := f = F1e \/ f = F1rinv \/ f = F1nuc \/ f = F3c2e \/ f = F2c2e.
Lemma fam_1 f : f = F1e \/ f = F1rinv \/ f = F1nuc -> one_op f.
Proof. unfold one_op. tauto. Qed.
Lemma fam_3 f : f = F3c2e -> one_op f.
Proof. unfold one_op. tauto. Qed.
Lemma fam_2 f : f = F2c2e -> one_op f.
Proof. unfold one_op. tauto. Qed.
Lemma tens_one t ng : In t catalogue -> ent_ng t = Some ng -> one_op (en_fam (t_e t)) -> Z.of_nat (length (spec_pairs (t_d t))) = TENSOR ng.
Proof. intros Ht En Hf. symmetry. exact (proj2 (proj1 (tab_one t ng Ht En Hf))). Qed.
Lemma tens_two t ng : In t catalogue -> ent_ng t = Some ng -> en_fam (t_e t) = F2e -> Z.of_nat (length (spec_pairs (t_d t))) = TENSOR ng.
Proof. intros Ht En Hf. symmetry. exact (proj1 (proj2 (tab_two t ng Ht En Hf))). Qed.

(** The spinor functions of a one-electron entry point.  M n c ic jc a b is the part with sigma_c (1 for c = S1) of tensor component n
    between Cartesian functions number a, b; di, dj are the numbers of spinors of the shells. *)
Theorem C67_1e_spinor nbas (V : view) (ev : Z -> R) (lm : Z -> Z -> R) at_ natm rys t ng i j (tR tI : Z -> R) ki kj f u dims idx (g : arr R) (m : mem R) (out : arr R) n1 n2 :
  let li := v_l V i in let lj := v_l V j in let ci := v_nc V i in let cj := v_nc V j in
  let e := init_int1e ng li lj ci cj in let nc := Z.of_nat (length (g_rows (t_f t))) in let fam := en_fam (t_e t) in
  let di := nspinor ki li in let dj := nspinor kj lj in let nt := Z.of_nat (length (spec_pairs (t_d t))) in
  let est := pair_est V ev lm i j (li + IINC ng + (lj + JINC ng)) in let U := user_cutoff (ev 0%Z) in
  good_shells nbas V ev lm -> (0 <= i < nbas)%Z -> (0 <= j < nbas)%Z -> (0 <= li <= 12)%Z -> (0 <= lj <= 12)%Z ->
  (0 <= v_np V i)%Z -> (0 <= v_np V j)%Z -> (1 <= ci)%Z -> (1 <= cj)%Z ->
  In t catalogue -> ent_ng t = Some ng -> en_spinor (t_e t) = Some f -> en_c2s1 (t_e t) = Some u -> fam = F1e \/ fam = F1rinv \/ fam = F1nuc ->
  (fam <> F1e -> ~ In (en_name (t_e t)) except_names /\ finds_roots rys (nrys_roots e)) -> (fam = F1nuc -> (1 <= natm)%Z) ->
  (3 * nf e <= asize idx)%Z -> filled g -> ((2 ^ GSHIFT ng + 1) * (3 * g_size e) <= asize g)%Z -> (forall s, filled (buf m s)) ->
  (ci <> 1 -> nf e * nc <= asize (buf m 0))%Z -> (cj <> 1 -> nf e * nc * ci <= asize (buf m 1))%Z ->
  (nc <> 1 -> nf e * nc * ci * cj <= asize (buf m 2))%Z -> (nf e * (ci * cj) * nc <= asize (buf m 5))%Z ->
  (di * ci <= n1)%Z -> (dj * cj <= n2)%Z -> dims_are dims 2 [n1; n2] [(di * ci)%Z; (dj * cj)%Z] -> (forall d, dims = Some d -> exists n, rd d 2 = Some n) ->
  room (asize out) nt (n1 * 2) n2 1 1 (di * ci * 2) (dj * cj) 1 1 ->
  exists out' hv M, int1e_spinor_drv V ev at_ natm rys t ng i j tR tI ki kj dims idx g m out = Some (out', hv) /\
    stored_block out out' nt (n1 * 2) n2 1 1 (di * ci * 2) (dj * cj) 1 1 (fun n p J _ _ => part (p mod 2)
      (two_comp tR tI ki li kj lj ((p / 2) mod di) (J mod dj) (fun a b s s' => spin_sum (c_si u) s s' (fun c => M n c ((p / 2) / di) (J / dj) a b))))%Z /\
    (forall (a b n : nat) ic jc ti tj qs c, nth_error (cart_list li) a = Some ti -> nth_error (cart_list lj) b = Some tj ->
       nth_error (spec_pairs (t_d t)) n = Some qs -> In c (stored (c_si u)) ->
       exists S, contracted2 V ev (fun ip jp => est ip jp < U) i j ic jc (fun ip jp => prim_integral V ev at_ natm fam i j ip jp ti tj (spec_of (t_d t) qs c S1)) S /\
         M (Z.of_nat n) c ic jc (Z.of_nat a) (Z.of_nat b) = (RtoC (CINTcommon_fac_sp li * CINTcommon_fac_sp lj) * S)%C) /\
    ((exists ip jp, (0 <= ip < v_np V i)%Z /\ (0 <= jp < v_np V j)%Z /\ est ip jp < U) -> hv = true) /\
    (hv = true -> exists ip jp, (0 <= ip < v_np V i)%Z /\ (0 <= jp < v_np V j)%Z /\ est ip jp <= U).
Proof.
  intros li lj ci cj e nc fam di dj nt est U HG Hi Hj Hli Hlj Hpi Hpj Hci Hcj Ht En Hsp Hu Hf Hr Hn Hidx Hgf Hgs Hm W0 W1 W2 W5 D1 D2 D3 D4 D5.
  assert (Ef : factor (t_e t) = Some f) by (unfold factor; rewrite Hsp; reflexivity).
  assert (Li : (0 <= v_l V i <= 15)%Z) by exact (l12 _ Hli). assert (Lj : (0 <= v_l V j <= 15)%Z) by exact (l12 _ Hlj).
  destruct (index_ok t ng li lj ci cj idx Ht Hf En Li Lj Hidx) as [idx' Eidx].
  destruct (type_ok fam Hf) as [ty Ety].
  assert (Ent : nt = TENSOR ng) by exact (tens_one t ng Ht En (fam_1 _ Hf)). rewrite Ent in *. clear nt Ent.
  exact (Whole1e.drv_spin nbas V ev lm at_ natm rys t ng i j f HG Hi Hj (conj Hpi Hci) (conj Hpj Hcj) Ht En Ef Li Lj Hf Hr Hn ty Ety idx idx' (asize g) Hidx Eidx Hgs
    m g Hm (conj Hgf eq_refl) W0 W1 W2 W5 tR tI ki kj u dims out n1 n2 Hsp Hu (proj2 Hli) (proj2 Hlj) D1 D2 D3 D4 D5).
Qed.
Print Assumptions C67_1e_spinor.

(** The spinor functions of a four-centre entry point: electron 1 has shells i, j and operators c1, electron 2 shells k, l and operators c2. *)
Theorem C68_4c_spinor nbas (V : view) (ev : Z -> R) (lm : Z -> Z -> R) rys srys t ng i j k l short (tR tI : Z -> R) ki kj kk kl f u1 u2 dims idx (g : arr R) (m : mem R) (out : arr R) n1 n2 n3 n4 :
  let li := v_l V i in let lj := v_l V j in let lk := v_l V k in let ll := v_l V l in
  let ci := v_nc V i in let cj := v_nc V j in let ck := v_nc V k in let cl := v_nc V l in
  let e := init_int2e short ng li lj lk ll ci cj ck cl in let nc := Z.of_nat (length (g_rows (t_f t))) in
  let nt := Z.of_nat (length (spec_pairs (t_d t))) in
  let di := nspinor ki li in let dj := nspinor kj lj in let dk := nspinor kk lk in let dl := nspinor kl ll in
  let est_ij := pair_est V ev lm i j (li + IINC ng + (lj + JINC ng)) in let est_kl := pair_est V ev lm k l (degree_kl ev (lk + KINC ng + (ll + LINC ng)) (rys_order e)) in
  let C := cutoff_2e false (ev 0%Z) in let Cr := raised V ev i j (li + IINC ng + (lj + JINC ng)) (rys_order e) C in
  let P ip jp := product_centre (ex V ev i ip) (ex V ev j jp) (ctr V ev i) (ctr V ev j) in let Q kp lp := product_centre (ex V ev k kp) (ex V ev l lp) (ctr V ev k) (ctr V ev l) in
  let kept ip jp kp lp := est_ij ip jp < C /\ est_kl kp lp <= Cr /\ est_ij ip jp + est_kl kp lp <= Cr /\
    near_enough (ev 8%Z) (ex V ev i ip + ex V ev j jp) (ex V ev k kp + ex V ev l lp) (P ip jp) (Q kp lp) (Cr - est_kl kp lp - est_ij ip jp) in
  (* shells *)
  good_shells nbas V ev lm -> (0 <= i < nbas)%Z -> (0 <= j < nbas)%Z -> (0 <= k < nbas)%Z -> (0 <= l < nbas)%Z ->
  (0 <= li <= 12)%Z -> (0 <= lj <= 12)%Z -> (0 <= lk <= 12)%Z -> (0 <= ll <= 12)%Z ->
  (0 <= v_np V i /\ 1 <= ci)%Z -> (0 <= v_np V j /\ 1 <= cj)%Z -> (0 <= v_np V k /\ 1 <= ck)%Z -> (0 <= v_np V l /\ 1 <= cl)%Z ->
  (* entry point: any four-centre entry, any operator *)
  In t catalogue -> ent_ng t = Some ng -> en_spinor (t_e t) = Some f -> en_c2s1 (t_e t) = Some u1 -> en_c2s2 (t_e t) = Some u2 -> en_fam (t_e t) = F2e -> ~ In (en_name (t_e t)) except_names ->
  (short = true <-> ev 8%Z < 0) -> (nrys_roots e <= 32)%Z -> finds_roots_2e rys srys (nrys_roots e) (rys_order e) (ev 8%Z) ->
  (* work arrays: large enough, with arbitrary numbers in them *)
  (3 * nf e <= asize idx)%Z -> filled g -> ((2 ^ GSHIFT ng + 1) * (3 * g_size e) <= asize g)%Z -> (4 * g_size e <= asize g)%Z -> (forall s, filled (buf m s)) ->
  (ci <> 1 -> nf e * nc <= asize (buf m 0))%Z -> (cj <> 1 -> nf e * nc * ci <= asize (buf m 1))%Z ->
  (ck <> 1 -> nf e * nc * ci * cj <= asize (buf m 2))%Z -> (cl <> 1 -> nf e * nc * ci * cj * ck <= asize (buf m 3))%Z ->
  (nc <> 1 -> nf e * nc * ci * cj * ck * cl <= asize (buf m 4))%Z -> (nf e * (ci * cj * ck * cl) * nc <= asize (buf m 5))%Z ->
  (* the caller's array *)
  (di * ci <= n1)%Z -> (dj * cj <= n2)%Z -> (dk * ck <= n3)%Z -> (dl * cl <= n4)%Z ->
  dims_are dims 4 [n1; n2; n3; n4] [(di * ci)%Z; (dj * cj)%Z; (dk * ck)%Z; (dl * cl)%Z] ->
  room (asize out) nt (n1 * 2) n2 n3 n4 (di * ci * 2) (dj * cj) (dk * ck) (dl * cl) ->
  exists out' hv M, int2e_spinor_drv V ev rys srys t ng i j k l tR tI ki kj kk kl dims idx g m out = Some (out', hv) /\
    stored_block out out' nt (n1 * 2) n2 n3 n4 (di * ci * 2) (dj * cj) (dk * ck) (dl * cl) (fun n p J K L => part (p mod 2)
      (two_comp tR tI kk lk kl ll (K mod dk) (L mod dl) (fun c d s s' => spin_sum (c_si u2) s s' (fun c2 =>
       two_comp tR tI ki li kj lj ((p / 2) mod di) (J mod dj) (fun a b r r' => spin_sum (c_si u1) r r' (fun c1 =>
         M n c1 c2 ((p / 2) / di) (J / dj) (K / dk) (L / dl) a b c d))))))%Z /\
    (forall (a b c d n : nat) ic jc kc lc ti tj tk tl qs c1 c2,
       nth_error (cart_list li) a = Some ti -> nth_error (cart_list lj) b = Some tj -> nth_error (cart_list lk) c = Some tk -> nth_error (cart_list ll) d = Some tl ->
       nth_error (spec_pairs (t_d t)) n = Some qs -> In c1 (IntgSpec.stored (c_si u1)) -> In c2 (IntgSpec.stored (c_si u2)) ->
       exists S, summed4 V ev kept i j k l ic jc kc lc (fun ip jp kp lp => eri4 V ev i j k l ip jp kp lp ti tj tk tl (spec_of (t_d t) qs c1 c2)) S /\
         M (Z.of_nat n) c1 c2 ic jc kc lc (Z.of_nat a) (Z.of_nat b) (Z.of_nat c) (Z.of_nat d)
          = (RtoC (CINTcommon_fac_sp li * CINTcommon_fac_sp lj * CINTcommon_fac_sp lk * CINTcommon_fac_sp ll) * S)%C) /\
    ((exists ip jp kp lp, (0 <= ip < v_np V i)%Z /\ (0 <= jp < v_np V j)%Z /\ (0 <= kp < v_np V k)%Z /\ (0 <= lp < v_np V l)%Z /\ kept ip jp kp lp) -> hv = true) /\
    (hv = true -> exists ip jp kp lp, (0 <= ip < v_np V i)%Z /\ (0 <= jp < v_np V j)%Z /\ (0 <= kp < v_np V k)%Z /\ (0 <= lp < v_np V l)%Z /\
       est_kl kp lp <= Cr /\ est_ij ip jp + est_kl kp lp <= Cr).
Proof.
  intros li lj lk ll ci cj ck cl e nc nt di dj dk dl est_ij est_kl C Cr P Q kept HG Hi Hj Hk Hl Hli Hlj Hlk Hll Hni Hnj Hnk Hnl Ht En Hsp Hu1 Hu2 Hf Hex Hom Hnr HR
    Hidx Hgf Hgs Hgs4 Hm W0 W1 W2 W3 W4 W5 D1 D2 D3 D4 D5 D6.
  assert (Ee : e = env_4c V ev t ng i j k l).
  { unfold env_4c, env_2e. rewrite Hf. unfold fam_env, e. replace (Rltb (ev 8%Z) 0) with short; [reflexivity|].
    symmetry. destruct short; [apply Rltb_iff, Hom; reflexivity|]. apply ltb_le, Rnot_lt_le. intros X. apply Hom in X. discriminate. }
  subst kept Cr est_kl. clearbody e. subst e. assert (Ef : factor (t_e t) = Some f) by (unfold factor; rewrite Hsp; reflexivity).
  pose proof (l12 _ Hli) as Li. pose proof (l12 _ Hlj) as Lj. pose proof (l12 _ Hlk) as Lk. pose proof (l12 _ Hll) as Ll.
  destruct (index2_ok t ng (Rltb (ev 8%Z) 0) (l4 V i j k l) (c4 V i j k l) idx Ht (or_introl Hf) En) as [idx' Eidx];
    [intros x; destruct x; assumption|rewrite Hf; intros x; destruct x; discriminate|exact Hidx|].
  assert (Ent : nt = TENSOR ng) by exact (tens_two t ng Ht En Hf). rewrite Ent in *. clear nt Ent.
  destruct (Whole4c.drv_spin nbas V ev lm rys srys t ng i j k l f HG Hi Hj Hk Hl Hni Hnj Hnk Hnl Ht Hf Hex En Ef Li Lj Lk Ll Hnr HR idx idx' (asize g) Hidx Eidx Hgs Hgs4
    m g Hm (conj Hgf eq_refl) W0 W1 W2 W3 W4 W5 _ tR tI ki kj kk kl u1 u2 dims out n1 n2 n3 n4 eq_refl Hsp Hu1 Hu2 (proj2 Hli) (proj2 Hlj) (proj2 Hlk) (proj2 Hll) D1 D2 D3 D4 D5 D6)
    as (out' & hv & M & H1 & H2 & H3 & H4 & H5).
  exists out', hv, M. split; [exact H1|]. split; [exact H2|]. split; [exact H3|]. split.
  - intros (ip & jp & kp & lp & P1 & P2 & P3 & P4 & K). apply H4. exists ip, jp, kp, lp. exact (conj (conj P1 (conj P2 (conj P3 P4))) K).
  - intros X. destruct (H5 X) as (ip & jp & kp & lp & (P1 & P2 & P3 & P4) & K). exists ip, jp, kp, lp. exact (conj P1 (conj P2 (conj P3 (conj P4 K)))).
Qed.
Print Assumptions C68_4c_spinor.

(** with an optimizer, whose pair data are stored in its tables or not *)
Theorem C68_4c_spinor_opt nbas (V : view) (ev : Z -> R) (lm : Z -> Z -> R) rys srys t ng stored i j k l short (tR tI : Z -> R) ki kj kk kl f u1 u2 dims idx (g : arr R) (m : mem R) (out : arr R) n1 n2 n3 n4 :
  let li := v_l V i in let lj := v_l V j in let lk := v_l V k in let ll := v_l V l in
  let ci := v_nc V i in let cj := v_nc V j in let ck := v_nc V k in let cl := v_nc V l in
  let e := init_int2e short ng li lj lk ll ci cj ck cl in let nc := Z.of_nat (length (g_rows (t_f t))) in
  let nt := Z.of_nat (length (spec_pairs (t_d t))) in
  let di := nspinor ki li in let dj := nspinor kj lj in let dk := nspinor kk lk in let dl := nspinor kl ll in
  let est_ij := pair_est V ev lm i j (pair_degree V ng stored i j (li + IINC ng + (lj + JINC ng))) in
  let est_kl := pair_est V ev lm k l (pair_degree V ng stored k l (lk + KINC ng + (ll + LINC ng))) in
  let C := cutoff_2e false (ev 0%Z) in let T := if stored then user_cutoff (ev 0%Z) else C in
  let P ip jp := product_centre (ex V ev i ip) (ex V ev j jp) (ctr V ev i) (ctr V ev j) in let Q kp lp := product_centre (ex V ev k kp) (ex V ev l lp) (ctr V ev k) (ctr V ev l) in
  let kept ip jp kp lp := est_ij ip jp < T /\ est_kl kp lp < T /\ est_ij ip jp + est_kl kp lp <= C /\
    near_enough (ev 8%Z) (ex V ev i ip + ex V ev j jp) (ex V ev k kp + ex V ev l lp) (P ip jp) (Q kp lp) (C - est_kl kp lp - est_ij ip jp) in
  (* shells *)
  good_shells nbas V ev lm -> (0 <= i < nbas)%Z -> (0 <= j < nbas)%Z -> (0 <= k < nbas)%Z -> (0 <= l < nbas)%Z ->
  (0 <= li <= 12)%Z -> (0 <= lj <= 12)%Z -> (0 <= lk <= 12)%Z -> (0 <= ll <= 12)%Z ->
  (0 <= v_np V i /\ 1 <= ci)%Z -> (0 <= v_np V j /\ 1 <= cj)%Z -> (0 <= v_np V k /\ 1 <= ck)%Z -> (0 <= v_np V l /\ 1 <= cl)%Z ->
  (* entry point: any four-centre entry, any operator *)
  In t catalogue -> ent_ng t = Some ng -> en_spinor (t_e t) = Some f -> en_c2s1 (t_e t) = Some u1 -> en_c2s2 (t_e t) = Some u2 -> en_fam (t_e t) = F2e -> ~ In (en_name (t_e t)) except_names ->
  (short = true <-> ev 8%Z < 0) -> (nrys_roots e <= 32)%Z -> finds_roots_2e rys srys (nrys_roots e) (rys_order e) (ev 8%Z) ->
  (* work arrays: large enough, with arbitrary numbers in them *)
  (3 * nf e <= asize idx)%Z -> filled g -> ((2 ^ GSHIFT ng + 1) * (3 * g_size e) <= asize g)%Z -> (4 * g_size e <= asize g)%Z -> (forall s, filled (buf m s)) ->
  opt_scratch4 (fun s => asize (buf m s)) (nf e * nc) nc ci cj ck cl -> (nf e * (ci * cj * ck * cl) * nc <= asize (buf m 5))%Z ->
  (* the caller's array *)
  (di * ci <= n1)%Z -> (dj * cj <= n2)%Z -> (dk * ck <= n3)%Z -> (dl * cl <= n4)%Z ->
  dims_are dims 4 [n1; n2; n3; n4] [(di * ci)%Z; (dj * cj)%Z; (dk * ck)%Z; (dl * cl)%Z] ->
  room (asize out) nt (n1 * 2) n2 n3 n4 (di * ci * 2) (dj * cj) (dk * ck) (dl * cl) ->
  exists out' hv M, int2e_spinor_drv_opt V ev rys srys t ng stored i j k l tR tI ki kj kk kl dims idx g m out = Some (out', hv) /\
    stored_block out out' nt (n1 * 2) n2 n3 n4 (di * ci * 2) (dj * cj) (dk * ck) (dl * cl) (fun n p J K L => part (p mod 2)
      (two_comp tR tI kk lk kl ll (K mod dk) (L mod dl) (fun c d s s' => spin_sum (c_si u2) s s' (fun c2 =>
       two_comp tR tI ki li kj lj ((p / 2) mod di) (J mod dj) (fun a b r r' => spin_sum (c_si u1) r r' (fun c1 =>
         M n c1 c2 ((p / 2) / di) (J / dj) (K / dk) (L / dl) a b c d))))))%Z /\
    (forall (a b c d n : nat) ic jc kc lc ti tj tk tl qs c1 c2,
       nth_error (cart_list li) a = Some ti -> nth_error (cart_list lj) b = Some tj -> nth_error (cart_list lk) c = Some tk -> nth_error (cart_list ll) d = Some tl ->
       nth_error (spec_pairs (t_d t)) n = Some qs -> In c1 (IntgSpec.stored (c_si u1)) -> In c2 (IntgSpec.stored (c_si u2)) ->
       exists S, summed4 V ev kept i j k l ic jc kc lc (fun ip jp kp lp => eri4 V ev i j k l ip jp kp lp ti tj tk tl (spec_of (t_d t) qs c1 c2)) S /\
         M (Z.of_nat n) c1 c2 ic jc kc lc (Z.of_nat a) (Z.of_nat b) (Z.of_nat c) (Z.of_nat d)
          = (RtoC (CINTcommon_fac_sp li * CINTcommon_fac_sp lj * CINTcommon_fac_sp lk * CINTcommon_fac_sp ll) * S)%C) /\
    ((exists ip jp kp lp, (0 <= ip < v_np V i)%Z /\ (0 <= jp < v_np V j)%Z /\ (0 <= kp < v_np V k)%Z /\ (0 <= lp < v_np V l)%Z /\ kept ip jp kp lp) -> hv = true) /\
    (hv = true -> exists ip jp kp lp, (0 <= ip < v_np V i)%Z /\ (0 <= jp < v_np V j)%Z /\ (0 <= kp < v_np V k)%Z /\ (0 <= lp < v_np V l)%Z /\
       est_kl kp lp <= C /\ est_ij ip jp + est_kl kp lp <= C).
Proof.
  intros li lj lk ll ci cj ck cl e nc nt di dj dk dl est_ij est_kl C T P Q kept HG Hi Hj Hk Hl Hli Hlj Hlk Hll Hni Hnj Hnk Hnl Ht En Hsp Hu1 Hu2 Hf Hex Hom Hnr HR
    Hidx Hgf Hgs Hgs4 Hm W0 W5 D1 D2 D3 D4 D5 D6.
  assert (Ee : e = env_o4 V ev t ng i j k l).
  { unfold env_o4, env_2e. rewrite Hf. unfold fam_env, e. replace (Rltb (ev 8%Z) 0) with short; [reflexivity|].
    symmetry. destruct short; [apply Rltb_iff, Hom; reflexivity|]. apply ltb_le, Rnot_lt_le. intros X. apply Hom in X. discriminate. }
  subst kept. clearbody e. subst e. assert (Ef : factor (t_e t) = Some f) by (unfold factor; rewrite Hsp; reflexivity).
  pose proof (l12 _ Hli) as Li. pose proof (l12 _ Hlj) as Lj. pose proof (l12 _ Hlk) as Lk. pose proof (l12 _ Hll) as Ll.
  destruct (index2_ok t ng (Rltb (ev 8%Z) 0) (l4 V i j k l) (c4 V i j k l) idx Ht (or_introl Hf) En) as [idx' Eidx];
    [intros x; destruct x; assumption|rewrite Hf; intros x; destruct x; discriminate|exact Hidx|].
  assert (Ent : nt = TENSOR ng) by exact (tens_two t ng Ht En Hf). rewrite Ent in *. clear nt Ent.
  destruct (WholeOpt4.drv_spin nbas V ev lm rys srys t ng stored i j k l f HG Hi Hj Hk Hl Hni Hnj Hnk Hnl Ht Hf Hex En Ef Li Lj Lk Ll Hnr HR idx idx' (asize g) Hidx Eidx Hgs Hgs4
    m g Hm (conj Hgf eq_refl) W0 W5 _ tR tI ki kj kk kl u1 u2 dims out n1 n2 n3 n4 eq_refl Hsp Hu1 Hu2 (proj2 Hli) (proj2 Hlj) (proj2 Hlk) (proj2 Hll) D1 D2 D3 D4 D5 D6)
    as (out' & hv & M & H1 & H2 & H3 & H4 & H5).
  exists out', hv, M. split; [exact H1|]. split; [exact H2|]. split; [exact H3|]. split.
  - intros (ip & jp & kp & lp & P1 & P2 & P3 & P4 & K). apply H4. exists ip, jp, kp, lp. exact (conj (conj P1 (conj P2 (conj P3 P4))) K).
  - intros X. destruct (H5 X) as (ip & jp & kp & lp & (P1 & P2 & P3 & P4) & K). exists ip, jp, kp, lp. exact (conj P1 (conj P2 (conj P3 (conj P4 K)))).
Qed.
Print Assumptions C68_4c_spinor_opt.

(** The spinor functions of a three-centre entry point: spinors on i, j, spherical functions on k. *)
Theorem C68_3c_spinor nbas (V : view) (ev : Z -> R) (lm : Z -> Z -> R) rys srys t ng i j k short (tR tI : Z -> R) ki kj f u dims idx (g : arr R) (m : mem R) (out : arr R) n1 n2 n3 :
  let li := v_l V i in let lj := v_l V j in let lk := v_l V k in
  let ci := v_nc V i in let cj := v_nc V j in let ck := v_nc V k in
  let e := init_int3c2e short ng li lj lk ci cj ck in let nc := Z.of_nat (length (g_rows (t_f t))) in
  let nt := Z.of_nat (length (spec_pairs (t_d t))) in
  let di := nspinor ki li in let dj := nspinor kj lj in let dk := (2 * lk + 1)%Z in
  let est := pair_est V ev lm i j (li + IINC ng + (lj + JINC ng)) in
  let U := user_cutoff (ev 0%Z) in let Ur := raised V ev i j (li + IINC ng + (lj + JINC ng)) (rys_order e) U in
  let P ip jp := product_centre (ex V ev i ip) (ex V ev j jp) (ctr V ev i) (ctr V ev j) in
  let kept ip jp kp := est ip jp < U /\ near_enough (ev 8%Z) (ex V ev i ip + ex V ev j jp) (ex V ev k kp) (P ip jp) (ctr V ev k) (Ur - est ip jp) in
  (* shells *)
  good_shells nbas V ev lm -> (0 <= i < nbas)%Z -> (0 <= j < nbas)%Z -> (0 <= k < nbas)%Z ->
  (0 <= li <= 12)%Z -> (0 <= lj <= 12)%Z -> (0 <= lk <= 15)%Z ->
  (0 <= v_np V i /\ 1 <= ci)%Z -> (0 <= v_np V j /\ 1 <= cj)%Z -> (0 <= v_np V k /\ 1 <= ck)%Z ->
  (* entry point: any three-centre entry, any operator *)
  In t catalogue -> ent_ng t = Some ng -> en_spinor (t_e t) = Some f -> en_c2s1 (t_e t) = Some u -> en_fam (t_e t) = F3c2e -> ~ In (en_name (t_e t)) except_names ->
  (short = true <-> ev 8%Z < 0) -> (nrys_roots e <= 32)%Z -> finds_roots_2e rys srys (nrys_roots e) (rys_order e) (ev 8%Z) ->
  (* work arrays: large enough, with arbitrary numbers in them *)
  (3 * nf e <= asize idx)%Z -> filled g -> ((2 ^ GSHIFT ng + 1) * (3 * g_size e) <= asize g)%Z -> (4 * g_size e <= asize g)%Z -> (forall s, filled (buf m s)) ->
  (ci <> 1 -> nf e * nc <= asize (buf m 0))%Z -> (cj <> 1 -> nf e * nc * ci <= asize (buf m 1))%Z ->
  (ck <> 1 -> nf e * nc * ci * cj <= asize (buf m 2))%Z -> (nc <> 1 -> nf e * nc * ci * cj * ck <= asize (buf m 3))%Z ->
  (nf e * (ci * cj * ck) * nc <= asize (buf m 5))%Z ->
  (* the caller's array *)
  (di * ci <= n1)%Z -> (dj * cj <= n2)%Z -> (dk * ck <= n3)%Z ->
  dims_are dims 3 [n1; n2; n3] [(di * ci)%Z; (dj * cj)%Z; (dk * ck)%Z] ->
  room (asize out) nt (n1 * 2) n2 n3 1 (di * ci * 2) (dj * cj) (dk * ck) 1 ->
  exists out' hv M, int3c2e_spinor_drv V ev rys srys t ng i j k tR tI ki kj dims idx g m out = Some (out', hv) /\
    stored_block out out' nt (n1 * 2) n2 n3 1 (di * ci * 2) (dj * cj) (dk * ck) 1 (fun n p J K _ => part (p mod 2)
      (two_comp tR tI ki li kj lj ((p / 2) mod di) (J mod dj) (fun a b r r' => spin_sum (c_si u) r r' (fun s =>
         apply_T (RtoC 0) Cplus Cmult (fun q => RtoC (sph_coef q)) c2s_off ncart lk (K mod dk) (fun c =>
         M n s ((p / 2) / di) (J / dj) (K / dk) a b c)))))%Z /\
    (forall (a b c n : nat) ic jc kc ti tj tk qs s,
       nth_error (cart_list li) a = Some ti -> nth_error (cart_list lj) b = Some tj -> nth_error (cart_list lk) c = Some tk ->
       nth_error (spec_pairs (t_d t)) n = Some qs -> In s (IntgSpec.stored (c_si u)) ->
       exists S, summed3 V ev kept i j k ic jc kc (fun ip jp kp => eri3 V ev i j k ip jp kp ti tj tk (spec_of (t_d t) qs s S1)) S /\
         M (Z.of_nat n) s ic jc kc (Z.of_nat a) (Z.of_nat b) (Z.of_nat c)
          = (RtoC (CINTcommon_fac_sp li * CINTcommon_fac_sp lj * CINTcommon_fac_sp lk) * S)%C) /\
    ((exists ip jp kp, (0 <= ip < v_np V i)%Z /\ (0 <= jp < v_np V j)%Z /\ (0 <= kp < v_np V k)%Z /\ kept ip jp kp) -> hv = true) /\
    (hv = true -> exists ip jp kp, (0 <= ip < v_np V i)%Z /\ (0 <= jp < v_np V j)%Z /\ (0 <= kp < v_np V k)%Z /\ est ip jp <= Ur).
Proof.
  intros li lj lk ci cj ck e nc nt di dj dk est U Ur P kept HG Hi Hj Hk Hli Hlj Hlk Hni Hnj Hnk Ht En Hsp Hu Hf Hex Hom Hnr HR
    Hidx Hgf Hgs Hgs4 Hm W0 W1 W2 W3 W5 D1 D2 D3 D5 D6.
  assert (Ee : e = env_3c V ev t ng i j k).
  { unfold env_3c, env_2e. rewrite Hf. unfold fam_env, e. replace (Rltb (ev 8%Z) 0) with short; [reflexivity|].
    symmetry. destruct short; [apply Rltb_iff, Hom; reflexivity|]. apply ltb_le, Rnot_lt_le. intros X. apply Hom in X. discriminate. }
  subst kept Ur. clearbody e. subst e. assert (H2f : two_fam (en_fam (t_e t))) by (right; left; exact Hf).
  assert (Ef : factor (t_e t) = Some f) by (unfold factor; rewrite Hsp; reflexivity).
  pose proof (l12 _ Hli) as Li. pose proof (l12 _ Hlj) as Lj.
  destruct (index2_ok t ng (Rltb (ev 8%Z) 0) (l3 V i j k) (c3 V i j k) idx Ht H2f En) as [idx' Eidx];
    [intros x; destruct x; try assumption; clear; cbn; lia|rewrite Hf; intros x; destruct x; try discriminate; reflexivity|exact Hidx|].
  assert (Ent : nt = TENSOR ng) by exact (tens_one t ng Ht En (fam_3 _ Hf)). rewrite Ent in *. clear nt Ent.
  destruct (Whole3c.drv_spin nbas V ev lm rys srys t ng i j k f HG Hi Hj Hk Hni Hnj Hnk Ht Hf Hex En Ef Li Lj Hlk Hnr HR idx idx' (asize g) Hidx Eidx Hgs Hgs4
    m g Hm (conj Hgf eq_refl) W0 W1 W2 W3 W5 _ tR tI ki kj u dims out n1 n2 n3 eq_refl Hsp Hu (proj2 Hli) (proj2 Hlj) D1 D2 D3 D5 D6) as (out' & hv & M & H1 & H2 & H3 & H4 & H5).
  exists out', hv, M. split; [exact H1|]. split; [exact H2|]. split; [exact H3|]. split.
  - intros (ip & jp & kp & P1 & P2 & P3 & K). apply H4. exists ip, jp, kp. exact (conj (conj P1 (conj P2 P3)) K).
  - intros X. destruct (H5 X) as (ip & jp & kp & (P1 & P2 & P3) & K). exists ip, jp, kp. exact (conj P1 (conj P2 (conj P3 K))).
Qed.
Print Assumptions C68_3c_spinor.

(** with an optimizer *)
Theorem C68_3c_spinor_opt nbas (V : view) (ev : Z -> R) (lm : Z -> Z -> R) rys srys t ng stored i j k short (tR tI : Z -> R) ki kj f u dims idx (g : arr R) (m : mem R) (out : arr R) n1 n2 n3 :
  let li := v_l V i in let lj := v_l V j in let lk := v_l V k in
  let ci := v_nc V i in let cj := v_nc V j in let ck := v_nc V k in
  let e := init_int3c2e short ng li lj lk ci cj ck in let nc := Z.of_nat (length (g_rows (t_f t))) in
  let nt := Z.of_nat (length (spec_pairs (t_d t))) in
  let di := nspinor ki li in let dj := nspinor kj lj in let dk := (2 * lk + 1)%Z in
  let est := pair_est V ev lm i j (pair_degree V ng stored i j (li + IINC ng + (lj + JINC ng))) in
  let U := user_cutoff (ev 0%Z) in let Ur := raised V ev i j (li + IINC ng + (lj + JINC ng)) (rys_order e) U in
  let P ip jp := product_centre (ex V ev i ip) (ex V ev j jp) (ctr V ev i) (ctr V ev j) in
  let kept ip jp kp := est ip jp < U /\ near_enough (ev 8%Z) (ex V ev i ip + ex V ev j jp) (ex V ev k kp) (P ip jp) (ctr V ev k) (Ur - est ip jp) in
  (* shells *)
  good_shells nbas V ev lm -> (0 <= i < nbas)%Z -> (0 <= j < nbas)%Z -> (0 <= k < nbas)%Z ->
  (0 <= li <= 12)%Z -> (0 <= lj <= 12)%Z -> (0 <= lk <= 15)%Z ->
  (0 <= v_np V i /\ 1 <= ci)%Z -> (0 <= v_np V j /\ 1 <= cj)%Z -> (0 <= v_np V k /\ 1 <= ck)%Z ->
  (* entry point: any three-centre entry, any operator *)
  In t catalogue -> ent_ng t = Some ng -> en_spinor (t_e t) = Some f -> en_c2s1 (t_e t) = Some u -> en_fam (t_e t) = F3c2e -> ~ In (en_name (t_e t)) except_names ->
  (short = true <-> ev 8%Z < 0) -> (nrys_roots e <= 32)%Z -> finds_roots_2e rys srys (nrys_roots e) (rys_order e) (ev 8%Z) ->
  (* work arrays: large enough, with arbitrary numbers in them *)
  (3 * nf e <= asize idx)%Z -> filled g -> ((2 ^ GSHIFT ng + 1) * (3 * g_size e) <= asize g)%Z -> (4 * g_size e <= asize g)%Z -> (forall s, filled (buf m s)) ->
  opt_scratch3 (fun s => asize (buf m s)) (nf e * nc) nc ci cj ck -> (nf e * (ci * cj * ck) * nc <= asize (buf m 5))%Z ->
  (* the caller's array *)
  (di * ci <= n1)%Z -> (dj * cj <= n2)%Z -> (dk * ck <= n3)%Z ->
  dims_are dims 3 [n1; n2; n3] [(di * ci)%Z; (dj * cj)%Z; (dk * ck)%Z] ->
  room (asize out) nt (n1 * 2) n2 n3 1 (di * ci * 2) (dj * cj) (dk * ck) 1 ->
  exists out' hv M, int3c2e_spinor_drv_opt V ev rys srys t ng stored i j k tR tI ki kj dims idx g m out = Some (out', hv) /\
    stored_block out out' nt (n1 * 2) n2 n3 1 (di * ci * 2) (dj * cj) (dk * ck) 1 (fun n p J K _ => part (p mod 2)
      (two_comp tR tI ki li kj lj ((p / 2) mod di) (J mod dj) (fun a b r r' => spin_sum (c_si u) r r' (fun s =>
         apply_T (RtoC 0) Cplus Cmult (fun q => RtoC (sph_coef q)) c2s_off ncart lk (K mod dk) (fun c =>
         M n s ((p / 2) / di) (J / dj) (K / dk) a b c)))))%Z /\
    (forall (a b c n : nat) ic jc kc ti tj tk qs s,
       nth_error (cart_list li) a = Some ti -> nth_error (cart_list lj) b = Some tj -> nth_error (cart_list lk) c = Some tk ->
       nth_error (spec_pairs (t_d t)) n = Some qs -> In s (IntgSpec.stored (c_si u)) ->
       exists S, summed3 V ev kept i j k ic jc kc (fun ip jp kp => eri3 V ev i j k ip jp kp ti tj tk (spec_of (t_d t) qs s S1)) S /\
         M (Z.of_nat n) s ic jc kc (Z.of_nat a) (Z.of_nat b) (Z.of_nat c)
          = (RtoC (CINTcommon_fac_sp li * CINTcommon_fac_sp lj * CINTcommon_fac_sp lk) * S)%C) /\
    ((exists ip jp kp, (0 <= ip < v_np V i)%Z /\ (0 <= jp < v_np V j)%Z /\ (0 <= kp < v_np V k)%Z /\ kept ip jp kp) -> hv = true) /\
    (hv = true -> exists ip jp kp, (0 <= ip < v_np V i)%Z /\ (0 <= jp < v_np V j)%Z /\ (0 <= kp < v_np V k)%Z /\ est ip jp <= Ur).
Proof.
  intros li lj lk ci cj ck e nc nt di dj dk est U Ur P kept HG Hi Hj Hk Hli Hlj Hlk Hni Hnj Hnk Ht En Hsp Hu Hf Hex Hom Hnr HR
    Hidx Hgf Hgs Hgs4 Hm W0 W5 D1 D2 D3 D5 D6.
  assert (Ee : e = env_o3 V ev t ng i j k).
  { unfold env_o3, env_2e. rewrite Hf. unfold fam_env, e. replace (Rltb (ev 8%Z) 0) with short; [reflexivity|].
    symmetry. destruct short; [apply Rltb_iff, Hom; reflexivity|]. apply ltb_le, Rnot_lt_le. intros X. apply Hom in X. discriminate. }
  subst kept Ur. clearbody e. subst e. assert (H2f : two_fam (en_fam (t_e t))) by (right; left; exact Hf).
  assert (Ef : factor (t_e t) = Some f) by (unfold factor; rewrite Hsp; reflexivity).
  pose proof (l12 _ Hli) as Li. pose proof (l12 _ Hlj) as Lj.
  destruct (index2_ok t ng (Rltb (ev 8%Z) 0) (l3 V i j k) (c3 V i j k) idx Ht H2f En) as [idx' Eidx];
    [intros x; destruct x; try assumption; clear; cbn; lia|rewrite Hf; intros x; destruct x; try discriminate; reflexivity|exact Hidx|].
  assert (Ent : nt = TENSOR ng) by exact (tens_one t ng Ht En (fam_3 _ Hf)). rewrite Ent in *. clear nt Ent.
  destruct (WholeOpt3.drv_spin nbas V ev lm rys srys t ng stored i j k f HG Hi Hj Hk Hni Hnj Hnk Ht Hf Hex En Ef Li Lj Hlk Hnr HR idx idx' (asize g) Hidx Eidx Hgs Hgs4
    m g Hm (conj Hgf eq_refl) W0 W5 _ tR tI ki kj u dims out n1 n2 n3 eq_refl Hsp Hu (proj2 Hli) (proj2 Hlj) D1 D2 D3 D5 D6) as (out' & hv & M & H1 & H2 & H3 & H4 & H5).
  exists out', hv, M. split; [exact H1|]. split; [exact H2|]. split; [exact H3|]. split.
  - intros (ip & jp & kp & P1 & P2 & P3 & K). apply H4. exists ip, jp, kp. exact (conj (conj P1 (conj P2 P3)) K).
  - intros X. destruct (H5 X) as (ip & jp & kp & (P1 & P2 & P3) & K). exists ip, jp, kp. exact (conj P1 (conj P2 (conj P3 K))).
Qed.
Print Assumptions C68_3c_spinor_opt.

(** The spinor function of a two-centre entry point (int2c2e). *)
Theorem C68_2c_spinor nbas (V : view) (ev : Z -> R) (lm : Z -> Z -> R) rys srys t ng i k short (tR tI : Z -> R) ki kk f u dims idx (g : arr R) (m : mem R) (out : arr R) n1 n2 :
  let li := v_l V i in let lk := v_l V k in
  let ci := v_nc V i in let ck := v_nc V k in
  let e := init_int2c2e short ng li lk ci ck in let nc := Z.of_nat (length (g_rows (t_f t))) in
  let di := nspinor ki li in let dk := nspinor kk lk in let nt := Z.of_nat (length (spec_pairs (t_d t))) in
  let some_kept := exists ip kp, ((0 <= ip < v_np V i)%Z /\ (0 <= kp < v_np V k)%Z) /\ short_kept V ev i k ip kp in
  (* shells *)
  good_shells nbas V ev lm -> (0 <= i < nbas)%Z -> (0 <= k < nbas)%Z -> (0 <= li <= 12)%Z -> (0 <= lk <= 12)%Z ->
  (0 <= v_np V i /\ 1 <= ci)%Z -> (0 <= v_np V k /\ 1 <= ck)%Z ->
  (* entry point: any two-centre entry, any operator *)
  In t catalogue -> ent_ng t = Some ng -> en_spinor (t_e t) = Some f -> en_c2s1 (t_e t) = Some u -> en_fam (t_e t) = F2c2e -> ~ In (en_name (t_e t)) except_names ->
  (short = true <-> ev 8%Z < 0) -> (nrys_roots e <= 32)%Z -> finds_roots_2e rys srys (nrys_roots e) (rys_order e) (ev 8%Z) ->
  (* work arrays: large enough, with arbitrary numbers in them *)
  (3 * nf e <= asize idx)%Z -> filled g -> ((2 ^ GSHIFT ng + 1) * (3 * g_size e) <= asize g)%Z -> (4 * g_size e <= asize g)%Z -> (forall s, filled (buf m s)) ->
  (ci <> 1 -> nf e * nc <= asize (buf m 0))%Z -> (ck <> 1 -> nf e * nc * ci <= asize (buf m 1))%Z ->
  (nc <> 1 -> nf e * nc * ci * ck <= asize (buf m 2))%Z -> (nf e * (ci * ck) * nc <= asize (buf m 5))%Z ->
  (* the caller's array *)
  (di * ci <= n1)%Z -> (dk * ck <= n2)%Z -> dims_are dims 2 [n1; n2] [(di * ci)%Z; (dk * ck)%Z] ->
  (some_kept \/ match dims with Some d => exists n, rd d 2 = Some n | None => True end) ->
  room (asize out) nt (n1 * 2) n2 1 1 (di * ci * 2) (dk * ck) 1 1 ->
  exists out' hv M, int2c2e_spinor_drv V ev rys srys t ng i k tR tI ki kk dims idx g m out = Some (out', hv) /\
    stored_block out out' nt (n1 * 2) n2 1 1 (di * ci * 2) (dk * ck) 1 1 (fun n p K _ _ => part (p mod 2)
      (two_comp tR tI ki li kk lk ((p / 2) mod di) (K mod dk) (fun a c r r' => spin_sum false r r' (fun _ => M n ((p / 2) / di) (K / dk) a c))))%Z /\
    (forall (a c n : nat) ic kc ti tk qs,
       nth_error (cart_list li) a = Some ti -> nth_error (cart_list lk) c = Some tk -> nth_error (spec_pairs (t_d t)) n = Some qs ->
       exists S, summed2 V ev (short_kept V ev i k) i k ic kc (fun ip kp => eri2 V ev i k ip kp ti tk (spec_of (t_d t) qs S1 S1)) S /\
         M (Z.of_nat n) ic kc (Z.of_nat a) (Z.of_nat c) = (RtoC (CINTcommon_fac_sp li * CINTcommon_fac_sp lk) * S)%C) /\
    (hv = true <-> some_kept).
Proof.
  intros li lk ci ck e nc di dk nt some_kept HG Hi Hk Hli Hlk Hni Hnk Ht En Hsp Hu Hf Hex Hom Hnr HR
    Hidx Hgf Hgs Hgs4 Hm W0 W1 W3 W5 D1 D3 D5 DT D6.
  assert (Ee : e = env_2c V ev t ng i k).
  { unfold env_2c, env_2e. rewrite Hf. unfold fam_env. replace (Rltb (ev 8%Z) 0) with short; [reflexivity|].
    destruct (Rltb (ev 8%Z) 0) eqn:Eb.
    - apply Hom. apply Rltb_iff. exact Eb.
    - destruct short; [|reflexivity]. apply ltb_le in Eb. pose proof (proj1 Hom eq_refl). lra. }
  clearbody e. subst e. assert (H2f : two_fam (en_fam (t_e t))) by (right; right; exact Hf).
  assert (Ef : factor (t_e t) = Some f) by (unfold factor; rewrite Hsp; reflexivity).
  pose proof (l12 _ Hli) as Li. pose proof (l12 _ Hlk) as Lk.
  destruct (index2_ok t ng (Rltb (ev 8%Z) 0) (l2 V i k) (c2 V i k) idx Ht H2f En) as [idx' Eidx];
    [intros x; destruct x; try assumption; clear; cbn; lia|rewrite Hf; intros x; destruct x; try discriminate; reflexivity|exact Hidx|].
  assert (Ent : nt = TENSOR ng) by exact (tens_one t ng Ht En (fam_2 _ Hf)). rewrite Ent in *. clear nt Ent.
  exact (Whole2c.drv_spin nbas V ev lm rys srys t ng i k f HG Hi Hk Hni Hnk Ht Hf Hex En Ef Li Lk Hnr HR idx idx' (asize g) Hidx Eidx Hgs Hgs4
    m g Hm (conj Hgf eq_refl) W0 W1 W3 W5 _ tR tI ki kk u dims out n1 n2 eq_refl Hsp Hu (proj2 Hli) (proj2 Hlk) D1 D3 D5 DT D6).
Qed.
Print Assumptions C68_2c_spinor.

(** int1e_ovlp_spinor of the s shell of C62 with itself, kappa = -1, with made-up coefficients: spinor 0 is i (alpha) + 2 (beta) and
    spinor 1 is (3 - 2 i) (alpha) + i (beta); <0|1> = -i (3 - 2 i) + 2 i = -2 - i times the overlap of the s functions. *)
Definition ex_tR (q : Z) : R := nth (Z.to_nat q) [0; 2; 3; 0] 0.
Definition ex_tI (q : Z) : R := nth (Z.to_nat q) [1; 0; -2; 1] 0.
Lemma ex_value (X : C) :
  (RtoC 0 + (RtoC 0 + (RtoC 0 + (RtoC 0 + Cconj (SpinorSpec.Cj ex_tR ex_tI (-1) 0 0 0 0) * (RtoC 1 * X + RtoC 0) * SpinorSpec.Cj ex_tR ex_tI (-1) 0 1 0 0 +
    Cconj (SpinorSpec.Cj ex_tR ex_tI (-1) 0 0 1 0) * (RtoC 0 * X + RtoC 0) * SpinorSpec.Cj ex_tR ex_tI (-1) 0 1 0 0)) +
   (RtoC 0 + (RtoC 0 + Cconj (SpinorSpec.Cj ex_tR ex_tI (-1) 0 0 0 0) * (RtoC 0 * X + RtoC 0) * SpinorSpec.Cj ex_tR ex_tI (-1) 0 1 1 0 +
    Cconj (SpinorSpec.Cj ex_tR ex_tI (-1) 0 0 1 0) * (RtoC 1 * X + RtoC 0) * SpinorSpec.Cj ex_tR ex_tI (-1) 0 1 1 0))))%C = ((-2, -1) * X)%C.
Proof.
  destruct X as [x y].
  change (SpinorSpec.Cj ex_tR ex_tI (-1) 0 0 0 0) with (0, 1). change (SpinorSpec.Cj ex_tR ex_tI (-1) 0 0 1 0) with (2, 0).
  change (SpinorSpec.Cj ex_tR ex_tI (-1) 0 1 0 0) with (3, -2). change (SpinorSpec.Cj ex_tR ex_tI (-1) 0 1 1 0) with (0, 1).
  unfold Cplus, Cmult, Cconj, RtoC. cbn [fst snd]. f_equal; ring.
Qed.
Lemma ex_two (M : Z -> Z -> C) : two_comp ex_tR ex_tI (-1) 0 (-1) 0 0 1 (fun a b s s' => spin_sum false s s' (fun _ => M a b)) = ((-2, -1) * M 0%Z 0%Z)%C.
Proof.
  unfold two_comp, csumz. change (SpinorSpec.ncart 0) with 1%Z. change (lsum (RtoC 0) Cplus 1) with (fun f : Z -> C => (RtoC 0 + f 0%Z)%C).
  change (lsum (RtoC 0) Cplus 2) with (fun f : Z -> C => (RtoC 0 + f 0%Z + f 1%Z)%C). cbv beta. unfold spin_sum. cbn [stored map fold_right pauli Z.eqb].
  exact (ex_value _).
Qed.
Example C67_example : exists out', int1e_spinor_drv ex_view ex_env (fun _ _ => 0%Z) 0 (fun _ _ => (fun _ => 0, fun _ => 0)) e_int1e_ovlp (mkng 0 0 0 0 0 1 1 1) 0 0
    ex_tR ex_tI (-1) (-1) None (uninit 3) (of_fun 6 (fun _ => 7)) ex_mem (uninit 8) = Some (out', true) /\
  let X := CINTcommon_fac_sp 0 * CINTcommon_fac_sp 0 * (sqrt (PI / 2) ^ 3 + 2 * (3 * sqrt (PI / 3) ^ 3) + 9 * sqrt (PI / 4) ^ 3) in
  rd out' 4 = Some (-2 * X) /\ rd out' 5 = Some (- X).
Proof.
  assert (Hroom : room 8 1 4 2 1 1 4 2 1 1). { intros n a b c d Hn Ha Hb Hc Hd. unfold OutSpec.place. lia. }
  assert (Hgf : filled (of_fun 6 (fun _ => 7))) by apply filled_of.
  assert (Hmf : forall s, filled (buf ex_mem s)) by (intros s; apply filled_of).
  destruct (C67_1e_spinor 1 ex_view ex_env ex_lm (fun _ _ => 0%Z) 0 (fun _ _ => (fun _ => 0, fun _ => 0)) e_int1e_ovlp (mkng 0 0 0 0 0 1 1 1) 0 0
    ex_tR ex_tI (-1) (-1) (1%Z, 1%positive) (mkc false false) None
    (uninit 3) (of_fun 6 (fun _ => 7)) ex_mem (uninit 8) 2 2) as (out' & hv & M & H1 & H2 & H3 & H4 & _); try exact Hroom; try exact Hgf; try exact Hmf; try exact ex_good;
    try (vm_compute; intuition congruence).
  exists out'. assert (hv = true) as -> by (apply H4; exists 0%Z, 0%Z; split; [cbn; lia|]; split; [cbn; lia|]; apply ex_kept; lia).
  split; [exact H1|]. set (SS := sqrt (PI / 2) ^ 3 + 2 * (3 * sqrt (PI / 3) ^ 3) + 9 * sqrt (PI / 4) ^ 3). cbv zeta.
  assert (EM : M 0%Z S1 0%Z 0%Z 0%Z 0%Z = RtoC (CINTcommon_fac_sp 0 * CINTcommon_fac_sp 0 * SS)).
  { destruct (H3 0%nat 0%nat 0%nat 0%Z 0%Z (0, 0, 0)%Z (0, 0, 0)%Z _ S1 eq_refl eq_refl eq_refl ltac:(left; reflexivity)) as (S & S1' & S2).
    assert (ES : S = RtoC SS).
    { eapply C62_unique; [exact S1'|].
      exists (fun ip jp => RtoC (sqrt (PI / (ex ex_view ex_env 0 ip + ex ex_view ex_env 0 jp)) ^ 3)), (fun _ _ => true). split.
      - intros ip jp Hip Hjp. split; [exact (ex_prim ip jp Hip Hjp)|]. split; [intros _; exact (ex_kept ip jp Hip Hjp)|reflexivity].
      - unfold csumz. change (lsum (RtoC 0) Cplus (v_np ex_view 0)) with (fun f : Z -> C => (RtoC 0 + f 0%Z + f 1%Z)%C). cbv beta.
        unfold cf, ex. cbn. rewrite <- !RtoC_mult, <- !RtoC_plus. f_equal. unfold SS.
        replace (1 + 1) with 2 by ring. replace (2 + 1) with 3 by ring. replace (1 + 2) with 3 by ring. replace (2 + 2) with 4 by ring. ring. }
    rewrite ES in S2. change (M 0%Z S1 0%Z 0%Z 0%Z 0%Z) with (M (Z.of_nat 0) S1 0%Z 0%Z (Z.of_nat 0) (Z.of_nat 0)). rewrite S2, <- RtoC_mult. reflexivity. }
  destruct H2 as (_ & H2 & _).
  assert (EV : two_comp ex_tR ex_tI (-1) 0 (-1) 0 0 1 (fun a b s s' => spin_sum false s s' (fun c => M 0%Z c 0%Z 0%Z a b)) =
    (-2 * (CINTcommon_fac_sp 0 * CINTcommon_fac_sp 0 * SS), - (CINTcommon_fac_sp 0 * CINTcommon_fac_sp 0 * SS))).
  { etransitivity; [exact (ex_two (fun a b => M 0%Z S1 0%Z 0%Z a b))|]. cbv beta. rewrite EM. unfold Cmult, RtoC. cbn [fst snd]. f_equal; ring. }
  split.
  - pose proof (H2 0 0 1 0 0 ltac:(cbn; lia) ltac:(vm_compute; intuition congruence) ltac:(vm_compute; intuition congruence) ltac:(lia) ltac:(lia))%Z as E.
    change (OutSpec.place (2 * 2) 2 1 1 0 0 1 0 0) with 4%Z in E. rewrite E. f_equal. exact (f_equal fst EV).
  - pose proof (H2 0 1 1 0 0 ltac:(cbn; lia) ltac:(vm_compute; intuition congruence) ltac:(vm_compute; intuition congruence) ltac:(lia) ltac:(lia))%Z as E.
    change (OutSpec.place (2 * 2) 2 1 1 0 1 1 0 0) with 5%Z in E. rewrite E. f_equal. exact (f_equal snd EV).
Qed.

(** int2e_spinor of the s shell of C63 with itself: both electrons have the matrix element -2 - i of C67_example, and (-2 - i)^2 = 3 + 4 i. *)
Example C68_example : exists out', int2e_spinor_drv ex4_view ex4_env (fun _ => one_root) (fun _ _ _ => (fun _ => 0, fun _ => 0)) e_int2e (mkng 0 0 0 0 0 1 1 1) 0 0 0 0
    ex_tR ex_tI (-1) (-1) (-1) (-1) None (uninit 3) (of_fun 6 (fun _ => 7)) ex4_mem (uninit 32) = Some (out', true) /\
  let X := CINTcommon_fac_sp 0 * CINTcommon_fac_sp 0 * CINTcommon_fac_sp 0 * CINTcommon_fac_sp 0 * (2 * (PI * PI * sqrt PI) / 8) in
  rd out' 20 = Some (3 * X) /\ rd out' 21 = Some (4 * X).
Proof.
  assert (EC : cutoff_2e false (ex4_env 0) = 60).
  { unfold cutoff_2e. cbn [ex4_env Z.eqb]. destruct (Req_EM_T 0 0); [reflexivity|lra]. }
  assert (HR : finds_roots_2e (fun _ => one_root) (fun _ _ _ => (fun _ => 0, fun _ => 0)) 1 1 (ex4_env 8)).
  { split; [intros m y n Hn Hy; apply one_root_ok|]. split; [intros m y z n Hn Hy; cbn; lra|]. intros a0 x Ha Hx. split; [intros _; apply one_root_ok|].
    cbn [ex4_env Z.eqb Pos.eqb]. repeat split; intros X; lra. }
  assert (Hroom : room 32 1 (2 * 2) 2 2 2 (2 * 1 * 2) (2 * 1) (2 * 1) (2 * 1)). { intros n a b c d Hn Ha Hb Hc Hd. unfold OutSpec.place. lia. }
  assert (H08 : false = true <-> ex4_env 8 < 0) by (split; [discriminate|cbn; lra]).
  assert (Hgf : filled (of_fun 6 (fun _ => 7))) by apply filled_of.
  assert (Hmf : forall s, filled (buf ex4_mem s)) by (intros s; apply filled_of).
  destruct (C68_4c_spinor 1 ex4_view ex4_env (fun _ _ => ln 1) (fun _ => one_root) (fun _ _ _ => (fun _ => 0, fun _ => 0)) e_int2e (mkng 0 0 0 0 0 1 1 1) 0 0 0 0 false
    ex_tR ex_tI (-1) (-1) (-1) (-1) (1%Z, 1%positive) (mkc false false) (mkc false false) None
    (uninit 3) (of_fun 6 (fun _ => 7)) ex4_mem (uninit 32) 2 2 2 2 ex4_good ltac:(by_z) ltac:(by_z) ltac:(by_z) ltac:(by_z) ltac:(by_z) ltac:(by_z) ltac:(by_z) ltac:(by_z) ltac:(by_z) ltac:(by_z) ltac:(by_z) ltac:(by_z) ltac:(by_z) ltac:(by_z) eq_refl eq_refl eq_refl ltac:(by_z) ltac:(by_z) H08 ltac:(by_z) HR ltac:(by_z) Hgf ltac:(by_z) ltac:(by_z) Hmf ltac:(by_z) ltac:(by_z) ltac:(by_z) ltac:(by_z) ltac:(by_z) ltac:(by_z) ltac:(by_z) ltac:(by_z) ltac:(by_z) ltac:(by_z) ltac:(by_z) Hroom)
    as (out' & hv & M & H1 & H2 & H3 & H4 & _).
  assert (Hkept : forall ip jp kp lp, (0 <= ip < 1)%Z -> (0 <= jp < 1)%Z -> (0 <= kp < 1)%Z -> (0 <= lp < 1)%Z ->
     let C := cutoff_2e false (ex4_env 0) in let Cr := raised ex4_view ex4_env 0 0 0 1 C in let est_kl := pair_est ex4_view ex4_env (fun _ _ => ln 1) 0 0 (degree_kl ex4_env 0 1) in
     let est_ij := pair_est ex4_view ex4_env (fun _ _ => ln 1) 0 0 0 in let x p := ex ex4_view ex4_env 0 p in let A := ctr ex4_view ex4_env 0 in
     est_ij ip jp < C /\ est_kl kp lp <= Cr /\ est_ij ip jp + est_kl kp lp <= Cr /\
     near_enough (ex4_env 8) (x ip + x jp) (x kp + x lp) (product_centre (x ip) (x jp) A A) (product_centre (x kp) (x lp) A A) (Cr - est_kl kp lp - est_ij ip jp)).
  { intros ip jp kp lp Q1 Q2 Q3 Q4. cbv zeta. assert (H8 : ~ ex4_env 8 < 0) by (cbn; lra).
    unfold raised, degree_kl. destruct (Rlt_dec (ex4_env 8) 0) as [X|_]; [contradiction|]. rewrite EC. pose proof (ex4_est ip jp Q1 Q2). pose proof (ex4_est kp lp Q3 Q4).
    repeat split; try lra. left. cbn. lra. }
  assert (hv = true) as -> by (apply H4; exists 0%Z, 0%Z, 0%Z, 0%Z; repeat (split; [cbn; lia|]); apply Hkept; lia).
  exists out'. split; [exact H1|]. cbv zeta. set (SS := 2 * (PI * PI * sqrt PI) / 8).
  assert (EM : M 0%Z S1 S1 0%Z 0%Z 0%Z 0%Z 0%Z 0%Z 0%Z 0%Z = RtoC (CINTcommon_fac_sp 0 * CINTcommon_fac_sp 0 * CINTcommon_fac_sp 0 * CINTcommon_fac_sp 0 * SS)).
  { destruct ex4_prim as (s1 & s2 & q & Q1 & Q2 & Q3).
    destruct (H3 0%nat 0%nat 0%nat 0%nat 0%nat 0%Z 0%Z 0%Z 0%Z (0, 0, 0)%Z (0, 0, 0)%Z (0, 0, 0)%Z (0, 0, 0)%Z _ S1 S1 eq_refl eq_refl eq_refl eq_refl eq_refl ltac:(left; reflexivity) ltac:(left; reflexivity)) as (S & S1' & S2).
    assert (ES : S = RtoC SS).
    { eapply C63_4c_unique; [exact S1'|].
      exists (fun _ _ _ _ => RtoC SS), (fun _ _ _ _ => true). split.
      - intros ip jp kp lp Hip Hjp Hkp Hlp. split; [split; [intros _; exact (Hkept ip jp kp lp Hip Hjp Hkp Hlp)|reflexivity]|]. intros _. cbn in Hip, Hjp, Hkp, Hlp.
        assert (ip = 0%Z) as -> by lia. assert (jp = 0%Z) as -> by lia. assert (kp = 0%Z) as -> by lia. assert (lp = 0%Z) as -> by lia.
        vm_compute in Q1. injection Q1 as <- <- <-. exact Q3.
      - unfold csumz. change (lsum (RtoC 0) Cplus (v_np ex4_view 0)) with (fun f : Z -> C => (RtoC 0 + f 0%Z)%C). cbv beta.
        unfold cf. cbn. rewrite <- !RtoC_mult, <- !RtoC_plus. f_equal. ring. }
    rewrite ES in S2. etransitivity; [exact S2|]. rewrite <- RtoC_mult. reflexivity. }
  destruct H2 as (_ & H2 & _). set (X := CINTcommon_fac_sp 0 * CINTcommon_fac_sp 0 * CINTcommon_fac_sp 0 * CINTcommon_fac_sp 0 * SS) in *. clearbody X.
  assert (EV : two_comp ex_tR ex_tI (-1) 0 (-1) 0 0 1 (fun c d s s' => spin_sum false s s' (fun c2 =>
     two_comp ex_tR ex_tI (-1) 0 (-1) 0 0 1 (fun a b r r' => spin_sum false r r' (fun c1 => M 0%Z c1 c2 0%Z 0%Z 0%Z 0%Z a b c d)))) = (3 * X, 4 * X)).
  { etransitivity; [exact (ex_two (fun c d => two_comp ex_tR ex_tI (-1) 0 (-1) 0 0 1 (fun a b r r' => spin_sum false r r' (fun _ => M 0%Z S1 S1 0%Z 0%Z 0%Z 0%Z a b c d))))|].
    etransitivity; [apply (f_equal (Cmult (-2, -1))); exact (ex_two (fun a b => M 0%Z S1 S1 0%Z 0%Z 0%Z 0%Z a b 0%Z 0%Z))|]. cbv beta. rewrite EM. unfold Cmult, RtoC. cbn [fst snd]. f_equal; ring. }
  split.
  - pose proof (H2 0 0 1 0 1 ltac:(by_z) ltac:(by_z) ltac:(by_z) ltac:(by_z) ltac:(by_z))%Z as E.
    change (OutSpec.place (2 * 2) 2 2 2 0 0 1 0 1) with 20%Z in E. rewrite E. f_equal. exact (f_equal fst EV).
  - pose proof (H2 0 1 1 0 1 ltac:(by_z) ltac:(by_z) ltac:(by_z) ltac:(by_z) ltac:(by_z))%Z as E.
    change (OutSpec.place (2 * 2) 2 2 2 0 1 1 0 1) with 21%Z in E. rewrite E. f_equal. exact (f_equal snd EV).
Qed.
