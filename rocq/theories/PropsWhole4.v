(** PropsWhole4.v — C65: two-electron driver calls with an optimizer, from the shells in the tables to the caller's array.

    CINT2e_drv and CINT3c2e_drv with an optimizer, each as one program: the loop selected by the contraction pattern, pair data
    taken from the optimizer ([stored]) or built by the loop, screening, integrand functions, transformation and output.  The
    call succeeds and the caller's array receives the contracted integrals over the primitives that the screening keeps, as
    without optimizer (C63, C64); only the estimates and limits of the screening differ.  The tables of the optimizer are those
    of C37 and C38, made from the same bas and env that the call sees.  Real numbers instead of doubles; the root finders'
    results are a hypothesis. *)
From Coq Require Import Reals Lra QArith Qreals String.
From Coquelicot Require Import Coquelicot.
From Verif Require Import Base BasModel BasSpec EnvModel IdxModel IdxSpec CtrModel
  OptModel OptSpec OptPair ScreenSpec ScreenProof ScreenFinal OutModel OutSpec TabModel
  OpSpec RecModel RecSpec GaussInt Gauss2Int IntgModel IntgSpec IntgTab IntgStmt IntgAll IntgReal QuadSpec OperSpec OperModel Oper2e PropsOper
  WholeModel WholeSpec WholeBatch Whole1e Whole2Model Whole2Batch Whole2Spec Whole4c WholeOptModel WholeOptSpec PropsWhole2.
From Verif Require WholeOpt4 WholeOpt3.
Local Open Scope R_scope.

(** The Cartesian functions of a four-centre entry point.  A pair of primitives in the optimizer's table has a value only below
    the user's cutoff, one built by the loop below the cutoff of the driver; no raised cutoff for the short-range operator. *)
Theorem C65_4c_cart nbas (V : view) (ev : Z -> R) (lm : Z -> Z -> R) rys srys t ng stored i j k l short dims idx (g : arr R) (m : mem R) (out : arr R) n1 n2 n3 n4 :
  let li := v_l V i in let lj := v_l V j in let lk := v_l V k in let ll := v_l V l in
  let ci := v_nc V i in let cj := v_nc V j in let ck := v_nc V k in let cl := v_nc V l in
  let e := init_int2e short ng li lj lk ll ci cj ck cl in let nc := Z.of_nat (length (g_rows (t_f t))) in
  let fi := CINTlen_cart li in let fj := CINTlen_cart lj in let fk := CINTlen_cart lk in let fl := CINTlen_cart ll in
  let est_ij := pair_est V ev lm i j (pair_degree V ng stored i j (li + IINC ng + (lj + JINC ng))) in
  let est_kl := pair_est V ev lm k l (pair_degree V ng stored k l (lk + KINC ng + (ll + LINC ng))) in
  let C := cutoff_2e false (ev 0%Z) in let T := if stored then user_cutoff (ev 0%Z) else C in
  let P ip jp := product_centre (ex V ev i ip) (ex V ev j jp) (ctr V ev i) (ctr V ev j) in let Q kp lp := product_centre (ex V ev k kp) (ex V ev l lp) (ctr V ev k) (ctr V ev l) in
  let kept ip jp kp lp := est_ij ip jp < T /\ est_kl kp lp < T /\ est_ij ip jp + est_kl kp lp <= C /\
    near_enough (ev 8%Z) (ex V ev i ip + ex V ev j jp) (ex V ev k kp + ex V ev l lp) (P ip jp) (Q kp lp) (C - est_kl kp lp - est_ij ip jp) in
  (* shells *)
  good_shells nbas V ev lm -> (0 <= i < nbas)%Z -> (0 <= j < nbas)%Z -> (0 <= k < nbas)%Z -> (0 <= l < nbas)%Z ->
  (0 <= li <= 15)%Z -> (0 <= lj <= 15)%Z -> (0 <= lk <= 15)%Z -> (0 <= ll <= 15)%Z ->
  (0 <= v_np V i /\ 1 <= ci)%Z -> (0 <= v_np V j /\ 1 <= cj)%Z -> (0 <= v_np V k /\ 1 <= ck)%Z -> (0 <= v_np V l /\ 1 <= cl)%Z ->
  (* entry point: any four-centre entry, any operator *)
  In t catalogue -> ent_ng t = Some ng -> en_fam (t_e t) = F2e -> ~ In (en_name (t_e t)) except_names ->
  (short = true <-> ev 8%Z < 0) -> (nrys_roots e <= 32)%Z -> finds_roots_2e rys srys (nrys_roots e) (rys_order e) (ev 8%Z) ->
  (* work arrays: large enough, with arbitrary numbers in them *)
  (3 * nf e <= asize idx)%Z -> filled g -> ((2 ^ GSHIFT ng + 1) * (3 * g_size e) <= asize g)%Z -> (4 * g_size e <= asize g)%Z -> (forall s, filled (buf m s)) ->
  opt_scratch4 (fun s => asize (buf m s)) (nf e * nc) nc ci cj ck cl -> (nf e * (ci * cj * ck * cl) * nc <= asize (buf m 5))%Z ->
  (* the caller's array *)
  (fi * ci <= n1)%Z -> (fj * cj <= n2)%Z -> (fk * ck <= n3)%Z -> (fl * cl <= n4)%Z ->
  dims_are dims 4 [n1; n2; n3; n4] [(fi * ci)%Z; (fj * cj)%Z; (fk * ck)%Z; (fl * cl)%Z] ->
  room (asize out) nc n1 n2 n3 n4 (fi * ci) (fj * cj) (fk * ck) (fl * cl) ->
  exists out' hv Y f h, int2e_drv_opt V ev rys srys t ng stored i j k l CartK dims idx g m out = Some (out', hv) /\
    factor (t_e t) = Some f /\ en_cart (t_e t) = Some h /\ (~ In (en_name (t_e t)) other_factor -> f = h) /\
    stored_block out out' nc n1 n2 n3 n4 (fi * ci) (fj * cj) (fk * ck) (fl * cl)
      (fun n I J K L => Y n (I / fi) (J / fj) (K / fk) (L / fl) (I mod fi) (J mod fj) (K mod fk) (L mod fl))%Z /\
    (forall (a b c d kk : nat) ic jc kc lc ti tj tk tl s1 s2 q,
       nth_error (cart_list li) a = Some ti -> nth_error (cart_list lj) b = Some tj -> nth_error (cart_list lk) c = Some tk -> nth_error (cart_list ll) d = Some tl ->
       nth_error (components (t_d t) (sis (en_c2s1 (t_e t))) (sis (en_c2s2 (t_e t)))) kk = Some (s1, s2, q) ->
       exists S, summed4 V ev kept i j k l ic jc kc lc (fun ip jp kp lp => eri4 V ev i j k l ip jp kp lp ti tj tk tl q) S /\
         (cval (cqmul (qfac f) (phase (t_e t) s1 s2)) * RtoC (Y (Z.of_nat kk) ic jc kc lc (Z.of_nat a) (Z.of_nat b) (Z.of_nat c) (Z.of_nat d))
          = RtoC (Q2R (Qmake (fst h) (snd h)) * (CINTcommon_fac_sp li * CINTcommon_fac_sp lj * CINTcommon_fac_sp lk * CINTcommon_fac_sp ll)) * S)%C) /\
    ((exists ip jp kp lp, (0 <= ip < v_np V i)%Z /\ (0 <= jp < v_np V j)%Z /\ (0 <= kp < v_np V k)%Z /\ (0 <= lp < v_np V l)%Z /\ kept ip jp kp lp) -> hv = true) /\
    (hv = true -> exists ip jp kp lp, (0 <= ip < v_np V i)%Z /\ (0 <= jp < v_np V j)%Z /\ (0 <= kp < v_np V k)%Z /\ (0 <= lp < v_np V l)%Z /\
       est_kl kp lp <= C /\ est_ij ip jp + est_kl kp lp <= C).
Proof.
  intros li lj lk ll ci cj ck cl e nc fi fj fk fl est_ij est_kl C T P Q kept HG Hi Hj Hk Hl Hli Hlj Hlk Hll Hni Hnj Hnk Hnl Ht En Hf Hex Hom Hnr HR
    Hidx Hgf Hgs Hgs4 Hm W0 W5 D1 D2 D3 D4 D5 D6.
  assert (Ee : e = env_o4 V ev t ng i j k l).
  { unfold env_o4, env_2e. rewrite Hf. unfold fam_env, e. replace (Rltb (ev 8%Z) 0) with short; [reflexivity|].
    symmetry. destruct short; [apply Rltb_iff, Hom; reflexivity|]. apply ltb_le, Rnot_lt_le. intros X. apply Hom in X. discriminate. }
  subst kept. clearbody e. subst e. destruct (factors t Ht (or_introl Hf)) as (f & hc & hs & Ef & Ec & Es & Eo).
  destruct (index2_ok t ng (Rltb (ev 8%Z) 0) (l4 V i j k l) (c4 V i j k l) idx Ht (or_introl Hf) En) as [idx' Eidx];
    [intros x; destruct x; assumption|rewrite Hf; intros x; destruct x; discriminate|exact Hidx|].
  assert (Efv : entry_factor CartK (t_e t) = Some (Q2R (Qmake (fst hc) (snd hc)))) by (unfold entry_factor; rewrite Ec; reflexivity).
  destruct (WholeOpt4.drv_cart nbas V ev lm rys srys t ng stored i j k l f HG Hi Hj Hk Hl Hni Hnj Hnk Hnl Ht Hf Hex En Ef Hli Hlj Hlk Hll Hnr HR idx idx' (asize g) Hidx Eidx Hgs Hgs4
    m g Hm (conj Hgf eq_refl) W0 W5 _ CartK Efv dims out n1 n2 n3 n4 eq_refl D1 D2 D3 D4 D5 D6) as (out' & hv & Y & H1 & H2 & H3 & H4 & H5).
  exists out', hv, Y, f, hc. split; [exact H1|]. split; [exact Ef|]. split; [exact Ec|]. split; [intros X; apply (Eo X)|]. split; [exact H2|]. split; [exact H3|]. split.
  - intros (ip & jp & kp & lp & P1 & P2 & P3 & P4 & K). apply H4. exists ip, jp, kp, lp. exact (conj (conj P1 (conj P2 (conj P3 P4))) K).
  - intros X. destruct (H5 X) as (ip & jp & kp & lp & (P1 & P2 & P3 & P4) & K). exists ip, jp, kp, lp. exact (conj P1 (conj P2 (conj P3 (conj P4 K)))).
Qed.
Print Assumptions C65_4c_cart.

(** The spherical functions: the same values transformed with the tables of C25. *)
Theorem C65_4c_sph nbas (V : view) (ev : Z -> R) (lm : Z -> Z -> R) rys srys t ng stored i j k l short dims idx (g : arr R) (m : mem R) (out : arr R) n1 n2 n3 n4 :
  let li := v_l V i in let lj := v_l V j in let lk := v_l V k in let ll := v_l V l in
  let ci := v_nc V i in let cj := v_nc V j in let ck := v_nc V k in let cl := v_nc V l in
  let e := init_int2e short ng li lj lk ll ci cj ck cl in let nc := Z.of_nat (length (g_rows (t_f t))) in
  let si := (li * 2 + 1)%Z in let sj := (lj * 2 + 1)%Z in let sk := (lk * 2 + 1)%Z in let sl := (ll * 2 + 1)%Z in
  let est_ij := pair_est V ev lm i j (pair_degree V ng stored i j (li + IINC ng + (lj + JINC ng))) in
  let est_kl := pair_est V ev lm k l (pair_degree V ng stored k l (lk + KINC ng + (ll + LINC ng))) in
  let C := cutoff_2e false (ev 0%Z) in let T := if stored then user_cutoff (ev 0%Z) else C in
  let P ip jp := product_centre (ex V ev i ip) (ex V ev j jp) (ctr V ev i) (ctr V ev j) in let Q kp lp := product_centre (ex V ev k kp) (ex V ev l lp) (ctr V ev k) (ctr V ev l) in
  let kept ip jp kp lp := est_ij ip jp < T /\ est_kl kp lp < T /\ est_ij ip jp + est_kl kp lp <= C /\
    near_enough (ev 8%Z) (ex V ev i ip + ex V ev j jp) (ex V ev k kp + ex V ev l lp) (P ip jp) (Q kp lp) (C - est_kl kp lp - est_ij ip jp) in
  (* shells *)
  good_shells nbas V ev lm -> (0 <= i < nbas)%Z -> (0 <= j < nbas)%Z -> (0 <= k < nbas)%Z -> (0 <= l < nbas)%Z ->
  (0 <= li <= 15)%Z -> (0 <= lj <= 15)%Z -> (0 <= lk <= 15)%Z -> (0 <= ll <= 15)%Z ->
  (0 <= v_np V i /\ 1 <= ci)%Z -> (0 <= v_np V j /\ 1 <= cj)%Z -> (0 <= v_np V k /\ 1 <= ck)%Z -> (0 <= v_np V l /\ 1 <= cl)%Z ->
  (* entry point: any four-centre entry, any operator *)
  In t catalogue -> ent_ng t = Some ng -> en_fam (t_e t) = F2e -> ~ In (en_name (t_e t)) except_names ->
  (short = true <-> ev 8%Z < 0) -> (nrys_roots e <= 32)%Z -> finds_roots_2e rys srys (nrys_roots e) (rys_order e) (ev 8%Z) ->
  (* work arrays: large enough, with arbitrary numbers in them *)
  (3 * nf e <= asize idx)%Z -> filled g -> ((2 ^ GSHIFT ng + 1) * (3 * g_size e) <= asize g)%Z -> (4 * g_size e <= asize g)%Z -> (forall s, filled (buf m s)) ->
  opt_scratch4 (fun s => asize (buf m s)) (nf e * nc) nc ci cj ck cl -> (nf e * (ci * cj * ck * cl) * nc <= asize (buf m 5))%Z ->
  (* the caller's array *)
  (si * ci <= n1)%Z -> (sj * cj <= n2)%Z -> (sk * ck <= n3)%Z -> (sl * cl <= n4)%Z ->
  dims_are dims 4 [n1; n2; n3; n4] [(si * ci)%Z; (sj * cj)%Z; (sk * ck)%Z; (sl * cl)%Z] ->
  room (asize out) nc n1 n2 n3 n4 (si * ci) (sj * cj) (sk * ck) (sl * cl) ->
  exists out' hv Y f h, int2e_drv_opt V ev rys srys t ng stored i j k l SphK dims idx g m out = Some (out', hv) /\
    factor (t_e t) = Some f /\ en_sph (t_e t) = Some h /\ (~ In (en_name (t_e t)) other_factor -> f = h) /\
    stored_block out out' nc n1 n2 n3 n4 (si * ci) (sj * cj) (sk * ck) (sl * cl)
      (fun n I J K L =>
        apply_T 0%R Rplus Rmult sph_coef c2s_off CINTlen_cart li (I mod si) (fun a =>
        apply_T 0%R Rplus Rmult sph_coef c2s_off CINTlen_cart lk (K mod sk) (fun c =>
        apply_T 0%R Rplus Rmult sph_coef c2s_off CINTlen_cart ll (L mod sl) (fun d =>
        apply_T 0%R Rplus Rmult sph_coef c2s_off CINTlen_cart lj (J mod sj) (fun b => Y n (I / si) (J / sj) (K / sk) (L / sl) a b c d)))))%Z /\
    (forall (a b c d kk : nat) ic jc kc lc ti tj tk tl s1 s2 q,
       nth_error (cart_list li) a = Some ti -> nth_error (cart_list lj) b = Some tj -> nth_error (cart_list lk) c = Some tk -> nth_error (cart_list ll) d = Some tl ->
       nth_error (components (t_d t) (sis (en_c2s1 (t_e t))) (sis (en_c2s2 (t_e t)))) kk = Some (s1, s2, q) ->
       exists S, summed4 V ev kept i j k l ic jc kc lc (fun ip jp kp lp => eri4 V ev i j k l ip jp kp lp ti tj tk tl q) S /\
         (cval (cqmul (qfac f) (phase (t_e t) s1 s2)) * RtoC (Y (Z.of_nat kk) ic jc kc lc (Z.of_nat a) (Z.of_nat b) (Z.of_nat c) (Z.of_nat d))
          = RtoC (Q2R (Qmake (fst h) (snd h)) * (CINTcommon_fac_sp li * CINTcommon_fac_sp lj * CINTcommon_fac_sp lk * CINTcommon_fac_sp ll)) * S)%C) /\
    ((exists ip jp kp lp, (0 <= ip < v_np V i)%Z /\ (0 <= jp < v_np V j)%Z /\ (0 <= kp < v_np V k)%Z /\ (0 <= lp < v_np V l)%Z /\ kept ip jp kp lp) -> hv = true) /\
    (hv = true -> exists ip jp kp lp, (0 <= ip < v_np V i)%Z /\ (0 <= jp < v_np V j)%Z /\ (0 <= kp < v_np V k)%Z /\ (0 <= lp < v_np V l)%Z /\
       est_kl kp lp <= C /\ est_ij ip jp + est_kl kp lp <= C).
Proof.
  intros li lj lk ll ci cj ck cl e nc si sj sk sl est_ij est_kl C T P Q kept HG Hi Hj Hk Hl Hli Hlj Hlk Hll Hni Hnj Hnk Hnl Ht En Hf Hex Hom Hnr HR
    Hidx Hgf Hgs Hgs4 Hm W0 W5 D1 D2 D3 D4 D5 D6.
  assert (Ee : e = env_o4 V ev t ng i j k l).
  { unfold env_o4, env_2e. rewrite Hf. unfold fam_env, e. replace (Rltb (ev 8%Z) 0) with short; [reflexivity|].
    symmetry. destruct short; [apply Rltb_iff, Hom; reflexivity|]. apply ltb_le, Rnot_lt_le. intros X. apply Hom in X. discriminate. }
  subst kept. clearbody e. subst e. destruct (factors t Ht (or_introl Hf)) as (f & hc & hs & Ef & Ec & Es & Eo).
  destruct (index2_ok t ng (Rltb (ev 8%Z) 0) (l4 V i j k l) (c4 V i j k l) idx Ht (or_introl Hf) En) as [idx' Eidx];
    [intros x; destruct x; assumption|rewrite Hf; intros x; destruct x; discriminate|exact Hidx|].
  assert (Efv : entry_factor SphK (t_e t) = Some (Q2R (Qmake (fst hs) (snd hs)))) by (unfold entry_factor; rewrite Es; reflexivity).
  destruct (WholeOpt4.drv_sph nbas V ev lm rys srys t ng stored i j k l f HG Hi Hj Hk Hl Hni Hnj Hnk Hnl Ht Hf Hex En Ef Hli Hlj Hlk Hll Hnr HR idx idx' (asize g) Hidx Eidx Hgs Hgs4
    m g Hm (conj Hgf eq_refl) W0 W5 _ SphK Efv dims out n1 n2 n3 n4 eq_refl D1 D2 D3 D4 D5 D6) as (out' & hv & Y & H1 & H2 & H3 & H4 & H5).
  exists out', hv, Y, f, hs. split; [exact H1|]. split; [exact Ef|]. split; [exact Es|]. split; [intros X; apply (Eo X)|]. split; [exact H2|]. split; [exact H3|]. split.
  - intros (ip & jp & kp & lp & P1 & P2 & P3 & P4 & K). apply H4. exists ip, jp, kp, lp. exact (conj (conj P1 (conj P2 (conj P3 P4))) K).
  - intros X. destruct (H5 X) as (ip & jp & kp & lp & (P1 & P2 & P3 & P4) & K). exists ip, jp, kp, lp. exact (conj P1 (conj P2 (conj P3 (conj P4 K)))).
Qed.
Print Assumptions C65_4c_sph.

(** Three-centre entry points: the cutoff is raised for the short-range operator as without optimizer. *)
Theorem C65_3c_cart nbas (V : view) (ev : Z -> R) (lm : Z -> Z -> R) rys srys t ng stored i j k short dims idx (g : arr R) (m : mem R) (out : arr R) n1 n2 n3 :
  let li := v_l V i in let lj := v_l V j in let lk := v_l V k in
  let ci := v_nc V i in let cj := v_nc V j in let ck := v_nc V k in
  let e := init_int3c2e short ng li lj lk ci cj ck in let nc := Z.of_nat (length (g_rows (t_f t))) in
  let fi := CINTlen_cart li in let fj := CINTlen_cart lj in let fk := CINTlen_cart lk in
  let est := pair_est V ev lm i j (pair_degree V ng stored i j (li + IINC ng + (lj + JINC ng))) in
  let U := user_cutoff (ev 0%Z) in let Ur := raised V ev i j (li + IINC ng + (lj + JINC ng)) (rys_order e) U in
  let P ip jp := product_centre (ex V ev i ip) (ex V ev j jp) (ctr V ev i) (ctr V ev j) in
  let kept ip jp kp := est ip jp < U /\ near_enough (ev 8%Z) (ex V ev i ip + ex V ev j jp) (ex V ev k kp) (P ip jp) (ctr V ev k) (Ur - est ip jp) in
  (* shells *)
  good_shells nbas V ev lm -> (0 <= i < nbas)%Z -> (0 <= j < nbas)%Z -> (0 <= k < nbas)%Z ->
  (0 <= li <= 15)%Z -> (0 <= lj <= 15)%Z -> (0 <= lk <= 15)%Z ->
  (0 <= v_np V i /\ 1 <= ci)%Z -> (0 <= v_np V j /\ 1 <= cj)%Z -> (0 <= v_np V k /\ 1 <= ck)%Z ->
  (* entry point: any three-centre entry, any operator *)
  In t catalogue -> ent_ng t = Some ng -> en_fam (t_e t) = F3c2e -> ~ In (en_name (t_e t)) except_names ->
  (short = true <-> ev 8%Z < 0) -> (nrys_roots e <= 32)%Z -> finds_roots_2e rys srys (nrys_roots e) (rys_order e) (ev 8%Z) ->
  (* work arrays: large enough, with arbitrary numbers in them *)
  (3 * nf e <= asize idx)%Z -> filled g -> ((2 ^ GSHIFT ng + 1) * (3 * g_size e) <= asize g)%Z -> (4 * g_size e <= asize g)%Z -> (forall s, filled (buf m s)) ->
  opt_scratch3 (fun s => asize (buf m s)) (nf e * nc) nc ci cj ck -> (nf e * (ci * cj * ck) * nc <= asize (buf m 5))%Z ->
  (* the caller's array *)
  (fi * ci <= n1)%Z -> (fj * cj <= n2)%Z -> (fk * ck <= n3)%Z ->
  dims_are dims 3 [n1; n2; n3] [(fi * ci)%Z; (fj * cj)%Z; (fk * ck)%Z] ->
  room (asize out) nc n1 n2 n3 1 (fi * ci) (fj * cj) (fk * ck) 1 ->
  exists out' hv Y f h, int3c2e_drv_opt V ev rys srys t ng stored i j k CartK dims idx g m out = Some (out', hv) /\
    factor (t_e t) = Some f /\ en_cart (t_e t) = Some h /\ (~ In (en_name (t_e t)) other_factor -> f = h) /\
    stored_block out out' nc n1 n2 n3 1 (fi * ci) (fj * cj) (fk * ck) 1
      (fun n I J K _ => Y n (I / fi) (J / fj) (K / fk) (I mod fi) (J mod fj) (K mod fk))%Z /\
    (forall (a b c kk : nat) ic jc kc ti tj tk s1 s2 q,
       nth_error (cart_list li) a = Some ti -> nth_error (cart_list lj) b = Some tj -> nth_error (cart_list lk) c = Some tk ->
       nth_error (components (t_d t) (sis (en_c2s1 (t_e t))) (sis (en_c2s2 (t_e t)))) kk = Some (s1, s2, q) ->
       exists S, summed3 V ev kept i j k ic jc kc (fun ip jp kp => eri3 V ev i j k ip jp kp ti tj tk q) S /\
         (cval (cqmul (qfac f) (phase (t_e t) s1 s2)) * RtoC (Y (Z.of_nat kk) ic jc kc (Z.of_nat a) (Z.of_nat b) (Z.of_nat c))
          = RtoC (Q2R (Qmake (fst h) (snd h)) * (CINTcommon_fac_sp li * CINTcommon_fac_sp lj * CINTcommon_fac_sp lk)) * S)%C) /\
    ((exists ip jp kp, (0 <= ip < v_np V i)%Z /\ (0 <= jp < v_np V j)%Z /\ (0 <= kp < v_np V k)%Z /\ kept ip jp kp) -> hv = true) /\
    (hv = true -> exists ip jp kp, (0 <= ip < v_np V i)%Z /\ (0 <= jp < v_np V j)%Z /\ (0 <= kp < v_np V k)%Z /\ est ip jp <= Ur).
Proof.
  intros li lj lk ci cj ck e nc fi fj fk est U Ur P kept HG Hi Hj Hk Hli Hlj Hlk Hni Hnj Hnk Ht En Hf Hex Hom Hnr HR
    Hidx Hgf Hgs Hgs4 Hm W0 W5 D1 D2 D3 D5 D6.
  assert (Ee : e = env_o3 V ev t ng i j k).
  { unfold env_o3, env_2e. rewrite Hf. unfold fam_env, e. replace (Rltb (ev 8%Z) 0) with short; [reflexivity|].
    symmetry. destruct short; [apply Rltb_iff, Hom; reflexivity|]. apply ltb_le, Rnot_lt_le. intros X. apply Hom in X. discriminate. }
  subst kept Ur. clearbody e. subst e. assert (H2f : two_fam (en_fam (t_e t))) by (right; left; exact Hf). destruct (factors t Ht H2f) as (f & hc & hs & Ef & Ec & Es & Eo).
  destruct (index2_ok t ng (Rltb (ev 8%Z) 0) (l3 V i j k) (c3 V i j k) idx Ht H2f En) as [idx' Eidx];
    [intros x; destruct x; try assumption; clear; cbn; lia|rewrite Hf; intros x; destruct x; try discriminate; reflexivity|exact Hidx|].
  assert (Efv : entry_factor CartK (t_e t) = Some (Q2R (Qmake (fst hc) (snd hc)))) by (unfold entry_factor; rewrite Ec; reflexivity).
  destruct (WholeOpt3.drv_cart nbas V ev lm rys srys t ng stored i j k f HG Hi Hj Hk Hni Hnj Hnk Ht Hf Hex En Ef Hli Hlj Hlk Hnr HR idx idx' (asize g) Hidx Eidx Hgs Hgs4
    m g Hm (conj Hgf eq_refl) W0 W5 _ CartK Efv dims out n1 n2 n3 eq_refl D1 D2 D3 D5 D6) as (out' & hv & Y & H1 & H2 & H3 & H4 & H5).
  exists out', hv, Y, f, hc. split; [exact H1|]. split; [exact Ef|]. split; [exact Ec|]. split; [intros X; apply (Eo X)|]. split; [exact H2|]. split; [exact H3|]. split.
  - intros (ip & jp & kp & P1 & P2 & P3 & K). apply H4. exists ip, jp, kp. exact (conj (conj P1 (conj P2 P3)) K).
  - intros X. destruct (H5 X) as (ip & jp & kp & (P1 & P2 & P3) & K). exists ip, jp, kp. exact (conj P1 (conj P2 (conj P3 K))).
Qed.
Print Assumptions C65_3c_cart.

(** The spherical functions: the same values transformed with the tables of C25. *)
Theorem C65_3c_sph nbas (V : view) (ev : Z -> R) (lm : Z -> Z -> R) rys srys t ng stored i j k short dims idx (g : arr R) (m : mem R) (out : arr R) n1 n2 n3 :
  let li := v_l V i in let lj := v_l V j in let lk := v_l V k in
  let ci := v_nc V i in let cj := v_nc V j in let ck := v_nc V k in
  let e := init_int3c2e short ng li lj lk ci cj ck in let nc := Z.of_nat (length (g_rows (t_f t))) in
  let si := (li * 2 + 1)%Z in let sj := (lj * 2 + 1)%Z in let sk := (lk * 2 + 1)%Z in
  let est := pair_est V ev lm i j (pair_degree V ng stored i j (li + IINC ng + (lj + JINC ng))) in
  let U := user_cutoff (ev 0%Z) in let Ur := raised V ev i j (li + IINC ng + (lj + JINC ng)) (rys_order e) U in
  let P ip jp := product_centre (ex V ev i ip) (ex V ev j jp) (ctr V ev i) (ctr V ev j) in
  let kept ip jp kp := est ip jp < U /\ near_enough (ev 8%Z) (ex V ev i ip + ex V ev j jp) (ex V ev k kp) (P ip jp) (ctr V ev k) (Ur - est ip jp) in
  (* shells *)
  good_shells nbas V ev lm -> (0 <= i < nbas)%Z -> (0 <= j < nbas)%Z -> (0 <= k < nbas)%Z ->
  (0 <= li <= 15)%Z -> (0 <= lj <= 15)%Z -> (0 <= lk <= 15)%Z ->
  (0 <= v_np V i /\ 1 <= ci)%Z -> (0 <= v_np V j /\ 1 <= cj)%Z -> (0 <= v_np V k /\ 1 <= ck)%Z ->
  (* entry point: any three-centre entry, any operator *)
  In t catalogue -> ent_ng t = Some ng -> en_fam (t_e t) = F3c2e -> ~ In (en_name (t_e t)) except_names ->
  (short = true <-> ev 8%Z < 0) -> (nrys_roots e <= 32)%Z -> finds_roots_2e rys srys (nrys_roots e) (rys_order e) (ev 8%Z) ->
  (* work arrays: large enough, with arbitrary numbers in them *)
  (3 * nf e <= asize idx)%Z -> filled g -> ((2 ^ GSHIFT ng + 1) * (3 * g_size e) <= asize g)%Z -> (4 * g_size e <= asize g)%Z -> (forall s, filled (buf m s)) ->
  opt_scratch3 (fun s => asize (buf m s)) (nf e * nc) nc ci cj ck -> (nf e * (ci * cj * ck) * nc <= asize (buf m 5))%Z ->
  (* the caller's array *)
  (si * ci <= n1)%Z -> (sj * cj <= n2)%Z -> (sk * ck <= n3)%Z ->
  dims_are dims 3 [n1; n2; n3] [(si * ci)%Z; (sj * cj)%Z; (sk * ck)%Z] ->
  room (asize out) nc n1 n2 n3 1 (si * ci) (sj * cj) (sk * ck) 1 ->
  exists out' hv Y f h, int3c2e_drv_opt V ev rys srys t ng stored i j k SphK dims idx g m out = Some (out', hv) /\
    factor (t_e t) = Some f /\ en_sph (t_e t) = Some h /\ (~ In (en_name (t_e t)) other_factor -> f = h) /\
    stored_block out out' nc n1 n2 n3 1 (si * ci) (sj * cj) (sk * ck) 1
      (fun n I J K _ =>
        apply_T 0%R Rplus Rmult sph_coef c2s_off CINTlen_cart li (I mod si) (fun a =>
        apply_T 0%R Rplus Rmult sph_coef c2s_off CINTlen_cart lk (K mod sk) (fun c =>
        apply_T 0%R Rplus Rmult sph_coef c2s_off CINTlen_cart lj (J mod sj) (fun b => Y n (I / si) (J / sj) (K / sk) a b c))))%Z /\
    (forall (a b c kk : nat) ic jc kc ti tj tk s1 s2 q,
       nth_error (cart_list li) a = Some ti -> nth_error (cart_list lj) b = Some tj -> nth_error (cart_list lk) c = Some tk ->
       nth_error (components (t_d t) (sis (en_c2s1 (t_e t))) (sis (en_c2s2 (t_e t)))) kk = Some (s1, s2, q) ->
       exists S, summed3 V ev kept i j k ic jc kc (fun ip jp kp => eri3 V ev i j k ip jp kp ti tj tk q) S /\
         (cval (cqmul (qfac f) (phase (t_e t) s1 s2)) * RtoC (Y (Z.of_nat kk) ic jc kc (Z.of_nat a) (Z.of_nat b) (Z.of_nat c))
          = RtoC (Q2R (Qmake (fst h) (snd h)) * (CINTcommon_fac_sp li * CINTcommon_fac_sp lj * CINTcommon_fac_sp lk)) * S)%C) /\
    ((exists ip jp kp, (0 <= ip < v_np V i)%Z /\ (0 <= jp < v_np V j)%Z /\ (0 <= kp < v_np V k)%Z /\ kept ip jp kp) -> hv = true) /\
    (hv = true -> exists ip jp kp, (0 <= ip < v_np V i)%Z /\ (0 <= jp < v_np V j)%Z /\ (0 <= kp < v_np V k)%Z /\ est ip jp <= Ur).
Proof.
  intros li lj lk ci cj ck e nc si sj sk est U Ur P kept HG Hi Hj Hk Hli Hlj Hlk Hni Hnj Hnk Ht En Hf Hex Hom Hnr HR
    Hidx Hgf Hgs Hgs4 Hm W0 W5 D1 D2 D3 D5 D6.
  assert (Ee : e = env_o3 V ev t ng i j k).
  { unfold env_o3, env_2e. rewrite Hf. unfold fam_env, e. replace (Rltb (ev 8%Z) 0) with short; [reflexivity|].
    symmetry. destruct short; [apply Rltb_iff, Hom; reflexivity|]. apply ltb_le, Rnot_lt_le. intros X. apply Hom in X. discriminate. }
  subst kept Ur. clearbody e. subst e. assert (H2f : two_fam (en_fam (t_e t))) by (right; left; exact Hf). destruct (factors t Ht H2f) as (f & hc & hs & Ef & Ec & Es & Eo).
  destruct (index2_ok t ng (Rltb (ev 8%Z) 0) (l3 V i j k) (c3 V i j k) idx Ht H2f En) as [idx' Eidx];
    [intros x; destruct x; try assumption; clear; cbn; lia|rewrite Hf; intros x; destruct x; try discriminate; reflexivity|exact Hidx|].
  assert (Efv : entry_factor SphK (t_e t) = Some (Q2R (Qmake (fst hs) (snd hs)))) by (unfold entry_factor; rewrite Es; reflexivity).
  destruct (WholeOpt3.drv_sph nbas V ev lm rys srys t ng stored i j k f HG Hi Hj Hk Hni Hnj Hnk Ht Hf Hex En Ef Hli Hlj Hlk Hnr HR idx idx' (asize g) Hidx Eidx Hgs Hgs4
    m g Hm (conj Hgf eq_refl) W0 W5 _ SphK Efv dims out n1 n2 n3 eq_refl D1 D2 D3 D5 D6) as (out' & hv & Y & H1 & H2 & H3 & H4 & H5).
  exists out', hv, Y, f, hs. split; [exact H1|]. split; [exact Ef|]. split; [exact Es|]. split; [intros X; apply (Eo X)|]. split; [exact H2|]. split; [exact H3|]. split.
  - intros (ip & jp & kp & P1 & P2 & P3 & K). apply H4. exists ip, jp, kp. exact (conj (conj P1 (conj P2 P3)) K).
  - intros X. destruct (H5 X) as (ip & jp & kp & (P1 & P2 & P3) & K). exists ip, jp, kp. exact (conj P1 (conj P2 (conj P3 K))).
Qed.
Print Assumptions C65_3c_sph.

(** The call of C63's example, with stored pair data and without. *)
Example C65_example stored : exists out', int2e_drv_opt ex4_view ex4_env (fun _ => one_root) (fun _ _ _ => (fun _ => 0, fun _ => 0)) e_int2e (mkng 0 0 0 0 0 1 1 1) stored 0 0 0 0 CartK None
    (uninit 3) (of_fun 6 (fun _ => 7)) ex4_mem (uninit 1) = Some (out', true) /\
  rd out' 0 = Some (CINTcommon_fac_sp 0 * CINTcommon_fac_sp 0 * CINTcommon_fac_sp 0 * CINTcommon_fac_sp 0 * (2 * (PI * PI * sqrt PI) / 8)).
Proof.
  assert (EC : cutoff_2e false (ex4_env 0) = 60).
  { unfold cutoff_2e. cbn [ex4_env Z.eqb]. destruct (Req_EM_T 0 0); [reflexivity|lra]. }
  assert (HR : finds_roots_2e (fun _ => one_root) (fun _ _ _ => (fun _ => 0, fun _ => 0)) 1 1 (ex4_env 8)).
  { split; [intros m y n Hn Hy; apply one_root_ok|]. split; [intros m y z n Hn Hy; cbn; lra|]. intros a0 x Ha Hx. split; [intros _; apply one_root_ok|].
    cbn [ex4_env Z.eqb Pos.eqb]. repeat split; intros X; lra. }
  assert (Hroom : room 1 1 1 1 1 1 1 1 1 1). { intros n a b c d Hn Ha Hb Hc Hd. unfold OutSpec.place. lia. }
  assert (H08 : false = true <-> ex4_env 8 < 0) by (split; [discriminate|cbn; lra]).
  assert (Hgf : filled (of_fun 6 (fun _ => 7))) by apply filled_of.
  assert (Hmf : forall s, filled (buf ex4_mem s)) by (intros s; apply filled_of).
  destruct (C65_4c_cart 1 ex4_view ex4_env (fun _ _ => ln 1) (fun _ => one_root) (fun _ _ _ => (fun _ => 0, fun _ => 0)) e_int2e (mkng 0 0 0 0 0 1 1 1) stored 0 0 0 0 false None
    (uninit 3) (of_fun 6 (fun _ => 7)) ex4_mem (uninit 1) 1 1 1 1 ex4_good ltac:(by_z) ltac:(by_z) ltac:(by_z) ltac:(by_z) ltac:(by_z) ltac:(by_z) ltac:(by_z) ltac:(by_z) ltac:(by_z) ltac:(by_z) ltac:(by_z) ltac:(by_z) ltac:(by_z) ltac:(by_z) ltac:(by_z) ltac:(by_z) H08 ltac:(by_z) HR ltac:(by_z) Hgf ltac:(by_z) ltac:(by_z) Hmf ltac:(by_z) ltac:(by_z) ltac:(by_z) ltac:(by_z) ltac:(by_z) ltac:(by_z) ltac:(by_z) Hroom)
    as (out' & hv & Y & f & h & H1 & Ef & Eh & Efh & H2 & H3 & H4 & _).
  assert (Hest := ex4_est 0 0 ltac:(lia) ltac:(lia)).
    assert (Hkept : forall ip jp kp lp, (0 <= ip < 1)%Z -> (0 <= jp < 1)%Z -> (0 <= kp < 1)%Z -> (0 <= lp < 1)%Z ->
       let C := cutoff_2e false (ex4_env 0) in let T := if stored then user_cutoff (ex4_env 0) else C in let est_kl := pair_est ex4_view ex4_env (fun _ _ => ln 1) 0 0 (pair_degree ex4_view (mkng 0 0 0 0 0 1 1 1) stored 0 0 0) in
       let est_ij := pair_est ex4_view ex4_env (fun _ _ => ln 1) 0 0 (pair_degree ex4_view (mkng 0 0 0 0 0 1 1 1) stored 0 0 0) in let x p := ex ex4_view ex4_env 0 p in let A := ctr ex4_view ex4_env 0 in
       est_ij ip jp < T /\ est_kl kp lp < T /\ est_ij ip jp + est_kl kp lp <= C /\
       near_enough (ex4_env 8) (x ip + x jp) (x kp + x lp) (product_centre (x ip) (x jp) A A) (product_centre (x kp) (x lp) A A) (C - est_kl kp lp - est_ij ip jp)).
    { intros ip jp kp lp Q1 Q2 Q3 Q4. cbv zeta. assert (H8 : ~ ex4_env 8 < 0) by (cbn; lra).
      replace (pair_degree ex4_view (mkng 0 0 0 0 0 1 1 1) stored 0 0 0) with 0%Z by (destruct stored; reflexivity). rewrite EC.
      assert (ET : 30 < (if stored then user_cutoff (ex4_env 0) else 60)).
      { destruct stored; [|lra]. unfold user_cutoff. cbn [ex4_env Z.eqb]. destruct (Req_EM_T 0 0); lra. } pose proof (ex4_est ip jp Q1 Q2). pose proof (ex4_est kp lp Q3 Q4).
      repeat split; try lra. left. cbn. lra. }
    assert (hv = true) as -> by (apply H4; exists 0%Z, 0%Z, 0%Z, 0%Z; repeat (split; [cbn; lia|]); apply Hkept; lia).
    exists out'. split; [exact H1|].
    destruct H2 as (_ & H2 & _). specialize (H2 0 0 0 0 0 ltac:(cbn; lia) ltac:(vm_compute; intuition congruence) ltac:(vm_compute; intuition congruence) ltac:(vm_compute; intuition congruence) ltac:(vm_compute; intuition congruence))%Z.
    change (OutSpec.place 1 1 1 1 0 0 0 0 0) with 0%Z in H2. rewrite H2. f_equal. clear H2.
    destruct ex4_prim as (s1 & s2 & q & Q1 & Q2 & Q3).
    destruct (H3 0%nat 0%nat 0%nat 0%nat 0%nat 0%Z 0%Z 0%Z 0%Z (0, 0, 0)%Z (0, 0, 0)%Z (0, 0, 0)%Z (0, 0, 0)%Z s1 s2 q eq_refl eq_refl eq_refl eq_refl Q1) as (S & S1' & S2).
    set (SS := 2 * (PI * PI * sqrt PI) / 8) in *.
    assert (ES : S = RtoC SS).
    { eapply C63_4c_unique; [exact S1'|].
      exists (fun _ _ _ _ => RtoC SS), (fun _ _ _ _ => true). split.
      - intros ip jp kp lp Hip Hjp Hkp Hlp. split; [split; [intros _; exact (Hkept ip jp kp lp Hip Hjp Hkp Hlp)|reflexivity]|]. intros _. cbn in Hip, Hjp, Hkp, Hlp.
        assert (ip = 0%Z) as -> by lia. assert (jp = 0%Z) as -> by lia. assert (kp = 0%Z) as -> by lia. assert (lp = 0%Z) as -> by lia. exact Q3.
      - unfold csumz. change (lsum (RtoC 0) Cplus (v_np ex4_view 0)) with (fun f : Z -> C => (RtoC 0 + f 0%Z)%C). cbv beta.
        unfold cf. cbn. rewrite <- !RtoC_mult, <- !RtoC_plus. f_equal. ring. }
    rewrite ES in S2. vm_compute in Ef, Eh. injection Ef as <-. injection Eh as <-. rewrite Q2 in S2.
    assert (E1 : cval (cqmul (qfac (1%Z, 1%positive)) ((1 # 1)%Q, (0 # 1)%Q)) = RtoC 1).
    { unfold cval, cqmul, qfac. apply injective_projections; unfold Q2R; cbn; field. }
    rewrite E1 in S2. cbn [fst snd] in S2. replace (Q2R (1 # 1)) with 1 in S2 by (symmetry; exact RMicromega.Q2R_1).
    rewrite <- !RtoC_mult in S2. apply (f_equal fst) in S2. change (1 * Y 0%Z 0%Z 0%Z 0%Z 0%Z 0%Z 0%Z 0%Z 0%Z =
      1 * (CINTcommon_fac_sp 0 * CINTcommon_fac_sp 0 * CINTcommon_fac_sp 0 * CINTcommon_fac_sp 0) * SS) in S2. rewrite !Rmult_1_l in S2. exact S2.
Qed.
