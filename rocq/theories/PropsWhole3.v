(** PropsWhole3.v — C64: three- and two-centre two-electron driver calls, from the shells in the tables to the caller's array.

    CINT3c2e_drv and CINT2c2e_drv without optimizer, each as one program.  For every three-centre (C58) and two-centre entry
    of the catalogue, the 1/r, long-range and short-range operators, all shells and all work arrays with arbitrary numbers in
    them, the call succeeds and the caller's array receives the contracted integrals over the primitives that the screening
    keeps.  Real numbers instead of doubles; the root finders' results are a hypothesis. *)
From Coq Require Import Reals Lra QArith Qreals String.
From Coquelicot Require Import Coquelicot.
From Verif Require Import Base BasModel BasSpec EnvModel IdxModel IdxSpec CtrModel
  OptModel OptSpec OptPair ScreenSpec ScreenProof ScreenFinal OutModel OutSpec TabModel
  OpSpec RecModel RecSpec GaussInt Gauss2Int IntgModel IntgSpec IntgTab IntgStmt IntgAll IntgReal QuadSpec QuadPoly QuadSub Quad2e QuadMain OperSpec OperModel Oper2e PropsQuad PropsOper
  WholeModel WholeSpec WholeBatch Whole1e Whole2Model Whole2Batch Whole2Spec Whole4c PropsWhole2.
From Verif Require Whole3c Whole2c.
Local Open Scope R_scope.

(** The Cartesian functions of a three-centre entry point, shells i and j of electron 1 and k of electron 2.  Y kk ic jc kc a b c is
    the value for component kk, contractions ic, jc, kc and Cartesian functions number a, b, c of the shells i, j, k. *)
Theorem C64_3c_cart nbas (V : view) (ev : Z -> R) (lm : Z -> Z -> R) rys srys t ng i j k short dims idx (g : arr R) (m : mem R) (out : arr R) n1 n2 n3 :
  let li := v_l V i in let lj := v_l V j in let lk := v_l V k in
  let ci := v_nc V i in let cj := v_nc V j in let ck := v_nc V k in
  let e := init_int3c2e short ng li lj lk ci cj ck in let nc := Z.of_nat (length (g_rows (t_f t))) in
  let fi := CINTlen_cart li in let fj := CINTlen_cart lj in let fk := CINTlen_cart lk in
  let est := pair_est V ev lm i j (li + IINC ng + (lj + JINC ng)) in
  let U := user_cutoff (ev 0%Z) in let Ur := raised V ev i j (li + IINC ng + (lj + JINC ng)) (rys_order e) U in
  let P ip jp := product_centre (ex V ev i ip) (ex V ev j jp) (ctr V ev i) (ctr V ev j) in
  let kept ip jp kp := est ip jp < U /\ near_enough (ev 8%Z) (ex V ev i ip + ex V ev j jp) (ex V ev k kp) (P ip jp) (ctr V ev k) (Ur - est ip jp) in
  (* shells *)
  good_shells nbas V ev lm -> (0 <= i < nbas)%Z -> (0 <= j < nbas)%Z -> (0 <= k < nbas)%Z ->
  (0 <= li <= 15)%Z -> (0 <= lj <= 15)%Z -> (0 <= lk <= 15)%Z ->
  (0 <= v_np V i /\ 1 <= ci)%Z -> (0 <= v_np V j /\ 1 <= cj)%Z -> (0 <= v_np V k /\ 1 <= ck)%Z ->
  (* entry point: any three-centre entry, any operator *)
  In t catalogue -> ent_ng t = Some ng -> en_fam (t_e t) = F3c2e -> ~ In (en_name (t_e t)) except_names ->
  (short = true <-> ev 8%Z < 0) -> (nrys_roots e <= 32)%Z -> finds_roots_2e rys srys (nrys_roots e) (rys_order e) (ev 8%Z) ->
  (* work arrays: large enough, with arbitrary numbers in them *)
  (3 * nf e <= asize idx)%Z -> filled g -> ((2 ^ GSHIFT ng + 1) * (3 * g_size e) <= asize g)%Z -> (4 * g_size e <= asize g)%Z -> (forall s, filled (buf m s)) ->
  (ci <> 1 -> nf e * nc <= asize (buf m 0))%Z -> (cj <> 1 -> nf e * nc * ci <= asize (buf m 1))%Z ->
  (ck <> 1 -> nf e * nc * ci * cj <= asize (buf m 2))%Z -> (nc <> 1 -> nf e * nc * ci * cj * ck <= asize (buf m 3))%Z ->
  (nf e * (ci * cj * ck) * nc <= asize (buf m 5))%Z ->
  (* the caller's array *)
  (fi * ci <= n1)%Z -> (fj * cj <= n2)%Z -> (fk * ck <= n3)%Z ->
  dims_are dims 3 [n1; n2; n3] [(fi * ci)%Z; (fj * cj)%Z; (fk * ck)%Z] ->
  room (asize out) nc n1 n2 n3 1 (fi * ci) (fj * cj) (fk * ck) 1 ->
  exists out' hv Y f h, int3c2e_drv V ev rys srys t ng i j k CartK dims idx g m out = Some (out', hv) /\
    factor (t_e t) = Some f /\ en_cart (t_e t) = Some h /\ (~ In (en_name (t_e t)) other_factor -> f = h) /\
    stored_block out out' nc n1 n2 n3 1 (fi * ci) (fj * cj) (fk * ck) 1
      (fun n I J K _ => Y n (I / fi) (J / fj) (K / fk) (I mod fi) (J mod fj) (K mod fk))%Z /\
    (forall (a b c kk : nat) ic jc kc ti tj tk s1 s2 q,
       nth_error (cart_list li) a = Some ti -> nth_error (cart_list lj) b = Some tj -> nth_error (cart_list lk) c = Some tk ->
       nth_error (components (t_d t) (sis (en_c2s1 (t_e t))) (sis (en_c2s2 (t_e t)))) kk = Some (s1, s2, q) ->
       exists S, summed3 V ev kept i j k ic jc kc (fun ip jp kp => eri3 V ev i j k ip jp kp ti tj tk q) S /\
         (cval (cqmul (qfac f) (phase (t_e t) s1 s2)) * RtoC (Y (Z.of_nat kk) ic jc kc (Z.of_nat a) (Z.of_nat b) (Z.of_nat c))
          = RtoC (Q2R (Qmake (fst h) (snd h)) * (CINTcommon_fac_sp li * CINTcommon_fac_sp lj * CINTcommon_fac_sp lk)) * S)%C) /\
    ((exists ip jp kp, (0 <= ip < v_np V i)%Z /\ (0 <= jp < v_np V j)%Z /\ (0 <= kp < v_np V k)%Z /\ kept ip jp kp) -> hv = true) /\
    (hv = true -> exists ip jp kp, (0 <= ip < v_np V i)%Z /\ (0 <= jp < v_np V j)%Z /\ (0 <= kp < v_np V k)%Z /\ est ip jp <= Ur).
Proof.
  intros li lj lk ci cj ck e nc fi fj fk est U Ur P kept HG Hi Hj Hk Hli Hlj Hlk Hni Hnj Hnk Ht En Hf Hex Hom Hnr HR
    Hidx Hgf Hgs Hgs4 Hm W0 W1 W2 W3 W5 D1 D2 D3 D5 D6.
  assert (Ee : e = env_3c V ev t ng i j k).
  { unfold env_3c, env_2e. rewrite Hf. unfold fam_env, e. replace (Rltb (ev 8%Z) 0) with short; [reflexivity|].
    symmetry. destruct short; [apply Rltb_iff, Hom; reflexivity|]. apply ltb_le, Rnot_lt_le. intros X. apply Hom in X. discriminate. }
  subst kept Ur. clearbody e. subst e. assert (H2f : two_fam (en_fam (t_e t))) by (right; left; exact Hf). destruct (factors t Ht H2f) as (f & hc & hs & Ef & Ec & Es & Eo).
  destruct (index2_ok t ng (Rltb (ev 8%Z) 0) (l3 V i j k) (c3 V i j k) idx Ht H2f En) as [idx' Eidx];
    [intros x; destruct x; try assumption; clear; cbn; lia|rewrite Hf; intros x; destruct x; try discriminate; reflexivity|exact Hidx|].
  assert (Efv : entry_factor CartK (t_e t) = Some (Q2R (Qmake (fst hc) (snd hc)))) by (unfold entry_factor; rewrite Ec; reflexivity).
  destruct (Whole3c.drv_cart nbas V ev lm rys srys t ng i j k f HG Hi Hj Hk Hni Hnj Hnk Ht Hf Hex En Ef Hli Hlj Hlk Hnr HR idx idx' (asize g) Hidx Eidx Hgs Hgs4
    m g Hm (conj Hgf eq_refl) W0 W1 W2 W3 W5 _ CartK Efv dims out n1 n2 n3 eq_refl D1 D2 D3 D5 D6) as (out' & hv & Y & H1 & H2 & H3 & H4 & H5).
  exists out', hv, Y, f, hc. split; [exact H1|]. split; [exact Ef|]. split; [exact Ec|]. split; [intros X; apply (Eo X)|]. split; [exact H2|]. split; [exact H3|]. split.
  - intros (ip & jp & kp & P1 & P2 & P3 & K). apply H4. exists ip, jp, kp. exact (conj (conj P1 (conj P2 P3)) K).
  - intros X. destruct (H5 X) as (ip & jp & kp & (P1 & P2 & P3) & K). exists ip, jp, kp. exact (conj P1 (conj P2 (conj P3 K))).
Qed.
Print Assumptions C64_3c_cart.

(** The spherical functions: the same values transformed with the tables of C25. *)
Theorem C64_3c_sph nbas (V : view) (ev : Z -> R) (lm : Z -> Z -> R) rys srys t ng i j k short dims idx (g : arr R) (m : mem R) (out : arr R) n1 n2 n3 :
  let li := v_l V i in let lj := v_l V j in let lk := v_l V k in
  let ci := v_nc V i in let cj := v_nc V j in let ck := v_nc V k in
  let e := init_int3c2e short ng li lj lk ci cj ck in let nc := Z.of_nat (length (g_rows (t_f t))) in
  let si := (li * 2 + 1)%Z in let sj := (lj * 2 + 1)%Z in let sk := (lk * 2 + 1)%Z in
  let est := pair_est V ev lm i j (li + IINC ng + (lj + JINC ng)) in
  let U := user_cutoff (ev 0%Z) in let Ur := raised V ev i j (li + IINC ng + (lj + JINC ng)) (rys_order e) U in
  let P ip jp := product_centre (ex V ev i ip) (ex V ev j jp) (ctr V ev i) (ctr V ev j) in
  let kept ip jp kp := est ip jp < U /\ near_enough (ev 8%Z) (ex V ev i ip + ex V ev j jp) (ex V ev k kp) (P ip jp) (ctr V ev k) (Ur - est ip jp) in
  (* shells *)
  good_shells nbas V ev lm -> (0 <= i < nbas)%Z -> (0 <= j < nbas)%Z -> (0 <= k < nbas)%Z ->
  (0 <= li <= 15)%Z -> (0 <= lj <= 15)%Z -> (0 <= lk <= 15)%Z ->
  (0 <= v_np V i /\ 1 <= ci)%Z -> (0 <= v_np V j /\ 1 <= cj)%Z -> (0 <= v_np V k /\ 1 <= ck)%Z ->
  (* entry point: any three-centre entry, any operator *)
  In t catalogue -> ent_ng t = Some ng -> en_fam (t_e t) = F3c2e -> ~ In (en_name (t_e t)) except_names ->
  (short = true <-> ev 8%Z < 0) -> (nrys_roots e <= 32)%Z -> finds_roots_2e rys srys (nrys_roots e) (rys_order e) (ev 8%Z) ->
  (* work arrays: large enough, with arbitrary numbers in them *)
  (3 * nf e <= asize idx)%Z -> filled g -> ((2 ^ GSHIFT ng + 1) * (3 * g_size e) <= asize g)%Z -> (4 * g_size e <= asize g)%Z -> (forall s, filled (buf m s)) ->
  (ci <> 1 -> nf e * nc <= asize (buf m 0))%Z -> (cj <> 1 -> nf e * nc * ci <= asize (buf m 1))%Z ->
  (ck <> 1 -> nf e * nc * ci * cj <= asize (buf m 2))%Z -> (nc <> 1 -> nf e * nc * ci * cj * ck <= asize (buf m 3))%Z ->
  (nf e * (ci * cj * ck) * nc <= asize (buf m 5))%Z ->
  (* the caller's array *)
  (si * ci <= n1)%Z -> (sj * cj <= n2)%Z -> (sk * ck <= n3)%Z ->
  dims_are dims 3 [n1; n2; n3] [(si * ci)%Z; (sj * cj)%Z; (sk * ck)%Z] ->
  room (asize out) nc n1 n2 n3 1 (si * ci) (sj * cj) (sk * ck) 1 ->
  exists out' hv Y f h, int3c2e_drv V ev rys srys t ng i j k SphK dims idx g m out = Some (out', hv) /\
    factor (t_e t) = Some f /\ en_sph (t_e t) = Some h /\ (~ In (en_name (t_e t)) other_factor -> f = h) /\
    stored_block out out' nc n1 n2 n3 1 (si * ci) (sj * cj) (sk * ck) 1
      (fun n I J K _ =>
        apply_T 0%R Rplus Rmult sph_coef c2s_off CINTlen_cart li (I mod si) (fun a =>
        apply_T 0%R Rplus Rmult sph_coef c2s_off CINTlen_cart lk (K mod sk) (fun c =>
        apply_T 0%R Rplus Rmult sph_coef c2s_off CINTlen_cart lj (J mod sj) (fun b => Y n (I / si) (J / sj) (K / sk) a b c))))%Z /\
    (forall (a b c kk : nat) ic jc kc ti tj tk s1 s2 q,
       nth_error (cart_list li) a = Some ti -> nth_error (cart_list lj) b = Some tj -> nth_error (cart_list lk) c = Some tk ->
       nth_error (components (t_d t) (sis (en_c2s1 (t_e t))) (sis (en_c2s2 (t_e t)))) kk = Some (s1, s2, q) ->
       exists S, summed3 V ev kept i j k ic jc kc (fun ip jp kp => eri3 V ev i j k ip jp kp ti tj tk q) S /\
         (cval (cqmul (qfac f) (phase (t_e t) s1 s2)) * RtoC (Y (Z.of_nat kk) ic jc kc (Z.of_nat a) (Z.of_nat b) (Z.of_nat c))
          = RtoC (Q2R (Qmake (fst h) (snd h)) * (CINTcommon_fac_sp li * CINTcommon_fac_sp lj * CINTcommon_fac_sp lk)) * S)%C) /\
    ((exists ip jp kp, (0 <= ip < v_np V i)%Z /\ (0 <= jp < v_np V j)%Z /\ (0 <= kp < v_np V k)%Z /\ kept ip jp kp) -> hv = true) /\
    (hv = true -> exists ip jp kp, (0 <= ip < v_np V i)%Z /\ (0 <= jp < v_np V j)%Z /\ (0 <= kp < v_np V k)%Z /\ est ip jp <= Ur).
Proof.
  intros li lj lk ci cj ck e nc si sj sk est U Ur P kept HG Hi Hj Hk Hli Hlj Hlk Hni Hnj Hnk Ht En Hf Hex Hom Hnr HR
    Hidx Hgf Hgs Hgs4 Hm W0 W1 W2 W3 W5 D1 D2 D3 D5 D6.
  assert (Ee : e = env_3c V ev t ng i j k).
  { unfold env_3c, env_2e. rewrite Hf. unfold fam_env, e. replace (Rltb (ev 8%Z) 0) with short; [reflexivity|].
    symmetry. destruct short; [apply Rltb_iff, Hom; reflexivity|]. apply ltb_le, Rnot_lt_le. intros X. apply Hom in X. discriminate. }
  subst kept Ur. clearbody e. subst e. assert (H2f : two_fam (en_fam (t_e t))) by (right; left; exact Hf). destruct (factors t Ht H2f) as (f & hc & hs & Ef & Ec & Es & Eo).
  destruct (index2_ok t ng (Rltb (ev 8%Z) 0) (l3 V i j k) (c3 V i j k) idx Ht H2f En) as [idx' Eidx];
    [intros x; destruct x; try assumption; clear; cbn; lia|rewrite Hf; intros x; destruct x; try discriminate; reflexivity|exact Hidx|].
  assert (Efv : entry_factor SphK (t_e t) = Some (Q2R (Qmake (fst hs) (snd hs)))) by (unfold entry_factor; rewrite Es; reflexivity).
  destruct (Whole3c.drv_sph nbas V ev lm rys srys t ng i j k f HG Hi Hj Hk Hni Hnj Hnk Ht Hf Hex En Ef Hli Hlj Hlk Hnr HR idx idx' (asize g) Hidx Eidx Hgs Hgs4
    m g Hm (conj Hgf eq_refl) W0 W1 W2 W3 W5 _ SphK Efv dims out n1 n2 n3 eq_refl D1 D2 D3 D5 D6) as (out' & hv & Y & H1 & H2 & H3 & H4 & H5).
  exists out', hv, Y, f, hs. split; [exact H1|]. split; [exact Ef|]. split; [exact Es|]. split; [intros X; apply (Eo X)|]. split; [exact H2|]. split; [exact H3|]. split.
  - intros (ip & jp & kp & P1 & P2 & P3 & K). apply H4. exists ip, jp, kp. exact (conj (conj P1 (conj P2 P3)) K).
  - intros X. destruct (H5 X) as (ip & jp & kp & (P1 & P2 & P3) & K). exists ip, jp, kp. exact (conj P1 (conj P2 (conj P3 K))).
Qed.
Print Assumptions C64_3c_sph.

(** The Cartesian functions of a two-centre entry point, shell i of electron 1 and k of electron 2, for all three operators.
    When no primitive is kept the driver also reads the third element of dims. *)
Theorem C64_2c_cart nbas (V : view) (ev : Z -> R) (lm : Z -> Z -> R) rys srys t ng i k short dims idx (g : arr R) (m : mem R) (out : arr R) n1 n2 :
  let li := v_l V i in let lk := v_l V k in
  let ci := v_nc V i in let ck := v_nc V k in
  let e := init_int2c2e short ng li lk ci ck in let nc := Z.of_nat (length (g_rows (t_f t))) in
  let fi := CINTlen_cart li in let fk := CINTlen_cart lk in
  let some_kept := exists ip kp, ((0 <= ip < v_np V i)%Z /\ (0 <= kp < v_np V k)%Z) /\ short_kept V ev i k ip kp in
  (* shells *)
  good_shells nbas V ev lm -> (0 <= i < nbas)%Z -> (0 <= k < nbas)%Z -> (0 <= li <= 15)%Z -> (0 <= lk <= 15)%Z ->
  (0 <= v_np V i /\ 1 <= ci)%Z -> (0 <= v_np V k /\ 1 <= ck)%Z ->
  (* entry point: any two-centre entry, any operator *)
  In t catalogue -> ent_ng t = Some ng -> en_fam (t_e t) = F2c2e -> ~ In (en_name (t_e t)) except_names ->
  (short = true <-> ev 8%Z < 0) -> (nrys_roots e <= 32)%Z -> finds_roots_2e rys srys (nrys_roots e) (rys_order e) (ev 8%Z) ->
  (* work arrays: large enough, with arbitrary numbers in them *)
  (3 * nf e <= asize idx)%Z -> filled g -> ((2 ^ GSHIFT ng + 1) * (3 * g_size e) <= asize g)%Z -> (4 * g_size e <= asize g)%Z -> (forall s, filled (buf m s)) ->
  (ci <> 1 -> nf e * nc <= asize (buf m 0))%Z -> (ck <> 1 -> nf e * nc * ci <= asize (buf m 1))%Z ->
  (nc <> 1 -> nf e * nc * ci * ck <= asize (buf m 2))%Z -> (nf e * (ci * ck) * nc <= asize (buf m 5))%Z ->
  (* the caller's array *)
  (fi * ci <= n1)%Z -> (fk * ck <= n2)%Z -> dims_are dims 2 [n1; n2] [(fi * ci)%Z; (fk * ck)%Z] ->
  (some_kept \/ match dims with Some d => exists n, rd d 2 = Some n | None => True end) ->
  room (asize out) nc n1 n2 1 1 (fi * ci) (fk * ck) 1 1 ->
  exists out' hv Y f h, int2c2e_drv V ev rys srys t ng i k CartK dims idx g m out = Some (out', hv) /\
    factor (t_e t) = Some f /\ en_cart (t_e t) = Some h /\ (~ In (en_name (t_e t)) other_factor -> f = h) /\
    stored_block out out' nc n1 n2 1 1 (fi * ci) (fk * ck) 1 1
      (fun n I K _ _ => Y n (I / fi) (K / fk) (I mod fi) (K mod fk))%Z /\
    (forall (a c kk : nat) ic kc ti tk s1 s2 q,
       nth_error (cart_list li) a = Some ti -> nth_error (cart_list lk) c = Some tk ->
       nth_error (components (t_d t) (sis (en_c2s1 (t_e t))) (sis (en_c2s2 (t_e t)))) kk = Some (s1, s2, q) ->
       exists S, summed2 V ev (short_kept V ev i k) i k ic kc (fun ip kp => eri2 V ev i k ip kp ti tk q) S /\
         (cval (cqmul (qfac f) (phase (t_e t) s1 s2)) * RtoC (Y (Z.of_nat kk) ic kc (Z.of_nat a) (Z.of_nat c))
          = RtoC (Q2R (Qmake (fst h) (snd h)) * (CINTcommon_fac_sp li * CINTcommon_fac_sp lk)) * S)%C) /\
    (hv = true <-> some_kept).
Proof.
  intros li lk ci ck e nc fi fk some_kept HG Hi Hk Hli Hlk Hni Hnk Ht En Hf Hex Hom Hnr HR
    Hidx Hgf Hgs Hgs4 Hm W0 W1 W3 W5 D1 D3 D5 DT D6.
  assert (Ee : e = env_2c V ev t ng i k).
  { unfold env_2c, env_2e. rewrite Hf. unfold fam_env. replace (Rltb (ev 8%Z) 0) with short; [reflexivity|].
    destruct (Rltb (ev 8%Z) 0) eqn:Eb.
    - apply Hom. apply Rltb_iff. exact Eb.
    - destruct short; [|reflexivity]. apply ltb_le in Eb. pose proof (proj1 Hom eq_refl). lra. }
  clearbody e. subst e. assert (H2f : two_fam (en_fam (t_e t))) by (right; right; exact Hf). destruct (factors t Ht H2f) as (f & hc & hs & Ef & Ec & Es & Eo).
  destruct (index2_ok t ng (Rltb (ev 8%Z) 0) (l2 V i k) (c2 V i k) idx Ht H2f En) as [idx' Eidx];
    [intros x; destruct x; try assumption; clear; cbn; lia|rewrite Hf; intros x; destruct x; try discriminate; reflexivity|exact Hidx|].
  assert (Efv : entry_factor CartK (t_e t) = Some (Q2R (Qmake (fst hc) (snd hc)))) by (unfold entry_factor; rewrite Ec; reflexivity).
  destruct (Whole2c.drv_cart nbas V ev lm rys srys t ng i k f HG Hi Hk Hni Hnk Ht Hf Hex En Ef Hli Hlk Hnr HR idx idx' (asize g) Hidx Eidx Hgs Hgs4
    m g Hm (conj Hgf eq_refl) W0 W1 W3 W5 _ CartK Efv dims out n1 n2 eq_refl D1 D3 D5 DT D6) as (out' & hv & Y & H1 & H2 & H3 & H4).
  exists out', hv, Y, f, hc. split; [exact H1|]. split; [exact Ef|]. split; [exact Ec|]. split; [intros X; apply (Eo X)|]. split; [exact H2|]. split; [exact H3|exact H4].
Qed.
Print Assumptions C64_2c_cart.

(** The spherical functions: the same values transformed with the tables of C25. *)
Theorem C64_2c_sph nbas (V : view) (ev : Z -> R) (lm : Z -> Z -> R) rys srys t ng i k short dims idx (g : arr R) (m : mem R) (out : arr R) n1 n2 :
  let li := v_l V i in let lk := v_l V k in
  let ci := v_nc V i in let ck := v_nc V k in
  let e := init_int2c2e short ng li lk ci ck in let nc := Z.of_nat (length (g_rows (t_f t))) in
  let si := (li * 2 + 1)%Z in let sk := (lk * 2 + 1)%Z in
  let some_kept := exists ip kp, ((0 <= ip < v_np V i)%Z /\ (0 <= kp < v_np V k)%Z) /\ short_kept V ev i k ip kp in
  (* shells *)
  good_shells nbas V ev lm -> (0 <= i < nbas)%Z -> (0 <= k < nbas)%Z -> (0 <= li <= 15)%Z -> (0 <= lk <= 15)%Z ->
  (0 <= v_np V i /\ 1 <= ci)%Z -> (0 <= v_np V k /\ 1 <= ck)%Z ->
  (* entry point: any two-centre entry, any operator *)
  In t catalogue -> ent_ng t = Some ng -> en_fam (t_e t) = F2c2e -> ~ In (en_name (t_e t)) except_names ->
  (short = true <-> ev 8%Z < 0) -> (nrys_roots e <= 32)%Z -> finds_roots_2e rys srys (nrys_roots e) (rys_order e) (ev 8%Z) ->
  (* work arrays: large enough, with arbitrary numbers in them *)
  (3 * nf e <= asize idx)%Z -> filled g -> ((2 ^ GSHIFT ng + 1) * (3 * g_size e) <= asize g)%Z -> (4 * g_size e <= asize g)%Z -> (forall s, filled (buf m s)) ->
  (ci <> 1 -> nf e * nc <= asize (buf m 0))%Z -> (ck <> 1 -> nf e * nc * ci <= asize (buf m 1))%Z ->
  (nc <> 1 -> nf e * nc * ci * ck <= asize (buf m 2))%Z -> (nf e * (ci * ck) * nc <= asize (buf m 5))%Z ->
  (* the caller's array *)
  (si * ci <= n1)%Z -> (sk * ck <= n2)%Z -> dims_are dims 2 [n1; n2] [(si * ci)%Z; (sk * ck)%Z] ->
  (some_kept \/ match dims with Some d => exists n, rd d 2 = Some n | None => True end) ->
  room (asize out) nc n1 n2 1 1 (si * ci) (sk * ck) 1 1 ->
  exists out' hv Y f h, int2c2e_drv V ev rys srys t ng i k SphK dims idx g m out = Some (out', hv) /\
    factor (t_e t) = Some f /\ en_sph (t_e t) = Some h /\ (~ In (en_name (t_e t)) other_factor -> f = h) /\
    stored_block out out' nc n1 n2 1 1 (si * ci) (sk * ck) 1 1
      (fun n I K _ _ =>
        apply_T 0%R Rplus Rmult sph_coef c2s_off CINTlen_cart li (I mod si) (fun a =>
        apply_T 0%R Rplus Rmult sph_coef c2s_off CINTlen_cart lk (K mod sk) (fun c => Y n (I / si) (K / sk) a c)))%Z /\
    (forall (a c kk : nat) ic kc ti tk s1 s2 q,
       nth_error (cart_list li) a = Some ti -> nth_error (cart_list lk) c = Some tk ->
       nth_error (components (t_d t) (sis (en_c2s1 (t_e t))) (sis (en_c2s2 (t_e t)))) kk = Some (s1, s2, q) ->
       exists S, summed2 V ev (short_kept V ev i k) i k ic kc (fun ip kp => eri2 V ev i k ip kp ti tk q) S /\
         (cval (cqmul (qfac f) (phase (t_e t) s1 s2)) * RtoC (Y (Z.of_nat kk) ic kc (Z.of_nat a) (Z.of_nat c))
          = RtoC (Q2R (Qmake (fst h) (snd h)) * (CINTcommon_fac_sp li * CINTcommon_fac_sp lk)) * S)%C) /\
    (hv = true <-> some_kept).
Proof.
  intros li lk ci ck e nc si sk some_kept HG Hi Hk Hli Hlk Hni Hnk Ht En Hf Hex Hom Hnr HR
    Hidx Hgf Hgs Hgs4 Hm W0 W1 W3 W5 D1 D3 D5 DT D6.
  assert (Ee : e = env_2c V ev t ng i k).
  { unfold env_2c, env_2e. rewrite Hf. unfold fam_env. replace (Rltb (ev 8%Z) 0) with short; [reflexivity|].
    destruct (Rltb (ev 8%Z) 0) eqn:Eb.
    - apply Hom. apply Rltb_iff. exact Eb.
    - destruct short; [|reflexivity]. apply ltb_le in Eb. pose proof (proj1 Hom eq_refl). lra. }
  clearbody e. subst e. assert (H2f : two_fam (en_fam (t_e t))) by (right; right; exact Hf). destruct (factors t Ht H2f) as (f & hc & hs & Ef & Ec & Es & Eo).
  destruct (index2_ok t ng (Rltb (ev 8%Z) 0) (l2 V i k) (c2 V i k) idx Ht H2f En) as [idx' Eidx];
    [intros x; destruct x; try assumption; clear; cbn; lia|rewrite Hf; intros x; destruct x; try discriminate; reflexivity|exact Hidx|].
  assert (Efv : entry_factor SphK (t_e t) = Some (Q2R (Qmake (fst hs) (snd hs)))) by (unfold entry_factor; rewrite Es; reflexivity).
  destruct (Whole2c.drv_sph nbas V ev lm rys srys t ng i k f HG Hi Hk Hni Hnk Ht Hf Hex En Ef Hli Hlk Hnr HR idx idx' (asize g) Hidx Eidx Hgs Hgs4
    m g Hm (conj Hgf eq_refl) W0 W1 W3 W5 _ SphK Efv dims out n1 n2 eq_refl D1 D3 D5 DT D6) as (out' & hv & Y & H1 & H2 & H3 & H4).
  exists out', hv, Y, f, hs. split; [exact H1|]. split; [exact Ef|]. split; [exact Es|]. split; [intros X; apply (Eo X)|]. split; [exact H2|]. split; [exact H3|exact H4].
Qed.
Print Assumptions C64_2c_sph.

(** The contracted integrals are determined by the tables, the operator and the functions. *)
Theorem C64_3c_unique V ev keep i j k ic jc kc ti tj tk q S S' :
  summed3 V ev keep i j k ic jc kc (fun ip jp kp => eri3 V ev i j k ip jp kp ti tj tk q) S ->
  summed3 V ev keep i j k ic jc kc (fun ip jp kp => eri3 V ev i j k ip jp kp ti tj tk q) S' -> S = S'.
Proof. exact (Whole3c.summed3_unique V ev keep i j k ic jc kc ti tj tk q S S'). Qed.
Print Assumptions C64_3c_unique.
Theorem C64_2c_unique V ev keep i k ic kc ti tk q S S' :
  summed2 V ev keep i k ic kc (fun ip kp => eri2 V ev i k ip kp ti tk q) S ->
  summed2 V ev keep i k ic kc (fun ip kp => eri2 V ev i k ip kp ti tk q) S' -> S = S'.
Proof. exact (Whole2c.summed2_unique V ev keep i k ic kc ti tk q S S'). Qed.
Print Assumptions C64_2c_unique.

(** The integral 2 pi^(5/2) / (p q sqrt(p+q)) of s functions on one point, with p = 1 + aj and q = 1 + al. *)
Lemma s_prim aj al (q : poly) : 0 <= aj -> 0 <= al -> q = [(((1 # 1)%Q, (0 # 1)%Q), (mkm [0; 0; 0; 0; 0; 0]%nat [[]; []; []; []; []; []; []; []; []; []; []; []]))] ->
  value (term2 (exps4 1 aj 1 al) (centres4 (ctr ex4_view ex4_env 0) (ctr ex4_view ex4_env 0) (ctr ex4_view ex4_env 0) (ctr ex4_view ex4_env 0)) (gauge_origin ex4_env)
    (powers4 (0, 0, 0)%Z (0, 0, 0)%Z (0, 0, 0)%Z (0, 0, 0)%Z) (op_of (ex4_env 8))) q
    (RtoC (2 * (PI * PI * sqrt PI) / ((1 + aj) * (1 + al) * sqrt (1 + aj + (1 + al))))).
Proof.
  intros Hj Hl ->. replace (op_of (ex4_env 8)) with Coulomb by (unfold op_of; destruct (Req_EM_T _ _) as [|X]; [reflexivity|contradiction X; reflexivity]).
  set (w := 2 * (PI * PI * sqrt PI) / _).
  replace (RtoC w) with (cval (((1 # 1)%Q, (0 # 1)%Q)) * RtoC w + RtoC 0)%C by (unfold cval; cbn; rewrite RMicromega.Q2R_1, RMicromega.Q2R_0; change (1, 0) with (RtoC 1); ring).
  constructor; [|constructor].
  exists w. split; [|unfold rpow, kpow; simpl; ring].
  set (z := fun _ : Z => 0). set (z0 := fun _ : Z => 0%nat).
  assert (HV : coul2 Coulomb (fun ax => four 1 aj 1 al (z ax) (z ax) (z ax) (z ax) (z0 ax) (z0 ax) (z0 ax) (z0 ax)) w).
  { assert (Hm := four_moments 1 aj 1 al z z z z ltac:(lra) ltac:(lra) z0 z0 z0 z0).
    refine (coul2_s 1 aj 1 al z z z z ltac:(lra) ltac:(lra) _ _ _ Hm Coulomb w _).
    set (a0 := (1 + aj) * (1 + al) / (1 + aj + (1 + al))). set (X := a0 * dist2 _ _).
    assert (Ha0 : 0 < a0) by (unfold a0; apply Rdiv_lt_0_compat; [apply Rmult_lt_0_compat; lra|lra]).
    replace w with (cc2 1 aj 1 al z z z z * rsumz 1 (fun k => (fun _ : Z => 1) k * prod3 (mom4 1 aj 1 al z z z z z0 z0 z0 z0) ((fun _ : Z => t2_of (1 / 2)) k))).
    - refine (quad_coulomb a0 _ X _ _ Ha0 (prod3_pol 1 aj 1 al z z z z _ _ _ Hm) 1 (fun _ => t2_of (1 / 2)) (fun _ => 1) _ _); [cbn; lia|].
      replace X with 0; [exact C59_rule|]. unfold X, dist2, z. field. lra.
    - change (cc2 1 aj 1 al z z z z * (0 + 1 * (1 * 1 * 1)) = w). unfold cc2, overlap_factor, dist2, z, w.
      replace (1 * aj / (1 + aj) * ((0 - 0) * (0 - 0) + (0 - 0) * (0 - 0) + (0 - 0) * (0 - 0))) with 0 by (field; lra).
      replace (1 * al / (1 + al) * ((0 - 0) * (0 - 0) + (0 - 0) * (0 - 0) + (0 - 0) * (0 - 0))) with 0 by (field; lra).
      rewrite Ropp_0, exp_0. assert (Hq : sqrt (1 + aj + (1 + al)) <> 0) by (apply Rgt_not_eq, sqrt_lt_R0; lra).
      pose proof PI_RGT_0. assert (Hs : sqrt PI <> 0) by (apply Rgt_not_eq, sqrt_lt_R0; lra).
      assert (E : PI = sqrt PI * sqrt PI) by (symmetry; apply sqrt_sqrt; lra).
      rewrite E at 1. field. repeat split; try assumption; lra. }
  destruct HV as (I & H1 & H2). exists I. split; [|exact H2].
  intros ax s Hax. eapply plane_ext; [|exact (H1 ax s Hax)]. intros x y. unfold z, z0.
  assert (Hax3 : ax = 0%Z \/ ax = 1%Z \/ ax = 2%Z) by lia.
  unfold fun_at, base, phi, four. destruct Hax3 as [-> | [-> | ->]]; simpl; unfold ctr; cbn; unfold Rminus at 1 2 3; rewrite !exp_plus; ring.
Qed.

Lemma ex4_roots : finds_roots_2e (fun _ => one_root) (fun _ _ _ => (fun _ => 0, fun _ => 0)) 1 1 (ex4_env 8).
Proof.
  split; [intros m y n Hn Hy; apply one_root_ok|]. split; [intros m y z n Hn Hy; cbn; lra|]. intros a0 x Ha Hx. split; [intros _; apply one_root_ok|].
  cbn [ex4_env Z.eqb Pos.eqb]. repeat split; intros X; lra.
Qed.
Lemma ex4_one : cval (cqmul (qfac (1%Z, 1%positive)) ((1 # 1)%Q, (0 # 1)%Q)) = RtoC 1.
Proof. unfold cval, cqmul, qfac. apply injective_projections; unfold Q2R; cbn; field. Qed.
Lemma ex4_room : room 1 1 1 1 1 1 1 1 1 1. Proof. intros n a b c d Hn Ha Hb Hc Hd. unfold OutSpec.place. lia. Qed.
Lemma ex4_read (out out' : arr R) f : stored_block out out' 1 1 1 1 1 1 1 1 1 f -> rd out' 0 = Some (f 0 0 0 0 0)%Z.
Proof. intros (_ & H & _). specialize (H 0 0 0 0 0 ltac:(lia) ltac:(lia) ltac:(lia) ltac:(lia) ltac:(lia))%Z. exact H. Qed.

(** int3c2e of three s functions of exponent 1 on one point: p = 2, q = 1. *)
Example C64_example3 : exists out', int3c2e_drv ex4_view ex4_env (fun _ => one_root) (fun _ _ _ => (fun _ => 0, fun _ => 0)) e_int3c2e (mkng 0 0 0 0 0 1 1 1) 0 0 0 CartK None
    (uninit 3) (of_fun 6 (fun _ => 7)) ex4_mem (uninit 1) = Some (out', true) /\
  rd out' 0 = Some (CINTcommon_fac_sp 0 * CINTcommon_fac_sp 0 * CINTcommon_fac_sp 0 * (2 * (PI * PI * sqrt PI) / ((1 + 1) * (1 + 0) * sqrt (1 + 1 + (1 + 0))))).
Proof.
  assert (EC : user_cutoff (ex4_env 0) = 60).
  { unfold user_cutoff. cbn [ex4_env Z.eqb]. destruct (Req_EM_T 0 0); [reflexivity|lra]. }
  assert (H08 : false = true <-> ex4_env 8 < 0) by (split; [discriminate|cbn; lra]).
  assert (Hgf : filled (of_fun 6 (fun _ => 7))) by apply filled_of.
  assert (Hmf : forall s, filled (buf ex4_mem s)) by (intros s; apply filled_of).
  destruct (C64_3c_cart 1 ex4_view ex4_env (fun _ _ => ln 1) (fun _ => one_root) (fun _ _ _ => (fun _ => 0, fun _ => 0)) e_int3c2e (mkng 0 0 0 0 0 1 1 1) 0 0 0 false None
    (uninit 3) (of_fun 6 (fun _ => 7)) ex4_mem (uninit 1) 1 1 1 ex4_good ltac:(by_z) ltac:(by_z) ltac:(by_z) ltac:(by_z) ltac:(by_z) ltac:(by_z) ltac:(by_z) ltac:(by_z) ltac:(by_z) ltac:(by_z) ltac:(by_z) ltac:(by_z) ltac:(by_z)
    H08 ltac:(by_z) ex4_roots ltac:(by_z) Hgf ltac:(by_z) ltac:(by_z) Hmf ltac:(by_z) ltac:(by_z) ltac:(by_z) ltac:(by_z) ltac:(by_z) ltac:(by_z) ltac:(by_z) ltac:(by_z) ltac:(by_z) ex4_room)
    as (out' & hv & Y & f & h & H1 & Ef & Eh & Efh & H2 & H3 & H4 & _).
  assert (Hkept : forall ip jp kp, (0 <= ip < 1)%Z -> (0 <= jp < 1)%Z ->
     let U := user_cutoff (ex4_env 0) in let est := pair_est ex4_view ex4_env (fun _ _ => ln 1) 0 0 0 in let x p := ex ex4_view ex4_env 0 p in let A := ctr ex4_view ex4_env 0 in
     est ip jp < U /\ near_enough (ex4_env 8) (x ip + x jp) (x kp) (product_centre (x ip) (x jp) A A) A (raised ex4_view ex4_env 0 0 0 1 U - est ip jp)).
  { intros ip jp kp Q1 Q2. cbv zeta. rewrite EC. pose proof (ex4_est ip jp Q1 Q2). split; [lra|]. left. cbn. lra. }
  assert (hv = true) as -> by (apply H4; exists 0%Z, 0%Z, 0%Z; repeat (split; [cbn; lia|]); apply Hkept; lia).
  exists out'. split; [exact H1|]. rewrite (ex4_read _ _ _ H2). f_equal. clear H2.
  set (SS := 2 * (PI * PI * sqrt PI) / _) in *.
  destruct (H3 0%nat 0%nat 0%nat 0%nat 0%Z 0%Z 0%Z (0, 0, 0)%Z (0, 0, 0)%Z (0, 0, 0)%Z _ _ _ eq_refl eq_refl eq_refl ltac:(vm_compute; reflexivity)) as (S & S1' & S2).
  assert (ES : S = RtoC SS).
  { eapply C64_3c_unique; [exact S1'|].
    exists (fun _ _ _ => RtoC SS), (fun _ _ _ => true). split.
    - intros ip jp kp Hip Hjp Hkp. split; [split; [intros _; exact (Hkept ip jp kp Hip Hjp)|reflexivity]|]. intros _. cbn in Hip, Hjp, Hkp.
      assert (ip = 0%Z) as -> by lia. assert (jp = 0%Z) as -> by lia. assert (kp = 0%Z) as -> by lia. exact (s_prim 1 0 _ Rle_0_1 (Rle_refl 0) eq_refl).
    - unfold csumz. change (lsum (RtoC 0) Cplus (v_np ex4_view 0)) with (fun f : Z -> C => (RtoC 0 + f 0%Z)%C). cbv beta.
      unfold cf. cbn. rewrite <- !RtoC_mult, <- !RtoC_plus. f_equal. ring. }
  rewrite ES in S2. vm_compute in Ef, Eh. injection Ef as <-. injection Eh as <-. 
  change (phase (t_e e_int3c2e) S1 S1) with ((1 # 1)%Q, (0 # 1)%Q) in S2. rewrite ex4_one in S2. cbn [fst snd] in S2. replace (Q2R (1 # 1)) with 1 in S2 by (symmetry; exact RMicromega.Q2R_1).
  rewrite <- !RtoC_mult in S2. apply (f_equal fst) in S2. change (1 * Y 0%Z 0%Z 0%Z 0%Z 0%Z 0%Z 0%Z =
    1 * (CINTcommon_fac_sp 0 * CINTcommon_fac_sp 0 * CINTcommon_fac_sp 0) * SS) in S2. rewrite !Rmult_1_l in S2. exact S2.
Qed.

(** int2c2e of two s functions of exponent 1 on one point: p = q = 1. *)
Example C64_example2 : exists out', int2c2e_drv ex4_view ex4_env (fun _ => one_root) (fun _ _ _ => (fun _ => 0, fun _ => 0)) e_int2c2e (mkng 0 0 0 0 0 1 1 1) 0 0 CartK None
    (uninit 3) (of_fun 6 (fun _ => 7)) ex4_mem (uninit 1) = Some (out', true) /\
  rd out' 0 = Some (CINTcommon_fac_sp 0 * CINTcommon_fac_sp 0 * (2 * (PI * PI * sqrt PI) / ((1 + 0) * (1 + 0) * sqrt (1 + 0 + (1 + 0))))).
Proof.
  assert (H08 : false = true <-> ex4_env 8 < 0) by (split; [discriminate|cbn; lra]).
  assert (Hgf : filled (of_fun 6 (fun _ => 7))) by apply filled_of.
  assert (Hmf : forall s, filled (buf ex4_mem s)) by (intros s; apply filled_of).
  assert (Hkept : forall ip kp, short_kept ex4_view ex4_env 0 0 ip kp) by (intros ip kp; left; cbn; lra).
  destruct (C64_2c_cart 1 ex4_view ex4_env (fun _ _ => ln 1) (fun _ => one_root) (fun _ _ _ => (fun _ => 0, fun _ => 0)) e_int2c2e (mkng 0 0 0 0 0 1 1 1) 0 0 false None
    (uninit 3) (of_fun 6 (fun _ => 7)) ex4_mem (uninit 1) 1 1 ex4_good ltac:(by_z) ltac:(by_z) ltac:(by_z) ltac:(by_z) ltac:(by_z) ltac:(by_z) ltac:(by_z) ltac:(by_z) ltac:(by_z) ltac:(by_z)
    H08 ltac:(by_z) ex4_roots ltac:(by_z) Hgf ltac:(by_z) ltac:(by_z) Hmf ltac:(by_z) ltac:(by_z) ltac:(by_z) ltac:(by_z) ltac:(by_z) ltac:(by_z) ltac:(by_z) (or_intror I) ex4_room)
    as (out' & hv & Y & f & h & H1 & Ef & Eh & Efh & H2 & H3 & H4).
  assert (hv = true) as -> by (apply H4; exists 0%Z, 0%Z; split; [cbn; lia|apply Hkept]).
  exists out'. split; [exact H1|]. rewrite (ex4_read _ _ _ H2). f_equal. clear H2.
  set (SS := 2 * (PI * PI * sqrt PI) / _) in *.
  destruct (H3 0%nat 0%nat 0%nat 0%Z 0%Z (0, 0, 0)%Z (0, 0, 0)%Z _ _ _ eq_refl eq_refl ltac:(vm_compute; reflexivity)) as (S & S1' & S2).
  assert (ES : S = RtoC SS).
  { eapply C64_2c_unique; [exact S1'|].
    exists (fun _ _ => RtoC SS), (fun _ _ => true). split.
    - intros ip kp Hip Hkp. split; [split; [intros _; exact (Hkept ip kp)|reflexivity]|]. intros _. cbn in Hip, Hkp.
      assert (ip = 0%Z) as -> by lia. assert (kp = 0%Z) as -> by lia. exact (s_prim 0 0 _ (Rle_refl 0) (Rle_refl 0) eq_refl).
    - unfold csumz. change (lsum (RtoC 0) Cplus (v_np ex4_view 0)) with (fun f : Z -> C => (RtoC 0 + f 0%Z)%C). cbv beta.
      unfold cf. cbn. rewrite <- !RtoC_mult, <- !RtoC_plus. f_equal. ring. }
  rewrite ES in S2. vm_compute in Ef, Eh. injection Ef as <-. injection Eh as <-. 
  change (phase (t_e e_int2c2e) S1 S1) with ((1 # 1)%Q, (0 # 1)%Q) in S2. rewrite ex4_one in S2. cbn [fst snd] in S2. replace (Q2R (1 # 1)) with 1 in S2 by (symmetry; exact RMicromega.Q2R_1).
  rewrite <- !RtoC_mult in S2. apply (f_equal fst) in S2. change (1 * Y 0%Z 0%Z 0%Z 0%Z 0%Z = 1 * (CINTcommon_fac_sp 0 * CINTcommon_fac_sp 0) * SS) in S2. rewrite !Rmult_1_l in S2. exact S2.
Qed.
