(** PropsWhole5.v — C66: an optimizer changes which primitives are screened and nothing else.

    Two calls of one entry point with the same tables, each without optimizer, with an optimizer that stores pair data or with one
    that does not, and with any numbers in the work arrays: if the two keep the same primitives, the caller's array is left the
    same, cell by cell.  Two calls of the same kind always do. *)
From Coq Require Import Reals Lra QArith Qreals String.
From Coquelicot Require Import Coquelicot.
From Verif Require Import Base BasModel BasSpec EnvModel IdxModel IdxSpec CtrModel
  OptModel OptSpec OptPair ScreenSpec ScreenProof ScreenFinal OutModel OutSpec TabModel
  OpSpec RecModel RecSpec GaussInt Gauss2Int IntgModel IntgSpec IntgTab IntgStmt IntgAll IntgReal QuadSpec OperSpec OperModel Oper2e
  WholeModel WholeSpec WholeBatch Whole1e Whole2Model Whole2Batch Whole2Spec Whole4c WholeOptModel WholeOptSpec WholeSame PropsWhole2 PropsWhole3 PropsWhole4.
Local Open Scope R_scope.

(** without optimizer; with one whose table of pair data is filled or not *)
Inductive mode := NoOpt | Opt (stored : bool).
(** index table, g array and work buffers of a call *)
Record work := mkwork { w_idx : arr Z; w_g : arr R; w_m : mem R }.
Definition call4 V ev rys srys t ng (md : mode) i j k l kd dims (w : work) (out : arr R) : option (arr R * bool) :=
  match md with
  | NoOpt => int2e_drv V ev rys srys t ng i j k l kd dims (w_idx w) (w_g w) (w_m w) out
  | Opt stored => int2e_drv_opt V ev rys srys t ng stored i j k l kd dims (w_idx w) (w_g w) (w_m w) out
  end.
Definition call3 V ev rys srys t ng (md : mode) i j k kd dims (w : work) (out : arr R) : option (arr R * bool) :=
  match md with
  | NoOpt => int3c2e_drv V ev rys srys t ng i j k kd dims (w_idx w) (w_g w) (w_m w) out
  | Opt stored => int3c2e_drv_opt V ev rys srys t ng stored i j k kd dims (w_idx w) (w_g w) (w_m w) out
  end.
(** large enough, with arbitrary numbers in them (C63, C64, C65) *)
Definition work4_ok (md : mode) (e : envs) (ng : ngT) (nc ci cj ck cl : Z) (w : work) : Prop :=
  let m := w_m w in let L := (nf e * nc)%Z in
  (3 * nf e <= asize (w_idx w))%Z /\ filled (w_g w) /\ ((2 ^ GSHIFT ng + 1) * (3 * g_size e) <= asize (w_g w))%Z /\ (4 * g_size e <= asize (w_g w))%Z /\
  (forall s, filled (buf m s)) /\
  match md with
  | NoOpt => (ci <> 1 -> L <= asize (buf m 0))%Z /\ (cj <> 1 -> L * ci <= asize (buf m 1))%Z /\ (ck <> 1 -> L * ci * cj <= asize (buf m 2))%Z /\
      (cl <> 1 -> L * ci * cj * ck <= asize (buf m 3))%Z /\ (nc <> 1 -> L * ci * cj * ck * cl <= asize (buf m 4))%Z
  | Opt _ => opt_scratch4 (fun s => asize (buf m s)) L nc ci cj ck cl
  end /\ (nf e * (ci * cj * ck * cl) * nc <= asize (buf m 5))%Z.
Definition work3_ok (md : mode) (e : envs) (ng : ngT) (nc ci cj ck : Z) (w : work) : Prop :=
  let m := w_m w in let L := (nf e * nc)%Z in
  (3 * nf e <= asize (w_idx w))%Z /\ filled (w_g w) /\ ((2 ^ GSHIFT ng + 1) * (3 * g_size e) <= asize (w_g w))%Z /\ (4 * g_size e <= asize (w_g w))%Z /\
  (forall s, filled (buf m s)) /\
  match md with
  | NoOpt => (ci <> 1 -> L <= asize (buf m 0))%Z /\ (cj <> 1 -> L * ci <= asize (buf m 1))%Z /\ (ck <> 1 -> L * ci * cj <= asize (buf m 2))%Z /\
      (nc <> 1 -> L * ci * cj * ck <= asize (buf m 3))%Z
  | Opt _ => opt_scratch3 (fun s => asize (buf m s)) L nc ci cj ck
  end /\ (nf e * (ci * cj * ck) * nc <= asize (buf m 5))%Z.
(** the primitives that count (C63, C64, C65) *)
Definition kept4 (V : view) (ev : Z -> R) (lm : Z -> Z -> R) (ng : ngT) (order : Z) (md : mode) (i j k l ip jp kp lp : Z) : Prop :=
  let own_ij := (v_l V i + IINC ng + (v_l V j + JINC ng))%Z in let own_kl := (v_l V k + KINC ng + (v_l V l + LINC ng))%Z in
  let C := cutoff_2e false (ev 0%Z) in
  let near := near_enough (ev 8%Z) (ex V ev i ip + ex V ev j jp) (ex V ev k kp + ex V ev l lp)
    (product_centre (ex V ev i ip) (ex V ev j jp) (ctr V ev i) (ctr V ev j)) (product_centre (ex V ev k kp) (ex V ev l lp) (ctr V ev k) (ctr V ev l)) in
  match md with
  | NoOpt => let eij := pair_est V ev lm i j own_ij ip jp in let ekl := pair_est V ev lm k l (degree_kl ev own_kl order) kp lp in
      let Cr := raised V ev i j own_ij order C in eij < C /\ ekl <= Cr /\ eij + ekl <= Cr /\ near (Cr - ekl - eij)
  | Opt stored => let eij := pair_est V ev lm i j (pair_degree V ng stored i j own_ij) ip jp in let ekl := pair_est V ev lm k l (pair_degree V ng stored k l own_kl) kp lp in
      let T := if stored then user_cutoff (ev 0%Z) else C in eij < T /\ ekl < T /\ eij + ekl <= C /\ near (C - ekl - eij)
  end.
Definition kept3 (V : view) (ev : Z -> R) (lm : Z -> Z -> R) (ng : ngT) (order : Z) (md : mode) (i j k ip jp kp : Z) : Prop :=
  let own := (v_l V i + IINC ng + (v_l V j + JINC ng))%Z in let U := user_cutoff (ev 0%Z) in
  let est := pair_est V ev lm i j (match md with NoOpt => own | Opt stored => pair_degree V ng stored i j own end) ip jp in
  est < U /\ near_enough (ev 8%Z) (ex V ev i ip + ex V ev j jp) (ex V ev k kp) (product_centre (ex V ev i ip) (ex V ev j jp) (ctr V ev i) (ctr V ev j)) (ctr V ev k)
    (raised V ev i j own order U - est).

(** Four-centre entry points. *)
Theorem C66_4c_cart nbas (V : view) (ev : Z -> R) (lm : Z -> Z -> R) rys srys t ng i j k l short dims (a b : work) mode mode' (out : arr R) n1 n2 n3 n4 :
  let li := v_l V i in let lj := v_l V j in let lk := v_l V k in let ll := v_l V l in
  let ci := v_nc V i in let cj := v_nc V j in let ck := v_nc V k in let cl := v_nc V l in
  let e := init_int2e short ng li lj lk ll ci cj ck cl in let nc := Z.of_nat (length (g_rows (t_f t))) in
  let fi := CINTlen_cart li in let fj := CINTlen_cart lj in let fk := CINTlen_cart lk in let fl := CINTlen_cart ll in
  (* shells *)
  good_shells nbas V ev lm -> (0 <= i < nbas)%Z -> (0 <= j < nbas)%Z -> (0 <= k < nbas)%Z -> (0 <= l < nbas)%Z ->
  (0 <= li <= 15)%Z -> (0 <= lj <= 15)%Z -> (0 <= lk <= 15)%Z -> (0 <= ll <= 15)%Z ->
  (0 <= v_np V i /\ 1 <= ci)%Z -> (0 <= v_np V j /\ 1 <= cj)%Z -> (0 <= v_np V k /\ 1 <= ck)%Z -> (0 <= v_np V l /\ 1 <= cl)%Z ->
  (* entry point: any four-centre entry, any operator *)
  In t catalogue -> ent_ng t = Some ng -> en_fam (t_e t) = F2e -> ~ In (en_name (t_e t)) except_names ->
  (short = true <-> ev 8%Z < 0) -> (nrys_roots e <= 32)%Z -> finds_roots_2e rys srys (nrys_roots e) (rys_order e) (ev 8%Z) ->
  (* work arrays of both calls *)
  work4_ok mode e ng nc ci cj ck cl a -> work4_ok mode' e ng nc ci cj ck cl b ->
  (* the caller's array *)
  (fi * ci <= n1)%Z -> (fj * cj <= n2)%Z -> (fk * ck <= n3)%Z -> (fl * cl <= n4)%Z ->
  dims_are dims 4 [n1; n2; n3; n4] [(fi * ci)%Z; (fj * cj)%Z; (fk * ck)%Z; (fl * cl)%Z] ->
  room (asize out) nc n1 n2 n3 n4 (fi * ci) (fj * cj) (fk * ck) (fl * cl) ->
  (* both calls keep the same primitive quartets *)
  (forall ip jp kp lp, (0 <= ip < v_np V i)%Z -> (0 <= jp < v_np V j)%Z -> (0 <= kp < v_np V k)%Z -> (0 <= lp < v_np V l)%Z ->
     (kept4 V ev lm ng (rys_order e) mode i j k l ip jp kp lp <-> kept4 V ev lm ng (rys_order e) mode' i j k l ip jp kp lp)) ->
  exists o1 o2 h1 h2, call4 V ev rys srys t ng mode i j k l CartK dims a out = Some (o1, h1) /\ call4 V ev rys srys t ng mode' i j k l CartK dims b out = Some (o2, h2) /\
    asize o1 = asize o2 /\ forall x, acell o1 x = acell o2 x.
Proof.
  intros li lj lk ll ci cj ck cl e nc fi fj fk fl HG Hi Hj Hk Hl Hli Hlj Hlk Hll Hni Hnj Hnk Hnl Ht En Hf Hex Hom Hnr HR Wa Wb D1 D2 D3 D4 D5 D6 Hkept.
  assert (G : forall md w, work4_ok md e ng nc ci cj ck cl w -> exists o h Y f hh, call4 V ev rys srys t ng md i j k l CartK dims w out = Some (o, h) /\
     factor (t_e t) = Some f /\ en_cart (t_e t) = Some hh /\ stored_block out o nc n1 n2 n3 n4 (fi * ci) (fj * cj) (fk * ck) (fl * cl)
      (fun n I J K L => (Y n (I / fi) (J / fj) (K / fk) (L / fl) (I mod fi) (J mod fj) (K mod fk) (L mod fl))%Z) /\
     ok4 V ev t f i j k l (Q2R (Qmake (fst hh) (snd hh)) * (CINTcommon_fac_sp li * CINTcommon_fac_sp lj * CINTcommon_fac_sp lk * CINTcommon_fac_sp ll)) (kept4 V ev lm ng (rys_order e) md i j k l) Y).
  { intros md w (W1 & W2 & W3 & W4 & W5 & W6 & W7). destruct md as [|stored].
    - destruct W6 as (S0 & S1 & S2 & S3 & S4).
      destruct (C63_4c_cart nbas V ev lm rys srys t ng i j k l short dims (w_idx w) (w_g w) (w_m w) out n1 n2 n3 n4 HG Hi Hj Hk Hl Hli Hlj Hlk Hll Hni Hnj Hnk Hnl Ht En Hf Hex Hom Hnr HR
        W1 W2 W3 W4 W5 S0 S1 S2 S3 S4 W7 D1 D2 D3 D4 D5 D6) as (o & h & Y & f & hh & X1 & X2 & X3 & _ & X4 & X5 & _).
      exists o, h, Y, f, hh. split; [exact X1|]. split; [exact X2|]. split; [exact X3|]. split; [exact X4|exact X5].
    - destruct (C65_4c_cart nbas V ev lm rys srys t ng stored i j k l short dims (w_idx w) (w_g w) (w_m w) out n1 n2 n3 n4 HG Hi Hj Hk Hl Hli Hlj Hlk Hll Hni Hnj Hnk Hnl Ht En Hf Hex Hom Hnr HR
        W1 W2 W3 W4 W5 W6 W7 D1 D2 D3 D4 D5 D6) as (o & h & Y & f & hh & X1 & X2 & X3 & _ & X4 & X5 & _).
      exists o, h, Y, f, hh. split; [exact X1|]. split; [exact X2|]. split; [exact X3|]. split; [exact X4|exact X5]. }
  destruct (G mode a Wa) as (o1 & h1 & Y1 & f & hh & A1 & A2 & A3 & A4 & A5). destruct (G mode' b Wb) as (o2 & h2 & Y2 & f' & hh' & B1 & B2 & B3 & B4 & B5). clear G.
  rewrite A2 in B2. injection B2 as <-. rewrite A3 in B3. injection B3 as <-. exists o1, o2, h1, h2. split; [exact A1|]. split; [exact B1|].
  refine (block_same _ _ _ _ _ _ _ _ _ _ _ _ _ _ A4 B4 _). clear A4 B4. intros n I J K L Hn HI HJ HK HL.
  pose proof (Y_same4 V ev t f i j k l _ _ _ Y1 Y2 Ht (or_introl Hf) A2 Hli Hlj Hlk Hll Hkept A5 B5) as E. clear - E Hn HI HJ HK HL Hli Hlj Hlk Hll.
  pose proof (len_cart_pos _ Hli). pose proof (len_cart_pos _ Hlj). pose proof (len_cart_pos _ Hlk). pose proof (len_cart_pos _ Hll).
  apply E; [exact Hn|apply Z.mod_pos_bound; apply Z.lt_le_trans with 1%Z; [reflexivity|assumption]..].
Qed.
Print Assumptions C66_4c_cart.

Theorem C66_4c_sph nbas (V : view) (ev : Z -> R) (lm : Z -> Z -> R) rys srys t ng i j k l short dims (a b : work) mode mode' (out : arr R) n1 n2 n3 n4 :
  let li := v_l V i in let lj := v_l V j in let lk := v_l V k in let ll := v_l V l in
  let ci := v_nc V i in let cj := v_nc V j in let ck := v_nc V k in let cl := v_nc V l in
  let e := init_int2e short ng li lj lk ll ci cj ck cl in let nc := Z.of_nat (length (g_rows (t_f t))) in
  let si := (li * 2 + 1)%Z in let sj := (lj * 2 + 1)%Z in let sk := (lk * 2 + 1)%Z in let sl := (ll * 2 + 1)%Z in
  (* shells *)
  good_shells nbas V ev lm -> (0 <= i < nbas)%Z -> (0 <= j < nbas)%Z -> (0 <= k < nbas)%Z -> (0 <= l < nbas)%Z ->
  (0 <= li <= 15)%Z -> (0 <= lj <= 15)%Z -> (0 <= lk <= 15)%Z -> (0 <= ll <= 15)%Z ->
  (0 <= v_np V i /\ 1 <= ci)%Z -> (0 <= v_np V j /\ 1 <= cj)%Z -> (0 <= v_np V k /\ 1 <= ck)%Z -> (0 <= v_np V l /\ 1 <= cl)%Z ->
  (* entry point: any four-centre entry, any operator *)
  In t catalogue -> ent_ng t = Some ng -> en_fam (t_e t) = F2e -> ~ In (en_name (t_e t)) except_names ->
  (short = true <-> ev 8%Z < 0) -> (nrys_roots e <= 32)%Z -> finds_roots_2e rys srys (nrys_roots e) (rys_order e) (ev 8%Z) ->
  (* work arrays of both calls *)
  work4_ok mode e ng nc ci cj ck cl a -> work4_ok mode' e ng nc ci cj ck cl b ->
  (* the caller's array *)
  (si * ci <= n1)%Z -> (sj * cj <= n2)%Z -> (sk * ck <= n3)%Z -> (sl * cl <= n4)%Z ->
  dims_are dims 4 [n1; n2; n3; n4] [(si * ci)%Z; (sj * cj)%Z; (sk * ck)%Z; (sl * cl)%Z] ->
  room (asize out) nc n1 n2 n3 n4 (si * ci) (sj * cj) (sk * ck) (sl * cl) ->
  (* both calls keep the same primitive quartets *)
  (forall ip jp kp lp, (0 <= ip < v_np V i)%Z -> (0 <= jp < v_np V j)%Z -> (0 <= kp < v_np V k)%Z -> (0 <= lp < v_np V l)%Z ->
     (kept4 V ev lm ng (rys_order e) mode i j k l ip jp kp lp <-> kept4 V ev lm ng (rys_order e) mode' i j k l ip jp kp lp)) ->
  exists o1 o2 h1 h2, call4 V ev rys srys t ng mode i j k l SphK dims a out = Some (o1, h1) /\ call4 V ev rys srys t ng mode' i j k l SphK dims b out = Some (o2, h2) /\
    asize o1 = asize o2 /\ forall x, acell o1 x = acell o2 x.
Proof.
  intros li lj lk ll ci cj ck cl e nc si sj sk sl HG Hi Hj Hk Hl Hli Hlj Hlk Hll Hni Hnj Hnk Hnl Ht En Hf Hex Hom Hnr HR Wa Wb D1 D2 D3 D4 D5 D6 Hkept.
  assert (G : forall md w, work4_ok md e ng nc ci cj ck cl w -> exists o h Y f hh, call4 V ev rys srys t ng md i j k l SphK dims w out = Some (o, h) /\
     factor (t_e t) = Some f /\ en_sph (t_e t) = Some hh /\ stored_block out o nc n1 n2 n3 n4 (si * ci) (sj * cj) (sk * ck) (sl * cl)
      (fun n I J K L => (
        apply_T 0%R Rplus Rmult sph_coef c2s_off CINTlen_cart li (I mod si) (fun a =>
        apply_T 0%R Rplus Rmult sph_coef c2s_off CINTlen_cart lk (K mod sk) (fun c =>
        apply_T 0%R Rplus Rmult sph_coef c2s_off CINTlen_cart ll (L mod sl) (fun d =>
        apply_T 0%R Rplus Rmult sph_coef c2s_off CINTlen_cart lj (J mod sj) (fun b => Y n (I / si) (J / sj) (K / sk) (L / sl) a b c d)))))%Z) /\
     ok4 V ev t f i j k l (Q2R (Qmake (fst hh) (snd hh)) * (CINTcommon_fac_sp li * CINTcommon_fac_sp lj * CINTcommon_fac_sp lk * CINTcommon_fac_sp ll)) (kept4 V ev lm ng (rys_order e) md i j k l) Y).
  { intros md w (W1 & W2 & W3 & W4 & W5 & W6 & W7). destruct md as [|stored].
    - destruct W6 as (S0 & S1 & S2 & S3 & S4).
      destruct (C63_4c_sph nbas V ev lm rys srys t ng i j k l short dims (w_idx w) (w_g w) (w_m w) out n1 n2 n3 n4 HG Hi Hj Hk Hl Hli Hlj Hlk Hll Hni Hnj Hnk Hnl Ht En Hf Hex Hom Hnr HR
        W1 W2 W3 W4 W5 S0 S1 S2 S3 S4 W7 D1 D2 D3 D4 D5 D6) as (o & h & Y & f & hh & X1 & X2 & X3 & _ & X4 & X5 & _).
      exists o, h, Y, f, hh. split; [exact X1|]. split; [exact X2|]. split; [exact X3|]. split; [exact X4|exact X5].
    - destruct (C65_4c_sph nbas V ev lm rys srys t ng stored i j k l short dims (w_idx w) (w_g w) (w_m w) out n1 n2 n3 n4 HG Hi Hj Hk Hl Hli Hlj Hlk Hll Hni Hnj Hnk Hnl Ht En Hf Hex Hom Hnr HR
        W1 W2 W3 W4 W5 W6 W7 D1 D2 D3 D4 D5 D6) as (o & h & Y & f & hh & X1 & X2 & X3 & _ & X4 & X5 & _).
      exists o, h, Y, f, hh. split; [exact X1|]. split; [exact X2|]. split; [exact X3|]. split; [exact X4|exact X5]. }
  destruct (G mode a Wa) as (o1 & h1 & Y1 & f & hh & A1 & A2 & A3 & A4 & A5). destruct (G mode' b Wb) as (o2 & h2 & Y2 & f' & hh' & B1 & B2 & B3 & B4 & B5). clear G.
  rewrite A2 in B2. injection B2 as <-. rewrite A3 in B3. injection B3 as <-. exists o1, o2, h1, h2. split; [exact A1|]. split; [exact B1|].
  refine (block_same _ _ _ _ _ _ _ _ _ _ _ _ _ _ A4 B4 _). clear A4 B4. intros n I J K L Hn HI HJ HK HL.
  pose proof (Y_same4 V ev t f i j k l _ _ _ Y1 Y2 Ht (or_introl Hf) A2 Hli Hlj Hlk Hll Hkept A5 B5) as E. clear - E Hn HI HJ HK HL Hli Hlj Hlk Hll.
  unfold apply_T. apply lsum_ext. intros x1 H1. f_equal. apply lsum_ext. intros x2 H2. f_equal. apply lsum_ext. intros x3 H3. f_equal. apply lsum_ext. intros x4 H4. f_equal.
  apply E; assumption.
Qed.
Print Assumptions C66_4c_sph.

(** Three-centre entry points. *)
Theorem C66_3c_cart nbas (V : view) (ev : Z -> R) (lm : Z -> Z -> R) rys srys t ng i j k short dims (a b : work) mode mode' (out : arr R) n1 n2 n3 :
  let li := v_l V i in let lj := v_l V j in let lk := v_l V k in
  let ci := v_nc V i in let cj := v_nc V j in let ck := v_nc V k in
  let e := init_int3c2e short ng li lj lk ci cj ck in let nc := Z.of_nat (length (g_rows (t_f t))) in
  let fi := CINTlen_cart li in let fj := CINTlen_cart lj in let fk := CINTlen_cart lk in
  (* shells *)
  good_shells nbas V ev lm -> (0 <= i < nbas)%Z -> (0 <= j < nbas)%Z -> (0 <= k < nbas)%Z ->
  (0 <= li <= 15)%Z -> (0 <= lj <= 15)%Z -> (0 <= lk <= 15)%Z ->
  (0 <= v_np V i /\ 1 <= ci)%Z -> (0 <= v_np V j /\ 1 <= cj)%Z -> (0 <= v_np V k /\ 1 <= ck)%Z ->
  (* entry point: any three-centre entry, any operator *)
  In t catalogue -> ent_ng t = Some ng -> en_fam (t_e t) = F3c2e -> ~ In (en_name (t_e t)) except_names ->
  (short = true <-> ev 8%Z < 0) -> (nrys_roots e <= 32)%Z -> finds_roots_2e rys srys (nrys_roots e) (rys_order e) (ev 8%Z) ->
  (* work arrays of both calls *)
  work3_ok mode e ng nc ci cj ck a -> work3_ok mode' e ng nc ci cj ck b ->
  (* the caller's array *)
  (fi * ci <= n1)%Z -> (fj * cj <= n2)%Z -> (fk * ck <= n3)%Z ->
  dims_are dims 3 [n1; n2; n3] [(fi * ci)%Z; (fj * cj)%Z; (fk * ck)%Z] ->
  room (asize out) nc n1 n2 n3 1 (fi * ci) (fj * cj) (fk * ck) 1 ->
  (* both calls keep the same primitives *)
  (forall ip jp kp, (0 <= ip < v_np V i)%Z -> (0 <= jp < v_np V j)%Z -> (0 <= kp < v_np V k)%Z ->
     (kept3 V ev lm ng (rys_order e) mode i j k ip jp kp <-> kept3 V ev lm ng (rys_order e) mode' i j k ip jp kp)) ->
  exists o1 o2 h1 h2, call3 V ev rys srys t ng mode i j k CartK dims a out = Some (o1, h1) /\ call3 V ev rys srys t ng mode' i j k CartK dims b out = Some (o2, h2) /\
    asize o1 = asize o2 /\ forall x, acell o1 x = acell o2 x.
Proof.
  intros li lj lk ci cj ck e nc fi fj fk HG Hi Hj Hk Hli Hlj Hlk Hni Hnj Hnk Ht En Hf Hex Hom Hnr HR Wa Wb D1 D2 D3 D5 D6 Hkept.
  assert (G : forall md w, work3_ok md e ng nc ci cj ck w -> exists o h Y f hh, call3 V ev rys srys t ng md i j k CartK dims w out = Some (o, h) /\
     factor (t_e t) = Some f /\ en_cart (t_e t) = Some hh /\ stored_block out o nc n1 n2 n3 1 (fi * ci) (fj * cj) (fk * ck) 1
      (fun n I J K _ => (Y n (I / fi) (J / fj) (K / fk) (I mod fi) (J mod fj) (K mod fk))%Z) /\
     ok3 V ev t f i j k (Q2R (Qmake (fst hh) (snd hh)) * (CINTcommon_fac_sp li * CINTcommon_fac_sp lj * CINTcommon_fac_sp lk)) (kept3 V ev lm ng (rys_order e) md i j k) Y).
  { intros md w (W1 & W2 & W3 & W4 & W5 & W6 & W7). destruct md as [|stored].
    - destruct W6 as (S0 & S1 & S2 & S3).
      destruct (C64_3c_cart nbas V ev lm rys srys t ng i j k short dims (w_idx w) (w_g w) (w_m w) out n1 n2 n3 HG Hi Hj Hk Hli Hlj Hlk Hni Hnj Hnk Ht En Hf Hex Hom Hnr HR
        W1 W2 W3 W4 W5 S0 S1 S2 S3 W7 D1 D2 D3 D5 D6) as (o & h & Y & f & hh & X1 & X2 & X3 & _ & X4 & X5 & _).
      exists o, h, Y, f, hh. split; [exact X1|]. split; [exact X2|]. split; [exact X3|]. split; [exact X4|exact X5].
    - destruct (C65_3c_cart nbas V ev lm rys srys t ng stored i j k short dims (w_idx w) (w_g w) (w_m w) out n1 n2 n3 HG Hi Hj Hk Hli Hlj Hlk Hni Hnj Hnk Ht En Hf Hex Hom Hnr HR
        W1 W2 W3 W4 W5 W6 W7 D1 D2 D3 D5 D6) as (o & h & Y & f & hh & X1 & X2 & X3 & _ & X4 & X5 & _).
      exists o, h, Y, f, hh. split; [exact X1|]. split; [exact X2|]. split; [exact X3|]. split; [exact X4|exact X5]. }
  destruct (G mode a Wa) as (o1 & h1 & Y1 & f & hh & A1 & A2 & A3 & A4 & A5). destruct (G mode' b Wb) as (o2 & h2 & Y2 & f' & hh' & B1 & B2 & B3 & B4 & B5). clear G.
  rewrite A2 in B2. injection B2 as <-. rewrite A3 in B3. injection B3 as <-. exists o1, o2, h1, h2. split; [exact A1|]. split; [exact B1|].
  refine (block_same _ _ _ _ _ _ _ _ _ _ _ _ _ _ A4 B4 _). clear A4 B4. intros n I J K L Hn HI HJ HK HL.
  pose proof (Y_same3 V ev t f i j k _ _ _ Y1 Y2 Ht (or_intror (or_introl Hf)) A2 Hli Hlj Hlk Hkept A5 B5) as E. clear - E Hn HI HJ HK HL Hli Hlj Hlk.
  pose proof (len_cart_pos _ Hli). pose proof (len_cart_pos _ Hlj). pose proof (len_cart_pos _ Hlk).
  apply E; [exact Hn|apply Z.mod_pos_bound; apply Z.lt_le_trans with 1%Z; [reflexivity|assumption]..].
Qed.
Print Assumptions C66_3c_cart.

Theorem C66_3c_sph nbas (V : view) (ev : Z -> R) (lm : Z -> Z -> R) rys srys t ng i j k short dims (a b : work) mode mode' (out : arr R) n1 n2 n3 :
  let li := v_l V i in let lj := v_l V j in let lk := v_l V k in
  let ci := v_nc V i in let cj := v_nc V j in let ck := v_nc V k in
  let e := init_int3c2e short ng li lj lk ci cj ck in let nc := Z.of_nat (length (g_rows (t_f t))) in
  let si := (li * 2 + 1)%Z in let sj := (lj * 2 + 1)%Z in let sk := (lk * 2 + 1)%Z in
  (* shells *)
  good_shells nbas V ev lm -> (0 <= i < nbas)%Z -> (0 <= j < nbas)%Z -> (0 <= k < nbas)%Z ->
  (0 <= li <= 15)%Z -> (0 <= lj <= 15)%Z -> (0 <= lk <= 15)%Z ->
  (0 <= v_np V i /\ 1 <= ci)%Z -> (0 <= v_np V j /\ 1 <= cj)%Z -> (0 <= v_np V k /\ 1 <= ck)%Z ->
  (* entry point: any three-centre entry, any operator *)
  In t catalogue -> ent_ng t = Some ng -> en_fam (t_e t) = F3c2e -> ~ In (en_name (t_e t)) except_names ->
  (short = true <-> ev 8%Z < 0) -> (nrys_roots e <= 32)%Z -> finds_roots_2e rys srys (nrys_roots e) (rys_order e) (ev 8%Z) ->
  (* work arrays of both calls *)
  work3_ok mode e ng nc ci cj ck a -> work3_ok mode' e ng nc ci cj ck b ->
  (* the caller's array *)
  (si * ci <= n1)%Z -> (sj * cj <= n2)%Z -> (sk * ck <= n3)%Z ->
  dims_are dims 3 [n1; n2; n3] [(si * ci)%Z; (sj * cj)%Z; (sk * ck)%Z] ->
  room (asize out) nc n1 n2 n3 1 (si * ci) (sj * cj) (sk * ck) 1 ->
  (* both calls keep the same primitives *)
  (forall ip jp kp, (0 <= ip < v_np V i)%Z -> (0 <= jp < v_np V j)%Z -> (0 <= kp < v_np V k)%Z ->
     (kept3 V ev lm ng (rys_order e) mode i j k ip jp kp <-> kept3 V ev lm ng (rys_order e) mode' i j k ip jp kp)) ->
  exists o1 o2 h1 h2, call3 V ev rys srys t ng mode i j k SphK dims a out = Some (o1, h1) /\ call3 V ev rys srys t ng mode' i j k SphK dims b out = Some (o2, h2) /\
    asize o1 = asize o2 /\ forall x, acell o1 x = acell o2 x.
Proof.
  intros li lj lk ci cj ck e nc si sj sk HG Hi Hj Hk Hli Hlj Hlk Hni Hnj Hnk Ht En Hf Hex Hom Hnr HR Wa Wb D1 D2 D3 D5 D6 Hkept.
  assert (G : forall md w, work3_ok md e ng nc ci cj ck w -> exists o h Y f hh, call3 V ev rys srys t ng md i j k SphK dims w out = Some (o, h) /\
     factor (t_e t) = Some f /\ en_sph (t_e t) = Some hh /\ stored_block out o nc n1 n2 n3 1 (si * ci) (sj * cj) (sk * ck) 1
      (fun n I J K _ => (
        apply_T 0%R Rplus Rmult sph_coef c2s_off CINTlen_cart li (I mod si) (fun a =>
        apply_T 0%R Rplus Rmult sph_coef c2s_off CINTlen_cart lk (K mod sk) (fun c =>
        apply_T 0%R Rplus Rmult sph_coef c2s_off CINTlen_cart lj (J mod sj) (fun b => Y n (I / si) (J / sj) (K / sk) a b c))))%Z) /\
     ok3 V ev t f i j k (Q2R (Qmake (fst hh) (snd hh)) * (CINTcommon_fac_sp li * CINTcommon_fac_sp lj * CINTcommon_fac_sp lk)) (kept3 V ev lm ng (rys_order e) md i j k) Y).
  { intros md w (W1 & W2 & W3 & W4 & W5 & W6 & W7). destruct md as [|stored].
    - destruct W6 as (S0 & S1 & S2 & S3).
      destruct (C64_3c_sph nbas V ev lm rys srys t ng i j k short dims (w_idx w) (w_g w) (w_m w) out n1 n2 n3 HG Hi Hj Hk Hli Hlj Hlk Hni Hnj Hnk Ht En Hf Hex Hom Hnr HR
        W1 W2 W3 W4 W5 S0 S1 S2 S3 W7 D1 D2 D3 D5 D6) as (o & h & Y & f & hh & X1 & X2 & X3 & _ & X4 & X5 & _).
      exists o, h, Y, f, hh. split; [exact X1|]. split; [exact X2|]. split; [exact X3|]. split; [exact X4|exact X5].
    - destruct (C65_3c_sph nbas V ev lm rys srys t ng stored i j k short dims (w_idx w) (w_g w) (w_m w) out n1 n2 n3 HG Hi Hj Hk Hli Hlj Hlk Hni Hnj Hnk Ht En Hf Hex Hom Hnr HR
        W1 W2 W3 W4 W5 W6 W7 D1 D2 D3 D5 D6) as (o & h & Y & f & hh & X1 & X2 & X3 & _ & X4 & X5 & _).
      exists o, h, Y, f, hh. split; [exact X1|]. split; [exact X2|]. split; [exact X3|]. split; [exact X4|exact X5]. }
  destruct (G mode a Wa) as (o1 & h1 & Y1 & f & hh & A1 & A2 & A3 & A4 & A5). destruct (G mode' b Wb) as (o2 & h2 & Y2 & f' & hh' & B1 & B2 & B3 & B4 & B5). clear G.
  rewrite A2 in B2. injection B2 as <-. rewrite A3 in B3. injection B3 as <-. exists o1, o2, h1, h2. split; [exact A1|]. split; [exact B1|].
  refine (block_same _ _ _ _ _ _ _ _ _ _ _ _ _ _ A4 B4 _). clear A4 B4. intros n I J K L Hn HI HJ HK HL.
  pose proof (Y_same3 V ev t f i j k _ _ _ Y1 Y2 Ht (or_intror (or_introl Hf)) A2 Hli Hlj Hlk Hkept A5 B5) as E. clear - E Hn HI HJ HK HL Hli Hlj Hlk.
  unfold apply_T. apply lsum_ext. intros x1 H1. f_equal. apply lsum_ext. intros x2 H2. f_equal. apply lsum_ext. intros x3 H3. f_equal.
  apply E; assumption.
Qed.
Print Assumptions C66_3c_sph.

(** The four s functions of C63's example with the three kinds of call. *)
Example C66_example md md' : (forall ip jp kp lp, (0 <= ip < 1)%Z -> (0 <= jp < 1)%Z -> (0 <= kp < 1)%Z -> (0 <= lp < 1)%Z ->
    kept4 ex4_view ex4_env (fun _ _ => ln 1) (mkng 0 0 0 0 0 1 1 1) 1 md 0 0 0 0 ip jp kp lp <-> kept4 ex4_view ex4_env (fun _ _ => ln 1) (mkng 0 0 0 0 0 1 1 1) 1 md' 0 0 0 0 ip jp kp lp) /\
  exists o1 o2, let w c := mkwork (uninit 3) (of_fun 6 (fun _ => c)) (mkmem (fun _ => of_fun 1 (fun _ => c)) (fun _ => true)) in
    let go md c := call4 ex4_view ex4_env (fun _ => one_root) (fun _ _ _ => (fun _ => 0, fun _ => 0)) e_int2e (mkng 0 0 0 0 0 1 1 1) md 0 0 0 0 CartK None (w c) (uninit 1) in
    go md 5 = Some o1 /\ go md' 7 = Some o2 /\ acell (fst o1) 0%Z = acell (fst o2) 0%Z.
Proof.
  assert (EC : cutoff_2e false (ex4_env 0) = 60).
  { unfold cutoff_2e. cbn [ex4_env Z.eqb]. destruct (Req_EM_T 0 0); [reflexivity|lra]. }
  assert (EU : user_cutoff (ex4_env 0) = 60).
  { unfold user_cutoff. cbn [ex4_env Z.eqb]. destruct (Req_EM_T 0 0); [reflexivity|lra]. }
  assert (HK : forall md ip jp kp lp, (0 <= ip < 1)%Z -> (0 <= jp < 1)%Z -> (0 <= kp < 1)%Z -> (0 <= lp < 1)%Z -> kept4 ex4_view ex4_env (fun _ _ => ln 1) (mkng 0 0 0 0 0 1 1 1) 1 md 0 0 0 0 ip jp kp lp).
  { intros m ip jp kp lp H1 H2 H3 H4. assert (H8 : ~ ex4_env 8 < 0) by (cbn; lra). pose proof (ex4_est ip jp H1 H2) as E1. pose proof (ex4_est kp lp H3 H4) as E2.
    unfold kept4. change (v_l ex4_view 0 + IINC (mkng 0 0 0 0 0 1 1 1) + (v_l ex4_view 0 + JINC (mkng 0 0 0 0 0 1 1 1)))%Z with 0%Z.
    change (v_l ex4_view 0 + KINC (mkng 0 0 0 0 0 1 1 1) + (v_l ex4_view 0 + LINC (mkng 0 0 0 0 0 1 1 1)))%Z with 0%Z. cbv zeta. destruct m as [|s].
    - unfold raised, degree_kl. destruct (Rlt_dec (ex4_env 8) 0) as [X|_]; [contradiction|]. rewrite EC. repeat split; try lra. left. cbn. lra.
    - replace (pair_degree ex4_view (mkng 0 0 0 0 0 1 1 1) s 0 0 0) with 0%Z by (destruct s; reflexivity). rewrite EC, EU. destruct s; repeat split; try lra; left; cbn; lra. }
  assert (HE : forall ip jp kp lp, (0 <= ip < 1)%Z -> (0 <= jp < 1)%Z -> (0 <= kp < 1)%Z -> (0 <= lp < 1)%Z ->
    kept4 ex4_view ex4_env (fun _ _ => ln 1) (mkng 0 0 0 0 0 1 1 1) 1 md 0 0 0 0 ip jp kp lp <-> kept4 ex4_view ex4_env (fun _ _ => ln 1) (mkng 0 0 0 0 0 1 1 1) 1 md' 0 0 0 0 ip jp kp lp).
  { intros ip jp kp lp H1 H2 H3 H4. split; intros _; apply HK; assumption. }
  split; [exact HE|].
  assert (HR : finds_roots_2e (fun _ => one_root) (fun _ _ _ => (fun _ => 0, fun _ => 0)) 1 1 (ex4_env 8)).
  { split; [intros m y n Hn Hy; apply one_root_ok|]. split; [intros m y z n Hn Hy; cbn; lra|]. intros a0 x Ha Hx. split; [intros _; apply one_root_ok|].
    cbn [ex4_env Z.eqb Pos.eqb]. repeat split; intros X; lra. }
  assert (Hroom : room 1 1 1 1 1 1 1 1 1 1). { intros n a b c d Hn Ha Hb Hc Hd. unfold OutSpec.place. lia. }
  assert (H08 : false = true <-> ex4_env 8 < 0) by (split; [discriminate|cbn; lra]).
  assert (HW : forall m c, work4_ok m (init_int2e false (mkng 0 0 0 0 0 1 1 1) 0 0 0 0 1 1 1 1) (mkng 0 0 0 0 0 1 1 1) 1 1 1 1 1
    (mkwork (uninit 3) (of_fun 6 (fun _ => c)) (mkmem (fun _ => of_fun 1 (fun _ => c)) (fun _ => true)))).
  { intros m c. repeat split; try (apply filled_of); try (intros s; apply filled_of); try (clear; vm_compute; intuition congruence).
    destruct m; clear; vm_compute; intuition congruence. }
  destruct (C66_4c_cart 1 ex4_view ex4_env (fun _ _ => ln 1) (fun _ => one_root) (fun _ _ _ => (fun _ => 0, fun _ => 0)) e_int2e (mkng 0 0 0 0 0 1 1 1) 0 0 0 0 false None
    _ _ md md' (uninit 1) 1 1 1 1 ex4_good ltac:(by_z) ltac:(by_z) ltac:(by_z) ltac:(by_z) ltac:(by_z) ltac:(by_z) ltac:(by_z) ltac:(by_z) ltac:(by_z) ltac:(by_z) ltac:(by_z) ltac:(by_z)
    ltac:(by_z) ltac:(by_z) ltac:(by_z) ltac:(by_z) H08 ltac:(by_z) HR (HW md 5) (HW md' 7) ltac:(by_z) ltac:(by_z) ltac:(by_z) ltac:(by_z) ltac:(by_z) Hroom HE)
    as (o1 & o2 & h1 & h2 & X1 & X2 & _ & X3).
  exists (o1, h1), (o2, h2). cbv zeta. split; [exact X1|]. split; [exact X2|]. apply X3.
Qed.
