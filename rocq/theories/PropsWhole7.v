(** PropsWhole7.v — C69: exchanging the two shells of an electron exchanges the indices of the stored integrals and nothing else.

    int2e, int3c2e, int1e_ovlp, int1e_nuc and int1e_rinv, Cartesian and spherical, any range-separation parameter, with and without
    optimizer, all shells and all work arrays.  The two calls do different things (another environment, other recurrences, other contraction loops, other
    screening arithmetic) and store the same real number for the same functions: (ij|kl) = (ji|kl) = (ij|lk) = (ji|lk). *)
From Coq Require Import Reals Lra QArith Qreals String.
From Coquelicot Require Import Coquelicot.
From Verif Require Import Base BasModel BasSpec EnvModel IdxModel IdxSpec CtrModel
  OptModel OptSpec OptPair ScreenSpec ScreenProof ScreenFinal OutModel OutSpec TabModel
  OpSpec RecModel RecSpec GaussInt Gauss2Int IntgModel IntgSpec IntgTab IntgStmt IntgAll IntgReal QuadSpec OperSpec OperModel Oper2e
  WholeModel WholeSpec WholeBatch Whole1e Whole2Model Whole2Batch Whole2Spec Whole4c WholeOptModel WholeOptSpec WholeSame PropsWhole PropsWhole2 PropsWhole3 PropsWhole4 PropsWhole5 WholePerm.
Local Open Scope R_scope.

(** A call of int2e (no derivatives: increments [ng0]) with shells i, j, k, l: the work arrays and the caller's array are large
    enough (C63, C65).  [width l] is the number of functions of a shell with angular momentum l. *)
Definition ready4 (V : view) (short : bool) (md : mode) (width : Z -> Z) (i j k l : Z) (dims : option (arr Z)) (w : work) (out : arr R) (n1 n2 n3 n4 : Z) : Prop :=
  let ci := v_nc V i in let cj := v_nc V j in let ck := v_nc V k in let cl := v_nc V l in
  let m1 := (width (v_l V i) * ci)%Z in let m2 := (width (v_l V j) * cj)%Z in let m3 := (width (v_l V k) * ck)%Z in let m4 := (width (v_l V l) * cl)%Z in
  work4_ok md (init_int2e short ng0 (v_l V i) (v_l V j) (v_l V k) (v_l V l) ci cj ck cl) ng0 1 ci cj ck cl w /\
  (m1 <= n1)%Z /\ (m2 <= n2)%Z /\ (m3 <= n3)%Z /\ (m4 <= n4)%Z /\ dims_are dims 4 [n1; n2; n3; n4] [m1; m2; m3; m4] /\ room (asize out) 1 n1 n2 n3 n4 m1 m2 m3 m4.
Definition ready3 (V : view) (short : bool) (md : mode) (width : Z -> Z) (i j k : Z) (dims : option (arr Z)) (w : work) (out : arr R) (n1 n2 n3 : Z) : Prop :=
  let ci := v_nc V i in let cj := v_nc V j in let ck := v_nc V k in
  let m1 := (width (v_l V i) * ci)%Z in let m2 := (width (v_l V j) * cj)%Z in let m3 := (width (v_l V k) * ck)%Z in
  work3_ok md (init_int3c2e short ng0 (v_l V i) (v_l V j) (v_l V k) ci cj ck) ng0 1 ci cj ck w /\
  (m1 <= n1)%Z /\ (m2 <= n2)%Z /\ (m3 <= n3)%Z /\ dims_are dims 3 [n1; n2; n3] [m1; m2; m3] /\ room (asize out) 1 n1 n2 n3 1 m1 m2 m3 1.
Definition sph_len (l : Z) : Z := (l * 2 + 1)%Z.
Definition good_shell (nbas : Z) (V : view) (i : Z) : Prop := (0 <= i < nbas)%Z /\ (0 <= v_l V i <= 15)%Z /\ (0 <= v_np V i)%Z /\ (1 <= v_nc V i)%Z.

Lemma call4_cart nbas V ev lm rys srys short md i j k l dims w (out : arr R) n1 n2 n3 n4 :
  let e := init_int2e short ng0 (v_l V i) (v_l V j) (v_l V k) (v_l V l) (v_nc V i) (v_nc V j) (v_nc V k) (v_nc V l) in
  good_shells nbas V ev lm -> good_shell nbas V i -> good_shell nbas V j -> good_shell nbas V k -> good_shell nbas V l ->
  (short = true <-> ev 8%Z < 0) -> (nrys_roots e <= 32)%Z -> finds_roots_2e rys srys (nrys_roots e) (rys_order e) (ev 8%Z) ->
  ready4 V short md CINTlen_cart i j k l dims w out n1 n2 n3 n4 ->
  exists o h Y f hh, call4 V ev rys srys e_int2e ng0 md i j k l CartK dims w out = Some (o, h) /\
    factor (t_e e_int2e) = Some f /\ en_cart (t_e e_int2e) = Some hh /\
    stored_block out o 1 n1 n2 n3 n4 (CINTlen_cart (v_l V i) * v_nc V i) (CINTlen_cart (v_l V j) * v_nc V j) (CINTlen_cart (v_l V k) * v_nc V k) (CINTlen_cart (v_l V l) * v_nc V l) (fun n I J K L => (Y n (I / CINTlen_cart (v_l V i)) (J / CINTlen_cart (v_l V j)) (K / CINTlen_cart (v_l V k)) (L / CINTlen_cart (v_l V l)) (I mod CINTlen_cart (v_l V i)) (J mod CINTlen_cart (v_l V j)) (K mod CINTlen_cart (v_l V k)) (L mod CINTlen_cart (v_l V l)))%Z) /\
    ok4 V ev e_int2e f i j k l (Q2R (Qmake (fst hh) (snd hh)) * (CINTcommon_fac_sp (v_l V i) * CINTcommon_fac_sp (v_l V j) * CINTcommon_fac_sp (v_l V k) * CINTcommon_fac_sp (v_l V l)))
      (kept4 V ev lm ng0 (rys_order e) md i j k l) Y.
Proof.
  intros e HG (Hi & Hli & Hpi & Hci) (Hj & Hlj & Hpj & Hcj) (Hk & Hlk & Hpk & Hck) (Hl & Hll & Hpl & Hcl) Hom Hnr HR ((W1 & W2 & W3 & W4 & W5 & W6 & W7) & D1 & D2 & D3 & D4 & D5 & D6).
  destruct md as [|stored].
  - destruct W6 as (S0 & S1 & S2 & S3 & S4).
    destruct (C63_4c_cart nbas V ev lm rys srys e_int2e ng0 i j k l short dims (w_idx w) (w_g w) (w_m w) out n1 n2 n3 n4 HG Hi Hj Hk Hl Hli Hlj Hlk Hll (conj Hpi Hci) (conj Hpj Hcj) (conj Hpk Hck) (conj Hpl Hcl)
      cat_2e eq_refl eq_refl name_2e Hom Hnr HR W1 W2 W3 W4 W5 S0 S1 S2 S3 S4 W7 D1 D2 D3 D4 D5 D6) as (o & h & Y & f & hh & X1 & X2 & X3 & _ & X4 & X5 & _).
    exists o, h, Y, f, hh. split; [exact X1|]. split; [exact X2|]. split; [exact X3|]. split; [exact X4|exact X5].
  - destruct (C65_4c_cart nbas V ev lm rys srys e_int2e ng0 stored i j k l short dims (w_idx w) (w_g w) (w_m w) out n1 n2 n3 n4 HG Hi Hj Hk Hl Hli Hlj Hlk Hll (conj Hpi Hci) (conj Hpj Hcj) (conj Hpk Hck) (conj Hpl Hcl)
      cat_2e eq_refl eq_refl name_2e Hom Hnr HR W1 W2 W3 W4 W5 W6 W7 D1 D2 D3 D4 D5 D6) as (o & h & Y & f & hh & X1 & X2 & X3 & _ & X4 & X5 & _).
    exists o, h, Y, f, hh. split; [exact X1|]. split; [exact X2|]. split; [exact X3|]. split; [exact X4|exact X5].
Qed.

(** Four shells, Cartesian: [sb] exchanges the shells of electron 1, [sk] those of electron 2. *)
Theorem C69_4c_cart nbas (V : view) (ev : Z -> R) (lm : Z -> Z -> R) rys srys (short : bool) (md : mode) (sb sk : bool) i j k l
    dims (a : work) (out : arr R) n1 n2 n3 n4 dims' (a' : work) (out' : arr R) n1' n2' n3' n4' :
  let e := init_int2e short ng0 (v_l V i) (v_l V j) (v_l V k) (v_l V l) (v_nc V i) (v_nc V j) (v_nc V k) (v_nc V l) in
  let i' := if sb then j else i in let j' := if sb then i else j in let k' := if sk then l else k in let l' := if sk then k else l in
  good_shells nbas V ev lm -> good_shell nbas V i -> good_shell nbas V j -> good_shell nbas V k -> good_shell nbas V l ->
  (short = true <-> ev 8%Z < 0) -> (nrys_roots e <= 32)%Z -> finds_roots_2e rys srys (nrys_roots e) (rys_order e) (ev 8%Z) ->
  ready4 V short md CINTlen_cart i j k l dims a out n1 n2 n3 n4 -> ready4 V short md CINTlen_cart i' j' k' l' dims' a' out' n1' n2' n3' n4' ->
  exists o1 o2 h1 h2, call4 V ev rys srys e_int2e ng0 md i j k l CartK dims a out = Some (o1, h1) /\
    call4 V ev rys srys e_int2e ng0 md i' j' k' l' CartK dims' a' out' = Some (o2, h2) /\
    forall I J K L, (0 <= I < CINTlen_cart (v_l V i) * v_nc V i)%Z -> (0 <= J < CINTlen_cart (v_l V j) * v_nc V j)%Z -> (0 <= K < CINTlen_cart (v_l V k) * v_nc V k)%Z -> (0 <= L < CINTlen_cart (v_l V l) * v_nc V l)%Z ->
      exists v, rd o1 (OutSpec.place n1 n2 n3 n4 0 I J K L) = Some v /\
        rd o2 (OutSpec.place n1' n2' n3' n4' 0 (if sb then J else I) (if sb then I else J) (if sk then L else K) (if sk then K else L)) = Some v.
Proof.
  intros e i' j' k' l' HG Gi Gj Gk Gl Hom Hnr HR Ra Rb.
  destruct (call4_cart nbas V ev lm rys srys short md i j k l dims a out n1 n2 n3 n4 HG Gi Gj Gk Gl Hom Hnr HR Ra) as (o1 & h1 & Y1 & f & hh & A1 & A2 & A3 & A4 & A5).
  set (e' := init_int2e short ng0 (v_l V i') (v_l V j') (v_l V k') (v_l V l') (v_nc V i') (v_nc V j') (v_nc V k') (v_nc V l')).
  assert (EE : rys_order e' = rys_order e /\ nrys_roots e' = nrys_roots e).
  { unfold e', e, i', j', k', l'. clear. destruct sb, sk.
    - destruct (env_bra short (v_l V i) (v_l V j) (v_l V k) (v_l V l) (v_nc V i) (v_nc V j) (v_nc V k) (v_nc V l) (v_nc V j) (v_nc V i) (v_nc V k) (v_nc V l)) as [<- <-]. apply env_ket.
    - apply env_bra.
    - apply env_ket.
    - split; reflexivity. }
  destruct EE as [EO EN].
  assert (Gi' : good_shell nbas V i') by (unfold i'; destruct sb; assumption). assert (Gj' : good_shell nbas V j') by (unfold j'; destruct sb; assumption).
  assert (Gk' : good_shell nbas V k') by (unfold k'; destruct sk; assumption). assert (Gl' : good_shell nbas V l') by (unfold l'; destruct sk; assumption).
  destruct (call4_cart nbas V ev lm rys srys short md i' j' k' l' dims' a' out' n1' n2' n3' n4' HG Gi' Gj' Gk' Gl' Hom) as (o2 & h2 & Y2 & f' & hh' & B1 & B2 & B3 & B4 & B5);
    [fold e'; rewrite EN; exact Hnr|fold e'; rewrite EN, EO; exact HR|exact Rb|].
  fold e' in B5. rewrite EO in B5. fold e in A5. rewrite A2 in B2. injection B2 as <-. rewrite A3 in B3. injection B3 as <-.
  exists o1, o2, h1, h2. split; [exact A1|]. split; [exact B1|]. intros I J K L HI HJ HK HL.
  destruct A4 as (_ & A4 & _). destruct B4 as (_ & B4 & _). eexists. split; [apply A4; [split; [apply Z.le_refl|reflexivity]|assumption..]|].
  rewrite B4; [|split; [apply Z.le_refl|reflexivity]|unfold i'; destruct sb; assumption|unfold j'; destruct sb; assumption|unfold k'; destruct sk; assumption|unfold l'; destruct sk; assumption].
  f_equal. clear A4 B4 A1 B1. symmetry.
  destruct Gi as (_ & Hli & _). destruct Gj as (_ & Hlj & _). destruct Gk as (_ & Hlk & _). destruct Gl as (_ & Hll & _).
  assert (EC : CINTcommon_fac_sp (v_l V i') * CINTcommon_fac_sp (v_l V j') * CINTcommon_fac_sp (v_l V k') * CINTcommon_fac_sp (v_l V l') =
               CINTcommon_fac_sp (v_l V i) * CINTcommon_fac_sp (v_l V j) * CINTcommon_fac_sp (v_l V k) * CINTcommon_fac_sp (v_l V l)) by (unfold i', j', k', l'; clear; destruct sb, sk; ring).
  rewrite EC in B5. pose proof (Y_perm4 V ev lm f (rys_order e) md sb sk i j k l _ Y1 Y2 A2 Hli Hlj Hlk Hll A5 B5) as E. clear - E Hli Hlj Hlk Hll.
  pose proof (Z.lt_le_trans _ _ _ Z.lt_0_1 (len_cart_pos _ Hli)). pose proof (Z.lt_le_trans _ _ _ Z.lt_0_1 (len_cart_pos _ Hlj)).
  pose proof (Z.lt_le_trans _ _ _ Z.lt_0_1 (len_cart_pos _ Hlk)). pose proof (Z.lt_le_trans _ _ _ Z.lt_0_1 (len_cart_pos _ Hll)).
  subst i' j' k' l'. cbv beta.
    destruct sb, sk; cbn [sw] in E |- *; apply E; apply Z.mod_pos_bound; assumption.
Qed.
Print Assumptions C69_4c_cart.

Lemma call3_cart nbas V ev lm rys srys short md i j k dims w (out : arr R) n1 n2 n3 :
  let e := init_int3c2e short ng0 (v_l V i) (v_l V j) (v_l V k) (v_nc V i) (v_nc V j) (v_nc V k) in
  good_shells nbas V ev lm -> good_shell nbas V i -> good_shell nbas V j -> good_shell nbas V k ->
  (short = true <-> ev 8%Z < 0) -> (nrys_roots e <= 32)%Z -> finds_roots_2e rys srys (nrys_roots e) (rys_order e) (ev 8%Z) ->
  ready3 V short md CINTlen_cart i j k dims w out n1 n2 n3 ->
  exists o h Y f hh, call3 V ev rys srys e_int3c2e ng0 md i j k CartK dims w out = Some (o, h) /\
    factor (t_e e_int3c2e) = Some f /\ en_cart (t_e e_int3c2e) = Some hh /\
    stored_block out o 1 n1 n2 n3 1 (CINTlen_cart (v_l V i) * v_nc V i) (CINTlen_cart (v_l V j) * v_nc V j) (CINTlen_cart (v_l V k) * v_nc V k) 1 (fun n I J K _ => (Y n (I / CINTlen_cart (v_l V i)) (J / CINTlen_cart (v_l V j)) (K / CINTlen_cart (v_l V k)) (I mod CINTlen_cart (v_l V i)) (J mod CINTlen_cart (v_l V j)) (K mod CINTlen_cart (v_l V k)))%Z) /\
    ok3 V ev e_int3c2e f i j k (Q2R (Qmake (fst hh) (snd hh)) * (CINTcommon_fac_sp (v_l V i) * CINTcommon_fac_sp (v_l V j) * CINTcommon_fac_sp (v_l V k)))
      (kept3 V ev lm ng0 (rys_order e) md i j k) Y.
Proof.
  intros e HG (Hi & Hli & Hpi & Hci) (Hj & Hlj & Hpj & Hcj) (Hk & Hlk & Hpk & Hck) Hom Hnr HR ((W1 & W2 & W3 & W4 & W5 & W6 & W7) & D1 & D2 & D3 & D5 & D6).
  destruct md as [|stored].
  - destruct W6 as (S0 & S1 & S2 & S3).
    destruct (C64_3c_cart nbas V ev lm rys srys e_int3c2e ng0 i j k short dims (w_idx w) (w_g w) (w_m w) out n1 n2 n3 HG Hi Hj Hk Hli Hlj Hlk (conj Hpi Hci) (conj Hpj Hcj) (conj Hpk Hck)
      cat_3c eq_refl eq_refl name_3c Hom Hnr HR W1 W2 W3 W4 W5 S0 S1 S2 S3 W7 D1 D2 D3 D5 D6) as (o & h & Y & f & hh & X1 & X2 & X3 & _ & X4 & X5 & _).
    exists o, h, Y, f, hh. split; [exact X1|]. split; [exact X2|]. split; [exact X3|]. split; [exact X4|exact X5].
  - destruct (C65_3c_cart nbas V ev lm rys srys e_int3c2e ng0 stored i j k short dims (w_idx w) (w_g w) (w_m w) out n1 n2 n3 HG Hi Hj Hk Hli Hlj Hlk (conj Hpi Hci) (conj Hpj Hcj) (conj Hpk Hck)
      cat_3c eq_refl eq_refl name_3c Hom Hnr HR W1 W2 W3 W4 W5 W6 W7 D1 D2 D3 D5 D6) as (o & h & Y & f & hh & X1 & X2 & X3 & _ & X4 & X5 & _).
    exists o, h, Y, f, hh. split; [exact X1|]. split; [exact X2|]. split; [exact X3|]. split; [exact X4|exact X5].
Qed.

(** Three shells, Cartesian: the two shells of electron 1 exchanged. *)
Theorem C69_3c_cart nbas (V : view) (ev : Z -> R) (lm : Z -> Z -> R) rys srys (short : bool) (md : mode) i j k
    dims (a : work) (out : arr R) n1 n2 n3 dims' (a' : work) (out' : arr R) n1' n2' n3' :
  let e := init_int3c2e short ng0 (v_l V i) (v_l V j) (v_l V k) (v_nc V i) (v_nc V j) (v_nc V k) in
  good_shells nbas V ev lm -> good_shell nbas V i -> good_shell nbas V j -> good_shell nbas V k ->
  (short = true <-> ev 8%Z < 0) -> (nrys_roots e <= 32)%Z -> finds_roots_2e rys srys (nrys_roots e) (rys_order e) (ev 8%Z) ->
  ready3 V short md CINTlen_cart i j k dims a out n1 n2 n3 -> ready3 V short md CINTlen_cart j i k dims' a' out' n1' n2' n3' ->
  exists o1 o2 h1 h2, call3 V ev rys srys e_int3c2e ng0 md i j k CartK dims a out = Some (o1, h1) /\
    call3 V ev rys srys e_int3c2e ng0 md j i k CartK dims' a' out' = Some (o2, h2) /\
    forall I J K, (0 <= I < CINTlen_cart (v_l V i) * v_nc V i)%Z -> (0 <= J < CINTlen_cart (v_l V j) * v_nc V j)%Z -> (0 <= K < CINTlen_cart (v_l V k) * v_nc V k)%Z ->
      exists v, rd o1 (OutSpec.place n1 n2 n3 1 0 I J K 0) = Some v /\ rd o2 (OutSpec.place n1' n2' n3' 1 0 J I K 0) = Some v.
Proof.
  intros e HG Gi Gj Gk Hom Hnr HR Ra Rb.
  destruct (call3_cart nbas V ev lm rys srys short md i j k dims a out n1 n2 n3 HG Gi Gj Gk Hom Hnr HR Ra) as (o1 & h1 & Y1 & f & hh & A1 & A2 & A3 & A4 & A5).
  destruct (env3_bra short (v_l V i) (v_l V j) (v_l V k) (v_nc V i) (v_nc V j) (v_nc V k) (v_nc V j) (v_nc V i) (v_nc V k)) as [EO EN].
  destruct (call3_cart nbas V ev lm rys srys short md j i k dims' a' out' n1' n2' n3' HG Gj Gi Gk Hom) as (o2 & h2 & Y2 & f' & hh' & B1 & B2 & B3 & B4 & B5);
    [rewrite EN; exact Hnr|rewrite EN, EO; exact HR|exact Rb|].
  rewrite EO in B5. rewrite A2 in B2. injection B2 as <-. rewrite A3 in B3. injection B3 as <-.
  exists o1, o2, h1, h2. split; [exact A1|]. split; [exact B1|]. intros I J K HI HJ HK.
  destruct A4 as (_ & A4 & _). destruct B4 as (_ & B4 & _).
  eexists. split; [apply A4; [split; [apply Z.le_refl|reflexivity]|assumption..|split; [apply Z.le_refl|reflexivity]]|].
  rewrite B4; [|split; [apply Z.le_refl|reflexivity]|assumption..|split; [apply Z.le_refl|reflexivity]].
  f_equal. clear A4 B4 A1 B1. symmetry.
  destruct Gi as (_ & Hli & _). destruct Gj as (_ & Hlj & _). destruct Gk as (_ & Hlk & _).
  rewrite (Rmult_comm (CINTcommon_fac_sp (v_l V j))) in B5.
  pose proof (Y_perm3 V ev lm f (rys_order e) md i j k _ Y1 Y2 A2 Hli Hlj Hlk A5 B5) as E. clear - E Hli Hlj Hlk.
  pose proof (Z.lt_le_trans _ _ _ Z.lt_0_1 (len_cart_pos _ Hli)). pose proof (Z.lt_le_trans _ _ _ Z.lt_0_1 (len_cart_pos _ Hlj)).
  pose proof (Z.lt_le_trans _ _ _ Z.lt_0_1 (len_cart_pos _ Hlk)). cbv beta.
  apply E; apply Z.mod_pos_bound; assumption.
Qed.
Print Assumptions C69_3c_cart.

Lemma call4_sph nbas V ev lm rys srys short md i j k l dims w (out : arr R) n1 n2 n3 n4 :
  let e := init_int2e short ng0 (v_l V i) (v_l V j) (v_l V k) (v_l V l) (v_nc V i) (v_nc V j) (v_nc V k) (v_nc V l) in
  good_shells nbas V ev lm -> good_shell nbas V i -> good_shell nbas V j -> good_shell nbas V k -> good_shell nbas V l ->
  (short = true <-> ev 8%Z < 0) -> (nrys_roots e <= 32)%Z -> finds_roots_2e rys srys (nrys_roots e) (rys_order e) (ev 8%Z) ->
  ready4 V short md sph_len i j k l dims w out n1 n2 n3 n4 ->
  exists o h Y f hh, call4 V ev rys srys e_int2e ng0 md i j k l SphK dims w out = Some (o, h) /\
    factor (t_e e_int2e) = Some f /\ en_sph (t_e e_int2e) = Some hh /\
    stored_block out o 1 n1 n2 n3 n4 (sph_len (v_l V i) * v_nc V i) (sph_len (v_l V j) * v_nc V j) (sph_len (v_l V k) * v_nc V k) (sph_len (v_l V l) * v_nc V l) (fun n I J K L => TT (v_l V i) (I mod sph_len (v_l V i))%Z (fun a => TT (v_l V k) (K mod sph_len (v_l V k))%Z (fun c => TT (v_l V l) (L mod sph_len (v_l V l))%Z (fun d => TT (v_l V j) (J mod sph_len (v_l V j))%Z (fun b => Y n (I / sph_len (v_l V i)) (J / sph_len (v_l V j)) (K / sph_len (v_l V k)) (L / sph_len (v_l V l)) a b c d))))%Z) /\
    ok4 V ev e_int2e f i j k l (Q2R (Qmake (fst hh) (snd hh)) * (CINTcommon_fac_sp (v_l V i) * CINTcommon_fac_sp (v_l V j) * CINTcommon_fac_sp (v_l V k) * CINTcommon_fac_sp (v_l V l)))
      (kept4 V ev lm ng0 (rys_order e) md i j k l) Y.
Proof.
  intros e HG (Hi & Hli & Hpi & Hci) (Hj & Hlj & Hpj & Hcj) (Hk & Hlk & Hpk & Hck) (Hl & Hll & Hpl & Hcl) Hom Hnr HR ((W1 & W2 & W3 & W4 & W5 & W6 & W7) & D1 & D2 & D3 & D4 & D5 & D6).
  destruct md as [|stored].
  - destruct W6 as (S0 & S1 & S2 & S3 & S4).
    destruct (C63_4c_sph nbas V ev lm rys srys e_int2e ng0 i j k l short dims (w_idx w) (w_g w) (w_m w) out n1 n2 n3 n4 HG Hi Hj Hk Hl Hli Hlj Hlk Hll (conj Hpi Hci) (conj Hpj Hcj) (conj Hpk Hck) (conj Hpl Hcl)
      cat_2e eq_refl eq_refl name_2e Hom Hnr HR W1 W2 W3 W4 W5 S0 S1 S2 S3 S4 W7 D1 D2 D3 D4 D5 D6) as (o & h & Y & f & hh & X1 & X2 & X3 & _ & X4 & X5 & _).
    exists o, h, Y, f, hh. split; [exact X1|]. split; [exact X2|]. split; [exact X3|]. split; [exact X4|exact X5].
  - destruct (C65_4c_sph nbas V ev lm rys srys e_int2e ng0 stored i j k l short dims (w_idx w) (w_g w) (w_m w) out n1 n2 n3 n4 HG Hi Hj Hk Hl Hli Hlj Hlk Hll (conj Hpi Hci) (conj Hpj Hcj) (conj Hpk Hck) (conj Hpl Hcl)
      cat_2e eq_refl eq_refl name_2e Hom Hnr HR W1 W2 W3 W4 W5 W6 W7 D1 D2 D3 D4 D5 D6) as (o & h & Y & f & hh & X1 & X2 & X3 & _ & X4 & X5 & _).
    exists o, h, Y, f, hh. split; [exact X1|]. split; [exact X2|]. split; [exact X3|]. split; [exact X4|exact X5].
Qed.

(** Four shells, spherical. *)
Theorem C69_4c_sph nbas (V : view) (ev : Z -> R) (lm : Z -> Z -> R) rys srys (short : bool) (md : mode) (sb sk : bool) i j k l
    dims (a : work) (out : arr R) n1 n2 n3 n4 dims' (a' : work) (out' : arr R) n1' n2' n3' n4' :
  let e := init_int2e short ng0 (v_l V i) (v_l V j) (v_l V k) (v_l V l) (v_nc V i) (v_nc V j) (v_nc V k) (v_nc V l) in
  let i' := if sb then j else i in let j' := if sb then i else j in let k' := if sk then l else k in let l' := if sk then k else l in
  good_shells nbas V ev lm -> good_shell nbas V i -> good_shell nbas V j -> good_shell nbas V k -> good_shell nbas V l ->
  (short = true <-> ev 8%Z < 0) -> (nrys_roots e <= 32)%Z -> finds_roots_2e rys srys (nrys_roots e) (rys_order e) (ev 8%Z) ->
  ready4 V short md sph_len i j k l dims a out n1 n2 n3 n4 -> ready4 V short md sph_len i' j' k' l' dims' a' out' n1' n2' n3' n4' ->
  exists o1 o2 h1 h2, call4 V ev rys srys e_int2e ng0 md i j k l SphK dims a out = Some (o1, h1) /\
    call4 V ev rys srys e_int2e ng0 md i' j' k' l' SphK dims' a' out' = Some (o2, h2) /\
    forall I J K L, (0 <= I < sph_len (v_l V i) * v_nc V i)%Z -> (0 <= J < sph_len (v_l V j) * v_nc V j)%Z -> (0 <= K < sph_len (v_l V k) * v_nc V k)%Z -> (0 <= L < sph_len (v_l V l) * v_nc V l)%Z ->
      exists v, rd o1 (OutSpec.place n1 n2 n3 n4 0 I J K L) = Some v /\
        rd o2 (OutSpec.place n1' n2' n3' n4' 0 (if sb then J else I) (if sb then I else J) (if sk then L else K) (if sk then K else L)) = Some v.
Proof.
  intros e i' j' k' l' HG Gi Gj Gk Gl Hom Hnr HR Ra Rb.
  destruct (call4_sph nbas V ev lm rys srys short md i j k l dims a out n1 n2 n3 n4 HG Gi Gj Gk Gl Hom Hnr HR Ra) as (o1 & h1 & Y1 & f & hh & A1 & A2 & A3 & A4 & A5).
  set (e' := init_int2e short ng0 (v_l V i') (v_l V j') (v_l V k') (v_l V l') (v_nc V i') (v_nc V j') (v_nc V k') (v_nc V l')).
  assert (EE : rys_order e' = rys_order e /\ nrys_roots e' = nrys_roots e).
  { unfold e', e, i', j', k', l'. clear. destruct sb, sk.
    - destruct (env_bra short (v_l V i) (v_l V j) (v_l V k) (v_l V l) (v_nc V i) (v_nc V j) (v_nc V k) (v_nc V l) (v_nc V j) (v_nc V i) (v_nc V k) (v_nc V l)) as [<- <-]. apply env_ket.
    - apply env_bra.
    - apply env_ket.
    - split; reflexivity. }
  destruct EE as [EO EN].
  assert (Gi' : good_shell nbas V i') by (unfold i'; destruct sb; assumption). assert (Gj' : good_shell nbas V j') by (unfold j'; destruct sb; assumption).
  assert (Gk' : good_shell nbas V k') by (unfold k'; destruct sk; assumption). assert (Gl' : good_shell nbas V l') by (unfold l'; destruct sk; assumption).
  destruct (call4_sph nbas V ev lm rys srys short md i' j' k' l' dims' a' out' n1' n2' n3' n4' HG Gi' Gj' Gk' Gl' Hom) as (o2 & h2 & Y2 & f' & hh' & B1 & B2 & B3 & B4 & B5);
    [fold e'; rewrite EN; exact Hnr|fold e'; rewrite EN, EO; exact HR|exact Rb|].
  fold e' in B5. rewrite EO in B5. fold e in A5. rewrite A2 in B2. injection B2 as <-. rewrite A3 in B3. injection B3 as <-.
  exists o1, o2, h1, h2. split; [exact A1|]. split; [exact B1|]. intros I J K L HI HJ HK HL.
  destruct A4 as (_ & A4 & _). destruct B4 as (_ & B4 & _). eexists. split; [apply A4; [split; [apply Z.le_refl|reflexivity]|assumption..]|].
  rewrite B4; [|split; [apply Z.le_refl|reflexivity]|unfold i'; destruct sb; assumption|unfold j'; destruct sb; assumption|unfold k'; destruct sk; assumption|unfold l'; destruct sk; assumption].
  f_equal. clear A4 B4 A1 B1. symmetry.
  destruct Gi as (_ & Hli & _). destruct Gj as (_ & Hlj & _). destruct Gk as (_ & Hlk & _). destruct Gl as (_ & Hll & _).
  assert (EC : CINTcommon_fac_sp (v_l V i') * CINTcommon_fac_sp (v_l V j') * CINTcommon_fac_sp (v_l V k') * CINTcommon_fac_sp (v_l V l') =
               CINTcommon_fac_sp (v_l V i) * CINTcommon_fac_sp (v_l V j) * CINTcommon_fac_sp (v_l V k) * CINTcommon_fac_sp (v_l V l)) by (unfold i', j', k', l'; clear; destruct sb, sk; ring).
  rewrite EC in B5. pose proof (Y_perm4 V ev lm f (rys_order e) md sb sk i j k l _ Y1 Y2 A2 Hli Hlj Hlk Hll A5 B5) as E. clear - E Hli Hlj Hlk Hll.
  pose proof (Z.lt_le_trans _ _ _ Z.lt_0_1 (len_cart_pos _ Hli)). pose proof (Z.lt_le_trans _ _ _ Z.lt_0_1 (len_cart_pos _ Hlj)).
  pose proof (Z.lt_le_trans _ _ _ Z.lt_0_1 (len_cart_pos _ Hlk)). pose proof (Z.lt_le_trans _ _ _ Z.lt_0_1 (len_cart_pos _ Hll)).
  subst i' j' k' l'. cbv beta.
    destruct sb, sk; cbn [sw] in E |- *.
    + rewrite TT_bra, TT_ket. apply TT_ext. intros b Hb. apply TT_ext. intros d Hd. apply TT_ext. intros c Hc. apply TT_ext. intros a Ha. apply E; assumption.
    + rewrite TT_bra. apply TT_ext. intros b Hb. apply TT_ext. intros c Hc. apply TT_ext. intros d Hd. apply TT_ext. intros a Ha. apply E; assumption.
    + rewrite TT_ket. apply TT_ext. intros a Ha. apply TT_ext. intros d Hd. apply TT_ext. intros c Hc. apply TT_ext. intros b Hb. apply E; assumption.
    + apply TT_ext. intros a Ha. apply TT_ext. intros c Hc. apply TT_ext. intros d Hd. apply TT_ext. intros b Hb. apply E; assumption.
Qed.
Print Assumptions C69_4c_sph.

Lemma call3_sph nbas V ev lm rys srys short md i j k dims w (out : arr R) n1 n2 n3 :
  let e := init_int3c2e short ng0 (v_l V i) (v_l V j) (v_l V k) (v_nc V i) (v_nc V j) (v_nc V k) in
  good_shells nbas V ev lm -> good_shell nbas V i -> good_shell nbas V j -> good_shell nbas V k ->
  (short = true <-> ev 8%Z < 0) -> (nrys_roots e <= 32)%Z -> finds_roots_2e rys srys (nrys_roots e) (rys_order e) (ev 8%Z) ->
  ready3 V short md sph_len i j k dims w out n1 n2 n3 ->
  exists o h Y f hh, call3 V ev rys srys e_int3c2e ng0 md i j k SphK dims w out = Some (o, h) /\
    factor (t_e e_int3c2e) = Some f /\ en_sph (t_e e_int3c2e) = Some hh /\
    stored_block out o 1 n1 n2 n3 1 (sph_len (v_l V i) * v_nc V i) (sph_len (v_l V j) * v_nc V j) (sph_len (v_l V k) * v_nc V k) 1 (fun n I J K _ => TT (v_l V i) (I mod sph_len (v_l V i))%Z (fun a => TT (v_l V k) (K mod sph_len (v_l V k))%Z (fun c => TT (v_l V j) (J mod sph_len (v_l V j))%Z (fun b => Y n (I / sph_len (v_l V i)) (J / sph_len (v_l V j)) (K / sph_len (v_l V k)) a b c)))%Z) /\
    ok3 V ev e_int3c2e f i j k (Q2R (Qmake (fst hh) (snd hh)) * (CINTcommon_fac_sp (v_l V i) * CINTcommon_fac_sp (v_l V j) * CINTcommon_fac_sp (v_l V k)))
      (kept3 V ev lm ng0 (rys_order e) md i j k) Y.
Proof.
  intros e HG (Hi & Hli & Hpi & Hci) (Hj & Hlj & Hpj & Hcj) (Hk & Hlk & Hpk & Hck) Hom Hnr HR ((W1 & W2 & W3 & W4 & W5 & W6 & W7) & D1 & D2 & D3 & D5 & D6).
  destruct md as [|stored].
  - destruct W6 as (S0 & S1 & S2 & S3).
    destruct (C64_3c_sph nbas V ev lm rys srys e_int3c2e ng0 i j k short dims (w_idx w) (w_g w) (w_m w) out n1 n2 n3 HG Hi Hj Hk Hli Hlj Hlk (conj Hpi Hci) (conj Hpj Hcj) (conj Hpk Hck)
      cat_3c eq_refl eq_refl name_3c Hom Hnr HR W1 W2 W3 W4 W5 S0 S1 S2 S3 W7 D1 D2 D3 D5 D6) as (o & h & Y & f & hh & X1 & X2 & X3 & _ & X4 & X5 & _).
    exists o, h, Y, f, hh. split; [exact X1|]. split; [exact X2|]. split; [exact X3|]. split; [exact X4|exact X5].
  - destruct (C65_3c_sph nbas V ev lm rys srys e_int3c2e ng0 stored i j k short dims (w_idx w) (w_g w) (w_m w) out n1 n2 n3 HG Hi Hj Hk Hli Hlj Hlk (conj Hpi Hci) (conj Hpj Hcj) (conj Hpk Hck)
      cat_3c eq_refl eq_refl name_3c Hom Hnr HR W1 W2 W3 W4 W5 W6 W7 D1 D2 D3 D5 D6) as (o & h & Y & f & hh & X1 & X2 & X3 & _ & X4 & X5 & _).
    exists o, h, Y, f, hh. split; [exact X1|]. split; [exact X2|]. split; [exact X3|]. split; [exact X4|exact X5].
Qed.

(** Three shells, spherical: the two shells of electron 1 exchanged. *)
Theorem C69_3c_sph nbas (V : view) (ev : Z -> R) (lm : Z -> Z -> R) rys srys (short : bool) (md : mode) i j k
    dims (a : work) (out : arr R) n1 n2 n3 dims' (a' : work) (out' : arr R) n1' n2' n3' :
  let e := init_int3c2e short ng0 (v_l V i) (v_l V j) (v_l V k) (v_nc V i) (v_nc V j) (v_nc V k) in
  good_shells nbas V ev lm -> good_shell nbas V i -> good_shell nbas V j -> good_shell nbas V k ->
  (short = true <-> ev 8%Z < 0) -> (nrys_roots e <= 32)%Z -> finds_roots_2e rys srys (nrys_roots e) (rys_order e) (ev 8%Z) ->
  ready3 V short md sph_len i j k dims a out n1 n2 n3 -> ready3 V short md sph_len j i k dims' a' out' n1' n2' n3' ->
  exists o1 o2 h1 h2, call3 V ev rys srys e_int3c2e ng0 md i j k SphK dims a out = Some (o1, h1) /\
    call3 V ev rys srys e_int3c2e ng0 md j i k SphK dims' a' out' = Some (o2, h2) /\
    forall I J K, (0 <= I < sph_len (v_l V i) * v_nc V i)%Z -> (0 <= J < sph_len (v_l V j) * v_nc V j)%Z -> (0 <= K < sph_len (v_l V k) * v_nc V k)%Z ->
      exists v, rd o1 (OutSpec.place n1 n2 n3 1 0 I J K 0) = Some v /\ rd o2 (OutSpec.place n1' n2' n3' 1 0 J I K 0) = Some v.
Proof.
  intros e HG Gi Gj Gk Hom Hnr HR Ra Rb.
  destruct (call3_sph nbas V ev lm rys srys short md i j k dims a out n1 n2 n3 HG Gi Gj Gk Hom Hnr HR Ra) as (o1 & h1 & Y1 & f & hh & A1 & A2 & A3 & A4 & A5).
  destruct (env3_bra short (v_l V i) (v_l V j) (v_l V k) (v_nc V i) (v_nc V j) (v_nc V k) (v_nc V j) (v_nc V i) (v_nc V k)) as [EO EN].
  destruct (call3_sph nbas V ev lm rys srys short md j i k dims' a' out' n1' n2' n3' HG Gj Gi Gk Hom) as (o2 & h2 & Y2 & f' & hh' & B1 & B2 & B3 & B4 & B5);
    [rewrite EN; exact Hnr|rewrite EN, EO; exact HR|exact Rb|].
  rewrite EO in B5. rewrite A2 in B2. injection B2 as <-. rewrite A3 in B3. injection B3 as <-.
  exists o1, o2, h1, h2. split; [exact A1|]. split; [exact B1|]. intros I J K HI HJ HK.
  destruct A4 as (_ & A4 & _). destruct B4 as (_ & B4 & _).
  eexists. split; [apply A4; [split; [apply Z.le_refl|reflexivity]|assumption..|split; [apply Z.le_refl|reflexivity]]|].
  rewrite B4; [|split; [apply Z.le_refl|reflexivity]|assumption..|split; [apply Z.le_refl|reflexivity]].
  f_equal. clear A4 B4 A1 B1. symmetry.
  destruct Gi as (_ & Hli & _). destruct Gj as (_ & Hlj & _). destruct Gk as (_ & Hlk & _).
  rewrite (Rmult_comm (CINTcommon_fac_sp (v_l V j))) in B5.
  pose proof (Y_perm3 V ev lm f (rys_order e) md i j k _ Y1 Y2 A2 Hli Hlj Hlk A5 B5) as E. clear - E Hli Hlj Hlk.
  pose proof (Z.lt_le_trans _ _ _ Z.lt_0_1 (len_cart_pos _ Hli)). pose proof (Z.lt_le_trans _ _ _ Z.lt_0_1 (len_cart_pos _ Hlj)).
  pose proof (Z.lt_le_trans _ _ _ Z.lt_0_1 (len_cart_pos _ Hlk)). cbv beta.
  rewrite TT_bra3. apply TT_ext. intros b Hb. apply TT_ext. intros c Hc. apply TT_ext. intros a Ha. apply E; assumption.
Qed.
Print Assumptions C69_3c_sph.

(** One electron: a call of an entry with increments [ng]. *)
Definition ready2 (V : view) (ng : ngT) (width : Z -> Z) (i j : Z) (dims : option (arr Z)) (w : work) (out : arr R) (n1 n2 : Z) : Prop :=
  let ci := v_nc V i in let cj := v_nc V j in let e := init_int1e ng (v_l V i) (v_l V j) ci cj in
  let m1 := (width (v_l V i) * ci)%Z in let m2 := (width (v_l V j) * cj)%Z in let m := w_m w in
  (3 * nf e <= asize (w_idx w))%Z /\ filled (w_g w) /\ ((2 ^ GSHIFT ng + 1) * (3 * g_size e) <= asize (w_g w))%Z /\ (forall s, filled (buf m s)) /\
  (ci <> 1 -> nf e <= asize (buf m 0))%Z /\ (cj <> 1 -> nf e * ci <= asize (buf m 1))%Z /\ (nf e * (ci * cj) <= asize (buf m 5))%Z /\
  (m1 <= n1)%Z /\ (m2 <= n2)%Z /\ dims_are dims 2 [n1; n2] [m1; m2] /\ (forall d, dims = Some d -> exists n, rd d 2 = Some n) /\ room (asize out) 1 n1 n2 1 1 m1 m2 1 1.

Lemma call2_cart nbas V ev lm at_ natm rys t ng i j dims w (out : arr R) n1 n2 :
  In t plain_1e -> ent_ng t = Some ng ->
  good_shells nbas V ev lm -> good_shell nbas V i -> good_shell nbas V j ->
  (en_fam (t_e t) <> F1e -> finds_roots rys (nrys_roots (init_int1e ng (v_l V i) (v_l V j) (v_nc V i) (v_nc V j)))) -> (1 <= natm)%Z ->
  ready2 V ng CINTlen_cart i j dims w out n1 n2 ->
  exists o h Y, int1e_drv V ev at_ natm rys t ng i j CartK dims (w_idx w) (w_g w) (w_m w) out = Some (o, h) /\
    stored_block out o 1 n1 n2 1 1 (CINTlen_cart (v_l V i) * v_nc V i) (CINTlen_cart (v_l V j) * v_nc V j) 1 1 (fun n I J _ _ => (Y n (I / CINTlen_cart (v_l V i)) (J / CINTlen_cart (v_l V j)) (I mod CINTlen_cart (v_l V i)) (J mod CINTlen_cart (v_l V j)))%Z) /\
    ok2 V ev at_ natm t i j (CINTcommon_fac_sp (v_l V i) * CINTcommon_fac_sp (v_l V j))
      (fun ip jp => pair_est V ev lm i j (v_l V i + IINC ng + (v_l V j + JINC ng)) ip jp < user_cutoff (ev 0%Z)) Y.
Proof.
  intros Ht En HG (Hi & Hli & Hpi & Hci) (Hj & Hlj & Hpj & Hcj) Hr Hn (W1 & W2 & W3 & W4 & W5 & W6 & W7 & D1 & D2 & D3 & D4 & D5).
  destruct (plain_in t Ht) as (T1 & _ & T2 & T3 & T4 & _). assert (NC : Z.of_nat (length (g_rows (t_f t))) = 1%Z) by (rewrite T4; reflexivity).
  pose proof (C62_1e_cart nbas V ev lm at_ natm rys t ng i j dims (w_idx w) (w_g w) (w_m w) out n1 n2) as G. cbv zeta in G. rewrite NC, !Z.mul_1_r in G.
  destruct (G HG Hi Hj Hli Hlj Hpi Hpj Hci Hcj T1 En T2 (fun X => conj T3 (Hr X)) (fun _ => Hn) W1 W2 W3 W4 W5 W6 (fun X => False_ind _ (X eq_refl)) W7 D1 D2 D3 D4 D5) as (o & h & Y & X1 & X2 & X3 & _).
  exists o, h, Y. split; [exact X1|]. split; [exact X2|exact X3].
Qed.

(** int1e_ovlp, int1e_nuc, int1e_rinv, Cartesian. *)
Theorem C69_1e_cart nbas (V : view) (ev : Z -> R) (lm : Z -> Z -> R) at_ natm rys t ng i j
    dims (a : work) (out : arr R) n1 n2 dims' (a' : work) (out' : arr R) n1' n2' :
  In t [e_int1e_ovlp; e_int1e_nuc; e_int1e_rinv] -> ent_ng t = Some ng ->
  good_shells nbas V ev lm -> good_shell nbas V i -> good_shell nbas V j ->
  (en_fam (t_e t) <> F1e -> finds_roots rys (nrys_roots (init_int1e ng (v_l V i) (v_l V j) (v_nc V i) (v_nc V j)))) -> (1 <= natm)%Z ->
  ready2 V ng CINTlen_cart i j dims a out n1 n2 -> ready2 V ng CINTlen_cart j i dims' a' out' n1' n2' ->
  exists o1 o2 h1 h2, int1e_drv V ev at_ natm rys t ng i j CartK dims (w_idx a) (w_g a) (w_m a) out = Some (o1, h1) /\
    int1e_drv V ev at_ natm rys t ng j i CartK dims' (w_idx a') (w_g a') (w_m a') out' = Some (o2, h2) /\
    forall I J, (0 <= I < CINTlen_cart (v_l V i) * v_nc V i)%Z -> (0 <= J < CINTlen_cart (v_l V j) * v_nc V j)%Z ->
      exists v, rd o1 (OutSpec.place n1 n2 1 1 0 I J 0 0) = Some v /\ rd o2 (OutSpec.place n1' n2' 1 1 0 J I 0 0) = Some v.
Proof.
  intros Ht En HG Gi Gj Hr Hn Ra Rb.
  destruct (plain_in t Ht) as (_ & _ & _ & _ & _ & _ & ng' & En' & N1 & N2). rewrite En in En'. injection En' as <-.
  destruct (call2_cart nbas V ev lm at_ natm rys t ng i j dims a out n1 n2 Ht En HG Gi Gj Hr Hn Ra) as (o1 & h1 & Y1 & A1 & A2 & A3).
  destruct (call2_cart nbas V ev lm at_ natm rys t ng j i dims' a' out' n1' n2' Ht En HG Gj Gi) as (o2 & h2 & Y2 & B1 & B2 & B3);
    [intros X; specialize (Hr X); unfold init_int1e in *; cbn [nrys_roots] in *; rewrite N1, N2, !Z.add_0_r in *; rewrite (Z.add_comm (v_l V j)); exact Hr|exact Hn|exact Rb|].
  exists o1, o2, h1, h2. split; [exact A1|]. split; [exact B1|]. intros I J HI HJ.
  assert (Z1 : (0 <= 0 < 1)%Z) by (split; [apply Z.le_refl|reflexivity]).
  destruct A2 as (_ & A2 & _). destruct B2 as (_ & B2 & _). eexists. split; [apply A2; assumption|]. rewrite B2; try assumption. f_equal. clear A1 A2 B1 B2. symmetry.
  destruct Gi as (_ & Hli & _). destruct Gj as (_ & Hlj & _). rewrite (Rmult_comm (CINTcommon_fac_sp (v_l V j))) in B3.
  assert (HK : forall ip jp, pair_est V ev lm j i (v_l V j + IINC ng + (v_l V i + JINC ng)) jp ip < user_cutoff (ev 0%Z) <->
                             pair_est V ev lm i j (v_l V i + IINC ng + (v_l V j + JINC ng)) ip jp < user_cutoff (ev 0%Z)).
  { intros ip jp. rewrite N1, N2, !Z.add_0_r, (Z.add_comm (v_l V j)), (pair_est_sym V ev lm j i). reflexivity. }
  pose proof (Y_perm2 V ev at_ natm t i j _ _ _ Y1 Y2 Ht (proj1 Hli) (proj1 Hlj) HK A3 B3) as E. clear - E Hli Hlj.
  pose proof (Z.lt_le_trans _ _ _ Z.lt_0_1 (len_cart_pos _ Hli)). pose proof (Z.lt_le_trans _ _ _ Z.lt_0_1 (len_cart_pos _ Hlj)). cbv beta.
  apply E; apply Z.mod_pos_bound; assumption.
Qed.
Print Assumptions C69_1e_cart.


Lemma call2_sph nbas V ev lm at_ natm rys t ng i j dims w (out : arr R) n1 n2 :
  In t plain_1e -> ent_ng t = Some ng ->
  good_shells nbas V ev lm -> good_shell nbas V i -> good_shell nbas V j ->
  (en_fam (t_e t) <> F1e -> finds_roots rys (nrys_roots (init_int1e ng (v_l V i) (v_l V j) (v_nc V i) (v_nc V j)))) -> (1 <= natm)%Z ->
  ready2 V ng sph_len i j dims w out n1 n2 ->
  exists o h Y, int1e_drv V ev at_ natm rys t ng i j SphK dims (w_idx w) (w_g w) (w_m w) out = Some (o, h) /\
    stored_block out o 1 n1 n2 1 1 (sph_len (v_l V i) * v_nc V i) (sph_len (v_l V j) * v_nc V j) 1 1 (fun n I J _ _ => TT (v_l V i) (I mod sph_len (v_l V i))%Z (fun a => TT (v_l V j) (J mod sph_len (v_l V j))%Z (fun b => Y n (I / sph_len (v_l V i)) (J / sph_len (v_l V j)) a b))%Z) /\
    ok2 V ev at_ natm t i j (CINTcommon_fac_sp (v_l V i) * CINTcommon_fac_sp (v_l V j))
      (fun ip jp => pair_est V ev lm i j (v_l V i + IINC ng + (v_l V j + JINC ng)) ip jp < user_cutoff (ev 0%Z)) Y.
Proof.
  intros Ht En HG (Hi & Hli & Hpi & Hci) (Hj & Hlj & Hpj & Hcj) Hr Hn (W1 & W2 & W3 & W4 & W5 & W6 & W7 & D1 & D2 & D3 & D4 & D5).
  destruct (plain_in t Ht) as (T1 & _ & T2 & T3 & T4 & _). assert (NC : Z.of_nat (length (g_rows (t_f t))) = 1%Z) by (rewrite T4; reflexivity).
  pose proof (C62_1e_sph nbas V ev lm at_ natm rys t ng i j dims (w_idx w) (w_g w) (w_m w) out n1 n2) as G. cbv zeta in G. rewrite NC, !Z.mul_1_r in G.
  destruct (G HG Hi Hj Hli Hlj Hpi Hpj Hci Hcj T1 En T2 (fun X => conj T3 (Hr X)) (fun _ => Hn) W1 W2 W3 W4 W5 W6 (fun X => False_ind _ (X eq_refl)) W7 D1 D2 D3 D4 D5) as (o & h & Y & X1 & X2 & X3 & _).
  exists o, h, Y. split; [exact X1|]. split; [exact X2|exact X3].
Qed.

(** int1e_ovlp, int1e_nuc, int1e_rinv, spherical. *)
Theorem C69_1e_sph nbas (V : view) (ev : Z -> R) (lm : Z -> Z -> R) at_ natm rys t ng i j
    dims (a : work) (out : arr R) n1 n2 dims' (a' : work) (out' : arr R) n1' n2' :
  In t [e_int1e_ovlp; e_int1e_nuc; e_int1e_rinv] -> ent_ng t = Some ng ->
  good_shells nbas V ev lm -> good_shell nbas V i -> good_shell nbas V j ->
  (en_fam (t_e t) <> F1e -> finds_roots rys (nrys_roots (init_int1e ng (v_l V i) (v_l V j) (v_nc V i) (v_nc V j)))) -> (1 <= natm)%Z ->
  ready2 V ng sph_len i j dims a out n1 n2 -> ready2 V ng sph_len j i dims' a' out' n1' n2' ->
  exists o1 o2 h1 h2, int1e_drv V ev at_ natm rys t ng i j SphK dims (w_idx a) (w_g a) (w_m a) out = Some (o1, h1) /\
    int1e_drv V ev at_ natm rys t ng j i SphK dims' (w_idx a') (w_g a') (w_m a') out' = Some (o2, h2) /\
    forall I J, (0 <= I < sph_len (v_l V i) * v_nc V i)%Z -> (0 <= J < sph_len (v_l V j) * v_nc V j)%Z ->
      exists v, rd o1 (OutSpec.place n1 n2 1 1 0 I J 0 0) = Some v /\ rd o2 (OutSpec.place n1' n2' 1 1 0 J I 0 0) = Some v.
Proof.
  intros Ht En HG Gi Gj Hr Hn Ra Rb.
  destruct (plain_in t Ht) as (_ & _ & _ & _ & _ & _ & ng' & En' & N1 & N2). rewrite En in En'. injection En' as <-.
  destruct (call2_sph nbas V ev lm at_ natm rys t ng i j dims a out n1 n2 Ht En HG Gi Gj Hr Hn Ra) as (o1 & h1 & Y1 & A1 & A2 & A3).
  destruct (call2_sph nbas V ev lm at_ natm rys t ng j i dims' a' out' n1' n2' Ht En HG Gj Gi) as (o2 & h2 & Y2 & B1 & B2 & B3);
    [intros X; specialize (Hr X); unfold init_int1e in *; cbn [nrys_roots] in *; rewrite N1, N2, !Z.add_0_r in *; rewrite (Z.add_comm (v_l V j)); exact Hr|exact Hn|exact Rb|].
  exists o1, o2, h1, h2. split; [exact A1|]. split; [exact B1|]. intros I J HI HJ.
  assert (Z1 : (0 <= 0 < 1)%Z) by (split; [apply Z.le_refl|reflexivity]).
  destruct A2 as (_ & A2 & _). destruct B2 as (_ & B2 & _). eexists. split; [apply A2; assumption|]. rewrite B2; try assumption. f_equal. clear A1 A2 B1 B2. symmetry.
  destruct Gi as (_ & Hli & _). destruct Gj as (_ & Hlj & _). rewrite (Rmult_comm (CINTcommon_fac_sp (v_l V j))) in B3.
  assert (HK : forall ip jp, pair_est V ev lm j i (v_l V j + IINC ng + (v_l V i + JINC ng)) jp ip < user_cutoff (ev 0%Z) <->
                             pair_est V ev lm i j (v_l V i + IINC ng + (v_l V j + JINC ng)) ip jp < user_cutoff (ev 0%Z)).
  { intros ip jp. rewrite N1, N2, !Z.add_0_r, (Z.add_comm (v_l V j)), (pair_est_sym V ev lm j i). reflexivity. }
  pose proof (Y_perm2 V ev at_ natm t i j _ _ _ Y1 Y2 Ht (proj1 Hli) (proj1 Hlj) HK A3 B3) as E. clear - E Hli Hlj.
  pose proof (Z.lt_le_trans _ _ _ Z.lt_0_1 (len_cart_pos _ Hli)). pose proof (Z.lt_le_trans _ _ _ Z.lt_0_1 (len_cart_pos _ Hlj)). cbv beta.
  rewrite T_swap. apply TT_ext. intros b Hb. apply TT_ext. intros a Ha. apply E; assumption.
Qed.
Print Assumptions C69_1e_sph.

(** An s shell of exponent 1 at the origin and a p shell of exponent 2 at (0,0,3): (ps|ss) and (sp|ss), in the three kinds of
    call and with different garbage in the work arrays. *)
Definition ex7_view : view := mkview (fun i => i) (fun _ => 1%Z) (fun _ => 1%Z) (fun i => 20 + i)%Z (fun i => 30 + i)%Z (fun i => 40 + 3 * i)%Z.
Definition ex7_env (x : Z) : R :=
  if (x =? 20)%Z then 1 else if (x =? 21)%Z then 2 else if (x =? 30)%Z then 1 else if (x =? 31)%Z then 1 else if (x =? 45)%Z then 3 else 0.
Lemma ex7_good : good_shells 2 ex7_view ex7_env (fun _ _ => ln 1).
Proof.
  intros i p Hi Hp. cbn in Hp. assert (p = 0%Z) as -> by lia. assert (Ei : i = 0%Z \/ i = 1%Z) by lia.
  destruct Ei as [-> | ->]; (split; [cbn; lra|]); exists 1; (split; [lra|]); cbn;
    (split; [intros k Hk; assert (k = 0%Z) as -> by lia; cbn; rewrite Rabs_R1; lra|]); (split; [exists 0%Z; split; [lia|cbn; apply Rabs_R1]|reflexivity]).
Qed.
Example C69_example md :
  let w c := mkwork (uninit 9) (of_fun 12 (fun _ => c)) (mkmem (fun _ => of_fun 3 (fun _ => c)) (fun _ => true)) in
  let go i j c := call4 ex7_view ex7_env (fun _ => one_root) (fun _ _ _ => (fun _ => 0, fun _ => 0)) e_int2e ng0 md i j 0 0 CartK None (w c) (uninit 3) in
  exists o1 o2, go 1%Z 0%Z 5 = Some o1 /\ go 0%Z 1%Z 7 = Some o2 /\
    forall x, (0 <= x < 3)%Z -> exists v, rd (fst o1) x = Some v /\ rd (fst o2) x = Some v.
Proof.
  intros w go.
  assert (HR : finds_roots_2e (fun _ => one_root) (fun _ _ _ => (fun _ => 0, fun _ => 0)) 1 1 (ex7_env 8)).
  { split; [intros m y n Hn Hy; apply one_root_ok|]. split; [intros m y z n Hn Hy; cbn; lra|]. intros a0 x Ha Hx. split; [intros _; apply one_root_ok|].
    cbn [ex7_env Z.eqb Pos.eqb]. repeat split; intros X; lra. }
  assert (H08 : false = true <-> ex7_env 8 < 0) by (split; [discriminate|cbn; lra]).
  assert (R1 : ready4 ex7_view false md CINTlen_cart 1 0 0 0 None (w 5) (uninit 3) 3 1 1 1).
  { split; [|split; [by_z|split; [by_z|split; [by_z|split; [by_z|split; [by_z|intros n a b c d Hn Ha Hb Hc Hd; cbn in Hn, Ha, Hb, Hc, Hd |- *; unfold OutSpec.place; lia]]]]]].
    repeat split; try (apply filled_of); try (intros s; apply filled_of); try (clear; vm_compute; intuition congruence). destruct md; clear; vm_compute; intuition congruence. }
  assert (R2 : ready4 ex7_view false md CINTlen_cart 0 1 0 0 None (w 7) (uninit 3) 1 3 1 1).
  { split; [|split; [by_z|split; [by_z|split; [by_z|split; [by_z|split; [by_z|intros n a b c d Hn Ha Hb Hc Hd; cbn in Hn, Ha, Hb, Hc, Hd |- *; unfold OutSpec.place; lia]]]]]].
    repeat split; try (apply filled_of); try (intros s; apply filled_of); try (clear; vm_compute; intuition congruence). destruct md; clear; vm_compute; intuition congruence. }
  assert (G0 : good_shell 2 ex7_view 0) by (repeat split; by_z). assert (G1 : good_shell 2 ex7_view 1) by (repeat split; by_z).
  destruct (C69_4c_cart 2 ex7_view ex7_env (fun _ _ => ln 1) (fun _ => one_root) (fun _ _ _ => (fun _ => 0, fun _ => 0)) false md true false 1 0 0 0
    None (w 5) (uninit 3) 3 1 1 1 None (w 7) (uninit 3) 1 3 1 1 ex7_good G1 G0 G0 G0 H08 ltac:(by_z) HR R1 R2) as (o1 & o2 & h1 & h2 & X1 & X2 & X3).
  exists (o1, h1), (o2, h2). split; [exact X1|]. split; [exact X2|]. intros x Hx.
  destruct (X3 x 0%Z 0%Z 0%Z) as (v & Y1 & Y2); [exact Hx|by_z|by_z|by_z|]. exists v.
  unfold OutSpec.place in Y1, Y2. cbn [fst]. replace ((((0 * 1 + 0) * 1 + 0) * 1 + 0) * 3 + x)%Z with x in Y1 by ring. replace ((((0 * 1 + 0) * 1 + 0) * 3 + x) * 1 + 0)%Z with x in Y2 by ring.
  split; [exact Y1|exact Y2].
Qed.
(** The same shells: the overlaps (p|s) and (s|p). *)
Example C69_example_1e :
  let w c := mkwork (uninit 9) (of_fun 12 (fun _ => c)) (mkmem (fun _ => of_fun 3 (fun _ => c)) (fun _ => true)) in
  let go i j c := int1e_drv ex7_view ex7_env (fun _ _ => 0%Z) 1 (fun _ => one_root) e_int1e_ovlp ng0 i j SphK None (w_idx (w c)) (w_g (w c)) (w_m (w c)) (uninit 3) in
  exists o1 o2, go 1%Z 0%Z 5 = Some o1 /\ go 0%Z 1%Z 7 = Some o2 /\
    forall x, (0 <= x < 3)%Z -> exists v, rd (fst o1) x = Some v /\ rd (fst o2) x = Some v.
Proof.
  intros w go.
  assert (R1 : ready2 ex7_view ng0 sph_len 1 0 None (w 5) (uninit 3) 3 1).
  { repeat split; try (apply filled_of); try (intros s; apply filled_of); try (clear; vm_compute; intuition congruence).
    intros n a b c d Hn Ha Hb Hc Hd; cbn in Hn, Ha, Hb, Hc, Hd |- *; unfold OutSpec.place; lia. }
  assert (R2 : ready2 ex7_view ng0 sph_len 0 1 None (w 7) (uninit 3) 1 3).
  { repeat split; try (apply filled_of); try (intros s; apply filled_of); try (clear; vm_compute; intuition congruence).
    intros n a b c d Hn Ha Hb Hc Hd; cbn in Hn, Ha, Hb, Hc, Hd |- *; unfold OutSpec.place; lia. }
  assert (G0 : good_shell 2 ex7_view 0) by (repeat split; by_z). assert (G1 : good_shell 2 ex7_view 1) by (repeat split; by_z).
  destruct (C69_1e_sph 2 ex7_view ex7_env (fun _ _ => ln 1) (fun _ _ => 0%Z) 1 (fun _ => one_root) e_int1e_ovlp ng0 1 0
    None (w 5) (uninit 3) 3 1 None (w 7) (uninit 3) 1 3 (or_introl eq_refl) eq_refl ex7_good G1 G0 (fun X => False_ind _ (X eq_refl)) (Z.le_refl 1) R1 R2) as (o1 & o2 & h1 & h2 & X1 & X2 & X3).
  exists (o1, h1), (o2, h2). split; [exact X1|]. split; [exact X2|]. intros x Hx.
  destruct (X3 x 0%Z) as (v & Y1 & Y2); [exact Hx|by_z|]. exists v.
  unfold OutSpec.place in Y1, Y2. cbn [fst]. replace ((((0 * 1 + 0) * 1 + 0) * 1 + 0) * 3 + x)%Z with x in Y1 by ring. replace ((((0 * 1 + 0) * 1 + 0) * 3 + x) * 1 + 0)%Z with x in Y2 by ring.
  split; [exact Y1|exact Y2].
Qed.
