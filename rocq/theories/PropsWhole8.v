(** PropsWhole8.v — C70: exchanging the two electrons, (ij|kl) = (kl|ij) and (i|k) = (k|i).

    int2e and int2c2e, Cartesian and spherical, any range-separation parameter, all shells and all work arrays.  With C69 the calls of int2e
    have all eight permutations.  With an optimizer this holds always.  Without one the screening of the two electrons differs
    (CINT2e_loop_nopt, src/cint2e.c:57-290: the pair of electron 2 is compared with a cutoff raised from the data of the pair of electron 1), so the two calls may drop
    different primitives; the theorem then asks that they keep the same ones. *)
From Coq Require Import Reals Lra QArith Qreals String.
From Coquelicot Require Import Coquelicot.
From Verif Require Import Base BasModel BasSpec EnvModel IdxModel IdxSpec CtrModel
  OptModel OptSpec OptPair ScreenSpec ScreenProof ScreenFinal OutModel OutSpec TabModel
  OpSpec RecModel RecSpec GaussInt Gauss2Int IntgModel IntgSpec IntgTab IntgStmt IntgAll IntgReal QuadSpec OperSpec OperModel Oper2e
  WholeModel WholeSpec WholeBatch Whole1e Whole2Model Whole2Batch Whole2Spec Whole4c WholeOptModel WholeOptSpec WholeSame PropsWhole PropsWhole2 PropsWhole3 PropsWhole4 PropsWhole5 WholePerm PropsWhole7 WholeFlip.
Local Open Scope R_scope.

Lemma good_pos nbas V ev lm i : good_shells nbas V ev lm -> good_shell nbas V i -> exps_pos V ev i.
Proof. intros HG (Hi & _) p Hp. exact (proj1 (HG i p Hi Hp)). Qed.

(** Four shells, Cartesian. *)
Theorem C70_4c_cart nbas (V : view) (ev : Z -> R) (lm : Z -> Z -> R) rys srys (short : bool) (md : mode) i j k l
    dims (a : work) (out : arr R) n1 n2 n3 n4 dims' (a' : work) (out' : arr R) n1' n2' n3' n4' :
  let e := init_int2e short ng0 (v_l V i) (v_l V j) (v_l V k) (v_l V l) (v_nc V i) (v_nc V j) (v_nc V k) (v_nc V l) in
  good_shells nbas V ev lm -> good_shell nbas V i -> good_shell nbas V j -> good_shell nbas V k -> good_shell nbas V l ->
  (short = true <-> ev 8%Z < 0) -> (nrys_roots e <= 32)%Z -> finds_roots_2e rys srys (nrys_roots e) (rys_order e) (ev 8%Z) ->
  (* without optimizer: the two calls keep the same primitives *)
  (md = NoOpt -> forall ip jp kp lp, (0 <= ip < v_np V i)%Z -> (0 <= jp < v_np V j)%Z -> (0 <= kp < v_np V k)%Z -> (0 <= lp < v_np V l)%Z ->
     (kept4 V ev lm ng0 (rys_order e) md i j k l ip jp kp lp <-> kept4 V ev lm ng0 (rys_order e) md k l i j kp lp ip jp)) ->
  ready4 V short md CINTlen_cart i j k l dims a out n1 n2 n3 n4 -> ready4 V short md CINTlen_cart k l i j dims' a' out' n1' n2' n3' n4' ->
  exists o1 o2 h1 h2, call4 V ev rys srys e_int2e ng0 md i j k l CartK dims a out = Some (o1, h1) /\
    call4 V ev rys srys e_int2e ng0 md k l i j CartK dims' a' out' = Some (o2, h2) /\
    forall I J K L, (0 <= I < CINTlen_cart (v_l V i) * v_nc V i)%Z -> (0 <= J < CINTlen_cart (v_l V j) * v_nc V j)%Z -> (0 <= K < CINTlen_cart (v_l V k) * v_nc V k)%Z -> (0 <= L < CINTlen_cart (v_l V l) * v_nc V l)%Z ->
      exists v, rd o1 (OutSpec.place n1 n2 n3 n4 0 I J K L) = Some v /\ rd o2 (OutSpec.place n1' n2' n3' n4' 0 K L I J) = Some v.
Proof.
  intros e HG Gi Gj Gk Gl Hom Hnr HR HK Ra Rb.
  destruct (call4_cart nbas V ev lm rys srys short md i j k l dims a out n1 n2 n3 n4 HG Gi Gj Gk Gl Hom Hnr HR Ra) as (o1 & h1 & Y1 & f & hh & A1 & A2 & A3 & A4 & A5).
  destruct (env_flip short (v_l V i) (v_l V j) (v_l V k) (v_l V l) (v_nc V i) (v_nc V j) (v_nc V k) (v_nc V l) (v_nc V k) (v_nc V l) (v_nc V i) (v_nc V j)) as [EO EN].
  destruct (call4_cart nbas V ev lm rys srys short md k l i j dims' a' out' n1' n2' n3' n4' HG Gk Gl Gi Gj Hom) as (o2 & h2 & Y2 & f' & hh' & B1 & B2 & B3 & B4 & B5);
    [rewrite EN; exact Hnr|rewrite EN, EO; exact HR|exact Rb|].
  rewrite EO in B5. fold e in A5, B5. rewrite A2 in B2. injection B2 as <-. rewrite A3 in B3. injection B3 as <-.
  exists o1, o2, h1, h2. split; [exact A1|]. split; [exact B1|]. intros I J K L HI HJ HKK HL.
  destruct A4 as (_ & A4 & _). destruct B4 as (_ & B4 & _). eexists. split; [apply A4; [split; [apply Z.le_refl|reflexivity]|assumption..]|].
  rewrite B4; [|split; [apply Z.le_refl|reflexivity]|assumption..].
  f_equal. clear A4 B4 A1 B1. symmetry.
  pose proof (good_pos _ _ _ _ _ HG Gi) as Pi. pose proof (good_pos _ _ _ _ _ HG Gj) as Pj. pose proof (good_pos _ _ _ _ _ HG Gk) as Pk. pose proof (good_pos _ _ _ _ _ HG Gl) as Pl.
  destruct Gi as (_ & Hli & _). destruct Gj as (_ & Hlj & _). destruct Gk as (_ & Hlk & _). destruct Gl as (_ & Hll & _).
  assert (EC : CINTcommon_fac_sp (v_l V k) * CINTcommon_fac_sp (v_l V l) * CINTcommon_fac_sp (v_l V i) * CINTcommon_fac_sp (v_l V j) =
               CINTcommon_fac_sp (v_l V i) * CINTcommon_fac_sp (v_l V j) * CINTcommon_fac_sp (v_l V k) * CINTcommon_fac_sp (v_l V l)) by (clear; ring).
  rewrite EC in B5. pose proof (Y_flip4 V ev lm f (rys_order e) md i j k l _ Y1 Y2 A2 Hli Hlj Hlk Hll Pi Pj Pk Pl HK A5 B5) as E. clear - E Hli Hlj Hlk Hll.
  pose proof (Z.lt_le_trans _ _ _ Z.lt_0_1 (len_cart_pos _ Hli)). pose proof (Z.lt_le_trans _ _ _ Z.lt_0_1 (len_cart_pos _ Hlj)).
  pose proof (Z.lt_le_trans _ _ _ Z.lt_0_1 (len_cart_pos _ Hlk)). pose proof (Z.lt_le_trans _ _ _ Z.lt_0_1 (len_cart_pos _ Hll)).
  cbv beta. apply E; apply Z.mod_pos_bound; assumption.
Qed.
Print Assumptions C70_4c_cart.

(** Four shells, spherical. *)
Theorem C70_4c_sph nbas (V : view) (ev : Z -> R) (lm : Z -> Z -> R) rys srys (short : bool) (md : mode) i j k l
    dims (a : work) (out : arr R) n1 n2 n3 n4 dims' (a' : work) (out' : arr R) n1' n2' n3' n4' :
  let e := init_int2e short ng0 (v_l V i) (v_l V j) (v_l V k) (v_l V l) (v_nc V i) (v_nc V j) (v_nc V k) (v_nc V l) in
  good_shells nbas V ev lm -> good_shell nbas V i -> good_shell nbas V j -> good_shell nbas V k -> good_shell nbas V l ->
  (short = true <-> ev 8%Z < 0) -> (nrys_roots e <= 32)%Z -> finds_roots_2e rys srys (nrys_roots e) (rys_order e) (ev 8%Z) ->
  (* without optimizer: the two calls keep the same primitives *)
  (md = NoOpt -> forall ip jp kp lp, (0 <= ip < v_np V i)%Z -> (0 <= jp < v_np V j)%Z -> (0 <= kp < v_np V k)%Z -> (0 <= lp < v_np V l)%Z ->
     (kept4 V ev lm ng0 (rys_order e) md i j k l ip jp kp lp <-> kept4 V ev lm ng0 (rys_order e) md k l i j kp lp ip jp)) ->
  ready4 V short md sph_len i j k l dims a out n1 n2 n3 n4 -> ready4 V short md sph_len k l i j dims' a' out' n1' n2' n3' n4' ->
  exists o1 o2 h1 h2, call4 V ev rys srys e_int2e ng0 md i j k l SphK dims a out = Some (o1, h1) /\
    call4 V ev rys srys e_int2e ng0 md k l i j SphK dims' a' out' = Some (o2, h2) /\
    forall I J K L, (0 <= I < sph_len (v_l V i) * v_nc V i)%Z -> (0 <= J < sph_len (v_l V j) * v_nc V j)%Z -> (0 <= K < sph_len (v_l V k) * v_nc V k)%Z -> (0 <= L < sph_len (v_l V l) * v_nc V l)%Z ->
      exists v, rd o1 (OutSpec.place n1 n2 n3 n4 0 I J K L) = Some v /\ rd o2 (OutSpec.place n1' n2' n3' n4' 0 K L I J) = Some v.
Proof.
  intros e HG Gi Gj Gk Gl Hom Hnr HR HK Ra Rb.
  destruct (call4_sph nbas V ev lm rys srys short md i j k l dims a out n1 n2 n3 n4 HG Gi Gj Gk Gl Hom Hnr HR Ra) as (o1 & h1 & Y1 & f & hh & A1 & A2 & A3 & A4 & A5).
  destruct (env_flip short (v_l V i) (v_l V j) (v_l V k) (v_l V l) (v_nc V i) (v_nc V j) (v_nc V k) (v_nc V l) (v_nc V k) (v_nc V l) (v_nc V i) (v_nc V j)) as [EO EN].
  destruct (call4_sph nbas V ev lm rys srys short md k l i j dims' a' out' n1' n2' n3' n4' HG Gk Gl Gi Gj Hom) as (o2 & h2 & Y2 & f' & hh' & B1 & B2 & B3 & B4 & B5);
    [rewrite EN; exact Hnr|rewrite EN, EO; exact HR|exact Rb|].
  rewrite EO in B5. fold e in A5, B5. rewrite A2 in B2. injection B2 as <-. rewrite A3 in B3. injection B3 as <-.
  exists o1, o2, h1, h2. split; [exact A1|]. split; [exact B1|]. intros I J K L HI HJ HKK HL.
  destruct A4 as (_ & A4 & _). destruct B4 as (_ & B4 & _). eexists. split; [apply A4; [split; [apply Z.le_refl|reflexivity]|assumption..]|].
  rewrite B4; [|split; [apply Z.le_refl|reflexivity]|assumption..].
  f_equal. clear A4 B4 A1 B1. symmetry.
  pose proof (good_pos _ _ _ _ _ HG Gi) as Pi. pose proof (good_pos _ _ _ _ _ HG Gj) as Pj. pose proof (good_pos _ _ _ _ _ HG Gk) as Pk. pose proof (good_pos _ _ _ _ _ HG Gl) as Pl.
  destruct Gi as (_ & Hli & _). destruct Gj as (_ & Hlj & _). destruct Gk as (_ & Hlk & _). destruct Gl as (_ & Hll & _).
  assert (EC : CINTcommon_fac_sp (v_l V k) * CINTcommon_fac_sp (v_l V l) * CINTcommon_fac_sp (v_l V i) * CINTcommon_fac_sp (v_l V j) =
               CINTcommon_fac_sp (v_l V i) * CINTcommon_fac_sp (v_l V j) * CINTcommon_fac_sp (v_l V k) * CINTcommon_fac_sp (v_l V l)) by (clear; ring).
  rewrite EC in B5. pose proof (Y_flip4 V ev lm f (rys_order e) md i j k l _ Y1 Y2 A2 Hli Hlj Hlk Hll Pi Pj Pk Pl HK A5 B5) as E. clear - E Hli Hlj Hlk Hll.
  pose proof (Z.lt_le_trans _ _ _ Z.lt_0_1 (len_cart_pos _ Hli)). pose proof (Z.lt_le_trans _ _ _ Z.lt_0_1 (len_cart_pos _ Hlj)).
  pose proof (Z.lt_le_trans _ _ _ Z.lt_0_1 (len_cart_pos _ Hlk)). pose proof (Z.lt_le_trans _ _ _ Z.lt_0_1 (len_cart_pos _ Hll)).
  cbv beta. rewrite TT_flip. apply TT_ext. intros c Hc. apply TT_ext. intros a Ha. apply TT_ext. intros b Hb. apply TT_ext. intros d Hd. apply E; assumption.
Qed.
Print Assumptions C70_4c_sph.

(** A call of int2c2e: the work arrays and the caller's array are large enough (C64); dims, when given, has three elements (the driver reads the third when no primitive is kept). *)
Definition ready2c (V : view) (short : bool) (width : Z -> Z) (i k : Z) (dims : option (arr Z)) (w : work) (out : arr R) (n1 n2 : Z) : Prop :=
  let ci := v_nc V i in let ck := v_nc V k in let e := init_int2c2e short ng0 (v_l V i) (v_l V k) ci ck in
  let m1 := (width (v_l V i) * ci)%Z in let m2 := (width (v_l V k) * ck)%Z in let m := w_m w in
  (3 * nf e <= asize (w_idx w))%Z /\ filled (w_g w) /\ ((2 ^ GSHIFT ng0 + 1) * (3 * g_size e) <= asize (w_g w))%Z /\ (4 * g_size e <= asize (w_g w))%Z /\ (forall s, filled (buf m s)) /\
  (ci <> 1 -> nf e <= asize (buf m 0))%Z /\ (ck <> 1 -> nf e * ci <= asize (buf m 1))%Z /\ (nf e * (ci * ck) <= asize (buf m 5))%Z /\
  (m1 <= n1)%Z /\ (m2 <= n2)%Z /\ dims_are dims 2 [n1; n2] [m1; m2] /\ (forall d, dims = Some d -> exists n, rd d 2 = Some n) /\ room (asize out) 1 n1 n2 1 1 m1 m2 1 1.

Lemma call2c_cart nbas V ev lm rys srys short i k dims w (out : arr R) n1 n2 :
  let e := init_int2c2e short ng0 (v_l V i) (v_l V k) (v_nc V i) (v_nc V k) in
  good_shells nbas V ev lm -> good_shell nbas V i -> good_shell nbas V k ->
  (short = true <-> ev 8%Z < 0) -> (nrys_roots e <= 32)%Z -> finds_roots_2e rys srys (nrys_roots e) (rys_order e) (ev 8%Z) ->
  ready2c V short CINTlen_cart i k dims w out n1 n2 ->
  exists o h Y f hh, int2c2e_drv V ev rys srys e_int2c2e ng0 i k CartK dims (w_idx w) (w_g w) (w_m w) out = Some (o, h) /\
    factor (t_e e_int2c2e) = Some f /\ en_cart (t_e e_int2c2e) = Some hh /\
    stored_block out o 1 n1 n2 1 1 (CINTlen_cart (v_l V i) * v_nc V i) (CINTlen_cart (v_l V k) * v_nc V k) 1 1
      (fun n I K _ _ => (Y n (I / CINTlen_cart (v_l V i)) (K / CINTlen_cart (v_l V k)) (I mod CINTlen_cart (v_l V i)) (K mod CINTlen_cart (v_l V k)))%Z) /\
    ok2c V ev e_int2c2e f i k (Q2R (Qmake (fst hh) (snd hh)) * (CINTcommon_fac_sp (v_l V i) * CINTcommon_fac_sp (v_l V k))) Y.
Proof.
  intros e HG (Hi & Hli & Hpi & Hci) (Hk & Hlk & Hpk & Hck) Hom Hnr HR (W1 & W2 & W3 & W4 & W5 & W6 & W7 & W8 & D1 & D2 & D3 & D4 & D5).
  pose proof (C64_2c_cart nbas V ev lm rys srys e_int2c2e ng0 i k short dims (w_idx w) (w_g w) (w_m w) out n1 n2) as G. cbv zeta in G.
  change (Z.of_nat (length (g_rows (t_f e_int2c2e)))) with 1%Z in G. rewrite !Z.mul_1_r in G.
  assert (DT : match dims with Some d => exists n, rd d 2 = Some n | None => True end) by (destruct dims as [d|]; [exact (D4 d eq_refl)|exact Logic.I]).
  destruct (G HG Hi Hk Hli Hlk (conj Hpi Hci) (conj Hpk Hck) cat_2c eq_refl eq_refl name_2c Hom Hnr HR W1 W2 W3 W4 W5 W6 W7 (fun X => False_ind _ (X eq_refl)) W8 D1 D2 D3 (or_intror DT) D5) as (o & h & Y & f & hh & X1 & X2 & X3 & _ & X4 & X5 & _).
  exists o, h, Y, f, hh. split; [exact X1|]. split; [exact X2|]. split; [exact X3|]. split; [exact X4|exact X5].
Qed.
(** Two shells, Cartesian. *)
Theorem C70_2c_cart nbas (V : view) (ev : Z -> R) (lm : Z -> Z -> R) rys srys (short : bool) i k
    dims (a : work) (out : arr R) n1 n2 dims' (a' : work) (out' : arr R) n1' n2' :
  let e := init_int2c2e short ng0 (v_l V i) (v_l V k) (v_nc V i) (v_nc V k) in
  good_shells nbas V ev lm -> good_shell nbas V i -> good_shell nbas V k ->
  (short = true <-> ev 8%Z < 0) -> (nrys_roots e <= 32)%Z -> finds_roots_2e rys srys (nrys_roots e) (rys_order e) (ev 8%Z) ->
  ready2c V short CINTlen_cart i k dims a out n1 n2 -> ready2c V short CINTlen_cart k i dims' a' out' n1' n2' ->
  exists o1 o2 h1 h2, int2c2e_drv V ev rys srys e_int2c2e ng0 i k CartK dims (w_idx a) (w_g a) (w_m a) out = Some (o1, h1) /\
    int2c2e_drv V ev rys srys e_int2c2e ng0 k i CartK dims' (w_idx a') (w_g a') (w_m a') out' = Some (o2, h2) /\
    forall I K, (0 <= I < CINTlen_cart (v_l V i) * v_nc V i)%Z -> (0 <= K < CINTlen_cart (v_l V k) * v_nc V k)%Z ->
      exists v, rd o1 (OutSpec.place n1 n2 1 1 0 I K 0 0) = Some v /\ rd o2 (OutSpec.place n1' n2' 1 1 0 K I 0 0) = Some v.
Proof.
  intros e HG Gi Gk Hom Hnr HR Ra Rb.
  destruct (call2c_cart nbas V ev lm rys srys short i k dims a out n1 n2 HG Gi Gk Hom Hnr HR Ra) as (o1 & h1 & Y1 & f & hh & A1 & A2 & A3 & A4 & A5).
  destruct (env_flip2 short (v_l V i) (v_l V k) (v_nc V i) (v_nc V k) (v_nc V k) (v_nc V i)) as [EO EN].
  destruct (call2c_cart nbas V ev lm rys srys short k i dims' a' out' n1' n2' HG Gk Gi Hom) as (o2 & h2 & Y2 & f' & hh' & B1 & B2 & B3 & B4 & B5);
    [rewrite EN; exact Hnr|rewrite EN, EO; exact HR|exact Rb|].
  rewrite A2 in B2. injection B2 as <-. rewrite A3 in B3. injection B3 as <-.
  exists o1, o2, h1, h2. split; [exact A1|]. split; [exact B1|]. intros I K HI HKK. assert (Z1 : (0 <= 0 < 1)%Z) by (split; [apply Z.le_refl|reflexivity]).
  destruct A4 as (_ & A4 & _). destruct B4 as (_ & B4 & _). eexists. split; [apply A4; assumption|]. rewrite B4; try assumption. f_equal. clear A4 B4 A1 B1. symmetry.
  pose proof (good_pos _ _ _ _ _ HG Gi) as Pi. pose proof (good_pos _ _ _ _ _ HG Gk) as Pk.
  destruct Gi as (_ & Hli & _). destruct Gk as (_ & Hlk & _). rewrite (Rmult_comm (CINTcommon_fac_sp (v_l V k))) in B5.
  pose proof (Y_flip2 V ev f i k _ Y1 Y2 A2 Hli Hlk Pi Pk A5 B5) as E. clear - E Hli Hlk.
  pose proof (Z.lt_le_trans _ _ _ Z.lt_0_1 (len_cart_pos _ Hli)). pose proof (Z.lt_le_trans _ _ _ Z.lt_0_1 (len_cart_pos _ Hlk)).
  cbv beta. apply E; apply Z.mod_pos_bound; assumption.
Qed.
Print Assumptions C70_2c_cart.

Lemma call2c_sph nbas V ev lm rys srys short i k dims w (out : arr R) n1 n2 :
  let e := init_int2c2e short ng0 (v_l V i) (v_l V k) (v_nc V i) (v_nc V k) in
  good_shells nbas V ev lm -> good_shell nbas V i -> good_shell nbas V k ->
  (short = true <-> ev 8%Z < 0) -> (nrys_roots e <= 32)%Z -> finds_roots_2e rys srys (nrys_roots e) (rys_order e) (ev 8%Z) ->
  ready2c V short sph_len i k dims w out n1 n2 ->
  exists o h Y f hh, int2c2e_drv V ev rys srys e_int2c2e ng0 i k SphK dims (w_idx w) (w_g w) (w_m w) out = Some (o, h) /\
    factor (t_e e_int2c2e) = Some f /\ en_sph (t_e e_int2c2e) = Some hh /\
    stored_block out o 1 n1 n2 1 1 (sph_len (v_l V i) * v_nc V i) (sph_len (v_l V k) * v_nc V k) 1 1
      (fun n I K _ _ => TT (v_l V i) (I mod sph_len (v_l V i))%Z (fun a => TT (v_l V k) (K mod sph_len (v_l V k))%Z (fun c => Y n (I / sph_len (v_l V i)) (K / sph_len (v_l V k)) a c))%Z) /\
    ok2c V ev e_int2c2e f i k (Q2R (Qmake (fst hh) (snd hh)) * (CINTcommon_fac_sp (v_l V i) * CINTcommon_fac_sp (v_l V k))) Y.
Proof.
  intros e HG (Hi & Hli & Hpi & Hci) (Hk & Hlk & Hpk & Hck) Hom Hnr HR (W1 & W2 & W3 & W4 & W5 & W6 & W7 & W8 & D1 & D2 & D3 & D4 & D5).
  pose proof (C64_2c_sph nbas V ev lm rys srys e_int2c2e ng0 i k short dims (w_idx w) (w_g w) (w_m w) out n1 n2) as G. cbv zeta in G.
  change (Z.of_nat (length (g_rows (t_f e_int2c2e)))) with 1%Z in G. rewrite !Z.mul_1_r in G.
  assert (DT : match dims with Some d => exists n, rd d 2 = Some n | None => True end) by (destruct dims as [d|]; [exact (D4 d eq_refl)|exact Logic.I]).
  destruct (G HG Hi Hk Hli Hlk (conj Hpi Hci) (conj Hpk Hck) cat_2c eq_refl eq_refl name_2c Hom Hnr HR W1 W2 W3 W4 W5 W6 W7 (fun X => False_ind _ (X eq_refl)) W8 D1 D2 D3 (or_intror DT) D5) as (o & h & Y & f & hh & X1 & X2 & X3 & _ & X4 & X5 & _).
  exists o, h, Y, f, hh. split; [exact X1|]. split; [exact X2|]. split; [exact X3|]. split; [exact X4|exact X5].
Qed.
(** Two shells, spherical. *)
Theorem C70_2c_sph nbas (V : view) (ev : Z -> R) (lm : Z -> Z -> R) rys srys (short : bool) i k
    dims (a : work) (out : arr R) n1 n2 dims' (a' : work) (out' : arr R) n1' n2' :
  let e := init_int2c2e short ng0 (v_l V i) (v_l V k) (v_nc V i) (v_nc V k) in
  good_shells nbas V ev lm -> good_shell nbas V i -> good_shell nbas V k ->
  (short = true <-> ev 8%Z < 0) -> (nrys_roots e <= 32)%Z -> finds_roots_2e rys srys (nrys_roots e) (rys_order e) (ev 8%Z) ->
  ready2c V short sph_len i k dims a out n1 n2 -> ready2c V short sph_len k i dims' a' out' n1' n2' ->
  exists o1 o2 h1 h2, int2c2e_drv V ev rys srys e_int2c2e ng0 i k SphK dims (w_idx a) (w_g a) (w_m a) out = Some (o1, h1) /\
    int2c2e_drv V ev rys srys e_int2c2e ng0 k i SphK dims' (w_idx a') (w_g a') (w_m a') out' = Some (o2, h2) /\
    forall I K, (0 <= I < sph_len (v_l V i) * v_nc V i)%Z -> (0 <= K < sph_len (v_l V k) * v_nc V k)%Z ->
      exists v, rd o1 (OutSpec.place n1 n2 1 1 0 I K 0 0) = Some v /\ rd o2 (OutSpec.place n1' n2' 1 1 0 K I 0 0) = Some v.
Proof.
  intros e HG Gi Gk Hom Hnr HR Ra Rb.
  destruct (call2c_sph nbas V ev lm rys srys short i k dims a out n1 n2 HG Gi Gk Hom Hnr HR Ra) as (o1 & h1 & Y1 & f & hh & A1 & A2 & A3 & A4 & A5).
  destruct (env_flip2 short (v_l V i) (v_l V k) (v_nc V i) (v_nc V k) (v_nc V k) (v_nc V i)) as [EO EN].
  destruct (call2c_sph nbas V ev lm rys srys short k i dims' a' out' n1' n2' HG Gk Gi Hom) as (o2 & h2 & Y2 & f' & hh' & B1 & B2 & B3 & B4 & B5);
    [rewrite EN; exact Hnr|rewrite EN, EO; exact HR|exact Rb|].
  rewrite A2 in B2. injection B2 as <-. rewrite A3 in B3. injection B3 as <-.
  exists o1, o2, h1, h2. split; [exact A1|]. split; [exact B1|]. intros I K HI HKK. assert (Z1 : (0 <= 0 < 1)%Z) by (split; [apply Z.le_refl|reflexivity]).
  destruct A4 as (_ & A4 & _). destruct B4 as (_ & B4 & _). eexists. split; [apply A4; assumption|]. rewrite B4; try assumption. f_equal. clear A4 B4 A1 B1. symmetry.
  pose proof (good_pos _ _ _ _ _ HG Gi) as Pi. pose proof (good_pos _ _ _ _ _ HG Gk) as Pk.
  destruct Gi as (_ & Hli & _). destruct Gk as (_ & Hlk & _). rewrite (Rmult_comm (CINTcommon_fac_sp (v_l V k))) in B5.
  pose proof (Y_flip2 V ev f i k _ Y1 Y2 A2 Hli Hlk Pi Pk A5 B5) as E. clear - E Hli Hlk.
  pose proof (Z.lt_le_trans _ _ _ Z.lt_0_1 (len_cart_pos _ Hli)). pose proof (Z.lt_le_trans _ _ _ Z.lt_0_1 (len_cart_pos _ Hlk)).
  cbv beta. rewrite T_swap. apply TT_ext. intros c Hc. apply TT_ext. intros a Ha. apply E; assumption.
Qed.
Print Assumptions C70_2c_sph.

(** An s shell of exponent 1 at the origin and a p shell of exponent 2 at (0,0,3): (ps|ss) and (ss|ps) with an optimizer, built before
    or rebuilt, and different garbage in the work arrays. *)
Example C70_example stored :
  let w c := mkwork (uninit 9) (of_fun 12 (fun _ => c)) (mkmem (fun _ => of_fun 3 (fun _ => c)) (fun _ => true)) in
  let go i k c := call4 ex7_view ex7_env (fun _ => one_root) (fun _ _ _ => (fun _ => 0, fun _ => 0)) e_int2e ng0 (Opt stored) i 0 k 0 CartK None (w c) (uninit 3) in
  exists o1 o2, go 1%Z 0%Z 5 = Some o1 /\ go 0%Z 1%Z 7 = Some o2 /\
    forall x, (0 <= x < 3)%Z -> exists v, rd (fst o1) x = Some v /\ rd (fst o2) x = Some v.
Proof.
  intros w go.
  assert (HR : finds_roots_2e (fun _ => one_root) (fun _ _ _ => (fun _ => 0, fun _ => 0)) 1 1 (ex7_env 8)).
  { split; [intros m y n Hn Hy; apply one_root_ok|]. split; [intros m y z n Hn Hy; cbn; lra|]. intros a0 x Ha Hx. split; [intros _; apply one_root_ok|].
    cbn [ex7_env Z.eqb Pos.eqb]. repeat split; intros X; lra. }
  assert (H08 : false = true <-> ex7_env 8 < 0) by (split; [discriminate|cbn; lra]).
  assert (R1 : ready4 ex7_view false (Opt stored) CINTlen_cart 1 0 0 0 None (w 5) (uninit 3) 3 1 1 1).
  { split; [|split; [by_z|split; [by_z|split; [by_z|split; [by_z|split; [by_z|intros n a b c d Hn Ha Hb Hc Hd; cbn in Hn, Ha, Hb, Hc, Hd |- *; unfold OutSpec.place; lia]]]]]].
    repeat split; try (apply filled_of); try (intros s; apply filled_of); try (clear; vm_compute; intuition congruence). }
  assert (R2 : ready4 ex7_view false (Opt stored) CINTlen_cart 0 0 1 0 None (w 7) (uninit 3) 1 1 3 1).
  { split; [|split; [by_z|split; [by_z|split; [by_z|split; [by_z|split; [by_z|intros n a b c d Hn Ha Hb Hc Hd; cbn in Hn, Ha, Hb, Hc, Hd |- *; unfold OutSpec.place; lia]]]]]].
    repeat split; try (apply filled_of); try (intros s; apply filled_of); try (clear; vm_compute; intuition congruence). }
  assert (G0 : good_shell 2 ex7_view 0) by (repeat split; by_z). assert (G1 : good_shell 2 ex7_view 1) by (repeat split; by_z).
  destruct (C70_4c_cart 2 ex7_view ex7_env (fun _ _ => ln 1) (fun _ => one_root) (fun _ _ _ => (fun _ => 0, fun _ => 0)) false (Opt stored) 1 0 0 0
    None (w 5) (uninit 3) 3 1 1 1 None (w 7) (uninit 3) 1 1 3 1 ex7_good G1 G0 G0 G0 H08 ltac:(by_z) HR ltac:(discriminate) R1 R2) as (o1 & o2 & h1 & h2 & X1 & X2 & X3).
  exists (o1, h1), (o2, h2). split; [exact X1|]. split; [exact X2|]. intros x Hx.
  destruct (X3 x 0%Z 0%Z 0%Z) as (v & Y1 & Y2); [exact Hx|by_z|by_z|by_z|]. exists v.
  unfold OutSpec.place in Y1, Y2. cbn [fst]. replace ((((0 * 1 + 0) * 1 + 0) * 1 + 0) * 3 + x)%Z with x in Y1 by ring. replace ((((0 * 1 + 0) * 3 + x) * 1 + 0) * 1 + 0)%Z with x in Y2 by ring.
  split; [exact Y1|exact Y2].
Qed.
(** The same shells: the two-centre integrals (p|s) and (s|p). *)
Example C70_example_2c :
  let w c := mkwork (uninit 9) (of_fun 12 (fun _ => c)) (mkmem (fun _ => of_fun 3 (fun _ => c)) (fun _ => true)) in
  let go i k c := int2c2e_drv ex7_view ex7_env (fun _ => one_root) (fun _ _ _ => (fun _ => 0, fun _ => 0)) e_int2c2e ng0 i k SphK None (w_idx (w c)) (w_g (w c)) (w_m (w c)) (uninit 3) in
  exists o1 o2, go 1%Z 0%Z 5 = Some o1 /\ go 0%Z 1%Z 7 = Some o2 /\
    forall x, (0 <= x < 3)%Z -> exists v, rd (fst o1) x = Some v /\ rd (fst o2) x = Some v.
Proof.
  intros w go.
  assert (HR : finds_roots_2e (fun _ => one_root) (fun _ _ _ => (fun _ => 0, fun _ => 0)) 1 1 (ex7_env 8)).
  { split; [intros m y n Hn Hy; apply one_root_ok|]. split; [intros m y z n Hn Hy; cbn; lra|]. intros a0 x Ha Hx. split; [intros _; apply one_root_ok|].
    cbn [ex7_env Z.eqb Pos.eqb]. repeat split; intros X; lra. }
  assert (H08 : false = true <-> ex7_env 8 < 0) by (split; [discriminate|cbn; lra]).
  assert (R1 : ready2c ex7_view false sph_len 1 0 None (w 5) (uninit 3) 3 1).
  { repeat split; try (apply filled_of); try (intros s; apply filled_of); try (clear; vm_compute; intuition congruence); try discriminate;
      intros n a b c d Hn Ha Hb Hc Hd; cbn in Hn, Ha, Hb, Hc, Hd |- *; unfold OutSpec.place; lia. }
  assert (R2 : ready2c ex7_view false sph_len 0 1 None (w 7) (uninit 3) 1 3).
  { repeat split; try (apply filled_of); try (intros s; apply filled_of); try (clear; vm_compute; intuition congruence); try discriminate;
      intros n a b c d Hn Ha Hb Hc Hd; cbn in Hn, Ha, Hb, Hc, Hd |- *; unfold OutSpec.place; lia. }
  assert (G0 : good_shell 2 ex7_view 0) by (repeat split; by_z). assert (G1 : good_shell 2 ex7_view 1) by (repeat split; by_z).
  destruct (C70_2c_sph 2 ex7_view ex7_env (fun _ _ => ln 1) (fun _ => one_root) (fun _ _ _ => (fun _ => 0, fun _ => 0)) false 1 0
    None (w 5) (uninit 3) 3 1 None (w 7) (uninit 3) 1 3 ex7_good G1 G0 H08 ltac:(by_z) HR R1 R2) as (o1 & o2 & h1 & h2 & X1 & X2 & X3).
  exists (o1, h1), (o2, h2). split; [exact X1|]. split; [exact X2|]. intros x Hx.
  destruct (X3 x 0%Z) as (v & Y1 & Y2); [exact Hx|by_z|]. exists v.
  unfold OutSpec.place in Y1, Y2. cbn [fst]. replace ((((0 * 1 + 0) * 1 + 0) * 1 + 0) * 3 + x)%Z with x in Y1 by ring. replace ((((0 * 1 + 0) * 1 + 0) * 3 + x) * 1 + 0)%Z with x in Y2 by ring.
  split; [exact Y1|exact Y2].
Qed.

(** Without an optimizer, for 1/r12 and erf(w r12)/r12, the two calls keep the same primitives unless a pair estimate is exactly equal to the cutoff. *)
Theorem C70_same_primitives V ev lm order i j k l ip jp kp lp :
  let C := cutoff_2e false (ev 0%Z) in
  0 <= ev 8%Z -> pair_est V ev lm i j (v_l V i + v_l V j) ip jp <> C -> pair_est V ev lm k l (v_l V k + v_l V l) kp lp <> C ->
  (kept4 V ev lm ng0 order NoOpt i j k l ip jp kp lp <-> kept4 V ev lm ng0 order NoOpt k l i j kp lp ip jp).
Proof.
  intros C H0 N1 N2. unfold kept4, degree_kl, raised. cbn [IINC JINC KINC LINC ng0]. cbv zeta. rewrite !Z.add_0_r. destruct (Rlt_dec (ev 8%Z) 0) as [X|_]; [lra|].
  fold C. set (e1 := pair_est V ev lm i j _ ip jp) in *. set (e2 := pair_est V ev lm k l _ kp lp) in *. rewrite (near_flip (ev 8%Z) (ex V ev k kp + _)).
  replace (C - e1 - e2) with (C - e2 - e1) by ring. split; intros (A1 & A2 & A3 & A4); repeat split; try assumption; lra.
Qed.
Print Assumptions C70_same_primitives.

(** For erfc(|w| r12)/r12 they need not: with a total degree below two the degree of the pair counts in the size estimate of electron 1
    (CINTset_pairdata, optimizer.c:302-313) and not in that of electron 2 (cint2e.c:132, the branch rys_order > 1).  An s shell at the origin and a p shell at (0,0,2), exponents 1/2, w = -1/10, default cutoff 60:
    without optimizer (ps|ss) is computed and (ss|ps) is dropped; the functions return 1 and 0. *)
Definition ex8_env (x : Z) : R :=
  if (x =? 20)%Z then 1 / 2 else if (x =? 21)%Z then 1 / 2 else if (x =? 30)%Z then exp (- (217 / 20)) else if (x =? 31)%Z then exp (- (607 / 20)) else
  if (x =? 45)%Z then 2 else if (x =? 8)%Z then - (1 / 10) else 0.
Definition ex8_lm (i p : Z) : R := if (i =? 0)%Z then - (217 / 20) else - (607 / 20).
Lemma ex8_good : good_shells 2 ex7_view ex8_env ex8_lm.
Proof.
  intros i p Hi Hp. cbn in Hp. assert (p = 0%Z) as -> by lia. assert (Ei : i = 0%Z \/ i = 1%Z) by lia.
  destruct Ei as [-> | ->]; (split; [cbn; lra|]); eexists; (split; [apply exp_pos|]);
    (split; [intros k Hk; cbn in Hk; assert (k = 0%Z) as -> by lia; cbn; rewrite Rabs_pos_eq; [apply Rle_refl|apply Rlt_le, exp_pos]|]);
    (split; [exists 0%Z; split; [cbn; lia|cbn; rewrite Rabs_pos_eq; [reflexivity|apply Rlt_le, exp_pos]]|cbn; rewrite ln_exp; reflexivity]).
Qed.
Lemma ex8_ss p q : (0 <= p < 1)%Z -> (0 <= q < 1)%Z -> pair_est ex7_view ex8_env ex8_lm 0 0 0 p q = 20.
Proof. intros Hp Hq. assert (p = 0%Z) as -> by lia. assert (q = 0%Z) as -> by lia. unfold pair_est, estimate, log_size, dist_sq, last_ex, ex, ctr, ex8_lm. cbn. replace (1 / 2 + 1 / 2) with 1 by lra. rewrite ln_1. lra. Qed.
Lemma ex8_ps0 p q : (0 <= p < 1)%Z -> (0 <= q < 1)%Z -> pair_est ex7_view ex8_env ex8_lm 1 0 0 p q = 81 / 2.
Proof. intros Hp Hq. assert (p = 0%Z) as -> by lia. assert (q = 0%Z) as -> by lia. unfold pair_est, estimate, log_size, dist_sq, last_ex, ex, ctr, ex8_lm. cbn. replace (1 / 2 + 1 / 2) with 1 by lra. rewrite ln_1. lra. Qed.
Lemma ex8_ps1 : pair_est ex7_view ex8_env ex8_lm 1 0 1 0 0 <= 79 / 2.
Proof.
  unfold pair_est, estimate, log_size, dist_sq, last_ex, ex, ctr, ex8_lm. cbn. replace (1 / 2 + 1 / 2) with 1 by lra. rewrite ln_1. destruct (Rlt_dec (- (1 / 10)) 0) as [_|N]; [|lra].
  match goal with |- context [ln (sqrt ?s + ?t + 1)] => replace s with (2 * 2) by ring; rewrite sqrt_square by lra; assert (X : 1 <= ln (2 + t + 1)) end; [|lra].
  apply Rle_trans with (ln (exp 1)); [rewrite ln_exp; lra|]. apply ln_le; [apply exp_pos|]. apply Rle_trans with 3; [exact exp_le_3|].
  match goal with |- 3 <= 2 + ?t + 1 => assert (0 <= t); [|lra] end. apply Rmult_le_pos; [|lra]. apply Rlt_le, Rdiv_lt_0_compat; lra.
Qed.
Theorem C70_nopt_refuted : exists V ev lm rys srys i j k l w w' out, good_shells 2 V ev lm /\ good_shell 2 V i /\ good_shell 2 V j /\ good_shell 2 V k /\ good_shell 2 V l /\
  ev 8%Z < 0 /\ finds_roots_2e rys srys 2 1 (ev 8%Z) /\
  ready4 V true NoOpt CINTlen_cart i j k l None w out 3 1 1 1 /\ ready4 V true NoOpt CINTlen_cart k l i j None w' out 1 1 3 1 /\
  exists o1 o2, call4 V ev rys srys e_int2e ng0 NoOpt i j k l CartK None w out = Some (o1, true) /\ call4 V ev rys srys e_int2e ng0 NoOpt k l i j CartK None w' out = Some (o2, false).
Proof.
  set (w := mkwork (uninit 9) (of_fun 100 (fun _ => 5)) (mkmem (fun _ => of_fun 3 (fun _ => 5)) (fun _ => true))).
  exists ex7_view, ex8_env, ex8_lm, (fun _ => one_root), (fun _ _ _ => (fun _ => 0, fun _ => 0)), 1%Z, 0%Z, 0%Z, 0%Z, w, w, (uninit 3).
  assert (G0 : good_shell 2 ex7_view 0) by (repeat split; by_z). assert (G1 : good_shell 2 ex7_view 1) by (repeat split; by_z).
  assert (H8 : ex8_env 8 < 0) by (cbn; lra). assert (H0 : ex8_env 0 = 0) by reflexivity.
  assert (HR : finds_roots_2e (fun _ => one_root) (fun _ _ _ => (fun _ => 0, fun _ => 0)) 2 1 (ex8_env 8)).
  { split; [intros m y n Hn Hy; apply one_root_ok|]. split; [intros m y z n Hn Hy; cbn; lra|]. intros a0 x Ha Hx. split; [intros X; lra|]. split; [intros X; lra|]. split; [intros _ X; discriminate X|].
    intros _ _. split; apply one_root_ok. }
  assert (R1 : ready4 ex7_view true NoOpt CINTlen_cart 1 0 0 0 None w (uninit 3) 3 1 1 1).
  { split; [|split; [by_z|split; [by_z|split; [by_z|split; [by_z|split; [by_z|intros n a b c d Hn Ha Hb Hc Hd; cbn in Hn, Ha, Hb, Hc, Hd |- *; unfold OutSpec.place; lia]]]]]].
    repeat split; try (apply filled_of); try (intros s; apply filled_of); try (clear; vm_compute; intuition congruence). }
  assert (R2 : ready4 ex7_view true NoOpt CINTlen_cart 0 0 1 0 None w (uninit 3) 1 1 3 1).
  { split; [|split; [by_z|split; [by_z|split; [by_z|split; [by_z|split; [by_z|intros n a b c d Hn Ha Hb Hc Hd; cbn in Hn, Ha, Hb, Hc, Hd |- *; unfold OutSpec.place; lia]]]]]].
    repeat split; try (apply filled_of); try (intros s; apply filled_of); try (clear; vm_compute; intuition congruence). }
  split; [exact ex8_good|]. split; [exact G1|]. split; [exact G0|]. split; [exact G0|]. split; [exact G0|]. split; [exact H8|]. split; [exact HR|]. split; [exact R1|]. split; [exact R2|].
  assert (HC : cutoff_2e false (ex8_env 0) = 60) by (unfold cutoff_2e; rewrite H0; destruct (Req_EM_T 0 0); [reflexivity|contradiction]).
  assert (Hom : true = true <-> ex8_env 8 < 0) by (split; [intros _; exact H8|reflexivity]).
  destruct G0 as (I0 & L0 & P0 & C0). destruct G1 as (I1 & L1 & P1 & C1).
  destruct R1 as ((W1 & W2 & W3 & W4 & W5 & (S0 & S1 & S2 & S3 & S4) & W7) & D1 & D2 & D3 & D4 & D5 & D6).
  destruct (C63_4c_cart 2 ex7_view ex8_env ex8_lm (fun _ => one_root) (fun _ _ _ => (fun _ => 0, fun _ => 0)) e_int2e ng0 1 0 0 0 true None (w_idx w) (w_g w) (w_m w) (uninit 3) 3 1 1 1 ex8_good I1 I0 I0 I0 L1 L0 L0 L0 (conj P1 C1) (conj P0 C0) (conj P0 C0) (conj P0 C0)
      cat_2e eq_refl eq_refl name_2e Hom ltac:(by_z) HR W1 W2 W3 W4 W5 S0 S1 S2 S3 S4 W7 D1 D2 D3 D4 D5 D6) as (o1 & h1 & Y1 & f1 & hh1 & X1 & _ & _ & _ & _ & _ & X2 & _).
  destruct R2 as ((W1' & W2' & W3' & W4' & W5' & (S0' & S1' & S2' & S3' & S4') & W7') & D1' & D2' & D3' & D4' & D5' & D6').
  destruct (C63_4c_cart 2 ex7_view ex8_env ex8_lm (fun _ => one_root) (fun _ _ _ => (fun _ => 0, fun _ => 0)) e_int2e ng0 0 0 1 0 true None (w_idx w) (w_g w) (w_m w) (uninit 3) 1 1 3 1 ex8_good I0 I0 I1 I0 L0 L0 L1 L0 (conj P0 C0) (conj P0 C0) (conj P1 C1) (conj P0 C0)
      cat_2e eq_refl eq_refl name_2e Hom ltac:(by_z) HR W1' W2' W3' W4' W5' S0' S1' S2' S3' S4' W7' D1' D2' D3' D4' D5' D6') as (o2 & h2 & Y2 & f2 & hh2 & X3 & _ & _ & _ & _ & _ & _ & X4).
  exists o1, o2. clear - X1 X2 X3 X4 H8 HC. split.
  - assert (h1 = true) as <-; [|exact X1]. apply X2. exists 0%Z, 0%Z, 0%Z, 0%Z. split; [by_z|]. split; [by_z|]. split; [by_z|]. split; [by_z|].
    unfold degree_kl, raised. destruct (Rlt_dec (ex8_env 8) 0) as [_|N]; [|contradiction]. rewrite HC. cbn [v_l ex7_view IINC JINC KINC LINC ng0].
    change (1 + 0 + (0 + 0))%Z with 1%Z. change (0 + 0 + (0 + 0))%Z with 0%Z. change (rys_order _) with 1%Z. cbn [Z.ltb Z.compare Pos.compare Pos.compare_cont andb].
    pose proof (ex8_ss 0 0 ltac:(by_z) ltac:(by_z)) as E1. pose proof ex8_ps1 as E2. rewrite E1. split; [lra|]. split; [lra|]. split; [lra|]. right. unfold QuadSpec.dist2, product_centre, ex, ctr. cbn.
    match goal with |- ?x <= _ /\ _ => replace x with (1 / 102) by (field; lra) end. clear - E2. split; lra.
  - destruct h2; [|exact X3]. exfalso. destruct (X4 eq_refl) as (ip & jp & kp & lp & H1 & H2 & H3 & H4 & _ & X5). revert X5.
    unfold degree_kl, raised. destruct (Rlt_dec (ex8_env 8) 0) as [_|N]; [|contradiction]. rewrite HC. cbn [v_l ex7_view IINC JINC KINC LINC ng0].
    change (1 + 0 + (0 + 0))%Z with 1%Z. change (0 + 0 + (0 + 0))%Z with 0%Z. change (rys_order _) with 1%Z. cbn [Z.ltb Z.compare Pos.compare Pos.compare_cont andb].
    rewrite (ex8_ss ip jp H1 H2), (ex8_ps0 kp lp H3 H4). lra.
Qed.
Print Assumptions C70_nopt_refuted.
