(** PropsWhole11.v — C72 for entry points with operators: moving all shells and the common origin by the same vector.

    Every four-centre entry point whose operator has no position relative to the origin of space ([movable], WholeMove2.v; the gauge-including
    functions and the gauge part of the Breit operator have one).  Every component, Cartesian and spherical, with and without optimizer. *)
From Coq Require Import Reals Lra QArith Qreals String.
From Coquelicot Require Import Coquelicot.
From Verif Require Import Base BasModel BasSpec EnvModel IdxModel IdxSpec CtrModel
  OptModel OptSpec OptPair ScreenSpec ScreenProof ScreenFinal OutModel OutSpec TabModel
  OpSpec RecModel RecSpec GaussInt Gauss2Int IntgModel IntgSpec IntgTab IntgStmt IntgAll IntgProps IntgReal QuadSpec OperSpec OperModel Oper2e
  WholeModel WholeSpec WholeBatch Whole1e Whole2Model Whole2Batch Whole2Spec Whole4c WholeOptModel WholeOptSpec WholeSame PropsWhole PropsWhole2 PropsWhole3 PropsWhole4 PropsWhole5 WholePerm PropsWhole7 WholeFlip PropsWhole8 WholeMove PropsWhole10 WholeMove2.
Local Open Scope R_scope.

(** A call of a four-centre entry point: the work arrays and the caller's array are large enough (C63, C65). *)
Definition ready4t (V : view) (t : ent) (ng : ngT) (short : bool) (md : mode) (width : Z -> Z) (i j k l : Z) (dims : option (arr Z)) (w : work) (out : arr R) (n1 n2 n3 n4 : Z) : Prop :=
  let ci := v_nc V i in let cj := v_nc V j in let ck := v_nc V k in let cl := v_nc V l in let nc := Z.of_nat (length (g_rows (t_f t))) in
  let m1 := (width (v_l V i) * ci)%Z in let m2 := (width (v_l V j) * cj)%Z in let m3 := (width (v_l V k) * ck)%Z in let m4 := (width (v_l V l) * cl)%Z in
  work4_ok md (init_int2e short ng (v_l V i) (v_l V j) (v_l V k) (v_l V l) ci cj ck cl) ng nc ci cj ck cl w /\
  (m1 <= n1)%Z /\ (m2 <= n2)%Z /\ (m3 <= n3)%Z /\ (m4 <= n4)%Z /\ dims_are dims 4 [n1; n2; n3; n4] [m1; m2; m3; m4] /\ room (asize out) nc n1 n2 n3 n4 m1 m2 m3 m4.

Lemma call4t_cart nbas V ev lm rys srys t ng short md i j k l dims w (out : arr R) n1 n2 n3 n4 :
  let e := init_int2e short ng (v_l V i) (v_l V j) (v_l V k) (v_l V l) (v_nc V i) (v_nc V j) (v_nc V k) (v_nc V l) in
  good_shells nbas V ev lm -> good_shell nbas V i -> good_shell nbas V j -> good_shell nbas V k -> good_shell nbas V l ->
  In t catalogue -> ent_ng t = Some ng -> en_fam (t_e t) = F2e -> ~ In (en_name (t_e t)) except_names ->
  (short = true <-> ev 8%Z < 0) -> (nrys_roots e <= 32)%Z -> finds_roots_2e rys srys (nrys_roots e) (rys_order e) (ev 8%Z) ->
  ready4t V t ng short md CINTlen_cart i j k l dims w out n1 n2 n3 n4 ->
  exists o h Y f hh, call4 V ev rys srys t ng md i j k l CartK dims w out = Some (o, h) /\
    factor (t_e t) = Some f /\ en_cart (t_e t) = Some hh /\
    stored_block out o (Z.of_nat (length (g_rows (t_f t)))) n1 n2 n3 n4 (CINTlen_cart (v_l V i) * v_nc V i) (CINTlen_cart (v_l V j) * v_nc V j) (CINTlen_cart (v_l V k) * v_nc V k) (CINTlen_cart (v_l V l) * v_nc V l)
      (fun n I J K L => (Y n (I / CINTlen_cart (v_l V i)) (J / CINTlen_cart (v_l V j)) (K / CINTlen_cart (v_l V k)) (L / CINTlen_cart (v_l V l)) (I mod CINTlen_cart (v_l V i)) (J mod CINTlen_cart (v_l V j)) (K mod CINTlen_cart (v_l V k)) (L mod CINTlen_cart (v_l V l)))%Z) /\
    ok4 V ev t f i j k l (Q2R (Qmake (fst hh) (snd hh)) * (CINTcommon_fac_sp (v_l V i) * CINTcommon_fac_sp (v_l V j) * CINTcommon_fac_sp (v_l V k) * CINTcommon_fac_sp (v_l V l)))
      (kept4 V ev lm ng (rys_order e) md i j k l) Y.
Proof.
  intros e HG (Hi & Hli & Hpi & Hci) (Hj & Hlj & Hpj & Hcj) (Hk & Hlk & Hpk & Hck) (Hl & Hll & Hpl & Hcl) Ht En Hf Hex Hom Hnr HR ((W1 & W2 & W3 & W4 & W5 & W6 & W7) & D1 & D2 & D3 & D4 & D5 & D6).
  destruct md as [|stored].
  - destruct W6 as (S0 & S1 & S2 & S3 & S4).
    destruct (C63_4c_cart nbas V ev lm rys srys t ng i j k l short dims (w_idx w) (w_g w) (w_m w) out n1 n2 n3 n4 HG Hi Hj Hk Hl Hli Hlj Hlk Hll (conj Hpi Hci) (conj Hpj Hcj) (conj Hpk Hck) (conj Hpl Hcl) Ht En Hf Hex Hom Hnr HR
      W1 W2 W3 W4 W5 S0 S1 S2 S3 S4 W7 D1 D2 D3 D4 D5 D6) as (o & h & Y & f & hh & X1 & X2 & X3 & _ & X4 & X5 & _).
    exists o, h, Y, f, hh. split; [exact X1|]. split; [exact X2|]. split; [exact X3|]. split; [exact X4|exact X5].
  - destruct (C65_4c_cart nbas V ev lm rys srys t ng stored i j k l short dims (w_idx w) (w_g w) (w_m w) out n1 n2 n3 n4 HG Hi Hj Hk Hl Hli Hlj Hlk Hll (conj Hpi Hci) (conj Hpj Hcj) (conj Hpk Hck) (conj Hpl Hcl) Ht En Hf Hex Hom Hnr HR
      W1 W2 W3 W4 W5 W6 W7 D1 D2 D3 D4 D5 D6) as (o & h & Y & f & hh & X1 & X2 & X3 & _ & X4 & X5 & _).
    exists o, h, Y, f, hh. split; [exact X1|]. split; [exact X2|]. split; [exact X3|]. split; [exact X4|exact X5].
Qed.

Lemma call4t_sph nbas V ev lm rys srys t ng short md i j k l dims w (out : arr R) n1 n2 n3 n4 :
  let e := init_int2e short ng (v_l V i) (v_l V j) (v_l V k) (v_l V l) (v_nc V i) (v_nc V j) (v_nc V k) (v_nc V l) in
  good_shells nbas V ev lm -> good_shell nbas V i -> good_shell nbas V j -> good_shell nbas V k -> good_shell nbas V l ->
  In t catalogue -> ent_ng t = Some ng -> en_fam (t_e t) = F2e -> ~ In (en_name (t_e t)) except_names ->
  (short = true <-> ev 8%Z < 0) -> (nrys_roots e <= 32)%Z -> finds_roots_2e rys srys (nrys_roots e) (rys_order e) (ev 8%Z) ->
  ready4t V t ng short md sph_len i j k l dims w out n1 n2 n3 n4 ->
  exists o h Y f hh, call4 V ev rys srys t ng md i j k l SphK dims w out = Some (o, h) /\
    factor (t_e t) = Some f /\ en_sph (t_e t) = Some hh /\
    stored_block out o (Z.of_nat (length (g_rows (t_f t)))) n1 n2 n3 n4 (sph_len (v_l V i) * v_nc V i) (sph_len (v_l V j) * v_nc V j) (sph_len (v_l V k) * v_nc V k) (sph_len (v_l V l) * v_nc V l)
      (fun n I J K L => (TT (v_l V i) (I mod sph_len (v_l V i)) (fun a => TT (v_l V k) (K mod sph_len (v_l V k)) (fun c => TT (v_l V l) (L mod sph_len (v_l V l)) (fun d => TT (v_l V j) (J mod sph_len (v_l V j)) (fun b => Y n (I / sph_len (v_l V i)) (J / sph_len (v_l V j)) (K / sph_len (v_l V k)) (L / sph_len (v_l V l)) a b c d)))))%Z) /\
    ok4 V ev t f i j k l (Q2R (Qmake (fst hh) (snd hh)) * (CINTcommon_fac_sp (v_l V i) * CINTcommon_fac_sp (v_l V j) * CINTcommon_fac_sp (v_l V k) * CINTcommon_fac_sp (v_l V l)))
      (kept4 V ev lm ng (rys_order e) md i j k l) Y.
Proof.
  intros e HG (Hi & Hli & Hpi & Hci) (Hj & Hlj & Hpj & Hcj) (Hk & Hlk & Hpk & Hck) (Hl & Hll & Hpl & Hcl) Ht En Hf Hex Hom Hnr HR ((W1 & W2 & W3 & W4 & W5 & W6 & W7) & D1 & D2 & D3 & D4 & D5 & D6).
  destruct md as [|stored].
  - destruct W6 as (S0 & S1 & S2 & S3 & S4).
    destruct (C63_4c_sph nbas V ev lm rys srys t ng i j k l short dims (w_idx w) (w_g w) (w_m w) out n1 n2 n3 n4 HG Hi Hj Hk Hl Hli Hlj Hlk Hll (conj Hpi Hci) (conj Hpj Hcj) (conj Hpk Hck) (conj Hpl Hcl) Ht En Hf Hex Hom Hnr HR
      W1 W2 W3 W4 W5 S0 S1 S2 S3 S4 W7 D1 D2 D3 D4 D5 D6) as (o & h & Y & f & hh & X1 & X2 & X3 & _ & X4 & X5 & _).
    exists o, h, Y, f, hh. split; [exact X1|]. split; [exact X2|]. split; [exact X3|]. split; [exact X4|exact X5].
  - destruct (C65_4c_sph nbas V ev lm rys srys t ng stored i j k l short dims (w_idx w) (w_g w) (w_m w) out n1 n2 n3 n4 HG Hi Hj Hk Hl Hli Hlj Hlk Hll (conj Hpi Hci) (conj Hpj Hcj) (conj Hpk Hck) (conj Hpl Hcl) Ht En Hf Hex Hom Hnr HR
      W1 W2 W3 W4 W5 W6 W7 D1 D2 D3 D4 D5 D6) as (o & h & Y & f & hh & X1 & X2 & X3 & _ & X4 & X5 & _).
    exists o, h, Y, f, hh. split; [exact X1|]. split; [exact X2|]. split; [exact X3|]. split; [exact X4|exact X5].
Qed.

(** Cartesian functions. *)
Theorem C72_op_cart nbas (V : view) (ev ev' : Z -> R) (v : Z -> R) (lm : Z -> Z -> R) rys srys t ng (short : bool) (md : mode) i j k l
    dims (a : work) (out : arr R) n1 n2 n3 n4 dims' (a' : work) (out' : arr R) n1' n2' n3' n4' :
  let e := init_int2e short ng (v_l V i) (v_l V j) (v_l V k) (v_l V l) (v_nc V i) (v_nc V j) (v_nc V k) (v_nc V l) in
  let nc := Z.of_nat (length (g_rows (t_f t))) in
  (* shells and common origin are moved by v *)
  moved nbas V ev ev' v -> (forall ax, (0 <= ax < 3)%Z -> gauge_origin ev' ax = gauge_origin ev ax + v ax) ->
  good_shells nbas V ev lm -> good_shell nbas V i -> good_shell nbas V j -> good_shell nbas V k -> good_shell nbas V l ->
  In t catalogue -> ent_ng t = Some ng -> en_fam (t_e t) = F2e -> ~ In (en_name (t_e t)) except_names -> movable t = true ->
  (short = true <-> ev 8%Z < 0) -> (nrys_roots e <= 32)%Z -> finds_roots_2e rys srys (nrys_roots e) (rys_order e) (ev 8%Z) ->
  ready4t V t ng short md CINTlen_cart i j k l dims a out n1 n2 n3 n4 -> ready4t V t ng short md CINTlen_cart i j k l dims' a' out' n1' n2' n3' n4' ->
  exists o1 o2 h1 h2, call4 V ev rys srys t ng md i j k l CartK dims a out = Some (o1, h1) /\
    call4 V ev' rys srys t ng md i j k l CartK dims' a' out' = Some (o2, h2) /\
    forall n I J K L, (0 <= n < nc)%Z -> (0 <= I < CINTlen_cart (v_l V i) * v_nc V i)%Z -> (0 <= J < CINTlen_cart (v_l V j) * v_nc V j)%Z -> (0 <= K < CINTlen_cart (v_l V k) * v_nc V k)%Z -> (0 <= L < CINTlen_cart (v_l V l) * v_nc V l)%Z ->
      exists x, rd o1 (OutSpec.place n1 n2 n3 n4 n I J K L) = Some x /\ rd o2 (OutSpec.place n1' n2' n3' n4' n I J K L) = Some x.
Proof.
  intros e nc HM HO HG Gi Gj Gk Gl Ht En Hf Hex Hz Hom Hnr HR Ra Rb.
  destruct (call4t_cart nbas V ev lm rys srys t ng short md i j k l dims a out n1 n2 n3 n4 HG Gi Gj Gk Gl Ht En Hf Hex Hom Hnr HR Ra) as (o1 & h1 & Y1 & f & hh & A1 & A2 & A3 & A4 & A5).
  assert (E8 : ev' 8%Z = ev 8%Z) by apply HM.
  destruct (call4t_cart nbas V ev' lm rys srys t ng short md i j k l dims' a' out' n1' n2' n3' n4' (good_moved _ _ _ _ _ _ HM HG) Gi Gj Gk Gl Ht En Hf Hex) as (o2 & h2 & Y2 & f' & hh' & B1 & B2 & B3 & B4 & B5);
    [rewrite E8; exact Hom|exact Hnr|rewrite E8; exact HR|exact Rb|].
  fold e in A5, B5. rewrite A2 in B2. injection B2 as <-. rewrite A3 in B3. injection B3 as <-.
  exists o1, o2, h1, h2. split; [exact A1|]. split; [exact B1|]. intros n I J K L Hn HI HJ HKK HL.
  destruct A4 as (_ & A4 & _). destruct B4 as (_ & B4 & _). eexists. split; [apply A4; assumption|].
  rewrite B4 by assumption. f_equal. clear A4 B4 A1 B1. symmetry.
  pose proof (good_pos _ _ _ _ _ HG Gi) as Pi. pose proof (good_pos _ _ _ _ _ HG Gj) as Pj. pose proof (good_pos _ _ _ _ _ HG Gk) as Pk. pose proof (good_pos _ _ _ _ _ HG Gl) as Pl.
  destruct Gi as (Bi & Hli & _). destruct Gj as (Bj & Hlj & _). destruct Gk as (Bk & Hlk & _). destruct Gl as (Bl & Hll & _).
  pose proof (Y_moved2 nbas V ev ev' v lm t ng i j k l HM HO Ht (or_introl Hf) Hz Bi Bj Bk Bl Pi Pj Pk Pl f (rys_order e) md _ Y1 Y2 A2 Hli Hlj Hlk Hll A5 B5) as E. clear - E Hn Hli Hlj Hlk Hll HI HJ HKK HL.
  pose proof (Z.lt_le_trans _ _ _ Z.lt_0_1 (len_cart_pos _ Hli)). pose proof (Z.lt_le_trans _ _ _ Z.lt_0_1 (len_cart_pos _ Hlj)).
  pose proof (Z.lt_le_trans _ _ _ Z.lt_0_1 (len_cart_pos _ Hlk)). pose proof (Z.lt_le_trans _ _ _ Z.lt_0_1 (len_cart_pos _ Hll)).
  cbv beta. apply E; first [exact Hn|apply Z.mod_pos_bound; assumption|apply div_range; assumption].
Qed.
Print Assumptions C72_op_cart.

(** Spherical functions. *)
Theorem C72_op_sph nbas (V : view) (ev ev' : Z -> R) (v : Z -> R) (lm : Z -> Z -> R) rys srys t ng (short : bool) (md : mode) i j k l
    dims (a : work) (out : arr R) n1 n2 n3 n4 dims' (a' : work) (out' : arr R) n1' n2' n3' n4' :
  let e := init_int2e short ng (v_l V i) (v_l V j) (v_l V k) (v_l V l) (v_nc V i) (v_nc V j) (v_nc V k) (v_nc V l) in
  let nc := Z.of_nat (length (g_rows (t_f t))) in
  (* shells and common origin are moved by v *)
  moved nbas V ev ev' v -> (forall ax, (0 <= ax < 3)%Z -> gauge_origin ev' ax = gauge_origin ev ax + v ax) ->
  good_shells nbas V ev lm -> good_shell nbas V i -> good_shell nbas V j -> good_shell nbas V k -> good_shell nbas V l ->
  In t catalogue -> ent_ng t = Some ng -> en_fam (t_e t) = F2e -> ~ In (en_name (t_e t)) except_names -> movable t = true ->
  (short = true <-> ev 8%Z < 0) -> (nrys_roots e <= 32)%Z -> finds_roots_2e rys srys (nrys_roots e) (rys_order e) (ev 8%Z) ->
  ready4t V t ng short md sph_len i j k l dims a out n1 n2 n3 n4 -> ready4t V t ng short md sph_len i j k l dims' a' out' n1' n2' n3' n4' ->
  exists o1 o2 h1 h2, call4 V ev rys srys t ng md i j k l SphK dims a out = Some (o1, h1) /\
    call4 V ev' rys srys t ng md i j k l SphK dims' a' out' = Some (o2, h2) /\
    forall n I J K L, (0 <= n < nc)%Z -> (0 <= I < sph_len (v_l V i) * v_nc V i)%Z -> (0 <= J < sph_len (v_l V j) * v_nc V j)%Z -> (0 <= K < sph_len (v_l V k) * v_nc V k)%Z -> (0 <= L < sph_len (v_l V l) * v_nc V l)%Z ->
      exists x, rd o1 (OutSpec.place n1 n2 n3 n4 n I J K L) = Some x /\ rd o2 (OutSpec.place n1' n2' n3' n4' n I J K L) = Some x.
Proof.
  intros e nc HM HO HG Gi Gj Gk Gl Ht En Hf Hex Hz Hom Hnr HR Ra Rb.
  destruct (call4t_sph nbas V ev lm rys srys t ng short md i j k l dims a out n1 n2 n3 n4 HG Gi Gj Gk Gl Ht En Hf Hex Hom Hnr HR Ra) as (o1 & h1 & Y1 & f & hh & A1 & A2 & A3 & A4 & A5).
  assert (E8 : ev' 8%Z = ev 8%Z) by apply HM.
  destruct (call4t_sph nbas V ev' lm rys srys t ng short md i j k l dims' a' out' n1' n2' n3' n4' (good_moved _ _ _ _ _ _ HM HG) Gi Gj Gk Gl Ht En Hf Hex) as (o2 & h2 & Y2 & f' & hh' & B1 & B2 & B3 & B4 & B5);
    [rewrite E8; exact Hom|exact Hnr|rewrite E8; exact HR|exact Rb|].
  fold e in A5, B5. rewrite A2 in B2. injection B2 as <-. rewrite A3 in B3. injection B3 as <-.
  exists o1, o2, h1, h2. split; [exact A1|]. split; [exact B1|]. intros n I J K L Hn HI HJ HKK HL.
  destruct A4 as (_ & A4 & _). destruct B4 as (_ & B4 & _). eexists. split; [apply A4; assumption|].
  rewrite B4 by assumption. f_equal. clear A4 B4 A1 B1. symmetry.
  pose proof (good_pos _ _ _ _ _ HG Gi) as Pi. pose proof (good_pos _ _ _ _ _ HG Gj) as Pj. pose proof (good_pos _ _ _ _ _ HG Gk) as Pk. pose proof (good_pos _ _ _ _ _ HG Gl) as Pl.
  destruct Gi as (Bi & Hli & _). destruct Gj as (Bj & Hlj & _). destruct Gk as (Bk & Hlk & _). destruct Gl as (Bl & Hll & _).
  pose proof (Y_moved2 nbas V ev ev' v lm t ng i j k l HM HO Ht (or_introl Hf) Hz Bi Bj Bk Bl Pi Pj Pk Pl f (rys_order e) md _ Y1 Y2 A2 Hli Hlj Hlk Hll A5 B5) as E. clear - E Hn Hli Hlj Hlk Hll HI HJ HKK HL.
  assert (W : forall l, (0 <= l <= 15)%Z -> (0 < sph_len l)%Z) by (clear; unfold sph_len; lia).
  cbv beta. apply TT_ext. intros c Hc. apply TT_ext. intros a Ha. apply TT_ext. intros b Hb. apply TT_ext. intros d Hd. apply E; first [assumption|apply div_range; [apply W; assumption|assumption]].
Qed.
Print Assumptions C72_op_sph.

(** 43 of the 63 four-centre entry points are movable. *)
Example C72_entries : let four := filter (fun t => match en_fam (t_e t) with F2e => true | _ => false end) catalogue in
  length four = 63%nat /\ length (filter movable four) = 43%nat.
Proof. split; vm_compute; reflexivity. Qed.

(** The shells of C72_example and the common origin moved by (1,-2,5): the three components of the gradient (nabla s s|s s) before and after. *)
Definition ex11_env (x : Z) : R := if ((1 <=? x) && (x <? 4))%Z then ex10_v (x - 1) else ex10_env x.
Lemma ex11_moved : moved 2 ex7_view ex7_env ex11_env ex10_v.
Proof.
  split; [reflexivity|]. split; [reflexivity|]. intros i Hi. assert (Ei : i = 0%Z \/ i = 1%Z) by lia. split; [|split].
  - intros ax Hx. assert (Ex : ax = 0%Z \/ ax = 1%Z \/ ax = 2%Z) by lia. destruct Ei as [-> | ->]; destruct Ex as [-> | [-> | ->]]; reflexivity.
  - intros p Hp. cbn in Hp. assert (p = 0%Z) as -> by lia. destruct Ei as [-> | ->]; reflexivity.
  - intros p c Hp Hc. cbn in Hp, Hc. assert (p = 0%Z) as -> by lia. assert (c = 0%Z) as -> by lia. destruct Ei as [-> | ->]; reflexivity.
Qed.
Lemma ex11_origin ax : (0 <= ax < 3)%Z -> gauge_origin ex11_env ax = gauge_origin ex7_env ax + ex10_v ax.
Proof. intros Hx. assert (Ex : ax = 0%Z \/ ax = 1%Z \/ ax = 2%Z) by lia. destruct Ex as [-> | [-> | ->]]; unfold gauge_origin, ex11_env, ex7_env; cbn; ring. Qed.
Example C72_example_op md :
  let ng := mkng 1 0 0 0 1 1 1 3 in
  let w c := mkwork (uninit 9) (of_fun 60 (fun _ => c)) (mkmem (fun _ => of_fun 30 (fun _ => c)) (fun _ => true)) in
  let go ev c := call4 ex7_view ev (fun _ => one_root) (fun _ _ _ => (fun _ => 0, fun _ => 0)) e_int2e_ip1 ng md 0 0 0 0 CartK None (w c) (uninit 3) in
  exists o1 o2, go ex7_env 5 = Some o1 /\ go ex11_env 7 = Some o2 /\
    forall x, (0 <= x < 3)%Z -> exists v, rd (fst o1) x = Some v /\ rd (fst o2) x = Some v.
Proof.
  intros ng w go.
  assert (HR : finds_roots_2e (fun _ => one_root) (fun _ _ _ => (fun _ => 0, fun _ => 0)) 1 1 (ex7_env 8)).
  { split; [intros m y n Hn Hy; apply one_root_ok|]. split; [intros m y z n Hn Hy; cbn; lra|]. intros a0 x Ha Hx. split; [intros _; apply one_root_ok|].
    cbn [ex7_env Z.eqb Pos.eqb]. repeat split; intros X; lra. }
  assert (H08 : false = true <-> ex7_env 8 < 0) by (split; [discriminate|cbn; lra]).
  assert (R1 : forall c, ready4t ex7_view e_int2e_ip1 ng false md CINTlen_cart 0 0 0 0 None (w c) (uninit 3) 1 1 1 1).
  { intros c0. split; [|split; [by_z|split; [by_z|split; [by_z|split; [by_z|split; [by_z|intros n a b c d Hn Ha Hb Hc Hd; cbn in Hn, Ha, Hb, Hc, Hd |- *; unfold OutSpec.place; lia]]]]]].
    repeat split; try (apply filled_of); try (intros s; apply filled_of); try (clear; vm_compute; intuition congruence). destruct md; clear; vm_compute; intuition congruence. }
  assert (G0 : good_shell 2 ex7_view 0) by (repeat split; by_z).
  assert (NX : ~ In (en_name (t_e e_int2e_ip1)) except_names) by (intros H; cbn in H; repeat (destruct H as [H|H]; [discriminate H|]); exact H).
  destruct (C72_op_cart 2 ex7_view ex7_env ex11_env ex10_v (fun _ _ => ln 1) (fun _ => one_root) (fun _ _ _ => (fun _ => 0, fun _ => 0)) e_int2e_ip1 ng false md 0 0 0 0
    None (w 5) (uninit 3) 1 1 1 1 None (w 7) (uninit 3) 1 1 1 1 ex11_moved ex11_origin ex7_good G0 G0 G0 G0 in_ip1 eq_refl eq_refl NX eq_refl H08 ltac:(by_z) HR (R1 5) (R1 7)) as (o1 & o2 & h1 & h2 & X1 & X2 & X3).
  exists (o1, h1), (o2, h2). split; [exact X1|]. split; [exact X2|]. intros x Hx.
  destruct (X3 x 0%Z 0%Z 0%Z 0%Z) as (v & Y1 & Y2); [exact Hx|by_z|by_z|by_z|by_z|]. exists v.
  unfold OutSpec.place in Y1, Y2. cbn [fst]. replace ((((x * 1 + 0) * 1 + 0) * 1 + 0) * 1 + 0)%Z with x in Y1, Y2 by ring.
  split; [exact Y1|exact Y2].
Qed.
