(** PropsWhole10.v — C72: moving all shells by the same vector does not change the two-electron integrals.

    int2e, Cartesian and spherical, with and without optimizer, any range-separation parameter, all shells and all work arrays: the calls on
    the two env arrays of [moved] (WholeMove.v) keep the same primitives and store the same numbers. *)
From Coq Require Import Reals Lra QArith Qreals String.
From Coquelicot Require Import Coquelicot.
From Verif Require Import Base BasModel BasSpec EnvModel IdxModel IdxSpec CtrModel
  OptModel OptSpec OptPair ScreenSpec ScreenProof ScreenFinal OutModel OutSpec TabModel
  OpSpec RecModel RecSpec GaussInt Gauss2Int IntgModel IntgSpec IntgTab IntgStmt IntgAll IntgReal QuadSpec OperSpec OperModel Oper2e
  WholeModel WholeSpec WholeBatch Whole1e Whole2Model Whole2Batch Whole2Spec Whole4c WholeOptModel WholeOptSpec WholeSame PropsWhole PropsWhole2 PropsWhole3 PropsWhole4 PropsWhole5 WholePerm PropsWhole7 WholeFlip PropsWhole8 WholeMove.
Local Open Scope R_scope.

Lemma div_range w n x : (0 < w)%Z -> (0 <= x < w * n)%Z -> (0 <= x / w < n)%Z.
Proof. intros Hw Hx. split; [apply Z.div_pos; lia|apply Z.div_lt_upper_bound; lia]. Qed.

(** The screening keeps the same primitives, for every entry point. *)
Theorem C72_same_primitives nbas (V : view) (ev ev' : Z -> R) (v : Z -> R) (lm : Z -> Z -> R) ng order (md : mode) i j k l ip jp kp lp :
  moved nbas V ev ev' v -> good_shells nbas V ev lm -> good_shell nbas V i -> good_shell nbas V j -> good_shell nbas V k -> good_shell nbas V l ->
  (0 <= ip < v_np V i)%Z -> (0 <= jp < v_np V j)%Z -> (0 <= kp < v_np V k)%Z -> (0 <= lp < v_np V l)%Z ->
  (kept4 V ev' lm ng order md i j k l ip jp kp lp <-> kept4 V ev lm ng order md i j k l ip jp kp lp).
Proof.
  intros HM HG Gi Gj Gk Gl. apply (kept_moved nbas V ev ev' v); [exact HM|apply Gi|apply Gj|apply Gk|apply Gl|eapply good_pos; eassumption..].
Qed.
Print Assumptions C72_same_primitives.

(** Cartesian functions. *)
Theorem C72_4c_cart nbas (V : view) (ev ev' : Z -> R) (v : Z -> R) (lm : Z -> Z -> R) rys srys (short : bool) (md : mode) i j k l
    dims (a : work) (out : arr R) n1 n2 n3 n4 dims' (a' : work) (out' : arr R) n1' n2' n3' n4' :
  let e := init_int2e short ng0 (v_l V i) (v_l V j) (v_l V k) (v_l V l) (v_nc V i) (v_nc V j) (v_nc V k) (v_nc V l) in
  moved nbas V ev ev' v ->
  good_shells nbas V ev lm -> good_shell nbas V i -> good_shell nbas V j -> good_shell nbas V k -> good_shell nbas V l ->
  (short = true <-> ev 8%Z < 0) -> (nrys_roots e <= 32)%Z -> finds_roots_2e rys srys (nrys_roots e) (rys_order e) (ev 8%Z) ->
  ready4 V short md CINTlen_cart i j k l dims a out n1 n2 n3 n4 -> ready4 V short md CINTlen_cart i j k l dims' a' out' n1' n2' n3' n4' ->
  exists o1 o2 h1 h2, call4 V ev rys srys e_int2e ng0 md i j k l CartK dims a out = Some (o1, h1) /\
    call4 V ev' rys srys e_int2e ng0 md i j k l CartK dims' a' out' = Some (o2, h2) /\
    forall I J K L, (0 <= I < CINTlen_cart (v_l V i) * v_nc V i)%Z -> (0 <= J < CINTlen_cart (v_l V j) * v_nc V j)%Z -> (0 <= K < CINTlen_cart (v_l V k) * v_nc V k)%Z -> (0 <= L < CINTlen_cart (v_l V l) * v_nc V l)%Z ->
      exists x, rd o1 (OutSpec.place n1 n2 n3 n4 0 I J K L) = Some x /\ rd o2 (OutSpec.place n1' n2' n3' n4' 0 I J K L) = Some x.
Proof.
  intros e HM HG Gi Gj Gk Gl Hom Hnr HR Ra Rb.
  destruct (call4_cart nbas V ev lm rys srys short md i j k l dims a out n1 n2 n3 n4 HG Gi Gj Gk Gl Hom Hnr HR Ra) as (o1 & h1 & Y1 & f & hh & A1 & A2 & A3 & A4 & A5).
  assert (E8 : ev' 8%Z = ev 8%Z) by apply HM.
  destruct (call4_cart nbas V ev' lm rys srys short md i j k l dims' a' out' n1' n2' n3' n4' (good_moved _ _ _ _ _ _ HM HG) Gi Gj Gk Gl) as (o2 & h2 & Y2 & f' & hh' & B1 & B2 & B3 & B4 & B5);
    [rewrite E8; exact Hom|exact Hnr|rewrite E8; exact HR|exact Rb|].
  fold e in A5, B5. rewrite A2 in B2. injection B2 as <-. rewrite A3 in B3. injection B3 as <-.
  exists o1, o2, h1, h2. split; [exact A1|]. split; [exact B1|]. intros I J K L HI HJ HKK HL.
  destruct A4 as (_ & A4 & _). destruct B4 as (_ & B4 & _). eexists. split; [apply A4; [split; [apply Z.le_refl|reflexivity]|assumption..]|].
  rewrite B4; [|split; [apply Z.le_refl|reflexivity]|assumption..].
  f_equal. clear A4 B4 A1 B1. symmetry.
  pose proof (good_pos _ _ _ _ _ HG Gi) as Pi. pose proof (good_pos _ _ _ _ _ HG Gj) as Pj. pose proof (good_pos _ _ _ _ _ HG Gk) as Pk. pose proof (good_pos _ _ _ _ _ HG Gl) as Pl.
  destruct Gi as (Bi & Hli & _). destruct Gj as (Bj & Hlj & _). destruct Gk as (Bk & Hlk & _). destruct Gl as (Bl & Hll & _).
  pose proof (Y_moved nbas V ev ev' v lm i j k l HM Bi Bj Bk Bl Pi Pj Pk Pl f (rys_order e) md _ Y1 Y2 A2 Hli Hlj Hlk Hll A5 B5) as E. clear - E Hli Hlj Hlk Hll HI HJ HKK HL.
  pose proof (Z.lt_le_trans _ _ _ Z.lt_0_1 (len_cart_pos _ Hli)). pose proof (Z.lt_le_trans _ _ _ Z.lt_0_1 (len_cart_pos _ Hlj)).
  pose proof (Z.lt_le_trans _ _ _ Z.lt_0_1 (len_cart_pos _ Hlk)). pose proof (Z.lt_le_trans _ _ _ Z.lt_0_1 (len_cart_pos _ Hll)).
  cbv beta. apply E; first [apply Z.mod_pos_bound; assumption|apply div_range; assumption].
Qed.
Print Assumptions C72_4c_cart.

(** Spherical functions. *)
Theorem C72_4c_sph nbas (V : view) (ev ev' : Z -> R) (v : Z -> R) (lm : Z -> Z -> R) rys srys (short : bool) (md : mode) i j k l
    dims (a : work) (out : arr R) n1 n2 n3 n4 dims' (a' : work) (out' : arr R) n1' n2' n3' n4' :
  let e := init_int2e short ng0 (v_l V i) (v_l V j) (v_l V k) (v_l V l) (v_nc V i) (v_nc V j) (v_nc V k) (v_nc V l) in
  moved nbas V ev ev' v ->
  good_shells nbas V ev lm -> good_shell nbas V i -> good_shell nbas V j -> good_shell nbas V k -> good_shell nbas V l ->
  (short = true <-> ev 8%Z < 0) -> (nrys_roots e <= 32)%Z -> finds_roots_2e rys srys (nrys_roots e) (rys_order e) (ev 8%Z) ->
  ready4 V short md sph_len i j k l dims a out n1 n2 n3 n4 -> ready4 V short md sph_len i j k l dims' a' out' n1' n2' n3' n4' ->
  exists o1 o2 h1 h2, call4 V ev rys srys e_int2e ng0 md i j k l SphK dims a out = Some (o1, h1) /\
    call4 V ev' rys srys e_int2e ng0 md i j k l SphK dims' a' out' = Some (o2, h2) /\
    forall I J K L, (0 <= I < sph_len (v_l V i) * v_nc V i)%Z -> (0 <= J < sph_len (v_l V j) * v_nc V j)%Z -> (0 <= K < sph_len (v_l V k) * v_nc V k)%Z -> (0 <= L < sph_len (v_l V l) * v_nc V l)%Z ->
      exists x, rd o1 (OutSpec.place n1 n2 n3 n4 0 I J K L) = Some x /\ rd o2 (OutSpec.place n1' n2' n3' n4' 0 I J K L) = Some x.
Proof.
  intros e HM HG Gi Gj Gk Gl Hom Hnr HR Ra Rb.
  destruct (call4_sph nbas V ev lm rys srys short md i j k l dims a out n1 n2 n3 n4 HG Gi Gj Gk Gl Hom Hnr HR Ra) as (o1 & h1 & Y1 & f & hh & A1 & A2 & A3 & A4 & A5).
  assert (E8 : ev' 8%Z = ev 8%Z) by apply HM.
  destruct (call4_sph nbas V ev' lm rys srys short md i j k l dims' a' out' n1' n2' n3' n4' (good_moved _ _ _ _ _ _ HM HG) Gi Gj Gk Gl) as (o2 & h2 & Y2 & f' & hh' & B1 & B2 & B3 & B4 & B5);
    [rewrite E8; exact Hom|exact Hnr|rewrite E8; exact HR|exact Rb|].
  fold e in A5, B5. rewrite A2 in B2. injection B2 as <-. rewrite A3 in B3. injection B3 as <-.
  exists o1, o2, h1, h2. split; [exact A1|]. split; [exact B1|]. intros I J K L HI HJ HKK HL.
  destruct A4 as (_ & A4 & _). destruct B4 as (_ & B4 & _). eexists. split; [apply A4; [split; [apply Z.le_refl|reflexivity]|assumption..]|].
  rewrite B4; [|split; [apply Z.le_refl|reflexivity]|assumption..].
  f_equal. clear A4 B4 A1 B1. symmetry.
  pose proof (good_pos _ _ _ _ _ HG Gi) as Pi. pose proof (good_pos _ _ _ _ _ HG Gj) as Pj. pose proof (good_pos _ _ _ _ _ HG Gk) as Pk. pose proof (good_pos _ _ _ _ _ HG Gl) as Pl.
  destruct Gi as (Bi & Hli & _). destruct Gj as (Bj & Hlj & _). destruct Gk as (Bk & Hlk & _). destruct Gl as (Bl & Hll & _).
  pose proof (Y_moved nbas V ev ev' v lm i j k l HM Bi Bj Bk Bl Pi Pj Pk Pl f (rys_order e) md _ Y1 Y2 A2 Hli Hlj Hlk Hll A5 B5) as E. clear - E Hli Hlj Hlk Hll HI HJ HKK HL.
  assert (W : forall l, (0 <= l <= 15)%Z -> (0 < sph_len l)%Z) by (clear; unfold sph_len; lia).
  cbv beta. apply TT_ext. intros c Hc. apply TT_ext. intros a Ha. apply TT_ext. intros b Hb. apply TT_ext. intros d Hd. apply E; first [assumption|apply div_range; [apply W; assumption|assumption]].
Qed.
Print Assumptions C72_4c_sph.

(** An s and a p shell (exponents 1 and 2, distance 3) and the same shells moved by (1,-2,5): (ps|ss) before and after. *)
Definition ex10_v (ax : Z) : R := if (ax =? 0)%Z then 1 else if (ax =? 1)%Z then -2 else 5.
Definition ex10_env (x : Z) : R := if ((40 <=? x) && (x <? 46))%Z then ex7_env x + ex10_v ((x - 40) mod 3) else ex7_env x.
Lemma ex10_moved : moved 2 ex7_view ex7_env ex10_env ex10_v.
Proof.
  split; [reflexivity|]. split; [reflexivity|]. intros i Hi. assert (Ei : i = 0%Z \/ i = 1%Z) by lia. split; [|split].
  - intros ax Hx. assert (Ex : ax = 0%Z \/ ax = 1%Z \/ ax = 2%Z) by lia. destruct Ei as [-> | ->]; destruct Ex as [-> | [-> | ->]]; reflexivity.
  - intros p Hp. cbn in Hp. assert (p = 0%Z) as -> by lia. destruct Ei as [-> | ->]; reflexivity.
  - intros p c Hp Hc. cbn in Hp, Hc. assert (p = 0%Z) as -> by lia. assert (c = 0%Z) as -> by lia. destruct Ei as [-> | ->]; reflexivity.
Qed.
Example C72_example md :
  let w c := mkwork (uninit 9) (of_fun 12 (fun _ => c)) (mkmem (fun _ => of_fun 3 (fun _ => c)) (fun _ => true)) in
  let go ev c := call4 ex7_view ev (fun _ => one_root) (fun _ _ _ => (fun _ => 0, fun _ => 0)) e_int2e ng0 md 1 0 0 0 CartK None (w c) (uninit 3) in
  exists o1 o2, go ex7_env 5 = Some o1 /\ go ex10_env 7 = Some o2 /\
    forall x, (0 <= x < 3)%Z -> exists v, rd (fst o1) x = Some v /\ rd (fst o2) x = Some v.
Proof.
  intros w go.
  assert (HR : finds_roots_2e (fun _ => one_root) (fun _ _ _ => (fun _ => 0, fun _ => 0)) 1 1 (ex7_env 8)).
  { split; [intros m y n Hn Hy; apply one_root_ok|]. split; [intros m y z n Hn Hy; cbn; lra|]. intros a0 x Ha Hx. split; [intros _; apply one_root_ok|].
    cbn [ex7_env Z.eqb Pos.eqb]. repeat split; intros X; lra. }
  assert (H08 : false = true <-> ex7_env 8 < 0) by (split; [discriminate|cbn; lra]).
  assert (R1 : forall c, ready4 ex7_view false md CINTlen_cart 1 0 0 0 None (w c) (uninit 3) 3 1 1 1).
  { intros c0. split; [|split; [by_z|split; [by_z|split; [by_z|split; [by_z|split; [by_z|intros n a b c d Hn Ha Hb Hc Hd; cbn in Hn, Ha, Hb, Hc, Hd |- *; unfold OutSpec.place; lia]]]]]].
    repeat split; try (apply filled_of); try (intros s; apply filled_of); try (clear; vm_compute; intuition congruence). destruct md; clear; vm_compute; intuition congruence. }
  assert (G0 : good_shell 2 ex7_view 0) by (repeat split; by_z). assert (G1 : good_shell 2 ex7_view 1) by (repeat split; by_z).
  destruct (C72_4c_cart 2 ex7_view ex7_env ex10_env ex10_v (fun _ _ => ln 1) (fun _ => one_root) (fun _ _ _ => (fun _ => 0, fun _ => 0)) false md 1 0 0 0
    None (w 5) (uninit 3) 3 1 1 1 None (w 7) (uninit 3) 3 1 1 1 ex10_moved ex7_good G1 G0 G0 G0 H08 ltac:(by_z) HR (R1 5) (R1 7)) as (o1 & o2 & h1 & h2 & X1 & X2 & X3).
  exists (o1, h1), (o2, h2). split; [exact X1|]. split; [exact X2|]. intros x Hx.
  destruct (X3 x 0%Z 0%Z 0%Z) as (v & Y1 & Y2); [exact Hx|by_z|by_z|by_z|]. exists v.
  unfold OutSpec.place in Y1, Y2. cbn [fst]. replace ((((0 * 1 + 0) * 1 + 0) * 1 + 0) * 3 + x)%Z with x in Y1, Y2 by ring.
  split; [exact Y1|exact Y2].
Qed.
