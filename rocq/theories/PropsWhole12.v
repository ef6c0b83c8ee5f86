(** PropsWhole12.v — C73: moving all shells, charges and the common origin by the same vector does not change the one-electron integrals.

    Every one-electron entry point (overlap type, rinv, nuclear attraction) whose operator has no position relative to the origin of space ([movable1],
    WholeMove3.v).  Every component, Cartesian and spherical. *)
From Coq Require Import Reals Lra QArith Qreals String.
From Coquelicot Require Import Coquelicot.
From Verif Require Import Base BasModel BasSpec EnvModel IdxModel IdxSpec CtrModel
  OptModel OptSpec OptPair ScreenSpec ScreenProof ScreenFinal OutModel OutSpec TabModel
  OpSpec RecModel RecSpec GaussInt Gauss2Int IntgModel IntgSpec IntgTab IntgStmt IntgAll IntgProps IntgReal QuadSpec OperSpec OperModel Oper2e
  WholeModel WholeSpec WholeBatch Whole1e Whole2Model Whole2Batch Whole2Spec Whole4c WholeOptModel WholeOptSpec WholeSame PropsWhole PropsWhole2 PropsWhole3 PropsWhole4 PropsWhole5 WholePerm PropsWhole7 WholeFlip PropsWhole8 WholeMom PropsWhole9 WholeMove PropsWhole10 WholeMove2 PropsWhole11 WholeMove3.
Local Open Scope R_scope.

(** Cartesian functions. *)
Theorem C73_1e_cart nbas (V : view) (ev ev' : Z -> R) (v : Z -> R) (lm : Z -> Z -> R) at_ natm rys t ng i j
    dims (a : work) (out : arr R) n1 n2 dims' (a' : work) (out' : arr R) n1' n2' :
  let nc := Z.of_nat (length (g_rows (t_f t))) in let fam := en_fam (t_e t) in
  (* shells, common origin and charges are moved by v *)
  moved nbas V ev ev' v -> (forall ax, (0 <= ax < 3)%Z -> gauge_origin ev' ax = gauge_origin ev ax + v ax) ->
  (fam = F1rinv -> moved_point ev ev' v) -> (fam = F1nuc -> moved_atoms at_ natm ev ev' v) ->
  good_shells nbas V ev lm -> good_shell nbas V i -> good_shell nbas V j ->
  In t catalogue -> ent_ng t = Some ng -> fam = F1e \/ fam = F1rinv \/ fam = F1nuc -> movable1 t = true ->
  (fam <> F1e -> ~ In (en_name (t_e t)) except_names /\ finds_roots rys (nrys_roots (init_int1e ng (v_l V i) (v_l V j) (v_nc V i) (v_nc V j)))) -> (fam = F1nuc -> (1 <= natm)%Z) ->
  ready1 V nc ng CINTlen_cart i j dims a out n1 n2 -> ready1 V nc ng CINTlen_cart i j dims' a' out' n1' n2' ->
  exists o1 o2 h1 h2, int1e_drv V ev at_ natm rys t ng i j CartK dims (w_idx a) (w_g a) (w_m a) out = Some (o1, h1) /\
    int1e_drv V ev' at_ natm rys t ng i j CartK dims' (w_idx a') (w_g a') (w_m a') out' = Some (o2, h2) /\
    forall n I J, (0 <= n < nc)%Z -> (0 <= I < CINTlen_cart (v_l V i) * v_nc V i)%Z -> (0 <= J < CINTlen_cart (v_l V j) * v_nc V j)%Z ->
      exists x, rd o1 (OutSpec.place n1 n2 1 1 n I J 0 0) = Some x /\ rd o2 (OutSpec.place n1' n2' 1 1 n I J 0 0) = Some x.
Proof.
  intros nc fam HM HO HP HN HG Gi Gj Ht En Hf Hz Hr Hn1 (W1 & W2 & W3 & W4 & W5 & W6 & W7 & W8 & D1 & D2 & D3 & D4 & D5) (W1' & W2' & W3' & W4' & W5' & W6' & W7' & W8' & D1' & D2' & D3' & D4' & D5').
  pose proof (good_pos _ _ _ _ _ HG Gi) as Pi. pose proof (good_pos _ _ _ _ _ HG Gj) as Pj.
  destruct Gi as (Hi & Hli & Hpi & Hci). destruct Gj as (Hj & Hlj & Hpj & Hcj).
  destruct (C62_1e_cart nbas V ev lm at_ natm rys t ng i j dims (w_idx a) (w_g a) (w_m a) out n1 n2 HG Hi Hj Hli Hlj Hpi Hpj Hci Hcj Ht En Hf Hr Hn1
    W1 W2 W3 W4 W5 W6 W7 W8 D1 D2 D3 D4 D5) as (o1 & h1 & Y1 & A1 & A2 & A3 & _).
  destruct (C62_1e_cart nbas V ev' lm at_ natm rys t ng i j dims' (w_idx a') (w_g a') (w_m a') out' n1' n2' (good_moved _ _ _ _ _ _ HM HG) Hi Hj Hli Hlj Hpi Hpj Hci Hcj Ht En Hf Hr Hn1
    W1' W2' W3' W4' W5' W6' W7' W8' D1' D2' D3' D4' D5') as (o2 & h2 & Y2 & B1 & B2 & B3 & _).
  exists o1, o2, h1, h2. split; [exact A1|]. split; [exact B1|]. intros n I J Hn HI HJ.
  assert (Z1 : (0 <= 0 < 1)%Z) by (split; [apply Z.le_refl|reflexivity]).
  destruct A2 as (_ & A2 & _). destruct B2 as (_ & B2 & _). eexists. split; [apply A2; assumption|]. rewrite B2; try assumption. f_equal. clear A1 A2 B1 B2. symmetry.
  pose proof (Y_moved1 nbas V ev ev' v lm at_ natm t i j HM HO HP HN Ht Hf Hz Hi Hj Pi Pj _ _ Y1 Y2 Hli Hlj A3 B3) as E. clear - E Hli Hlj Hn HI HJ.
  pose proof (Z.lt_le_trans _ _ _ Z.lt_0_1 (len_cart_pos _ Hli)). pose proof (Z.lt_le_trans _ _ _ Z.lt_0_1 (len_cart_pos _ Hlj)). cbv beta.
  apply E; first [exact Hn|apply Z.mod_pos_bound; assumption|apply div_range; assumption].
Qed.
Print Assumptions C73_1e_cart.

(** Spherical functions. *)
Theorem C73_1e_sph nbas (V : view) (ev ev' : Z -> R) (v : Z -> R) (lm : Z -> Z -> R) at_ natm rys t ng i j
    dims (a : work) (out : arr R) n1 n2 dims' (a' : work) (out' : arr R) n1' n2' :
  let nc := Z.of_nat (length (g_rows (t_f t))) in let fam := en_fam (t_e t) in
  (* shells, common origin and charges are moved by v *)
  moved nbas V ev ev' v -> (forall ax, (0 <= ax < 3)%Z -> gauge_origin ev' ax = gauge_origin ev ax + v ax) ->
  (fam = F1rinv -> moved_point ev ev' v) -> (fam = F1nuc -> moved_atoms at_ natm ev ev' v) ->
  good_shells nbas V ev lm -> good_shell nbas V i -> good_shell nbas V j ->
  In t catalogue -> ent_ng t = Some ng -> fam = F1e \/ fam = F1rinv \/ fam = F1nuc -> movable1 t = true ->
  (fam <> F1e -> ~ In (en_name (t_e t)) except_names /\ finds_roots rys (nrys_roots (init_int1e ng (v_l V i) (v_l V j) (v_nc V i) (v_nc V j)))) -> (fam = F1nuc -> (1 <= natm)%Z) ->
  ready1 V nc ng sph_len i j dims a out n1 n2 -> ready1 V nc ng sph_len i j dims' a' out' n1' n2' ->
  exists o1 o2 h1 h2, int1e_drv V ev at_ natm rys t ng i j SphK dims (w_idx a) (w_g a) (w_m a) out = Some (o1, h1) /\
    int1e_drv V ev' at_ natm rys t ng i j SphK dims' (w_idx a') (w_g a') (w_m a') out' = Some (o2, h2) /\
    forall n I J, (0 <= n < nc)%Z -> (0 <= I < sph_len (v_l V i) * v_nc V i)%Z -> (0 <= J < sph_len (v_l V j) * v_nc V j)%Z ->
      exists x, rd o1 (OutSpec.place n1 n2 1 1 n I J 0 0) = Some x /\ rd o2 (OutSpec.place n1' n2' 1 1 n I J 0 0) = Some x.
Proof.
  intros nc fam HM HO HP HN HG Gi Gj Ht En Hf Hz Hr Hn1 (W1 & W2 & W3 & W4 & W5 & W6 & W7 & W8 & D1 & D2 & D3 & D4 & D5) (W1' & W2' & W3' & W4' & W5' & W6' & W7' & W8' & D1' & D2' & D3' & D4' & D5').
  pose proof (good_pos _ _ _ _ _ HG Gi) as Pi. pose proof (good_pos _ _ _ _ _ HG Gj) as Pj.
  destruct Gi as (Hi & Hli & Hpi & Hci). destruct Gj as (Hj & Hlj & Hpj & Hcj).
  destruct (C62_1e_sph nbas V ev lm at_ natm rys t ng i j dims (w_idx a) (w_g a) (w_m a) out n1 n2 HG Hi Hj Hli Hlj Hpi Hpj Hci Hcj Ht En Hf Hr Hn1
    W1 W2 W3 W4 W5 W6 W7 W8 D1 D2 D3 D4 D5) as (o1 & h1 & Y1 & A1 & A2 & A3 & _).
  destruct (C62_1e_sph nbas V ev' lm at_ natm rys t ng i j dims' (w_idx a') (w_g a') (w_m a') out' n1' n2' (good_moved _ _ _ _ _ _ HM HG) Hi Hj Hli Hlj Hpi Hpj Hci Hcj Ht En Hf Hr Hn1
    W1' W2' W3' W4' W5' W6' W7' W8' D1' D2' D3' D4' D5') as (o2 & h2 & Y2 & B1 & B2 & B3 & _).
  exists o1, o2, h1, h2. split; [exact A1|]. split; [exact B1|]. intros n I J Hn HI HJ.
  assert (Z1 : (0 <= 0 < 1)%Z) by (split; [apply Z.le_refl|reflexivity]).
  destruct A2 as (_ & A2 & _). destruct B2 as (_ & B2 & _). eexists. split; [apply A2; assumption|]. rewrite B2; try assumption. f_equal. clear A1 A2 B1 B2. symmetry.
  pose proof (Y_moved1 nbas V ev ev' v lm at_ natm t i j HM HO HP HN Ht Hf Hz Hi Hj Pi Pj _ _ Y1 Y2 Hli Hlj A3 B3) as E. clear - E Hli Hlj Hn HI HJ.
  assert (W : forall l, (0 <= l <= 15)%Z -> (0 < sph_len l)%Z) by (clear; unfold sph_len; lia). cbv beta.
  apply TT_ext. intros a Ha. apply TT_ext. intros b Hb. apply E; first [assumption|apply div_range; [apply W; assumption|assumption]].
Qed.
Print Assumptions C73_1e_sph.

(** 97 of the 110 one-electron entry points are movable. *)
Example C73_entries : let one := filter (fun t => match en_fam (t_e t) with F1e | F1rinv | F1nuc => true | _ => false end) catalogue in
  length one = 110%nat /\ length (filter movable1 one) = 97%nat.
Proof. split; vm_compute; reflexivity. Qed.

(** The shells of C72_example, a nucleus of charge 8 at the s shell and the common origin moved by (1,-2,5): the nuclear attraction (p|s) before and after. *)
Definition ex12_at (s _ : Z) : Z := if (s =? 0)%Z then 8%Z else if (s =? 1)%Z then 40%Z else if (s =? 2)%Z then 1%Z else 50%Z.
Definition ng12 := mkng 0 0 0 0 0 1 0 1.
Example C73_example :
  let w c := mkwork (uninit 9) (of_fun 60 (fun _ => c)) (mkmem (fun _ => of_fun 9 (fun _ => c)) (fun _ => true)) in
  let go ev c := int1e_drv ex7_view ev ex12_at 1 (fun _ => one_root) e_int1e_nuc ng12 1 0 CartK None (w_idx (w c)) (w_g (w c)) (w_m (w c)) (uninit 3) in
  exists o1 o2, go ex7_env 5 = Some o1 /\ go ex11_env 7 = Some o2 /\
    forall x, (0 <= x < 3)%Z -> exists v, rd (fst o1) x = Some v /\ rd (fst o2) x = Some v.
Proof.
  intros w go. assert (G0 : good_shell 2 ex7_view 0) by (repeat split; by_z). assert (G1 : good_shell 2 ex7_view 1) by (repeat split; by_z).
  assert (RR : forall c, ready1 ex7_view 1 ng12 CINTlen_cart 1 0 None (w c) (uninit 3) 3 1).
  { intros c; repeat split; try (apply filled_of); try (intros s; apply filled_of); try (clear; vm_compute; intuition congruence); try discriminate;
      intros n x y z u Hn Hx Hy Hz Hu; cbn in Hn, Hx, Hy, Hz, Hu |- *; unfold OutSpec.place; lia. }
  assert (HA : moved_atoms ex12_at 1 ex7_env ex11_env ex10_v).
  { intros ia Hia. split; [|split; reflexivity]. intros ax Hx. assert (Ex : ax = 0%Z \/ ax = 1%Z \/ ax = 2%Z) by lia. destruct Ex as [-> | [-> | ->]]; reflexivity. }
  assert (NX : ~ In (en_name (t_e e_int1e_nuc)) except_names) by (intros H; cbn in H; repeat (destruct H as [H|H]; [discriminate H|]); exact H).
  assert (HR : finds_roots (fun _ => one_root) 1) by (intros y Hy; destruct (one_root_ok y) as [X1 X2]; split; [exact X2|intros k _; apply X1]).
  assert (HT : In e_int1e_nuc catalogue) by (apply (nth_error_In catalogue 1); reflexivity).
  destruct (C73_1e_cart 2 ex7_view ex7_env ex11_env ex10_v (fun _ _ => ln 1) ex12_at 1 (fun _ => one_root) e_int1e_nuc ng12 1 0 None (w 5) (uninit 3) 3 1 None (w 7) (uninit 3) 3 1
    ex11_moved ex11_origin ltac:(discriminate) (fun _ => HA) ex7_good G1 G0 HT eq_refl ltac:(right; right; reflexivity) eq_refl (fun _ => conj NX HR) ltac:(by_z) (RR 5) (RR 7)) as (o1 & o2 & h1 & h2 & X1 & X2 & X3).
  exists (o1, h1), (o2, h2). split; [exact X1|]. split; [exact X2|]. intros x Hx. destruct (X3 0%Z x 0%Z) as (v & Y1 & Y2); [by_z|exact Hx|by_z|]. exists v.
  unfold OutSpec.place in Y1, Y2. cbn [fst]. replace ((((0 * 1 + 0) * 1 + 0) * 1 + 0) * 3 + x)%Z with x in Y1, Y2 by ring. split; [exact Y1|exact Y2].
Qed.
