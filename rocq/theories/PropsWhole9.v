(** PropsWhole9.v — C71: multipole moments and the kinetic energy are symmetric in the two shells.

    int1e_kin, int1e_z, int1e_zz, int1e_r, int1e_r2, int1e_r4, int1e_rr, int1e_rrr, int1e_rrrr, Cartesian and spherical, every component.  The
    operators are applied to the second shell: the call with (i,j) raises or differentiates j, the call with (j,i) raises or differentiates i. *)
From Coq Require Import Reals Lra QArith Qreals String.
From Coquelicot Require Import Coquelicot.
From Verif Require Import Base BasModel BasSpec EnvModel IdxModel IdxSpec CtrModel
  OptModel OptSpec OptPair ScreenSpec ScreenProof ScreenFinal OutModel OutSpec TabModel
  OpSpec RecModel RecSpec GaussInt Gauss2Int IntgModel IntgSpec IntgTab IntgStmt IntgAll IntgReal QuadSpec OperSpec OperModel Oper2e
  WholeModel WholeSpec WholeBatch Whole1e WholeSame Whole4c PropsWhole PropsWhole2 PropsWhole5 WholePerm PropsWhole7 WholeFlip PropsWhole8 WholeMom.
Local Open Scope R_scope.

(** A call of a one-electron entry point with nc components: the work arrays and the caller's array are large enough (C62). *)
Definition ready1 (V : view) (nc : Z) (ng : ngT) (width : Z -> Z) (i j : Z) (dims : option (arr Z)) (w : work) (out : arr R) (n1 n2 : Z) : Prop :=
  let ci := v_nc V i in let cj := v_nc V j in let e := init_int1e ng (v_l V i) (v_l V j) ci cj in
  let m1 := (width (v_l V i) * ci)%Z in let m2 := (width (v_l V j) * cj)%Z in let m := w_m w in
  (3 * nf e <= asize (w_idx w))%Z /\ filled (w_g w) /\ ((2 ^ GSHIFT ng + 1) * (3 * g_size e) <= asize (w_g w))%Z /\ (forall s, filled (buf m s)) /\
  (ci <> 1 -> nf e * nc <= asize (buf m 0))%Z /\ (cj <> 1 -> nf e * nc * ci <= asize (buf m 1))%Z /\ (nc <> 1 -> nf e * nc * ci * cj <= asize (buf m 2))%Z /\ (nf e * (ci * cj) * nc <= asize (buf m 5))%Z /\
  (m1 <= n1)%Z /\ (m2 <= n2)%Z /\ dims_are dims 2 [n1; n2] [m1; m2] /\ (forall d, dims = Some d -> exists n, rd d 2 = Some n) /\ room (asize out) nc n1 n2 1 1 m1 m2 1 1.

Theorem C71_1e_cart nbas (V : view) (ev : Z -> R) (lm : Z -> Z -> R) at_ natm rys t ng i j
    dims (a : work) (out : arr R) n1 n2 dims' (a' : work) (out' : arr R) n1' n2' :
  let nc := Z.of_nat (length (g_rows (t_f t))) in
  In t [e_int1e_kin; e_int1e_z; e_int1e_zz; e_int1e_r; e_int1e_r2; e_int1e_r4; e_int1e_rr; e_int1e_rrr; e_int1e_rrrr] -> ent_ng t = Some ng ->
  good_shells nbas V ev lm -> good_shell nbas V i -> good_shell nbas V j ->
  ready1 V nc ng CINTlen_cart i j dims a out n1 n2 -> ready1 V nc ng CINTlen_cart j i dims' a' out' n1' n2' ->
  exists o1 o2 h1 h2, int1e_drv V ev at_ natm rys t ng i j CartK dims (w_idx a) (w_g a) (w_m a) out = Some (o1, h1) /\
    int1e_drv V ev at_ natm rys t ng j i CartK dims' (w_idx a') (w_g a') (w_m a') out' = Some (o2, h2) /\
    forall n I J, (0 <= n < nc)%Z -> (0 <= I < CINTlen_cart (v_l V i) * v_nc V i)%Z -> (0 <= J < CINTlen_cart (v_l V j) * v_nc V j)%Z ->
      exists v, rd o1 (OutSpec.place n1 n2 1 1 n I J 0 0) = Some v /\ rd o2 (OutSpec.place n1' n2' 1 1 n J I 0 0) = Some v.
Proof.
  intros nc Ht En HG Gi Gj (W1 & W2 & W3 & W4 & W5 & W6 & W7 & W8 & D1 & D2 & D3 & D4 & D5) (W1' & W2' & W3' & W4' & W5' & W6' & W7' & W8' & D1' & D2' & D3' & D4' & D5').
  pose proof (good_pos _ _ _ _ _ HG Gi) as Pi. pose proof (good_pos _ _ _ _ _ HG Gj) as Pj.
  destruct Gi as (Hi & Hli & Hpi & Hci). destruct Gj as (Hj & Hlj & Hpj & Hcj). destruct (moment_in t Ht) as (T1 & T2 & _).
  assert (T4 : en_fam (t_e t) = F1nuc -> (1 <= natm)%Z) by (rewrite T2; discriminate).
  destruct (C62_1e_cart nbas V ev lm at_ natm rys t ng i j dims (w_idx a) (w_g a) (w_m a) out n1 n2 HG Hi Hj Hli Hlj Hpi Hpj Hci Hcj T1 En (or_introl T2) (fun X => False_ind _ (X T2)) T4
    W1 W2 W3 W4 W5 W6 W7 W8 D1 D2 D3 D4 D5) as (o1 & h1 & Y1 & A1 & A2 & A3 & _).
  destruct (C62_1e_cart nbas V ev lm at_ natm rys t ng j i dims' (w_idx a') (w_g a') (w_m a') out' n1' n2' HG Hj Hi Hlj Hli Hpj Hpi Hcj Hci T1 En (or_introl T2) (fun X => False_ind _ (X T2)) T4
    W1' W2' W3' W4' W5' W6' W7' W8' D1' D2' D3' D4' D5') as (o2 & h2 & Y2 & B1 & B2 & B3 & _).
  exists o1, o2, h1, h2. split; [exact A1|]. split; [exact B1|]. intros n I J Hn HI HJ.
  assert (Z1 : (0 <= 0 < 1)%Z) by (split; [apply Z.le_refl|reflexivity]).
  destruct A2 as (_ & A2 & _). destruct B2 as (_ & B2 & _). eexists. split; [apply A2; assumption|]. rewrite B2; try assumption. f_equal. clear A1 A2 B1 B2. symmetry.
  rewrite (Rmult_comm (CINTcommon_fac_sp (v_l V j))) in B3.
  assert (HK : forall ip jp, pair_est V ev lm j i (v_l V j + IINC ng + (v_l V i + JINC ng)) jp ip < user_cutoff (ev 0%Z) <->
                             pair_est V ev lm i j (v_l V i + IINC ng + (v_l V j + JINC ng)) ip jp < user_cutoff (ev 0%Z)).
  { intros ip jp. rewrite (pair_est_sym V ev lm j i). replace (v_l V j + IINC ng + (v_l V i + JINC ng))%Z with (v_l V i + IINC ng + (v_l V j + JINC ng))%Z by ring. reflexivity. }
  pose proof (Y_permM V ev at_ natm t i j _ _ _ Y1 Y2 Ht (proj1 Hli) (proj1 Hlj) Pi Pj HK A3 B3) as E. clear - E Hli Hlj Hn.
  pose proof (Z.lt_le_trans _ _ _ Z.lt_0_1 (len_cart_pos _ Hli)). pose proof (Z.lt_le_trans _ _ _ Z.lt_0_1 (len_cart_pos _ Hlj)). cbv beta.
  apply E; [exact Hn|apply Z.mod_pos_bound; assumption|apply Z.mod_pos_bound; assumption].
Qed.
Print Assumptions C71_1e_cart.

Theorem C71_1e_sph nbas (V : view) (ev : Z -> R) (lm : Z -> Z -> R) at_ natm rys t ng i j
    dims (a : work) (out : arr R) n1 n2 dims' (a' : work) (out' : arr R) n1' n2' :
  let nc := Z.of_nat (length (g_rows (t_f t))) in
  In t [e_int1e_kin; e_int1e_z; e_int1e_zz; e_int1e_r; e_int1e_r2; e_int1e_r4; e_int1e_rr; e_int1e_rrr; e_int1e_rrrr] -> ent_ng t = Some ng ->
  good_shells nbas V ev lm -> good_shell nbas V i -> good_shell nbas V j ->
  ready1 V nc ng sph_len i j dims a out n1 n2 -> ready1 V nc ng sph_len j i dims' a' out' n1' n2' ->
  exists o1 o2 h1 h2, int1e_drv V ev at_ natm rys t ng i j SphK dims (w_idx a) (w_g a) (w_m a) out = Some (o1, h1) /\
    int1e_drv V ev at_ natm rys t ng j i SphK dims' (w_idx a') (w_g a') (w_m a') out' = Some (o2, h2) /\
    forall n I J, (0 <= n < nc)%Z -> (0 <= I < sph_len (v_l V i) * v_nc V i)%Z -> (0 <= J < sph_len (v_l V j) * v_nc V j)%Z ->
      exists v, rd o1 (OutSpec.place n1 n2 1 1 n I J 0 0) = Some v /\ rd o2 (OutSpec.place n1' n2' 1 1 n J I 0 0) = Some v.
Proof.
  intros nc Ht En HG Gi Gj (W1 & W2 & W3 & W4 & W5 & W6 & W7 & W8 & D1 & D2 & D3 & D4 & D5) (W1' & W2' & W3' & W4' & W5' & W6' & W7' & W8' & D1' & D2' & D3' & D4' & D5').
  pose proof (good_pos _ _ _ _ _ HG Gi) as Pi. pose proof (good_pos _ _ _ _ _ HG Gj) as Pj.
  destruct Gi as (Hi & Hli & Hpi & Hci). destruct Gj as (Hj & Hlj & Hpj & Hcj). destruct (moment_in t Ht) as (T1 & T2 & _).
  assert (T4 : en_fam (t_e t) = F1nuc -> (1 <= natm)%Z) by (rewrite T2; discriminate).
  destruct (C62_1e_sph nbas V ev lm at_ natm rys t ng i j dims (w_idx a) (w_g a) (w_m a) out n1 n2 HG Hi Hj Hli Hlj Hpi Hpj Hci Hcj T1 En (or_introl T2) (fun X => False_ind _ (X T2)) T4
    W1 W2 W3 W4 W5 W6 W7 W8 D1 D2 D3 D4 D5) as (o1 & h1 & Y1 & A1 & A2 & A3 & _).
  destruct (C62_1e_sph nbas V ev lm at_ natm rys t ng j i dims' (w_idx a') (w_g a') (w_m a') out' n1' n2' HG Hj Hi Hlj Hli Hpj Hpi Hcj Hci T1 En (or_introl T2) (fun X => False_ind _ (X T2)) T4
    W1' W2' W3' W4' W5' W6' W7' W8' D1' D2' D3' D4' D5') as (o2 & h2 & Y2 & B1 & B2 & B3 & _).
  exists o1, o2, h1, h2. split; [exact A1|]. split; [exact B1|]. intros n I J Hn HI HJ.
  assert (Z1 : (0 <= 0 < 1)%Z) by (split; [apply Z.le_refl|reflexivity]).
  destruct A2 as (_ & A2 & _). destruct B2 as (_ & B2 & _). eexists. split; [apply A2; assumption|]. rewrite B2; try assumption. f_equal. clear A1 A2 B1 B2. symmetry.
  rewrite (Rmult_comm (CINTcommon_fac_sp (v_l V j))) in B3.
  assert (HK : forall ip jp, pair_est V ev lm j i (v_l V j + IINC ng + (v_l V i + JINC ng)) jp ip < user_cutoff (ev 0%Z) <->
                             pair_est V ev lm i j (v_l V i + IINC ng + (v_l V j + JINC ng)) ip jp < user_cutoff (ev 0%Z)).
  { intros ip jp. rewrite (pair_est_sym V ev lm j i). replace (v_l V j + IINC ng + (v_l V i + JINC ng))%Z with (v_l V i + IINC ng + (v_l V j + JINC ng))%Z by ring. reflexivity. }
  pose proof (Y_permM V ev at_ natm t i j _ _ _ Y1 Y2 Ht (proj1 Hli) (proj1 Hlj) Pi Pj HK A3 B3) as E. clear - E Hli Hlj Hn.
  pose proof (Z.lt_le_trans _ _ _ Z.lt_0_1 (len_cart_pos _ Hli)). pose proof (Z.lt_le_trans _ _ _ Z.lt_0_1 (len_cart_pos _ Hlj)). cbv beta.
  rewrite T_swap. apply TT_ext. intros b Hb. apply TT_ext. intros a Ha. apply E; assumption.
Qed.
Print Assumptions C71_1e_sph.

(** An s shell of exponent 1 at the origin and a p shell of exponent 2 at (0,0,3): the kinetic energy and the three components of the dipole moment. *)
Example C71_example :
  let w c := mkwork (uninit 9) (of_fun 200 (fun _ => c)) (mkmem (fun _ => of_fun 9 (fun _ => c)) (fun _ => true)) in
  let go t ng i j c := int1e_drv ex7_view ex7_env (fun _ _ => 0%Z) 1 (fun _ => one_root) t ng i j CartK None (w_idx (w c)) (w_g (w c)) (w_m (w c)) (uninit 9) in
  (exists o1 o2, go e_int1e_kin (mkng 0 2 0 0 2 1 1 1) 1%Z 0%Z 5 = Some o1 /\ go e_int1e_kin (mkng 0 2 0 0 2 1 1 1) 0%Z 1%Z 7 = Some o2 /\
    forall x, (0 <= x < 3)%Z -> exists v, rd (fst o1) x = Some v /\ rd (fst o2) x = Some v) /\
  (exists o1 o2, go e_int1e_r (mkng 0 1 0 0 1 1 1 3) 1%Z 0%Z 5 = Some o1 /\ go e_int1e_r (mkng 0 1 0 0 1 1 1 3) 0%Z 1%Z 7 = Some o2 /\
    forall n x, (0 <= n < 3)%Z -> (0 <= x < 3)%Z -> exists v, rd (fst o1) (n * 3 + x)%Z = Some v /\ rd (fst o2) (n * 3 + x)%Z = Some v).
Proof.
  intros w go. assert (G0 : good_shell 2 ex7_view 0) by (repeat split; by_z). assert (G1 : good_shell 2 ex7_view 1) by (repeat split; by_z).
  assert (RR : forall c nc k, (nc = 1 /\ k = 2 \/ nc = 3 /\ k = 1)%Z -> ready1 ex7_view nc (mkng 0 k 0 0 k 1 1 nc) CINTlen_cart 1 0 None (w c) (uninit 9) 3 1 /\ ready1 ex7_view nc (mkng 0 k 0 0 k 1 1 nc) CINTlen_cart 0 1 None (w c) (uninit 9) 1 3).
  { intros c nc k [[-> ->]|[-> ->]]; (split; repeat split; try (apply filled_of); try (intros s; apply filled_of); try (clear; vm_compute; intuition congruence); try discriminate;
      intros n x y z u Hn Hx Hy Hz Hu; cbn in Hn, Hx, Hy, Hz, Hu |- *; unfold OutSpec.place; lia). }
  split.
  - destruct (C71_1e_cart 2 ex7_view ex7_env (fun _ _ => ln 1) (fun _ _ => 0%Z) 1 (fun _ => one_root) e_int1e_kin (mkng 0 2 0 0 2 1 1 1) 1 0 None (w 5) (uninit 9) 3 1 None (w 7) (uninit 9) 1 3
      ltac:(left; reflexivity) eq_refl ex7_good G1 G0 (proj1 (RR 5 1%Z 2%Z ltac:(left; split; reflexivity))) (proj2 (RR 7 1%Z 2%Z ltac:(left; split; reflexivity)))) as (o1 & o2 & h1 & h2 & X1 & X2 & X3).
    exists (o1, h1), (o2, h2). split; [exact X1|]. split; [exact X2|]. intros x Hx. destruct (X3 0%Z x 0%Z) as (v & Y1 & Y2); [by_z|exact Hx|by_z|]. exists v.
    unfold OutSpec.place in Y1, Y2. cbn [fst]. replace ((((0 * 1 + 0) * 1 + 0) * 1 + 0) * 3 + x)%Z with x in Y1 by ring. replace ((((0 * 1 + 0) * 1 + 0) * 3 + x) * 1 + 0)%Z with x in Y2 by ring.
    split; [exact Y1|exact Y2].
  - destruct (C71_1e_cart 2 ex7_view ex7_env (fun _ _ => ln 1) (fun _ _ => 0%Z) 1 (fun _ => one_root) e_int1e_r (mkng 0 1 0 0 1 1 1 3) 1 0 None (w 5) (uninit 9) 3 1 None (w 7) (uninit 9) 1 3
      ltac:(do 3 right; left; reflexivity) eq_refl ex7_good G1 G0 (proj1 (RR 5 3%Z 1%Z ltac:(right; split; reflexivity))) (proj2 (RR 7 3%Z 1%Z ltac:(right; split; reflexivity)))) as (o1 & o2 & h1 & h2 & X1 & X2 & X3).
    exists (o1, h1), (o2, h2). split; [exact X1|]. split; [exact X2|]. intros n x Hn Hx. destruct (X3 n x 0%Z) as (v & Y1 & Y2); [exact Hn|exact Hx|by_z|]. exists v.
    unfold OutSpec.place in Y1, Y2. cbn [fst]. replace ((((n * 1 + 0) * 1 + 0) * 1 + 0) * 3 + x)%Z with (n * 3 + x)%Z in Y1 by ring. replace ((((n * 1 + 0) * 1 + 0) * 3 + x) * 1 + 0)%Z with (n * 3 + x)%Z in Y2 by ring.
    split; [exact Y1|exact Y2].
Qed.
