(** WholeMove2.v — moving all shells and the common origin: entry points with operators. *)
From Coq Require Import Reals Lra Psatz QArith Qreals String.
From Coquelicot Require Import Coquelicot.
From Verif Require Import Base BasModel BasSpec EnvModel IdxModel IdxSpec CtrModel
  OptModel OptSpec OptPair ScreenSpec ScreenProof ScreenFinal OutModel OutSpec TabModel
  OpSpec RecModel RecSpec RecMoments GaussInt Rec1Real Gauss2Int IntgModel IntgSpec IntgTab IntgStmt IntgAll IntgReal QuadSpec OperSpec OperModel Oper2e
  WholeModel WholeSpec WholeBatch Whole1e Whole2Model Whole2Batch Whole2Spec Whole4c Whole3c Whole2c WholeOptModel WholeOptSpec WholeSame PropsWhole5 WholePerm WholeFlip WholeMove.
Local Open Scope R_scope.

Lemma line_move f l d : RIntLine f l -> RIntLine (fun x => f (x + d)) l.
Proof.
  intros H P HP. destruct (H P HP) as [Q1 Q2 [M1 H1] [M2 H2] HQ].
  apply (Filter_prod _ _ _ (fun x => Q1 (x + d)) (fun x => Q2 (x + d))).
  - exists (M1 - d). intros x Hx. apply H1. lra.
  - exists (M2 - d). intros x Hx. apply H2. lra.
  - intros x y Hx Hy. destruct (HQ _ _ Hx Hy) as (v & Hv & HPv). cbn [fst snd] in *. exists v. split; [|exact HPv].
    apply (is_RInt_ext (fun z => scal 1 (f (1 * z + d)))); [intros z _; change (1 * f (1 * z + d) = f (z + d)); rewrite !Rmult_1_l; reflexivity|].
    apply (is_RInt_comp_lin f 1 d x y v). rewrite !Rmult_1_l. exact Hv.
Qed.
Lemma plane_move2 f l d : RIntPlane f l -> RIntPlane (fun x y => f (x + d) (y + d)) l.
Proof. intros (h & H1 & H2). exists (fun x => h (x + d)). split; [intros x; apply (line_move (f (x + d))), H1|apply line_move, H2]. Qed.
Lemma derive_move (f g : R -> R) d : (forall x, f (x + d) = g x) -> forall x, Derive f (x + d) = Derive g x.
Proof. intros H x. unfold Derive. f_equal. apply Lim_ext. intros h. rewrite <- !H. replace (x + h + d) with (x + d + h) by ring. reflexivity. Qed.
Lemma phi_at a A n d x : phi a (A + d) n (x + d) = phi a A n x.
Proof. unfold phi. replace (x + d - (A + d)) with (x - A) by ring. reflexivity. Qed.

(** no position relative to the origin of space *)
Definition no_zero (m : mono) : bool := forallb (forallb (fun p => match p with X Zero => false | _ => true end)) (m_w m).
Definition movable (t : ent) : bool :=
  forallb (fun x => forallb (fun y => no_zero (snd y)) (snd x)) (components (t_d t) (sis (en_c2s1 (t_e t))) (sis (en_c2s2 (t_e t)))).
Lemma word_nz m ax c : no_zero m = true -> forallb (fun p => match p with X Zero => false | _ => true end) (word_at m ax c) = true.
Proof.
  intros H. unfold no_zero in H. rewrite forallb_forall in H. unfold word_at. destruct (nth_in_or_default (4 * Z.to_nat ax + cnum c) (m_w m) []) as [X | ->]; [apply H, X|reflexivity].
Qed.
Section Words.
  Variables (A A' : centre -> Z -> R) (O O' d : Z -> R) (ax : Z).
  Hypothesis (HA : forall c, A' c ax = A c ax + d ax) (HO : O' ax = O ax + d ax).
  Lemma word_move w f' f : forallb (fun p => match p with X Zero => false | _ => true end) w = true -> (forall x, f' (x + d ax) = f x) ->
    forall x, word_fun A' O' ax w f' (x + d ax) = word_fun A O ax w f x.
  Proof.
    intros Hw Hf. induction w as [|p w IH]; [exact Hf|]. cbn [forallb] in Hw. apply andb_prop in Hw. destruct Hw as [Hp Hw]. specialize (IH Hw). intros x.
    destruct p as [|[c| |]]; try discriminate Hp.
    - change (Derive (word_fun A' O' ax w f') (x + d ax) = Derive (word_fun A O ax w f) x). apply derive_move, IH.
    - change ((x + d ax - A' c ax) * word_fun A' O' ax w f' (x + d ax) = (x - A c ax) * word_fun A O ax w f x). rewrite IH, HA. f_equal. ring.
    - change ((x + d ax - O' ax) * word_fun A' O' ax w f' (x + d ax) = (x - O ax) * word_fun A O ax w f x). rewrite IH, HO. f_equal. ring.
  Qed.
  Lemma fun_move a pw m c x : no_zero m = true -> fun_at a A' O' pw m ax c (x + d ax) = fun_at a A O pw m ax c x.
  Proof. intros H. unfold fun_at. apply word_move; [apply word_nz, H|]. intros y. unfold base. rewrite HA. apply phi_at. Qed.
End Words.
Lemma term2_move2 a (A A' : centre -> Z -> R) (O O' d : Z -> R) pw op m v : no_zero m = true ->
  (forall c ax, (0 <= ax < 3)%Z -> A' c ax = A c ax + d ax) -> (forall ax, (0 <= ax < 3)%Z -> O' ax = O ax + d ax) ->
  term2 a A' O' pw op m v -> term2 a A O pw op m v.
Proof.
  intros Hm HA HO (W & (I & X1 & X2) & ->). exists W. split.
  - exists I. split; [|exact X2]. intros ax s Hax. eapply plane_ext; [|exact (plane_move2 _ _ (d ax) (X1 ax s Hax))]. intros x y. cbv beta.
    rewrite !(fun_move A A' O O' d ax) by (first [exact Hm|intros c; apply HA, Hax|apply HO, Hax]). replace (x + d ax - (y + d ax)) with (x - y) by ring. reflexivity.
  - f_equal. unfold rpow, kpow. cbn [fst snd]. rewrite !HA by lia.
    assert (E : forall u w z, u + z - (w + z) = u - w) by (intros; ring). rewrite !E. reflexivity.
Qed.
Lemma value_all (P P' : mono -> R -> Prop) q D : (forall m v, In m (map snd q) -> P m v -> P' m v) -> value P q D -> value P' q D.
Proof.
  intros H X. induction X as [|c m q v w Hv Hw IH]; [constructor|]. constructor; [apply H; [left; reflexivity|exact Hv]|]. apply IH. intros m' v' Hm. apply H. right. exact Hm.
Qed.

Section Moved2.
  Variables (nbas : Z) (V : view) (ev ev' : Z -> R) (d : Z -> R) (lm : Z -> Z -> R) (t : ent) (ng : ngT) (i j k l : Z).
  Hypothesis (HM : moved nbas V ev ev' d) (HO : forall ax, (0 <= ax < 3)%Z -> gauge_origin ev' ax = gauge_origin ev ax + d ax).
  Hypothesis (Ht : In t catalogue) (Hf : two_fam (en_fam (t_e t))) (Hz : movable t = true).
  Hypothesis (Hi : (0 <= i < nbas)%Z) (Hj : (0 <= j < nbas)%Z) (Hk : (0 <= k < nbas)%Z) (Hl : (0 <= l < nbas)%Z).
  Hypothesis (Pi : exps_pos V ev i) (Pj : exps_pos V ev j) (Pk : exps_pos V ev k) (Pl : exps_pos V ev l).
  Lemma eri4_moved2 ip jp kp lp ti tj tk tl q D : (0 <= ip < v_np V i)%Z -> (0 <= jp < v_np V j)%Z -> (0 <= kp < v_np V k)%Z -> (0 <= lp < v_np V l)%Z ->
    forallb (fun y => no_zero (snd y)) q = true -> eri4 V ev' i j k l ip jp kp lp ti tj tk tl q D -> eri4 V ev i j k l ip jp kp lp ti tj tk tl q D.
  Proof.
    intros H1 H2 H3 H4 Hq. unfold eri4. rewrite !(ex_moved nbas V ev ev' d HM) by assumption. destruct HM as (_ & -> & HC). apply value_all. intros m v Hm.
    apply (term2_move2 _ _ _ _ _ d).
    - apply in_map_iff in Hm. destruct Hm as (x & <- & Hx). rewrite forallb_forall in Hq. apply (Hq x Hx).
    - intros [| | |] ax Hx; cbn [centres4]; [apply (HC i Hi)|apply (HC j Hj)|apply (HC k Hk)|apply (HC l Hl)]; exact Hx.
    - exact HO.
  Qed.
  Lemma Y_moved2 f o md c Y1 Y2 : factor (t_e t) = Some f ->
    (0 <= v_l V i <= 15)%Z -> (0 <= v_l V j <= 15)%Z -> (0 <= v_l V k <= 15)%Z -> (0 <= v_l V l <= 15)%Z ->
    ok4 V ev t f i j k l c (kept4 V ev lm ng o md i j k l) Y1 -> ok4 V ev' t f i j k l c (kept4 V ev' lm ng o md i j k l) Y2 ->
    forall n ic jc kc lc a b c' e, (0 <= n < Z.of_nat (length (g_rows (t_f t))))%Z ->
      (0 <= ic < v_nc V i)%Z -> (0 <= jc < v_nc V j)%Z -> (0 <= kc < v_nc V k)%Z -> (0 <= lc < v_nc V l)%Z ->
      (0 <= a < CINTlen_cart (v_l V i))%Z -> (0 <= b < CINTlen_cart (v_l V j))%Z -> (0 <= c' < CINTlen_cart (v_l V k))%Z -> (0 <= e < CINTlen_cart (v_l V l))%Z ->
      Y1 n ic jc kc lc a b c' e = Y2 n ic jc kc lc a b c' e.
  Proof.
    intros Ef Li Lj Lk Ll O1 O2 n ic jc kc lc a b c' e Hn Ci Cj Ck Cl Ha Hb Hc He.
    destruct (cart_nth _ _ (proj1 Li) Ha) as [ti E1]. destruct (cart_nth _ _ (proj1 Lj) Hb) as [tj E2]. destruct (cart_nth _ _ (proj1 Lk) Hc) as [tk E3]. destruct (cart_nth _ _ (proj1 Ll) He) as [tl E4].
    destruct (whole2 t Ht Hf) as (_ & EL & _).
    destruct (nth_error (comps t) (Z.to_nat n)) as [[[s1 s2] q]|] eqn:E5; [|apply nth_error_None in E5; lia].
    assert (Hq : forallb (fun y => no_zero (snd y)) q = true).
    { unfold movable in Hz. rewrite forallb_forall in Hz. exact (Hz _ (nth_error_In _ _ E5)). }
    destruct (O1 _ _ _ _ _ ic jc kc lc _ _ _ _ _ _ _ E1 E2 E3 E4 E5) as (S & X1 & X2). destruct (O2 _ _ _ _ _ ic jc kc lc _ _ _ _ _ _ _ E1 E2 E3 E4 E5) as (S' & X3 & X4).
    assert (ES : S = S').
    { refine (summed4_unique V ev _ i j k l ic jc kc lc ti tj tk tl _ S S' X1 _). destruct X3 as (D & K & Z1 & ->). exists D, K. split.
      - intros ip jp kp lp H1 H2 H3 H4. destruct (Z1 ip jp kp lp H1 H2 H3 H4) as [Z2 Z3]. rewrite <- (kept_moved nbas V ev ev' d lm i j k l HM Hi Hj Hk Hl Pi Pj Pk Pl ng o md ip jp kp lp H1 H2 H3 H4). split; [exact Z2|].
        intros X. apply eri4_moved2; try assumption. apply Z3, X.
      - destruct HM as (_ & _ & H). apply csumz_ext. intros lp H4. apply csumz_ext. intros kp H3. apply csumz_ext. intros jp H2. apply csumz_ext. intros ip H1.
        destruct (H i Hi) as (_ & _ & ->); [|assumption..]. destruct (H j Hj) as (_ & _ & ->); [|assumption..]. destruct (H k Hk) as (_ & _ & ->); [|assumption..]. destruct (H l Hl) as (_ & _ & ->); [|assumption..]. reflexivity. }
    rewrite !Z2Nat.id in X2, X4 by lia. rewrite ES, <- X4 in X2. apply C_cancel in X2; [|apply front_no0; assumption]. apply (f_equal fst) in X2. exact X2.
  Qed.
End Moved2.
