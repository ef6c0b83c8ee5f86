(** WholeMove3.v — moving all shells, charges and the common origin: one-electron integrals. *)
From Coq Require Import Reals Lra Psatz QArith Qreals String FunctionalExtensionality.
From Coquelicot Require Import Coquelicot.
From Verif Require Import Base BasModel BasSpec EnvModel IdxModel IdxSpec CtrModel
  OptModel OptSpec OptPair ScreenSpec ScreenProof ScreenFinal OutModel OutSpec TabModel
  OpSpec RecModel RecSpec RecMoments GaussInt Rec1Real Gauss2Int IntgModel IntgSpec IntgSem IntgTab IntgStmt IntgAll IntgOvlp IntgReal QuadSpec OperSpec OperModel Oper2e
  WholeModel WholeSpec WholeBatch Whole1e Whole2Spec WholeSame WholePerm WholeFlip WholeMove WholeMove2.
Local Open Scope R_scope.

(** The charges: positions moved by d, the rest of the data the same.  The point env[4..6] of the rinv integrals and atoms 0 <= ia < natm. *)
Definition moved_point (ev ev' : Z -> R) (d : Z -> R) : Prop := ev' 7%Z = ev 7%Z /\ forall ax, (0 <= ax < 3)%Z -> ev' (4 + ax)%Z = ev (4 + ax)%Z + d ax.
Definition moved_atoms (at_ : Z -> Z -> Z) (natm : Z) (ev ev' : Z -> R) (d : Z -> R) : Prop := forall ia, (0 <= ia < natm)%Z ->
  (forall ax, (0 <= ax < 3)%Z -> ev' (at_ 1 ia + ax)%Z = ev (at_ 1 ia + ax)%Z + d ax) /\ ev' (at_ 3%Z ia) = ev (at_ 3%Z ia) /\ ev' (at_ 4%Z ia) = ev (at_ 4%Z ia).

(** positions relative to the two shells or the common origin only *)
Definition ok1 (p : prim) : bool := match p with D | X Com | X (Own CI) | X (Own CJ) => true | _ => false end.
Definition no_zero1 (m : mono) : bool := forallb (forallb ok1) (m_w m).
Definition movable1 (t : ent) : bool :=
  forallb (fun x => forallb (fun y => no_zero1 (snd y)) (snd x)) (components (t_d t) (sis (en_c2s1 (t_e t))) (sis (en_c2s2 (t_e t)))).
Lemma word_ok1 m ax c : no_zero1 m = true -> forallb ok1 (word_at m ax c) = true.
Proof.
  intros H. unfold no_zero1 in H. rewrite forallb_forall in H. unfold word_at. destruct (nth_in_or_default (4 * Z.to_nat ax + cnum c) (m_w m) []) as [X | ->]; [apply H, X|reflexivity].
Qed.
Section Words.
  Variables (A A' : centre -> Z -> R) (O O' d : Z -> R) (ax : Z).
  Hypothesis (HI : A' CI ax = A CI ax + d ax) (HJ : A' CJ ax = A CJ ax + d ax) (HO : O' ax = O ax + d ax).
  Lemma word_move1 w f' f : forallb ok1 w = true -> (forall x, f' (x + d ax) = f x) ->
    forall x, word_fun A' O' ax w f' (x + d ax) = word_fun A O ax w f x.
  Proof.
    intros Hw Hf. induction w as [|p w IH]; [exact Hf|]. cbn [forallb] in Hw. apply andb_prop in Hw. destruct Hw as [Hp Hw]. specialize (IH Hw). intros x.
    destruct p as [|[c| |]]; try discriminate Hp.
    - change (Derive (word_fun A' O' ax w f') (x + d ax) = Derive (word_fun A O ax w f) x). apply derive_move, IH.
    - change ((x + d ax - A' c ax) * word_fun A' O' ax w f' (x + d ax) = (x - A c ax) * word_fun A O ax w f x). rewrite IH. f_equal. destruct c; try discriminate Hp; [rewrite HI|rewrite HJ]; ring.
    - change ((x + d ax - O' ax) * word_fun A' O' ax w f' (x + d ax) = (x - O ax) * word_fun A O ax w f x). rewrite IH, HO. f_equal. ring.
  Qed.
  Lemma fun_move1 a pw m c x : no_zero1 m = true -> c = CI \/ c = CJ -> fun_at a A' O' pw m ax c (x + d ax) = fun_at a A O pw m ax c x.
  Proof. intros H Hc. unfold fun_at. apply word_move1; [apply word_ok1, H|]. intros y. unfold base. destruct Hc as [-> | ->]; [rewrite HI|rewrite HJ]; apply phi_at. Qed.
End Words.
Section Pair.
  Variables (a : centre -> R) (A A' : centre -> Z -> R) (O O' d : Z -> R) (pw : Z -> centre -> Z).
  Hypothesis (Hi : 0 < a CI) (Hj : 0 < a CJ).
  Hypothesis (HI : forall ax, (0 <= ax < 3)%Z -> A' CI ax = A CI ax + d ax) (HJ : forall ax, (0 <= ax < 3)%Z -> A' CJ ax = A CJ ax + d ax) (HO : forall ax, (0 <= ax < 3)%Z -> O' ax = O ax + d ax).
  Hypothesis (HK : forall ax, A' CK ax - A' CL ax = A CK ax - A CL ax).
  Lemma term1_move op P P' m v : no_zero1 m = true -> (forall ax, (0 <= ax < 3)%Z -> P' ax = P ax + d ax) ->
    term1 a A' O' pw op P' m v -> term1 a A O pw op P m v.
  Proof.
    intros Hm HP (W & (I & X1 & X2) & ->). exists W. split.
    - exists I. split; [|exact X2]. intros ax s Hax. eapply line_ext; [|exact (line_move _ _ (d ax) (X1 ax s Hax))]. intros x. cbv beta.
      rewrite !(fun_move1 A A' O O' d ax (HI ax Hax) (HJ ax Hax) (HO ax Hax)) by auto. rewrite (HP ax Hax). replace (x + d ax - (P ax + d ax)) with (x - P ax) by ring. reflexivity.
    - f_equal. unfold rpow, kpow. cbn [fst snd]. rewrite !HI, !HJ, !HK by lia.
      assert (E : forall u w z, u + z - (w + z) = u - w) by (intros; ring). rewrite !E. reflexivity.
  Qed.
  Lemma term_move m o ax : no_zero1 m = true -> (0 <= ax < 3)%Z -> term a A' O' overlap pw m o ax = term a A O overlap pw m o ax.
  Proof.
    intros Hm Hax. unfold term, overlap. symmetry. apply line_val.
    assert (G : RIntLine (fun x => fun_at a A' O' pw m ax CI x * fun_at a A' O' pw m ax CJ x) (line (fun x => fun_at a A' O' pw m ax CI x * fun_at a A' O' pw m ax CJ x))).
    { eapply (line_is (a CI + a CJ)); [lra|]. apply gp_mult; [lra| |]; apply gp_word, gp_phi. }
    eapply line_ext; [|exact (line_move _ _ (d ax) G)]. intros x. cbv beta. rewrite !(fun_move1 A A' O O' d ax (HI ax Hax) (HJ ax Hax) (HO ax Hax)) by auto. reflexivity.
  Qed.
  Lemma den_move q : forallb (fun y => no_zero1 (snd y)) q = true -> den a A' O' overlap [0%Z] pw q = den a A O overlap [0%Z] pw q.
  Proof.
    intros H. unfold den. f_equal. apply map_ext_in. intros [c m] Hx. rewrite forallb_forall in H. specialize (H _ Hx). cbn [fst snd] in *. f_equal. f_equal.
    unfold mval, kpow. cbn [map fst snd]. rewrite !(term_move m) by (assumption || lia). rewrite !HI, !HJ, !HK by lia.
    assert (E : forall u w z, u + z - (w + z) = u - w) by (intros; ring). rewrite !E. reflexivity.
  Qed.
End Pair.

Section Moved1.
  Variables (nbas : Z) (V : view) (ev ev' : Z -> R) (d : Z -> R) (lm : Z -> Z -> R) (at_ : Z -> Z -> Z) (natm : Z) (t : ent) (i j : Z).
  Let fam := en_fam (t_e t).
  Hypothesis (HM : moved nbas V ev ev' d) (HO : forall ax, (0 <= ax < 3)%Z -> gauge_origin ev' ax = gauge_origin ev ax + d ax).
  Hypothesis (HP : fam = F1rinv -> moved_point ev ev' d) (HN : fam = F1nuc -> moved_atoms at_ natm ev ev' d).
  Hypothesis (Ht : In t catalogue) (Hf : fam = F1e \/ fam = F1rinv \/ fam = F1nuc) (Hz : movable1 t = true).
  Hypothesis (Hi : (0 <= i < nbas)%Z) (Hj : (0 <= j < nbas)%Z) (Pi : exps_pos V ev i) (Pj : exps_pos V ev j).
  Lemma exps2_moved ip jp : (0 <= ip < v_np V i)%Z -> (0 <= jp < v_np V j)%Z -> exps2 V ev' i j ip jp CI = exps2 V ev i j ip jp CI /\ exps2 V ev' i j ip jp CJ = exps2 V ev i j ip jp CJ.
  Proof. intros H1 H2. cbn [exps2]. rewrite !(ex_moved nbas V ev ev' d HM) by assumption. auto. Qed.
  Lemma exps2_eq ip jp : (0 <= ip < v_np V i)%Z -> (0 <= jp < v_np V j)%Z -> exps2 V ev' i j ip jp = exps2 V ev i j ip jp.
  Proof. intros H1 H2. apply functional_extensionality. intros c. destruct (exps2_moved ip jp H1 H2) as [E1 E2]. destruct c; try assumption; reflexivity. Qed.
  Lemma pot_moved ip jp ia ti tj q D : (0 <= ip < v_np V i)%Z -> (0 <= jp < v_np V j)%Z -> forallb (fun y => no_zero1 (snd y)) q = true ->
    (ia = -1 /\ moved_point ev ev' d \/ 0 <= ia < natm /\ moved_atoms at_ natm ev ev' d)%Z ->
    in_potential at_ ev' (exps2 V ev' i j ip jp) (centres2 V ev' i j) ia ti tj q D -> in_potential at_ ev (exps2 V ev i j ip jp) (centres2 V ev i j) ia ti tj q D.
  Proof.
    intros H1 H2 Hq Hia (chg & zeta & P' & W & (C1 & C2) & X & ->). rewrite (exps2_eq ip jp H1 H2) in X.
    assert (G : exists P, charge_at at_ ev ia chg zeta P /\ forall ax, (0 <= ax < 3)%Z -> P' ax = P ax + d ax).
    { destruct Hia as [(Eia & M7 & MP) | (Hia & MA)].
      - destruct (C1 Eia) as (B1 & B2 & B3). exists (fun ax => ev (4 + ax)%Z). split; [split; [intros _; rewrite <- M7; auto|lia]|]. intros ax Hx. rewrite B3. apply MP, Hx.
      - destruct (C2 (proj1 Hia)) as (B1 & B2 & B3 & B4 & B5). destruct (MA ia Hia) as (M1 & M3 & M4). rewrite M3 in B4. rewrite M4 in B2.
        exists (fun ax => ev (at_ 1 ia + ax)%Z). split; [split; [lia|intros _; repeat split; assumption]|]. intros ax Hx. rewrite B1. apply M1, Hx. }
    destruct G as (P & HC & HPP). exists chg, zeta, P, W. split; [exact HC|]. split; [|reflexivity]. revert X. apply value_all. intros m v Hm.
    apply (term1_move _ _ _ _ _ d).
    - intros ax Hx. apply (ctr_moved nbas V ev ev' d HM); assumption.
    - intros ax Hx. apply (ctr_moved nbas V ev ev' d HM); assumption.
    - exact HO.
    - reflexivity.
    - apply in_map_iff in Hm. destruct Hm as (x & <- & Hx). rewrite forallb_forall in Hq. apply (Hq x Hx).
    - exact HPP.
  Qed.
  Lemma prim_moved ip jp ti tj q D : (0 <= ip < v_np V i)%Z -> (0 <= jp < v_np V j)%Z -> forallb (fun y => no_zero1 (snd y)) q = true ->
    prim_integral V ev' at_ natm fam i j ip jp ti tj q D -> prim_integral V ev at_ natm fam i j ip jp ti tj q D.
  Proof.
    intros H1 H2 Hq. unfold prim_integral. destruct Hf as [E|[E|E]]; rewrite E.
    - intros ->. rewrite (exps2_eq ip jp H1 H2). apply (den_move _ _ _ _ _ d); [exact (Pi ip H1)|exact (Pj jp H2)| | |exact HO|reflexivity|exact Hq];
        intros ax Hx; apply (ctr_moved nbas V ev ev' d HM); assumption.
    - apply pot_moved; try assumption. left. split; [reflexivity|apply HP, E].
    - intros (Di & X & ->). exists Di. split; [|reflexivity]. intros ia Hia. apply pot_moved; try assumption; [right; split; [exact Hia|apply HN, E]|apply X, Hia].
  Qed.
  Lemma Y_moved1 L c Y1 Y2 : (0 <= v_l V i <= 15)%Z -> (0 <= v_l V j <= 15)%Z ->
    ok2 V ev at_ natm t i j c (fun ip jp => pair_est V ev lm i j L ip jp < user_cutoff (ev 0%Z)) Y1 ->
    ok2 V ev' at_ natm t i j c (fun ip jp => pair_est V ev' lm i j L ip jp < user_cutoff (ev' 0%Z)) Y2 ->
    forall n ic jc a b, (0 <= n < Z.of_nat (length (g_rows (t_f t))))%Z -> (0 <= ic < v_nc V i)%Z -> (0 <= jc < v_nc V j)%Z ->
      (0 <= a < CINTlen_cart (v_l V i))%Z -> (0 <= b < CINTlen_cart (v_l V j))%Z -> Y1 n ic jc a b = Y2 n ic jc a b.
  Proof.
    intros Li Lj O1 O2 n ic jc a b Hn Ci Cj Ha Hb.
    destruct (cart_nth _ _ (proj1 Li) Ha) as [ti E1]. destruct (cart_nth _ _ (proj1 Lj) Hb) as [tj E2]. destruct (whole1 t Ht Hf) as (_ & _ & EL & _).
    destruct (nth_error (comps t) (Z.to_nat n)) as [[[s1 s2] q]|] eqn:E5; [|apply nth_error_None in E5; lia].
    assert (Hq : forallb (fun y => no_zero1 (snd y)) q = true). { unfold movable1 in Hz. rewrite forallb_forall in Hz. exact (Hz _ (nth_error_In _ _ E5)). }
    destruct (O1 _ _ _ ic jc _ _ _ _ _ E1 E2 E5) as (S & X1 & X2). destruct (O2 _ _ _ ic jc _ _ _ _ _ E1 E2 E5) as (S' & X3 & X4).
    assert (ES : S = S').
    { refine (contracted_unique V ev at_ natm fam i j _ ic jc ti tj q S S' X1 _). destruct X3 as (D & K & Z1 & ->). exists D, K. split.
      - intros ip jp H1 H2. destruct (Z1 ip jp H1 H2) as [Z2 Z3]. split; [apply prim_moved; assumption|]. rewrite Z3. rewrite (est_moved nbas V ev ev' d lm HM) by assumption. destruct HM as (-> & _). reflexivity.
      - destruct HM as (_ & _ & H). apply csumz_ext. intros jp H2. apply csumz_ext. intros ip H1.
        destruct (H i Hi) as (_ & _ & ->); [|assumption..]. destruct (H j Hj) as (_ & _ & ->); [|assumption..]. reflexivity. }
    rewrite !Z2Nat.id in X2, X4 by lia. rewrite ES, <- X4 in X2. apply C_cancel in X2; [|apply phase_no0]. apply (f_equal fst) in X2. exact X2.
  Qed.
End Moved1.
