(** WholeMom.v — exchanging the two shells of multipole moments and of the kinetic energy. *)
From Coq Require Import Reals Lra QArith Qreals String FunctionalExtensionality.
From Coquelicot Require Import Coquelicot.
From Verif Require Import Base BasModel BasSpec EnvModel IdxModel IdxSpec CtrModel
  OptModel OptSpec OptPair ScreenSpec ScreenProof ScreenFinal OutModel OutSpec TabModel
  OpSpec RecModel RecSpec GaussInt Gauss2Int IntgModel IntgSpec IntgSem IntgTab IntgStmt IntgAll IntgOvlp IntgReal QuadSpec OperSpec OperModel Oper2e
  WholeModel WholeSpec WholeBatch Whole1e WholeSame WholePerm WholeFlip.
Local Open Scope R_scope.

(** multiplications with the distance from an origin that is not the centre of a shell *)
Definition common (w : word) : bool := forallb (fun p => match p with X Com | X Zero => true | _ => false end) w.
Definition sym_word (w : word) : bool := match w with [D; D] => true | _ => common w end.
(** such factors or a second derivative on the second shell, nothing on the first *)
Definition sym_mono (m : mono) : bool :=
  forallb (Nat.eqb 0) (m_k m) && forallb (fun ax => match word_at m ax CI with [] => sym_word (word_at m ax CJ) | _ => false end) [0; 1; 2]%Z.
Lemma common_mult O ax w : common w = true -> exists pol : R -> R, forall A f x, word_fun A O ax w f x = pol x * f x.
Proof.
  induction w as [|p w IH]; intros H; [exists (fun _ => 1); intros; cbn; ring|]. cbn in H. apply andb_prop in H. destruct H as [Hp Hw]. destruct (IH Hw) as [pol E].
  destruct p as [|[c| |]]; try discriminate Hp.
  - exists (fun x => (x - O ax) * pol x). intros A f x. change (word_fun A O ax (X Com :: w) f x) with ((x - O ax) * word_fun A O ax w f x). rewrite E. ring.
  - exists (fun x => (x - 0) * pol x). intros A f x. change (word_fun A O ax (X Zero :: w) f x) with ((x - 0) * word_fun A O ax w f x). rewrite E. ring.
Qed.
Lemma line_second a A b B m n : 0 < a -> 0 < b -> line (fun x => phi a A m x * Derive (Derive (phi b B n)) x) = line (fun x => phi b B n x * Derive (Derive (phi a A m)) x).
Proof.
  intros Ha Hb.
  set (ee := fun c => match c with CI => a | CJ => b | _ => 1 end). set (AA := fun (c : centre) (_ : Z) => match c with CI => A | CJ => B | _ => 0 end).
  pose proof (pair_parts ee AA (fun _ _ => 1) (fun _ => 0) (fun _ => 0) Ha Hb (fun _ => Rle_refl 0) (fun _ => eq_refl)) as HP.
  assert (E : forall f g, pair_int (fun _ _ => 1) (fun _ => 0) (fun _ => 0) 0 0 (fun c => match c with CI => f | CJ => g | _ => phi 1 0 0 end) = line (fun x => f x * g x)).
  { intros f g. unfold pair_int. rewrite Rmult_1_l. apply line_ext'. intros x. rewrite Rmult_0_l, Ropp_0, exp_0. ring. }
  pose proof (proj2 (gp_derive a A _ (gp_phi a A m))) as G1. pose proof (proj2 (gp_derive b B _ (gp_phi b B n))) as G2.
  assert (X1 : line (fun x => Derive (phi a A m) x * Derive (phi b B n) x) = - line (fun x => phi a A m x * Derive (Derive (phi b B n)) x)).
  { rewrite <- !E. refine (proj1 (HP 0%Z 0%Z (fun c => match c with CI => phi a A m | CJ => Derive (phi b B n) | _ => phi 1 0 0 end) _)). intros [| | |]; [apply gp_phi|exact G2|apply gp_phi|apply gp_phi]. }
  assert (X2 : line (fun x => Derive (Derive (phi a A m)) x * phi b B n x) = - line (fun x => Derive (phi a A m) x * Derive (phi b B n) x)).
  { rewrite <- !E. refine (proj1 (HP 0%Z 0%Z (fun c => match c with CI => Derive (phi a A m) | CJ => phi b B n | _ => phi 1 0 0 end) _)). intros [| | |]; [exact G1|apply gp_phi|apply gp_phi|apply gp_phi]. }
  rewrite X1, Ropp_involutive in X2. rewrite <- X2. apply line_ext'. intros x. ring.
Qed.
Section Sym.
  Variables (V : view) (ev : Z -> R) (i j ip jp : Z) (ti tj : triple) (O : Z -> R).
  Hypothesis (Hi : 0 < ex V ev i ip) (Hj : 0 < ex V ev j jp).
  Lemma term_sym m ax : word_at m ax CI = [] -> sym_word (word_at m ax CJ) = true ->
    term (exps2 V ev j i jp ip) (centres2 V ev j i) O overlap (powers tj ti) m 0 ax = term (exps2 V ev i j ip jp) (centres2 V ev i j) O overlap (powers ti tj) m 0 ax.
  Proof.
    intros E1 E2. unfold term, overlap. rewrite E1. cbn [word_fun fold_right]. unfold base.
    assert (S : word_at m ax CJ = [D; D] \/ common (word_at m ax CJ) = true).
    { revert E2. generalize (word_at m ax CJ). intros w. unfold sym_word. destruct w as [|[|o] [|[|o'] [|p w]]]; auto. }
    destruct S as [-> | S].
    - cbn [fold_right prim_fun exps2 centres2 powers]. apply line_second; assumption.
    - destruct (common_mult O ax _ S) as [pol E]. apply line_ext'. intros x. fold (word_fun (centres2 V ev j i) O ax). fold (word_fun (centres2 V ev i j) O ax). rewrite !E. cbn [exps2 centres2 powers]. ring.
  Qed.
  Lemma zeros l n : forallb (Nat.eqb 0) l = true -> nth n l 0%nat = 0%nat.
  Proof. revert n. induction l as [|x l IH]; intros [|n] H; try reflexivity; cbn in H; apply andb_prop in H; destruct H as [H1 H2]; [destruct x; [reflexivity|discriminate H1]|apply IH, H2]. Qed.
  Lemma mval_sym m : sym_mono m = true ->
    mval (exps2 V ev j i jp ip) (centres2 V ev j i) O overlap [0%Z] (powers tj ti) m = mval (exps2 V ev i j ip jp) (centres2 V ev i j) O overlap [0%Z] (powers ti tj) m.
  Proof.
    intros H. apply andb_prop in H. destruct H as [Hk Hw]. unfold mval, kpow. rewrite !(zeros _ _ Hk). cbn [pow map].
    assert (T : forall ax, (match word_at m ax CI with [] => sym_word (word_at m ax CJ) | _ => false end) = true -> word_at m ax CI = [] /\ sym_word (word_at m ax CJ) = true).
    { intros ax. destruct (word_at m ax CI); [auto|discriminate]. }
    cbn [forallb] in Hw. apply andb_prop in Hw. destruct Hw as [H0 Hw]. apply andb_prop in Hw. destruct Hw as [H1 Hw]. apply andb_prop in Hw. destruct Hw as [H2 _].
    apply T in H0, H1, H2. destruct H0, H1, H2. rewrite !term_sym by assumption. reflexivity.
  Qed.
  Lemma den_sym q : forallb (fun x => sym_mono (snd x)) q = true ->
    den (exps2 V ev j i jp ip) (centres2 V ev j i) O overlap [0%Z] (powers tj ti) q = den (exps2 V ev i j ip jp) (centres2 V ev i j) O overlap [0%Z] (powers ti tj) q.
  Proof. intros H. unfold den. f_equal. apply map_ext_in. intros [c m] Hx. rewrite forallb_forall in H. specialize (H _ Hx). cbn [fst snd] in *. rewrite (mval_sym m H). reflexivity. Qed.
End Sym.
Lemma contracted2_sym' V ev keep i j ic jc (p q : Z -> Z -> C -> Prop) S :
  (forall ip jp D, (0 <= ip < v_np V i)%Z -> (0 <= jp < v_np V j)%Z -> p jp ip D -> q ip jp D) -> contracted2 V ev keep j i jc ic p S -> contracted2 V ev (fun ip jp => keep jp ip) i j ic jc q S.
Proof.
  intros H (D & K & X & ->). exists (fun ip jp => D jp ip), (fun ip jp => K jp ip). split.
  - intros ip jp H1 H2. destruct (X jp ip H2 H1) as [X1 X2]. split; [apply H; assumption|exact X2].
  - rewrite csumz_swap. apply csumz_ext. intros jp _. apply csumz_ext. intros ip _. destruct (K jp ip); [|reflexivity]. f_equal. f_equal. ring.
Qed.

Definition moment_1e : list ent := [e_int1e_kin; e_int1e_z; e_int1e_zz; e_int1e_r; e_int1e_r2; e_int1e_r4; e_int1e_rr; e_int1e_rrr; e_int1e_rrrr].
Definition sym_comps (l : list (spin * spin * poly)) : bool := forallb (fun x => match fst x with (S1, S1) => forallb (fun y => sym_mono (snd y)) (snd x) | _ => false end) l.
Lemma moment_in t : In t moment_1e -> In t catalogue /\ en_fam (t_e t) = F1e /\ phase (t_e t) S1 S1 = cq1 /\
  let c := components (t_d t) (sis (en_c2s1 (t_e t))) (sis (en_c2s2 (t_e t))) in length c = length (g_rows (t_f t)) /\ sym_comps c = true.
Proof.
  intros [<-|[<-|[<-|[<-|[<-|[<-|[<-|[<-|[<-|[]]]]]]]]]].
  1: split; [apply (nth_error_In catalogue 128); reflexivity|].
  2: split; [apply (nth_error_In catalogue 139); reflexivity|].
  3: split; [apply (nth_error_In catalogue 140); reflexivity|].
  4: split; [apply (nth_error_In catalogue 141); reflexivity|].
  5: split; [apply (nth_error_In catalogue 142); reflexivity|].
  6: split; [apply (nth_error_In catalogue 143); reflexivity|].
  7: split; [apply (nth_error_In catalogue 144); reflexivity|].
  8: split; [apply (nth_error_In catalogue 145); reflexivity|].
  9: split; [apply (nth_error_In catalogue 146); reflexivity|].
  all: split; [reflexivity|]; split; [reflexivity|]; split; vm_compute; reflexivity.
Qed.
Lemma sym_nth l k s1 s2 q : sym_comps l = true -> nth_error l k = Some (s1, s2, q) -> s1 = S1 /\ s2 = S1 /\ forallb (fun y => sym_mono (snd y)) q = true.
Proof.
  intros H E. apply nth_error_In in E. unfold sym_comps in H. rewrite forallb_forall in H. specialize (H _ E). cbn [fst snd] in H. destruct s1, s2; try discriminate H. auto.
Qed.
Lemma Y_permM V ev at_ natm t i j c (k1 k2 : Z -> Z -> Prop) Y1 Y2 : In t moment_1e -> (0 <= v_l V i)%Z -> (0 <= v_l V j)%Z -> exps_pos V ev i -> exps_pos V ev j -> (forall ip jp, k2 jp ip <-> k1 ip jp) ->
  ok2 V ev at_ natm t i j c k1 Y1 -> ok2 V ev at_ natm t j i c k2 Y2 ->
  forall n ic jc a b, (0 <= n < Z.of_nat (length (g_rows (t_f t))))%Z -> (0 <= a < CINTlen_cart (v_l V i))%Z -> (0 <= b < CINTlen_cart (v_l V j))%Z -> Y1 n ic jc a b = Y2 n jc ic b a.
Proof.
  intros Ht Hi Hj Pi Pj Hk O1 O2 n ic jc a b Hn Ha Hb. destruct (moment_in t Ht) as (_ & Hf & Hph & HL & HS).
  destruct (cart_nth _ _ Hi Ha) as [ti E1]. destruct (cart_nth _ _ Hj Hb) as [tj E2].
  destruct (nth_error (components (t_d t) (sis (en_c2s1 (t_e t))) (sis (en_c2s2 (t_e t)))) (Z.to_nat n)) as [[[s1 s2] q]|] eqn:E3; [|apply nth_error_None in E3; lia].
  destruct (sym_nth _ _ _ _ _ HS E3) as (-> & -> & Hq).
  destruct (O1 _ _ _ ic jc _ _ _ _ _ E1 E2 E3) as (S & X1 & X2). destruct (O2 _ _ _ jc ic _ _ _ _ _ E2 E1 E3) as (S' & X3 & X4).
  assert (ES : S = S').
  { refine (contracted_unique V ev at_ natm (en_fam (t_e t)) i j k1 ic jc ti tj q S S' X1 _).
    destruct (contracted2_sym' V ev k2 i j ic jc (fun jp ip => prim_integral V ev at_ natm (en_fam (t_e t)) j i jp ip tj ti q) (fun ip jp => prim_integral V ev at_ natm (en_fam (t_e t)) i j ip jp ti tj q) S') as (D & K & Z1 & Z2); [|exact X3|].
    - intros ip jp D H1 H2. rewrite Hf. cbn [prim_integral]. intros ->. apply den_sym; [apply Pi, H1|apply Pj, H2|exact Hq].
    - exists D, K. split; [|exact Z2]. intros ip jp H1 H2. destruct (Z1 ip jp H1 H2) as [Z3 Z4]. split; [exact Z3|]. rewrite <- Hk. exact Z4. }
  rewrite !Z2Nat.id in X2, X4 by lia. rewrite ES, <- X4 in X2. apply C_cancel in X2; [apply (f_equal fst) in X2; exact X2|]. rewrite Hph. intros X. apply (f_equal fst) in X. unfold cval, Q2R in X. cbn in X. lra.
Qed.
