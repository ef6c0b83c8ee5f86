(** IntgReal.v — recurrence, index table and integrand together: one-electron integrals of overlap
    and nuclear-attraction type as integrals over the real line. *)
From Coq Require Import Reals Lra QArith Qreals String FunctionalExtensionality.
From Coquelicot Require Import Coquelicot.
From Verif Require Import Base BasModel BasSpec BasProof EnvModel IdxModel IdxSpec IdxProof OpSpec OpReal RecModel RecRModel GaussInt Rec1Real
  IntgModel IntgSpec IntgTab IntgStmt IntgCheck IntgStep IntgSem IntgFinal IntgAll IntgEx IntgOvlp.
Local Open Scope Z_scope.

(** ** The one-electron entries *)
Definition ng_okb (g : ngT) : bool :=
  (0 <=? IINC g) && (0 <=? JINC g) && (0 <=? KINC g) && (0 <=? LINC g) && (0 <=? POS_E2 g).
Definition one_ok (t : ent) : bool :=
  match en_fam (t_e t) with
  | F1e => match g_kind (t_f t), hd_error (en_ng (t_e t)) with K1, Some g => ng_okb g && (POS_E2 g =? 1) | _, _ => false end
           && negb (named except_names t)
  | F1rinv | F1nuc => match g_kind (t_f t), hd_error (en_ng (t_e t)) with K2, Some g => ng_okb g && (POS_E2 g =? 0) | _, _ => false end
           && negb (named parts_names t)
  | _ => true
  end.
Lemma one_checked : forallb one_ok catalogue = true.
Proof. vm_cast_no_check (eq_refl true). Qed.
Lemma ng_okb_ok g : ng_okb g = true -> ng_ok g.
Proof. unfold ng_okb, ng_ok. lia. Qed.

(** ** Powers and the index table *)
Definition pow2 (li lj : Z) (n ax : Z) (c : centre) : Z :=
  let nfi := CINTlen_cart li in
  match c with CI => expo li (n mod nfi) ax | CJ => expo lj (n / nfi) ax | _ => 0 end.

Lemma len_cart_list l : 0 <= l -> CINTlen_cart l = Z.of_nat (length (cart_list l)).
Proof. intros H. rewrite cart_list_length by exact H. unfold CINTlen_cart. apply Z.quot_div_nonneg; nia. Qed.

Lemma cart_nth l k : 0 <= l -> 0 <= k < CINTlen_cart l -> exists t, nth_error (cart_list l) (Z.to_nat k) = Some t.
Proof.
  intros Hl Hk. rewrite (len_cart_list l Hl) in Hk.
  destruct (nth_error (cart_list l) (Z.to_nat k)) eqn:E; [eauto|]. apply nth_error_None in E. lia.
Qed.
Lemma coord_range l k t d : 0 <= l -> nth_error (cart_list l) k = Some t -> 0 <= coord d t <= l.
Proof.
  intros Hl E. apply nth_error_In in E. apply cart_list_In in E; [|exact Hl]. destruct t as [[x y] z]. unfold nonneg, degree, coord in *.
  destruct (d =? 0), (d =? 1); lia.
Qed.
Lemma cart_pos l : 0 <= l -> 0 < CINTlen_cart l.
Proof. intros H. unfold CINTlen_cart. rewrite Z.quot_div_nonneg by nia. apply Z.div_str_pos. nia. Qed.

Section Call.
  Variables (ng : ngT) (li lj ci cj : Z).
  Hypothesis (Hng : ng_ok ng) (Hi : 0 <= li <= 15) (Hj : 0 <= lj <= 15).
  Let e := init_int1e ng li lj ci cj.

  Lemma pow2_at i j ti tj ax c : 0 <= ax < 3 -> nth_error (cart_list li) i = Some ti -> nth_error (cart_list lj) j = Some tj ->
    pow2 li lj (Z.of_nat j * CINTlen_cart li + Z.of_nat i) ax c = match c with CI => coord ax ti | CJ => coord ax tj | _ => 0 end.
  Proof.
    intros Hax Ei Ej. unfold pow2. assert (Hn : Z.of_nat i < CINTlen_cart li).
    { rewrite len_cart_list by lia. assert (i < length (cart_list li))%nat by (apply nth_error_Some; congruence). lia. }
    cbv zeta. rewrite (Z.add_comm (Z.of_nat j * _)), Z_mod_plus_full, Z.div_add, Z.mod_small, Z.div_small by lia. cbn [Z.add].
    destruct c; auto using expo_nth.
  Qed.

  Lemma table2_idx idx : table2 idx li lj (g_size e) (g_stride_i e) (g_stride_j e) ->
    forall n ax, 0 <= n < nf e -> 0 <= ax < 3 ->
    rd idx (n * 3 + ax) = Some (ax * g_size e + IntgStmt.cell e 0 (pow2 li lj n ax)) /\
    forall c, 0 <= pow2 li lj n ax c /\ (if used F1e c then pow2 li lj n ax c <= (match c with CI => li | CJ => lj | _ => 0 end) else pow2 li lj n ax c = 0).
  Proof.
    intros HT n ax Hn Hax. change (nf e) with (CINTlen_cart li * CINTlen_cart lj) in Hn.
    pose proof (cart_pos li ltac:(lia)) as P1.
    set (i := n mod CINTlen_cart li). set (j := n / CINTlen_cart li).
    assert (Bi : 0 <= i < CINTlen_cart li) by (apply Z.mod_pos_bound; lia).
    assert (Bj : 0 <= j < CINTlen_cart lj). { unfold j. split; [apply Z.div_pos; lia|apply Z.div_lt_upper_bound; lia]. }
    assert (En : n = j * CINTlen_cart li + i) by (unfold i, j; pose proof (Z.div_mod n (CINTlen_cart li) ltac:(lia)); lia).
    destruct (cart_nth li i ltac:(lia) Bi) as [ti Ei]. destruct (cart_nth lj j ltac:(lia) Bj) as [tj Ej].
    specialize (HT _ _ ti tj ax Ei Ej Hax). rewrite <- len_cart_list, !Z2Nat.id in HT by lia.
    assert (Ep : forall c, pow2 li lj n ax c = match c with CI => coord ax ti | CJ => coord ax tj | _ => 0 end).
    { intros c. rewrite En. rewrite <- (Z2Nat.id i), <- (Z2Nat.id j) by lia. apply pow2_at; assumption. }
    split.
    - replace (n * 3 + ax) with (3 * (j * CINTlen_cart li + i) + ax) by lia. rewrite HT. f_equal.
      unfold IdxSpec.cell, IntgStmt.cell. rewrite !Ep. ring.
    - pose proof (coord_range li _ ti ax ltac:(lia) Ei). pose proof (coord_range lj _ tj ax ltac:(lia) Ej).
      intros c. rewrite Ep. destruct c; cbn; lia.
  Qed.
End Call.

(** ** Scaling *)
Local Open Scope R_scope.

Lemma den_ext a A O I J rts pw q : (forall m o, In o rts ->
    term a A O I pw m o 0 * term a A O I pw m o 1 * term a A O I pw m o 2 =
    term a A O J pw m o 0 * term a A O J pw m o 1 * term a A O J pw m o 2) ->
  den a A O I rts pw q = den a A O J rts pw q.
Proof.
  intros H. unfold den. f_equal. apply map_ext. intros t. f_equal. f_equal. unfold mval. f_equal.
  f_equal. apply map_ext_in. intros o Ho. apply H, Ho.
Qed.

Lemma den_scale a A O I J k rts pw q : (forall m o, In o rts ->
    term a A O I pw m o 0 * term a A O I pw m o 1 * term a A O I pw m o 2 =
    k * (term a A O J pw m o 0 * term a A O J pw m o 1 * term a A O J pw m o 2)) ->
  den a A O I rts pw q = (RtoC k * den a A O J rts pw q)%C.
Proof.
  intros H. unfold den. induction q as [|t q IH]; cbn.
  - rewrite Cmult_0_r. reflexivity.
  - unfold csum in *. rewrite IH. replace (mval a A O I rts pw (snd t)) with (k * mval a A O J rts pw (snd t)).
    + rewrite RtoC_mult. ring.
    + unfold mval. rewrite (map_ext_in (fun o => term a A O I pw (snd t) o 0 * term a A O I pw (snd t) o 1 * term a A O I pw (snd t) o 2)
        (fun o => k * (term a A O J pw (snd t) o 0 * term a A O J pw (snd t) o 1 * term a A O J pw (snd t) o 2))) by (intros o Ho; apply H, Ho).
      assert (E : forall f l, rsum (map (fun o : Z => k * f o) l) = k * rsum (map f l)).
      { intros f l. induction l as [|x l IHl]; cbn; [ring|]. unfold rsum in IHl. rewrite IHl. ring. }
      rewrite E. ring.
Qed.

Definition overlap (ax o : Z) (F : funs) : R := line (fun x => F CI x * F CJ x).
(** powers of the Cartesian functions [ti] on i and [tj] on j *)
Definition powers (ti tj : triple) (ax : Z) (c : centre) : Z :=
  match c with CI => coord ax ti | CJ => coord ax tj | _ => 0 end.
Definition filled {T} (m : arr T) : Prop := forall q, (0 <= q < asize m)%Z -> exists v, rd m q = Some v.

Lemma keeps_ret {T} : keeps (fun m : arr T => Some m).
Proof. intros m m' E. injection E as <-. split; [reflexivity|auto]. Qed.
Lemma keeps_if {T} (b : bool) (f g : arr T -> option (arr T)) : keeps f -> keeps g -> keeps (fun m => if b then f m else g m).
Proof. destruct b; auto. Qed.
Lemma keeps_wr1 {T} p (v : T) : keeps (fun m => wr m p v).
Proof. exact (keeps_wr p (fun _ => Some v)). Qed.
Lemma keeps_upd {T} q p (f : T -> T) : keeps (fun m : arr T => v <- rd m q ;; wr m p (f v)).
Proof. intros m m' E. apply (keeps_wr p (fun m => v <- rd m q ;; Some (f v)) m m'). destruct (rd m q); exact E. Qed.
Ltac keep' := repeat first [apply keeps_ret | apply keeps_if | apply keeps_st3 | apply keeps_for; intros ? | apply keeps_wr1 | apply keeps_upd | apply keeps_seq].

Lemma keeps_ovlp e fac ai aj A B : keeps (R_ovlp e fac ai aj A B).
Proof.
  unfold R_ovlp, g1e_ovlp. cbv zeta. keep'.
  all: apply keeps_wr.
Qed.
Lemma keeps_nuc e chg zeta fac ai aj u C A B : keeps (R_nuc e chg zeta fac ai aj u C A B).
Proof. unfold R_nuc, g1e_nuc. cbv zeta. keep'; apply keeps_wr. Qed.
Lemma keeps_filled {T} (c : arr T -> option (arr T)) m m' : keeps c -> c m = Some m' -> filled m -> filled m'.
Proof.
  intros H E Hf q Hq. destruct (H m m' E) as [Es Hc]. rewrite Es in Hq. destruct (Hf q Hq) as [v Hv]. unfold rd, inb in *.
  rewrite Es. destruct (_ && _)%bool; [|discriminate]. destruct (acell m' q) eqn:Ec; [eauto|]. exfalso. apply (Hc q); [congruence|exact Ec].
Qed.

(** ** Overlap type *)
Lemma pow_pairfun ai aj A B i j x : (x - A) ^ i * (x - B) ^ j * pairfun ai aj A B x = phi ai A i x * phi aj B j x.
Proof.
  unfold pairfun, phi. replace (- (ai * ((x - A) * (x - A))) - aj * ((x - B) * (x - B))) with
    (- (ai * ((x - A) * (x - A))) + - (aj * ((x - B) * (x - B)))) by ring. rewrite exp_plus. ring.
Qed.

(** everything the two kinds have in common *)
Lemma one_call (t : ent) ng li lj ci cj (a : centre -> R) (A : centre -> Z -> R) (O : Z -> R) (c : Z -> R) (C : Z -> R) (w : Z -> Z -> R)
    (K : gkind) idx m gout empty :
  In t catalogue -> used (en_fam (t_e t)) = used F1e -> g_kind (t_f t) = K -> K <> KG -> ent_ng t = Some ng ->
  (forall l ctr, fam_env (en_fam (t_e t)) false ng l ctr = init_int1e ng (l CI) (l CJ) (ctr CI) (ctr CJ)) ->
  ng_ok ng -> (0 <= li <= 15)%Z -> (0 <= lj <= 15)%Z -> 0 < a CI -> 0 < a CJ -> (forall o, 0 <= c o) ->
  let e := init_int1e ng li lj ci cj in let x := mkgin e 0 a A O in
  table2 idx li lj (g_size e) (g_stride_i e) (g_stride_j e) ->
  ((2 ^ GSHIFT ng + 1) * (3 * g_size e) <= asize m)%Z -> filled m ->
  (forall ax o i j, (0 <= ax < 3)%Z -> ofs K e 0 o -> (Z.of_nat i <= li_ceil e)%Z -> (Z.of_nat j <= lj_ceil e)%Z ->
     rd m (ax * g_size e + (o + Z.of_nat i * g_stride_i e + Z.of_nat j * g_stride_j e)) =
     Some (w ax o * line (fun x => phi (a CI) (A CI ax) i x * phi (a CJ) (A CJ ax) j x * exp (- (c o * ((x - C ax) * (x - C ax))))))) ->
  (nf e * Z.of_nat (length (g_rows (t_f t))) <= asize gout)%Z -> (empty = false -> filled gout) ->
  call t ng false (fun cc => own cc li lj 0 0)%Z (fun cc => own cc ci cj 1 1)%Z x (pair_int w c C) (pow2 li lj) empty idx m gout.
Proof.
  intros Ht Hu HK HG En Ee Hng Hi Hj Ha Hb Hc e x HT Hs Hf Hcell Ho Hold.
  constructor; rewrite ?Hu, ?HK.
  - exact En.
  - rewrite Ee. reflexivity.
  - intros [] Huc; cbn in *; try discriminate; lia.
  - congruence.
  - exact Hs.
  - exact Hf.
  - intros cc Huc. cbn [x_a x_R x]. apply pair_linear; try assumption. destruct cc; cbn in Huc; try discriminate; auto.
  - intros ax o n Hax Hofs Hn. cbn [x_env x x_a x_R] in *. unfold top in Hn. rewrite Hu in Hn.
    pose proof (Hn CI) as N1. pose proof (Hn CJ) as N2. pose proof (Hn CK) as N3. pose proof (Hn CL) as N4. cbn in N1, N2, N3, N4.
    specialize (Hcell ax o (Z.to_nat (n CI)) (Z.to_nat (n CJ)) Hax Hofs).
    rewrite !Z2Nat.id in Hcell by lia.
    unfold IntgStmt.cell. replace (n CK) with 0%Z by lia. replace (n CL) with 0%Z by lia.
    unfold pair_int. rewrite <- Hcell.
    + f_equal. ring.
    + cbn. lia.
    + cbn. lia.
  - intros n ax Hn Hax. cbn [x_env x] in *. destruct (table2_idx ng li lj ci cj Hi Hj idx HT n ax Hn Hax) as [E1 E2].
    fold e in E1. split; [exact E1|]. intros cc. destruct (E2 cc) as [E3 E4]. split; [exact E3|].
    destruct cc; cbn in *; lia.
  - unfold points. destruct K; [| |congruence]; cbn [x_env x]; lia.
  - exact Hold.
Qed.

Lemma fac_1e_ok ai aj (A B : Z -> R) c0 : 0 < ai -> 0 < aj ->
  let W ax := RecSpec.origin 1 (c0 * pair_eij (square3 (fun ax => A ax - B ax)) ai aj * sqrt PI * PI / ((ai + aj) * sqrt (ai + aj))) ax in
  let N ax := exp (- (ai * aj / (ai + aj) * ((A ax - B ax) * (A ax - B ax)))) * sqrt (PI / (ai + aj)) in
  W 0%Z / N 0%Z * (W 1%Z / N 1%Z) * (W 2%Z / N 2%Z) = c0.
Proof.
  intros Ha Hb W N. subst W N. cbn beta. unfold RecSpec.origin. cbn [Z.eqb].
  unfold pair_eij, square3.
  replace (- (((A 0%Z - B 0%Z) * (A 0%Z - B 0%Z) + (A 1%Z - B 1%Z) * (A 1%Z - B 1%Z)
     + (A 2%Z - B 2%Z) * (A 2%Z - B 2%Z)) * ai * aj * (1 / (ai + aj)))) with
    (- (ai * aj / (ai + aj) * ((A 0%Z - B 0%Z) * (A 0%Z - B 0%Z)))
     + (- (ai * aj / (ai + aj) * ((A 1%Z - B 1%Z) * (A 1%Z - B 1%Z)))
     + - (ai * aj / (ai + aj) * ((A 2%Z - B 2%Z) * (A 2%Z - B 2%Z))))) by (field; lra).
  rewrite !exp_plus.
  pose proof PI_RGT_0 as Hpi. rewrite !(sqrt_div PI) by lra.
  assert (Hsp : sqrt PI * sqrt PI = PI) by (apply sqrt_sqrt; lra).
  assert (Hsa : sqrt (ai + aj) * sqrt (ai + aj) = ai + aj) by (apply sqrt_sqrt; lra).
  assert (Hp1 : 0 < sqrt PI) by (apply sqrt_lt_R0; lra).
  assert (Hp2 : 0 < sqrt (ai + aj)) by (apply sqrt_lt_R0; lra).
  pose proof (exp_pos (- (ai * aj / (ai + aj) * ((A 0%Z - B 0%Z) * (A 0%Z - B 0%Z))))) as X0.
  pose proof (exp_pos (- (ai * aj / (ai + aj) * ((A 1%Z - B 1%Z) * (A 1%Z - B 1%Z))))) as X1.
  pose proof (exp_pos (- (ai * aj / (ai + aj) * ((A 2%Z - B 2%Z) * (A 2%Z - B 2%Z))))) as X2.
  revert X0 X1 X2 Hsp Hsa Hp1 Hp2.
  generalize (exp (- (ai * aj / (ai + aj) * ((A 0%Z - B 0%Z) * (A 0%Z - B 0%Z))))).
  generalize (exp (- (ai * aj / (ai + aj) * ((A 1%Z - B 1%Z) * (A 1%Z - B 1%Z))))).
  generalize (exp (- (ai * aj / (ai + aj) * ((A 2%Z - B 2%Z) * (A 2%Z - B 2%Z))))).
  generalize (sqrt PI) (sqrt (ai + aj)). intros sp sa x2 x1 x0 X0 X1 X2 Hsp Hsa Hp1 Hp2.
  rewrite <- Hsp, <- Hsa. cbn [Pos.eqb]. field. repeat split; lra.
Qed.

Lemma ent_of_all t : In t catalogue -> named except_names t = false -> ent_ok (named parts_names t) cq1 (fun l => l) t = true.
Proof.
  intros Ht Hn. pose proof (proj1 (forallb_forall _ _) all_checked t Ht) as E. cbn beta in E. rewrite Hn in E. exact E.
Qed.

Lemma cmul1 (q : cq) : cval (cqmul cq1 q) = cval q.
Proof.
  unfold cval, cqmul, cq1. cbn [fst snd]. rewrite !(Qeq_eqR _ _ (Qred_correct _)). f_equal; apply Qeq_eqR; ring.
Qed.

(** results by pair of Cartesian functions *)
Lemma computes_at t li lj ng ci cj a A O I idx m gout empty comps :
  (0 <= li <= 15)%Z -> (0 <= lj <= 15)%Z -> g_kind (t_f t) <> KG ->
  let e := init_int1e ng li lj ci cj in let x := mkgin e 0 a A O in let nc := Z.of_nat (length (g_rows (t_f t))) in
  computes cq1 comps t x I (pow2 li lj) empty idx m gout ->
  exists gout' f, run_gout 0 1 Rplus Rmult Rminus IZR x (t_f t) empty idx m gout = Some gout' /\ factor (t_e t) = Some f /\
  Frame (fun q => 0 <= q < nf e * nc)%Z gout gout' /\
  forall (i j k : nat) ti tj s1 s2 q, nth_error (cart_list li) i = Some ti -> nth_error (cart_list lj) j = Some tj ->
    nth_error comps k = Some (s1, s2, q) ->
    let p := ((Z.of_nat j * Z.of_nat (length (cart_list li)) + Z.of_nat i) * nc + Z.of_nat k)%Z in
    exists v old, rd gout' p = Some (old + v) /\ (if empty then old = 0 else rd gout p = Some old) /\
      (cval (cqmul (qfac f) (phase (t_e t) s1 s2)) * RtoC v)%C =
      den a A O I (roots (g_kind (t_f t)) e 0) (powers ti tj) q.
Proof.
  intros Hi Hj HG e x nc (Hl & f & gout' & Ef & Er & Hfr & Hv). exists gout', f. split; [exact Er|]. split; [exact Ef|].
  assert (Hp : points x (g_kind (t_f t)) = 1%Z) by (unfold points; destruct (g_kind (t_f t)); congruence).
  split.
  { destruct Hfr as [F1 F2]. split; [exact F1|]. intros q Hq. apply F2. intros (n & ig & k & (Vn & Vi & Vk) & ->). apply Hq.
    unfold pos. rewrite Hp in *. cbn [x_env x] in Vn. fold nc in Vk |- *. assert (ig = 0)%Z by lia. subst ig. nia. }
  intros i j k ti tj s1 s2 q Ei Ej Ek p.
  assert (Bi : (i < length (cart_list li))%nat) by (apply nth_error_Some; congruence).
  assert (Bj : (j < length (cart_list lj))%nat) by (apply nth_error_Some; congruence).
  assert (Bk : (k < length comps)%nat) by (apply nth_error_Some; congruence).
  pose proof (len_cart_list li ltac:(lia)) as Li. pose proof (len_cart_list lj ltac:(lia)) as Lj.
  set (n := (Z.of_nat j * Z.of_nat (length (cart_list li)) + Z.of_nat i)%Z) in *.
  specialize (Hv n 0%Z (Z.of_nat k) s1 s2 q). rewrite Nat2Z.id in Hv.
  destruct Hv as (v & old & E1 & E2 & E3).
  - unfold valid. rewrite Hp. cbn [x_env x]. change (nf e) with (CINTlen_cart li * CINTlen_cart lj)%Z. rewrite Li, Lj. subst n. nia.
  - exact Ek.
  - assert (Epos : pos x t n 0 (Z.of_nat k) = p) by (unfold pos, p; rewrite Hp; fold nc; ring).
    rewrite Epos in *. exists v, old. split; [exact E1|]. split; [exact E2|].
    unfold x in E3. cbn [x_env x_a x_R x_C] in E3.
    assert (EC : forall z, cval (cqmul cq1 z) = cval z) by apply cmul1. rewrite EC in E3. rewrite E3.
    assert (Epw : forall ax c, (0 <= ax < 3)%Z -> pow2 li lj n ax c = powers ti tj ax c).
    { intros ax c Hax. subst n. rewrite <- Li. apply pow2_at; assumption. }
    unfold den. f_equal. apply map_ext. intros u. f_equal. f_equal. unfold mval. f_equal. f_equal. apply map_ext. intros o.
    assert (ET : forall ax, (0 <= ax < 3)%Z -> term a A O I (pow2 li lj n) (snd u) o ax = term a A O I (powers ti tj) (snd u) o ax).
    { intros ax Hax. unfold term. f_equal. extensionality cc. f_equal. unfold base. rewrite Epw by exact Hax. reflexivity. }
    rewrite !ET by lia. reflexivity.
Qed.

Lemma overlap_real t ng li lj ci cj c0 (a : centre -> R) (A : centre -> Z -> R) (O : Z -> R) idx g gout empty :
  In t catalogue -> en_fam (t_e t) = F1e -> ent_ng t = Some ng ->
  (0 <= li <= 15)%Z -> (0 <= lj <= 15)%Z -> 0 < a CI -> 0 < a CJ ->
  let e := init_int1e ng li lj ci cj in let x := mkgin e 0 a A O in let nc := Z.of_nat (length (g_rows (t_f t))) in
  (3 * nf e <= asize idx)%Z -> ((2 ^ GSHIFT ng + 1) * (3 * g_size e) <= asize g)%Z -> filled g ->
  (nf e * nc <= asize gout)%Z -> (empty = false -> filled gout) ->
  exists idx' g' gout' f,
    CINTg1e_index_xyz e idx = Some idx' /\
    R_ovlp e (c0 * pair_eij (square3 (fun ax => A CI ax - A CJ ax)) (a CI) (a CJ)) (a CI) (a CJ) (A CI) (A CJ) g = Some g' /\
    run_gout 0 1 Rplus Rmult Rminus IZR x (t_f t) empty idx' g' gout = Some gout' /\
    factor (t_e t) = Some f /\ Frame (fun q => 0 <= q < nf e * nc)%Z gout gout' /\
    forall (i j k : nat) ti tj s1 s2 q, nth_error (cart_list li) i = Some ti -> nth_error (cart_list lj) j = Some tj ->
      nth_error (components (t_d t) (sis (en_c2s1 (t_e t))) (sis (en_c2s2 (t_e t)))) k = Some (s1, s2, q) ->
      let p := ((Z.of_nat j * Z.of_nat (length (cart_list li)) + Z.of_nat i) * nc + Z.of_nat k)%Z in
      exists v old, rd gout' p = Some (old + v) /\ (if empty then old = 0 else rd gout p = Some old) /\
        (cval (cqmul (qfac f) (phase (t_e t) s1 s2)) * RtoC v)%C = (RtoC c0 * den a A O overlap [0%Z] (powers ti tj) q)%C.
Proof.
  intros Ht Hfam En Hi Hj Ha Hb e x nc Hidx Hs Hf Ho Hold.
  pose proof (proj1 (forallb_forall _ _) one_checked t Ht) as C1. unfold one_ok in C1. rewrite Hfam in C1. apply andb_true_iff in C1.
  destruct C1 as [C1 C2]. apply negb_true_iff in C2.
  destruct (g_kind (t_f t)) eqn:EK; try discriminate. unfold ent_ng in En. rewrite En in C1. apply andb_true_iff in C1.
  destruct C1 as [C1 C3]. apply ng_okb_ok in C1.
  destruct (idx_int1e ng li lj ci cj idx C1 Hi Hj Hidx) as (idx' & Ei & HT & _ & _). fold e in Ei, HT.
  set (fac := c0 * pair_eij (square3 (fun ax => A CI ax - A CJ ax)) (a CI) (a CJ)).
  pose proof C1 as (NI & NJ & _).
  assert (Hg3 : (3 * g_size e <= asize g)%Z).
  { assert (0 <= g_size e)%Z. { change (g_size e) with (let lic := li + IINC ng in let ljc := lj + JINC ng in
        let nroots := if 0 <? POS_E2 ng then POS_E2 ng else Z.quot (lic + ljc) 2 + 1 in
        let dli := if (lic >? ljc)%Z then lic + ljc + 1 else lic + 1 in
        let dlj := if (lic >? ljc)%Z then ljc + 1 else lic + ljc + 1 in nroots * dli * dlj)%Z.
      replace (POS_E2 ng) with 1%Z by lia. cbv zeta. cbn [Z.ltb Z.compare]. destruct (_ >? _)%Z; nia. }
    assert (0 <= 2 ^ GSHIFT ng)%Z by (apply Z.pow_nonneg; lia). nia. }
  destruct (proj1 (wp_exists _ _) (R_ovlp_cells ng li lj ci cj ltac:(lia) ltac:(lia) fac (a CI) (a CJ) (A CI) (A CJ) g Ha Hb Hg3)) as (g' & Eg & Fg & Hc).
  fold e in Eg, Fg, Hc.
  set (W := fun ax => RecSpec.origin 1 (fac * sqrt PI * PI / ((a CI + a CJ) * sqrt (a CI + a CJ))) ax) in *.
  set (N := fun ax => exp (- (a CI * a CJ / (a CI + a CJ) * ((A CI ax - A CJ ax) * (A CI ax - A CJ ax)))) * sqrt (PI / (a CI + a CJ))).
  assert (Hfull : filled g') by (apply (keeps_filled _ g g' (keeps_ovlp e fac (a CI) (a CJ) (A CI) (A CJ)) Eg Hf)).
  assert (CALL : call t ng false (fun cc => own cc li lj 0 0)%Z (fun cc => own cc ci cj 1 1)%Z x
            (pair_int (fun ax _ => W ax / N ax) (fun _ => 0) (fun _ => 0)) (pow2 li lj) empty idx' g' gout).
  { apply (one_call t ng li lj ci cj a A O (fun _ => 0) (fun _ => 0) _ K1); try assumption; try congruence.
    - rewrite Hfam. reflexivity.
    - intros _. lra.
    - destruct Fg as [F1 _]. rewrite F1. exact Hs.
    - fold e. intros ax o i j Hax -> Bi Bj. rewrite Z.add_0_l.
      destruct (Hc ax i j Hax Bi Bj) as (v & I0 & I & Ev & HI0 & _ & HI & EV). fold e in Ev. rewrite Ev, EV. f_equal. fold (W ax).
      rewrite (line_unique _ _ _ HI0 (pair_norm (a CI) (a CJ) _ _ Ha Hb)). fold (N ax). f_equal.
      symmetry. apply line_val. eapply line_ext; [|exact HI]. intros y. cbn beta. rewrite pow_pairfun.
      rewrite Rmult_0_l, Ropp_0, exp_0. ring. }
  pose proof (ent_ok_sound _ _ _ _ (ent_of_all t Ht C2) _ _ _ _ _ _ _ _ _ _ _ CALL) as HC.
  specialize (HC (fun _ => pair_parts a A (fun ax _ => W ax / N ax) (fun _ => 0) (fun _ => 0) Ha Hb (fun _ => Rle_refl 0) (fun _ => eq_refl))).
  destruct (computes_at t li lj ng ci cj a A O _ idx' g' gout empty _ Hi Hj ltac:(congruence) HC) as (gout' & f & Er & Ef & Hfr & Hv).
  exists idx', g', gout', f. repeat (split; [assumption|]).
  intros i j k ti tj s1 s2 q E1 E2 E3 p. destruct (Hv i j k ti tj s1 s2 q E1 E2 E3) as (v & old & V1 & V2 & V3).
  exists v, old. split; [exact V1|]. split; [exact V2|]. rewrite V3, EK. cbn [roots].
  apply den_scale. intros m o _. unfold term, pair_int, overlap.
  assert (EL : forall (F : Z -> centre -> R -> R) ax, line (fun y => F ax CI y * F ax CJ y * exp (- (0 * ((y - 0) * (y - 0))))) = line (fun y => F ax CI y * F ax CJ y)).
  { intros F ax. apply line_ext'. intros y. rewrite Rmult_0_l, Ropp_0, exp_0. ring. }
  rewrite !(EL (fun ax c => word_fun A O ax (word_at m ax c) (base a A (powers ti tj) ax c))).
  rewrite <- (fac_1e_ok (a CI) (a CJ) (A CI) (A CJ) c0 Ha Hb). cbv zeta. fold fac. fold (W 0%Z) (W 1%Z) (W 2%Z). unfold N. ring.
Qed.

(** ** Nuclear attraction and 1/|r - R|

    Root [n] of the quadrature stands for the Gaussian exp(-s |r - C|^2), s = p t^2/(1 - t^2); the
    factor in front is w 2/sqrt(pi) ds/dt, where the weight of the library contains
    exp(-p t^2 |C - P|^2). *)
Definition gauss_s (p t2 : R) : R := p * t2 / (1 - t2).
Definition nuc_weight (p t2 pc2 tau w : R) : R :=
  tau * w * exp (p * t2 * pc2) * (2 / sqrt PI) * (sqrt p / ((1 - t2) * sqrt (1 - t2))).
Definition attraction (s kappa : Z -> R) (C : Z -> R) (ax o : Z) (F : funs) : R :=
  (if (ax =? 0)%Z then kappa o else 1) * line (fun x => F CI x * F CJ x * exp (- (s o * ((x - C ax) * (x - C ax))))).

Lemma nuc_norm s t2 ai aj A B C : 0 < ai -> 0 < aj -> 0 <= t2 < 1 -> s = gauss_s (ai + aj) t2 ->
  RIntLine (nucfun s ai aj A B C)
    (exp (- (ai * aj / (ai + aj) * ((A - B) * (A - B)))) *
     exp (- ((ai + aj) * t2 * ((C - (ai * A + aj * B) / (ai + aj)) * (C - (ai * A + aj * B) / (ai + aj))))) *
     sqrt (PI * (1 - t2) / (ai + aj))).
Proof.
  intros Ha Hb Ht ->. set (P := (ai * A + aj * B) / (ai + aj)). set (q := (ai + aj) / (1 - t2)).
  assert (Hq : 0 < q) by (apply Rdiv_lt_0_compat; lra).
  replace (PI * (1 - t2) / (ai + aj)) with (PI / q) by (unfold q; field; lra).
  eapply line_ext; [|exact (line_scal _ (exp (- (ai * aj / (ai + aj) * ((A - B) * (A - B)))) * exp (- ((ai + aj) * t2 * ((C - P) * (C - P))))) _
     (line_gauss q (P + t2 * (C - P)) Hq))].
  intros x. cbn beta. unfold nucfun, pairfun. rewrite gauss_product by lra. fold P. unfold wgt. rewrite !Rmult_assoc. f_equal.
  rewrite <- !exp_plus. f_equal. unfold q, gauss_s. field. lra.
Qed.

Lemma fac_nuc_ok ai aj (A B C : Z -> R) c0 chg tau w t2 : 0 < ai -> 0 < aj -> 0 <= t2 < 1 ->
  let P ax := (ai * A ax + aj * B ax) / (ai + aj) in
  let W ax := RecSpec.origin 1 (w * (2 * PI * chg * (c0 * pair_eij (square3 (fun ax => A ax - B ax)) ai aj) * tau / (ai + aj))) ax in
  let N ax := exp (- (ai * aj / (ai + aj) * ((A ax - B ax) * (A ax - B ax)))) *
              exp (- ((ai + aj) * t2 * ((C ax - P ax) * (C ax - P ax)))) * sqrt (PI * (1 - t2) / (ai + aj)) in
  W 0%Z / N 0%Z * (W 1%Z / N 1%Z) * (W 2%Z / N 2%Z) = c0 * chg * nuc_weight (ai + aj) t2 (square3 (fun ax => C ax - P ax)) tau w.
Proof.
  intros Ha Hb Ht P W N. subst W N. cbn beta. unfold RecSpec.origin. cbn [Z.eqb Pos.eqb].
  unfold pair_eij, square3, nuc_weight.
  replace (- (((A 0%Z - B 0%Z) * (A 0%Z - B 0%Z) + (A 1%Z - B 1%Z) * (A 1%Z - B 1%Z)
     + (A 2%Z - B 2%Z) * (A 2%Z - B 2%Z)) * ai * aj * (1 / (ai + aj)))) with
    (- (ai * aj / (ai + aj) * ((A 0%Z - B 0%Z) * (A 0%Z - B 0%Z)))
     + (- (ai * aj / (ai + aj) * ((A 1%Z - B 1%Z) * (A 1%Z - B 1%Z)))
     + - (ai * aj / (ai + aj) * ((A 2%Z - B 2%Z) * (A 2%Z - B 2%Z))))) by (field; lra).
  replace ((ai + aj) * t2 * ((C 0%Z - P 0%Z) * (C 0%Z - P 0%Z) + (C 1%Z - P 1%Z) * (C 1%Z - P 1%Z) + (C 2%Z - P 2%Z) * (C 2%Z - P 2%Z))) with
    (- - ((ai + aj) * t2 * ((C 0%Z - P 0%Z) * (C 0%Z - P 0%Z))) + (- - ((ai + aj) * t2 * ((C 1%Z - P 1%Z) * (C 1%Z - P 1%Z)))
     + - - ((ai + aj) * t2 * ((C 2%Z - P 2%Z) * (C 2%Z - P 2%Z))))) by ring.
  rewrite !exp_plus, !(exp_Ropp (- _)).
  pose proof PI_RGT_0 as Hpi. rewrite sqrt_div, sqrt_mult by nra.
  assert (Hsp : sqrt PI * sqrt PI = PI) by (apply sqrt_sqrt; lra).
  assert (Hsa : sqrt (ai + aj) * sqrt (ai + aj) = ai + aj) by (apply sqrt_sqrt; lra).
  assert (Hst : sqrt (1 - t2) * sqrt (1 - t2) = 1 - t2) by (apply sqrt_sqrt; lra).
  assert (Hp1 : 0 < sqrt PI) by (apply sqrt_lt_R0; lra).
  assert (Hp2 : 0 < sqrt (ai + aj)) by (apply sqrt_lt_R0; lra).
  assert (Hp3 : 0 < sqrt (1 - t2)) by (apply sqrt_lt_R0; lra).
  set (x0 := - (ai * aj / (ai + aj) * ((A 0%Z - B 0%Z) * (A 0%Z - B 0%Z)))).
  set (x1 := - (ai * aj / (ai + aj) * ((A 1%Z - B 1%Z) * (A 1%Z - B 1%Z)))).
  set (x2 := - (ai * aj / (ai + aj) * ((A 2%Z - B 2%Z) * (A 2%Z - B 2%Z)))).
  set (y0 := - ((ai + aj) * t2 * ((C 0%Z - P 0%Z) * (C 0%Z - P 0%Z)))).
  set (y1 := - ((ai + aj) * t2 * ((C 1%Z - P 1%Z) * (C 1%Z - P 1%Z)))).
  set (y2 := - ((ai + aj) * t2 * ((C 2%Z - P 2%Z) * (C 2%Z - P 2%Z)))).
  pose proof (exp_pos x0). pose proof (exp_pos x1). pose proof (exp_pos x2).
  pose proof (exp_pos y0). pose proof (exp_pos y1). pose proof (exp_pos y2).
  generalize dependent (exp x0). generalize dependent (exp x1). generalize dependent (exp x2).
  generalize dependent (exp y0). generalize dependent (exp y1). generalize dependent (exp y2). clear x0 x1 x2 y0 y1 y2.
  revert Hsp Hsa Hst Hp1 Hp2 Hp3. generalize (sqrt PI) (sqrt (ai + aj)) (sqrt (1 - t2)).
  intros sp sa st Hsp Hsa Hst Hp1 Hp2 Hp3 y2 Y2 y1 Y1 y0 Y0 x2 X2 x1 X1 x0 X0.
  rewrite <- Hsp, <- Hsa, <- Hst. field. repeat split; lra.
Qed.

Lemma nuc_real t ng li lj ci cj c0 chg zeta (u w : Z -> R) (C : Z -> R) (a : centre -> R) (A : centre -> Z -> R) (O : Z -> R) idx g gout empty :
  In t catalogue -> en_fam (t_e t) = F1nuc \/ en_fam (t_e t) = F1rinv -> ~ In (en_name (t_e t)) except_names -> ent_ng t = Some ng ->
  (0 <= li <= 15)%Z -> (0 <= lj <= 15)%Z -> 0 < a CI -> 0 < a CJ ->
  let e := init_int1e ng li lj ci cj in let x := mkgin e 0 a A O in let nc := Z.of_nat (length (g_rows (t_f t))) in
  (forall n, (0 <= n < nrys_roots e)%Z -> 0 <= u n /\ rd g (g_size e * 2 + n) = Some (w n)) ->
  (3 * nf e <= asize idx)%Z -> ((2 ^ GSHIFT ng + 1) * (3 * g_size e) <= asize g)%Z -> filled g ->
  (nf e * nc <= asize gout)%Z -> (empty = false -> filled gout) ->
  let p := a CI + a CJ in
  let P ax := (a CI * A CI ax + a CJ * A CJ ax) / p in
  let t2 n := tsq zeta (a CI) (a CJ) (u n) in
  let kappa n := nuc_weight p (t2 n) (square3 (fun ax => C ax - P ax)) (nuc_mod p zeta) (w n) in
  exists idx' g' gout' f,
    CINTg1e_index_xyz e idx = Some idx' /\
    R_nuc e chg zeta (c0 * pair_eij (square3 (fun ax => A CI ax - A CJ ax)) (a CI) (a CJ)) (a CI) (a CJ) u C (A CI) (A CJ) g = Some g' /\
    run_gout 0 1 Rplus Rmult Rminus IZR x (t_f t) empty idx' g' gout = Some gout' /\
    factor (t_e t) = Some f /\ Frame (fun q => 0 <= q < nf e * nc)%Z gout gout' /\
    forall (i j k : nat) ti tj s1 s2 q, nth_error (cart_list li) i = Some ti -> nth_error (cart_list lj) j = Some tj ->
      nth_error (components (t_d t) (sis (en_c2s1 (t_e t))) (sis (en_c2s2 (t_e t)))) k = Some (s1, s2, q) ->
      let pos := ((Z.of_nat j * Z.of_nat (length (cart_list li)) + Z.of_nat i) * nc + Z.of_nat k)%Z in
      exists v old, rd gout' pos = Some (old + v) /\ (if empty then old = 0 else rd gout pos = Some old) /\
        (cval (cqmul (qfac f) (phase (t_e t) s1 s2)) * RtoC v)%C =
        (RtoC (c0 * chg) * den a A O (attraction (fun n => gauss_s p (t2 n)) kappa C)
          (map Z.of_nat (seq 0 (Z.to_nat (nrys_roots e)))) (powers ti tj) q)%C.
Proof.
  intros Ht Hfam Hex En Hi Hj Ha Hb e x nc Hu Hidx Hs Hf Ho Hold p P t2 kappa.
  pose proof (proj1 (forallb_forall _ _) one_checked t Ht) as C1. unfold one_ok in C1.
  assert (C1' : (match g_kind (t_f t), hd_error (en_ng (t_e t)) with K2, Some g => ng_okb g && (POS_E2 g =? 0)%Z | _, _ => false end
           && negb (named parts_names t))%bool = true) by (destruct Hfam as [E|E]; rewrite E in C1; exact C1).
  clear C1. apply andb_true_iff in C1'. destruct C1' as [C1 C2]. apply negb_true_iff in C2.
  assert (C4 : named except_names t = false).
  { unfold named. apply Bool.not_true_iff_false. intros E. apply existsb_exists in E. destruct E as (s & Hs' & E).
    apply String.eqb_eq in E. apply Hex. rewrite E. exact Hs'. }
  destruct (g_kind (t_f t)) eqn:EK; try discriminate. unfold ent_ng in En. rewrite En in C1. apply andb_true_iff in C1.
  destruct C1 as [C1 C3]. apply ng_okb_ok in C1.
  destruct (idx_int1e ng li lj ci cj idx C1 Hi Hj Hidx) as (idx' & Ei & HT & _ & _). fold e in Ei, HT.
  set (fac := c0 * pair_eij (square3 (fun ax => A CI ax - A CJ ax)) (a CI) (a CJ)).
  pose proof C1 as (NI & NJ & _).
  assert (Hq : (0 <= Z.quot (li + IINC ng + (lj + JINC ng)) 2)%Z) by (apply Z.quot_pos; lia).
  assert (Hg3 : (3 * g_size e <= asize g)%Z).
  { assert (0 <= g_size e)%Z. { change (g_size e) with (let lic := li + IINC ng in let ljc := lj + JINC ng in
        let nroots := if 0 <? POS_E2 ng then POS_E2 ng else Z.quot (lic + ljc) 2 + 1 in
        let dli := if (lic >? ljc)%Z then lic + ljc + 1 else lic + 1 in
        let dlj := if (lic >? ljc)%Z then ljc + 1 else lic + ljc + 1 in nroots * dli * dlj)%Z.
      replace (POS_E2 ng) with 0%Z by lia. cbv zeta. cbn [Z.ltb Z.compare]. destruct (_ >? _)%Z; apply Z.mul_nonneg_nonneg; nia. }
    assert (0 <= 2 ^ GSHIFT ng)%Z by (apply Z.pow_nonneg; lia). nia. }
  destruct (proj1 (wp_exists _ _) (R_nuc_cells ng li lj ci cj ltac:(lia) ltac:(lia) chg zeta fac (a CI) (a CJ) u w C (A CI) (A CJ) g Ha Hb
    (fun n Hn => proj1 (Hu n Hn)) Hg3 (fun n Hn => proj2 (Hu n Hn)))) as (g' & Eg & Fg & Hc).
  fold e in Eg, Fg, Hc. fold p in Hc.
  set (W := fun n ax => RecSpec.origin 1 (w n * (2 * PI * chg * fac * nuc_mod p zeta / p)) ax) in *.
  set (N := fun n ax => exp (- (a CI * a CJ / (a CI + a CJ) * ((A CI ax - A CJ ax) * (A CI ax - A CJ ax)))) *
    exp (- (p * t2 n * ((C ax - P ax) * (C ax - P ax)))) * sqrt (PI * (1 - t2 n) / p)).
  set (s := fun n => if ((0 <=? n) && (n <? nrys_roots e))%Z then gauss_s p (t2 n) else 0).
  assert (Hs0 : forall n, (0 <= n < nrys_roots e)%Z -> s n = gauss_s p (t2 n)).
  { intros n Hn. unfold s. replace ((0 <=? n) && (n <? nrys_roots e))%Z with true by lia. reflexivity. }
  assert (Ht2 : forall n, (0 <= n < nrys_roots e)%Z -> 0 <= t2 n < 1).
  { intros n Hn. apply tsq_range; [lra|apply Hu, Hn]. }
  assert (Hsp : forall n, 0 <= s n).
  { intros n. unfold s. destruct ((0 <=? n) && (n <? nrys_roots e))%Z eqn:Eb; [|lra].
    specialize (Ht2 n ltac:(lia)). unfold gauss_s. apply Rmult_le_pos; [apply Rmult_le_pos; unfold p; lra|].
    apply Rlt_le, Rinv_0_lt_compat. lra. }
  assert (Hfull : filled g') by (apply (keeps_filled _ g g' (keeps_nuc e chg zeta fac (a CI) (a CJ) u C (A CI) (A CJ)) Eg Hf)).
  assert (CALL : call t ng false (fun cc => own cc li lj 0 0)%Z (fun cc => own cc ci cj 1 1)%Z x
            (pair_int (fun ax n => W n ax / N n ax) s C) (pow2 li lj) empty idx' g' gout).
  { apply (one_call t ng li lj ci cj a A O s C _ K2); try assumption; try congruence.
    - destruct Hfam as [E|E]; rewrite E; reflexivity.
    - destruct Hfam as [E|E]; rewrite E; reflexivity.
    - destruct Fg as [F1 _]. rewrite F1. exact Hs.
    - fold e. intros ax o i j Hax Hofs Bi Bj. cbn [ofs] in Hofs.
      destruct (Hc ax o i j Hax Hofs Bi Bj) as (v & I0 & I & Ev & HI0 & _ & HI & EV). rewrite Ev, EV. f_equal. fold (W o ax).
      rewrite (line_unique _ _ _ HI0 (nuc_norm _ (t2 o) (a CI) (a CJ) _ _ _ Ha Hb (Ht2 o Hofs) eq_refl)). fold p. fold (P ax) (N o ax).
      f_equal. symmetry. apply line_val. eapply line_ext; [|exact HI]. intros y. cbn beta.
      rewrite (Hs0 o Hofs). unfold nucfun. rewrite <- pow_pairfun. unfold gauss_s. fold (t2 o). ring. }
  pose proof (ent_ok_sound _ _ _ _ (ent_of_all t Ht C4) _ _ _ _ _ _ _ _ _ _ _ CALL ltac:(congruence)) as HC.
  destruct (computes_at t li lj ng ci cj a A O _ idx' g' gout empty _ Hi Hj ltac:(congruence) HC) as (gout' & f & Er & Ef & Hfr & Hv).
  exists idx', g', gout', f. repeat (split; [assumption|]).
  intros i j k ti tj s1 s2 q E1 E2 E3 pos. destruct (Hv i j k ti tj s1 s2 q E1 E2 E3) as (v & old & V1 & V2 & V3).
  exists v, old. split; [exact V1|]. split; [exact V2|]. rewrite V3, EK. cbn [roots].
  apply den_scale. intros m o Hin. apply in_map_iff in Hin. destruct Hin as (n & <- & Hn). apply in_seq in Hn.
  set (o := Z.of_nat n). assert (Bo : (0 <= o < nrys_roots e)%Z) by lia.
  unfold term, pair_int, attraction, kappa. rewrite (Hs0 o Bo). cbn [Z.eqb Pos.eqb].
  assert (EF : W o 0%Z / N o 0%Z * (W o 1%Z / N o 1%Z) * (W o 2%Z / N o 2%Z) =
      c0 * chg * nuc_weight p (t2 o) (square3 (fun ax => C ax - P ax)) (nuc_mod p zeta) (w o)).
  { exact (fac_nuc_ok (a CI) (a CJ) (A CI) (A CJ) C c0 chg (nuc_mod p zeta) (w o) (t2 o) Ha Hb (Ht2 o Bo)). }
  match goal with |- ?w0 * ?L0 * (?w1 * ?L1) * (?w2 * ?L2) = _ =>
    transitivity (w0 * w1 * w2 * (L0 * L1 * L2)); [ring|rewrite EF] end.
  ring.
Qed.
