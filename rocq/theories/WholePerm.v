(** WholePerm.v — exchanging the two shells of one electron exchanges the indices of the stored numbers. *)
From Coq Require Import Reals Lra QArith Qreals String FunctionalExtensionality.
From Coquelicot Require Import Coquelicot.
From Verif Require Import Base BasModel BasSpec EnvModel IdxModel IdxSpec CtrModel
  OptModel OptSpec OptPair ScreenSpec ScreenProof ScreenFinal OutModel OutSpec TabModel
  OpSpec RecModel RecSpec GaussInt Gauss2Int IntgModel IntgSpec IntgTab IntgStmt IntgAll IntgReal QuadSpec OperSpec OperModel Oper2e
  WholeModel WholeSpec WholeBatch Whole1e Whole2Model Whole2Batch Whole2Spec Whole4c Whole3c WholeOptModel WholeOptSpec WholeSame PropsWhole5.
Local Open Scope R_scope.

(** ** Sums in either order *)
Lemma lsum_swapN {F} (zero : F) add n m f : (forall a b, add a b = add b a) -> (forall a b c, add a (add b c) = add (add a b) c) -> (forall a, add a zero = a) ->
  lsumN zero add n (fun i => lsumN zero add m (fun j => f i j)) = lsumN zero add m (fun j => lsumN zero add n (fun i => f i j)).
Proof.
  intros Hc Ha H0.
  assert (Z0 : forall m, lsumN zero add m (fun _ => zero) = zero) by (induction m0 as [|m0 IH]; cbn [lsumN]; [reflexivity|rewrite IH; apply H0]).
  assert (P : forall m g h, lsumN zero add m (fun j => add (g j) (h j)) = add (lsumN zero add m g) (lsumN zero add m h)).
  { intros m0 g h. induction m0 as [|m0 IH]; cbn [lsumN]; [symmetry; apply H0|]. rewrite IH. rewrite !Ha. f_equal. rewrite <- !Ha. f_equal. apply Hc. }
  induction n as [|n IH]; cbn [lsumN]; [symmetry; apply Z0|]. rewrite IH, P. reflexivity.
Qed.
Lemma lsumR_swap n m f : lsum 0 Rplus n (fun i => lsum 0 Rplus m (fun j => f i j)) = lsum 0 Rplus m (fun j => lsum 0 Rplus n (fun i => f i j)).
Proof. unfold lsum. apply lsum_swapN; intros; ring. Qed.
Lemma csumz_swap n m f : csumz n (fun i => csumz m (fun j => f i j)) = csumz m (fun j => csumz n (fun i => f i j)).
Proof. unfold csumz, lsum. apply lsum_swapN; intros; ring. Qed.
Lemma T_swap l m l' m' (x : Z -> Z -> R) :
  apply_T 0%R Rplus Rmult sph_coef c2s_off CINTlen_cart l m (fun a => apply_T 0%R Rplus Rmult sph_coef c2s_off CINTlen_cart l' m' (fun b => x a b)) =
  apply_T 0%R Rplus Rmult sph_coef c2s_off CINTlen_cart l' m' (fun b => apply_T 0%R Rplus Rmult sph_coef c2s_off CINTlen_cart l m (fun a => x a b)).
Proof.
  unfold apply_T.
  etransitivity; [apply lsum_ext; intros a _; apply lsum_mulR|]. rewrite lsumR_swap. apply lsum_ext. intros b _.
  rewrite lsum_mulR. apply lsum_ext. intros a _. ring.
Qed.

(** ** The integral over the four functions *)
Definition m_one : mono := mkm [0; 0; 0; 0; 0; 0]%nat [[]; []; []; []; []; []; []; []; []; []; []; []].
Lemma word_one ax c : word_at m_one ax c = [].
Proof. unfold word_at. cbn [m_w m_one]. destruct (4 * Z.to_nat ax + cnum c)%nat as [|[|[|[|[|[|[|[|[|[|[|[|n]]]]]]]]]]]]; try reflexivity. destruct n; reflexivity. Qed.
Lemma fun_one a A O pw ax c : fun_at a A O pw m_one ax c = base a A pw ax c.
Proof. unfold fun_at. rewrite word_one. reflexivity. Qed.
Lemma rpow_one A : rpow A m_one = 1.
Proof.
  assert (E : forall n, nth n (m_k m_one) 0%nat = 0%nat) by (intros [|[|[|[|[|[|n]]]]]]; try reflexivity; destruct n; reflexivity).
  unfold rpow, kpow. rewrite !E. cbn [pow]. ring.
Qed.
Lemma coul2_ext op f g v : (forall ax x y, f ax x y = g ax x y) -> coul2 op f v -> coul2 op g v.
Proof.
  intros E (I & H1 & H2). exists I. split; [|exact H2]. intros ax s Hax. eapply plane_ext; [|exact (H1 ax s Hax)]. intros x y. cbv beta. rewrite E. reflexivity.
Qed.
Lemma term2_one a A O pw op v a' A' pw' :
  (forall ax x y, base a A pw ax CI x * base a A pw ax CJ x * (base a A pw ax CK y * base a A pw ax CL y) =
                  base a' A' pw' ax CI x * base a' A' pw' ax CJ x * (base a' A' pw' ax CK y * base a' A' pw' ax CL y)) ->
  term2 a A O pw op m_one v -> term2 a' A' O pw' op m_one v.
Proof.
  intros E (I & H1 & H2). exists I. split; [|rewrite rpow_one in *; exact H2]. eapply coul2_ext; [|exact H1]. intros ax x y. cbv beta. rewrite !fun_one. apply E.
Qed.
Lemma value_one (P P' : mono -> R -> Prop) c D : (forall v, P m_one v -> P' m_one v) -> value P [(c, m_one)] D -> value P' [(c, m_one)] D.
Proof. intros H X. inversion X as [|c' m' q' v w Hv Hw]; subst. inversion Hw; subst. constructor; [auto|constructor]. Qed.
Lemma eri4_bra V ev i j k l ip jp kp lp ti tj tk tl c D :
  eri4 V ev j i k l jp ip kp lp tj ti tk tl [(c, m_one)] D -> eri4 V ev i j k l ip jp kp lp ti tj tk tl [(c, m_one)] D.
Proof. unfold eri4. apply value_one. intros v. apply term2_one. intros ax x y. unfold base. cbn [exps4 centres4 powers4]. ring. Qed.
Lemma eri4_ket V ev i j k l ip jp kp lp ti tj tk tl c D :
  eri4 V ev i j l k ip jp lp kp ti tj tl tk [(c, m_one)] D -> eri4 V ev i j k l ip jp kp lp ti tj tk tl [(c, m_one)] D.
Proof. unfold eri4. apply value_one. intros v. apply term2_one. intros ax x y. unfold base. cbn [exps4 centres4 powers4]. ring. Qed.
Lemma eri3_bra V ev i j k ip jp kp ti tj tk c D :
  eri3 V ev j i k jp ip kp tj ti tk [(c, m_one)] D -> eri3 V ev i j k ip jp kp ti tj tk [(c, m_one)] D.
Proof. unfold eri3. apply value_one. intros v. apply term2_one. intros ax x y. unfold base. cbn [exps4 centres4 powers4]. ring. Qed.

(** ** The contracted integrals *)
Lemma summed4_bra V ev keep i j k l ic jc kc lc (p q : Z -> Z -> Z -> Z -> C -> Prop) S :
  (forall ip jp kp lp D, p jp ip kp lp D -> q ip jp kp lp D) ->
  summed4 V ev keep j i k l jc ic kc lc p S -> summed4 V ev (fun ip jp kp lp => keep jp ip kp lp) i j k l ic jc kc lc q S.
Proof.
  intros H (D & K & X & ->). exists (fun ip jp kp lp => D jp ip kp lp), (fun ip jp kp lp => K jp ip kp lp). split.
  - intros ip jp kp lp H1 H2 H3 H4. destruct (X jp ip kp lp H2 H1 H3 H4) as [X1 X2]. split; [exact X1|]. intros Y. apply H, X2, Y.
  - apply csumz_ext. intros lp _. apply csumz_ext. intros kp _. rewrite csumz_swap. apply csumz_ext. intros jp _. apply csumz_ext. intros ip _.
    destruct (K jp ip kp lp); [|reflexivity]. f_equal. f_equal. ring.
Qed.
Lemma summed4_ket V ev keep i j k l ic jc kc lc (p q : Z -> Z -> Z -> Z -> C -> Prop) S :
  (forall ip jp kp lp D, p ip jp lp kp D -> q ip jp kp lp D) ->
  summed4 V ev keep i j l k ic jc lc kc p S -> summed4 V ev (fun ip jp kp lp => keep ip jp lp kp) i j k l ic jc kc lc q S.
Proof.
  intros H (D & K & X & ->). exists (fun ip jp kp lp => D ip jp lp kp), (fun ip jp kp lp => K ip jp lp kp). split.
  - intros ip jp kp lp H1 H2 H3 H4. destruct (X ip jp lp kp H1 H2 H4 H3) as [X1 X2]. split; [exact X1|]. intros Y. apply H, X2, Y.
  - rewrite csumz_swap. apply csumz_ext. intros lp _. apply csumz_ext. intros kp _. apply csumz_ext. intros jp _. apply csumz_ext. intros ip _.
    destruct (K ip jp lp kp); [|reflexivity]. f_equal. f_equal. ring.
Qed.
Lemma summed3_bra V ev keep i j k ic jc kc (p q : Z -> Z -> Z -> C -> Prop) S :
  (forall ip jp kp D, p jp ip kp D -> q ip jp kp D) ->
  summed3 V ev keep j i k jc ic kc p S -> summed3 V ev (fun ip jp kp => keep jp ip kp) i j k ic jc kc q S.
Proof.
  intros H (D & K & X & ->). exists (fun ip jp kp => D jp ip kp), (fun ip jp kp => K jp ip kp). split.
  - intros ip jp kp H1 H2 H3. destruct (X jp ip kp H2 H1 H3) as [X1 X2]. split; [exact X1|]. intros Y. apply H, X2, Y.
  - apply csumz_ext. intros kp _. rewrite csumz_swap. apply csumz_ext. intros jp _. apply csumz_ext. intros ip _.
    destruct (K jp ip kp); [|reflexivity]. f_equal. f_equal. ring.
Qed.

(** ** The values of an entry point without operators *)
Definition plain (t : ent) : Prop := components (t_d t) (sis (en_c2s1 (t_e t))) (sis (en_c2s2 (t_e t))) = [(S1, S1, [(cq1, m_one)])].
Lemma plain_nth t kk s1 s2 q : plain t -> nth_error (components (t_d t) (sis (en_c2s1 (t_e t))) (sis (en_c2s2 (t_e t)))) kk = Some (s1, s2, q) -> q = [(cq1, m_one)].
Proof. intros -> H. destruct kk as [|[|kk]]; [injection H; auto|discriminate..]. Qed.
Lemma ok4_bra V ev t f i j k l c keep Y : plain t -> ok4 V ev t f j i k l c keep Y ->
  ok4 V ev t f i j k l c (fun ip jp kp lp => keep jp ip kp lp) (fun n ic jc kc lc a b c d => Y n jc ic kc lc b a c d).
Proof.
  intros Hp H a b c' d kk ic jc kc lc ti tj tk tl s1 s2 q E1 E2 E3 E4 E5. destruct (H b a c' d kk jc ic kc lc tj ti tk tl s1 s2 q E2 E1 E3 E4 E5) as (S & X1 & X2).
  exists S. split; [|exact X2]. rewrite (plain_nth _ _ _ _ _ Hp E5) in *. eapply summed4_bra; [|exact X1]. intros ip jp kp lp D. cbv beta. exact (eri4_bra V ev i j k l ip jp kp lp ti tj tk tl cq1 D).
Qed.
Lemma ok4_ket V ev t f i j k l c keep Y : plain t -> ok4 V ev t f i j l k c keep Y ->
  ok4 V ev t f i j k l c (fun ip jp kp lp => keep ip jp lp kp) (fun n ic jc kc lc a b c d => Y n ic jc lc kc a b d c).
Proof.
  intros Hp H a b c' d kk ic jc kc lc ti tj tk tl s1 s2 q E1 E2 E3 E4 E5. destruct (H a b d c' kk ic jc lc kc ti tj tl tk s1 s2 q E1 E2 E4 E3 E5) as (S & X1 & X2).
  exists S. split; [|exact X2]. rewrite (plain_nth _ _ _ _ _ Hp E5) in *. eapply summed4_ket; [|exact X1]. intros ip jp kp lp D. cbv beta. exact (eri4_ket V ev i j k l ip jp kp lp ti tj tk tl cq1 D).
Qed.
Lemma ok3_bra V ev t f i j k c keep Y : plain t -> ok3 V ev t f j i k c keep Y ->
  ok3 V ev t f i j k c (fun ip jp kp => keep jp ip kp) (fun n ic jc kc a b c => Y n jc ic kc b a c).
Proof.
  intros Hp H a b c' kk ic jc kc ti tj tk s1 s2 q E1 E2 E3 E5. destruct (H b a c' kk jc ic kc tj ti tk s1 s2 q E2 E1 E3 E5) as (S & X1 & X2).
  exists S. split; [|exact X2]. rewrite (plain_nth _ _ _ _ _ Hp E5) in *. eapply summed3_bra; [|exact X1]. intros ip jp kp D. cbv beta. exact (eri3_bra V ev i j k ip jp kp ti tj tk cq1 D).
Qed.

(** ** The screening *)
Lemma dist_sq_sym x y : dist_sq x y = dist_sq y x.
Proof. unfold dist_sq. ring. Qed.
Lemma pair_est_sym V ev lm i j L ip jp : pair_est V ev lm i j L ip jp = pair_est V ev lm j i L jp ip.
Proof.
  unfold pair_est, estimate, log_size. rewrite (dist_sq_sym (ctr V ev i) (ctr V ev j)), (Rplus_comm (last_ex V ev i) (last_ex V ev j)),
    (Rplus_comm (ex V ev i ip) (ex V ev j jp)), (Rmult_comm (ex V ev i ip) (ex V ev j jp)). ring.
Qed.
Lemma raised_sym V ev i j L o C : raised V ev i j L o C = raised V ev j i L o C.
Proof. unfold raised. rewrite (dist_sq_sym (ctr V ev i) (ctr V ev j)), (Rplus_comm (last_ex V ev i) (last_ex V ev j)). reflexivity. Qed.
Lemma centre_sym a b A B ax : product_centre a b A B ax = product_centre b a B A ax.
Proof. unfold product_centre. rewrite (Rplus_comm a b), (Rplus_comm (a * A ax)). reflexivity. Qed.
Lemma near_P w p q P P' Q Q' x : (forall ax, P ax = P' ax) -> (forall ax, Q ax = Q' ax) -> near_enough w p q P Q x <-> near_enough w p q P' Q' x.
Proof. intros E E'. unfold near_enough, QuadSpec.dist2. rewrite !E, !E'. tauto. Qed.
Definition ng0 : ngT := mkng 0 0 0 0 0 1 1 1.
Lemma kept4_bra V ev lm o md i j k l ip jp kp lp : kept4 V ev lm ng0 o md j i k l jp ip kp lp <-> kept4 V ev lm ng0 o md i j k l ip jp kp lp.
Proof.
  unfold kept4, pair_degree. cbn [IINC JINC KINC LINC ng0]. rewrite !Z.add_0_r, (Z.add_comm (v_l V j) (v_l V i)), (Rplus_comm (ex V ev j jp)).
  destruct md as [|stored].
  - rewrite (pair_est_sym V ev lm j i), (raised_sym V ev j i). rewrite (near_P _ _ _ _ _ _ _ _ (centre_sym (ex V ev j jp) (ex V ev i ip) (ctr V ev j) (ctr V ev i)) (fun ax => eq_refl)). reflexivity.
  - rewrite (pair_est_sym V ev lm j i). rewrite (near_P _ _ _ _ _ _ _ _ (centre_sym (ex V ev j jp) (ex V ev i ip) (ctr V ev j) (ctr V ev i)) (fun ax => eq_refl)). reflexivity.
Qed.
Lemma kept4_ket V ev lm o md i j k l ip jp kp lp : kept4 V ev lm ng0 o md i j l k ip jp lp kp <-> kept4 V ev lm ng0 o md i j k l ip jp kp lp.
Proof.
  unfold kept4, pair_degree. cbn [IINC JINC KINC LINC ng0]. rewrite !Z.add_0_r, (Z.add_comm (v_l V l) (v_l V k)), (Rplus_comm (ex V ev l lp)).
  destruct md as [|stored].
  - rewrite (pair_est_sym V ev lm l k). rewrite (near_P _ _ _ _ _ _ _ _ (fun ax => eq_refl) (centre_sym (ex V ev l lp) (ex V ev k kp) (ctr V ev l) (ctr V ev k))). reflexivity.
  - rewrite (pair_est_sym V ev lm l k). rewrite (near_P _ _ _ _ _ _ _ _ (fun ax => eq_refl) (centre_sym (ex V ev l lp) (ex V ev k kp) (ctr V ev l) (ctr V ev k))). reflexivity.
Qed.
Lemma kept3_bra V ev lm o md i j k ip jp kp : kept3 V ev lm ng0 o md j i k jp ip kp <-> kept3 V ev lm ng0 o md i j k ip jp kp.
Proof.
  unfold kept3, pair_degree. cbn [IINC JINC KINC LINC ng0]. rewrite !Z.add_0_r, (Z.add_comm (v_l V j) (v_l V i)), (Rplus_comm (ex V ev j jp)).
  rewrite (pair_est_sym V ev lm j i), (raised_sym V ev j i). rewrite (near_P _ _ _ _ _ _ _ _ (centre_sym (ex V ev j jp) (ex V ev i ip) (ctr V ev j) (ctr V ev i)) (fun ax => eq_refl)). reflexivity.
Qed.

(** ** The environments of the two calls *)
Lemma env_bra s li lj lk ll ci cj ck cl ci' cj' ck' cl' :
  rys_order (init_int2e s ng0 lj li lk ll ci' cj' ck' cl') = rys_order (init_int2e s ng0 li lj lk ll ci cj ck cl) /\
  nrys_roots (init_int2e s ng0 lj li lk ll ci' cj' ck' cl') = nrys_roots (init_int2e s ng0 li lj lk ll ci cj ck cl).
Proof. unfold init_int2e, init_4c. cbn [rys_order nrys_roots IINC JINC KINC LINC ng0]. rewrite !Z.add_0_r, (Z.add_comm lj li). split; reflexivity. Qed.
Lemma env_ket s li lj lk ll ci cj ck cl ci' cj' ck' cl' :
  rys_order (init_int2e s ng0 li lj ll lk ci' cj' ck' cl') = rys_order (init_int2e s ng0 li lj lk ll ci cj ck cl) /\
  nrys_roots (init_int2e s ng0 li lj ll lk ci' cj' ck' cl') = nrys_roots (init_int2e s ng0 li lj lk ll ci cj ck cl).
Proof.
  unfold init_int2e, init_4c. cbn [rys_order nrys_roots IINC JINC KINC LINC ng0]. rewrite !Z.add_0_r. replace (li + lj + ll + lk)%Z with (li + lj + lk + ll)%Z by ring. split; reflexivity.
Qed.
Lemma env3_bra s li lj lk ci cj ck ci' cj' ck' :
  rys_order (init_int3c2e s ng0 lj li lk ci' cj' ck') = rys_order (init_int3c2e s ng0 li lj lk ci cj ck) /\
  nrys_roots (init_int3c2e s ng0 lj li lk ci' cj' ck') = nrys_roots (init_int3c2e s ng0 li lj lk ci cj ck).
Proof. unfold init_int3c2e. cbn [rys_order nrys_roots IINC JINC KINC LINC ng0]. rewrite !Z.add_0_r, (Z.add_comm lj li). split; reflexivity. Qed.

(** int2e and int3c2e *)
Lemma plain_2e : plain e_int2e. Proof. vm_compute. reflexivity. Qed.
Lemma plain_3c : plain e_int3c2e. Proof. vm_compute. reflexivity. Qed.
Lemma cat_2e : In e_int2e catalogue. Proof. apply (nth_error_In catalogue 2). reflexivity. Qed.
Lemma cat_3c : In e_int3c2e catalogue. Proof. apply (nth_error_In catalogue 5). reflexivity. Qed.
Lemma name_2e : ~ In (en_name (t_e e_int2e)) except_names.
Proof. intros H. cbn in H. repeat (destruct H as [H|H]; [discriminate H|]). exact H. Qed.
Lemma name_3c : ~ In (en_name (t_e e_int3c2e)) except_names.
Proof. intros H. cbn in H. repeat (destruct H as [H|H]; [discriminate H|]). exact H. Qed.

(** ** The values of two calls with exchanged shells *)
Definition sw {A} (s : bool) (x y : A) : A := if s then y else x.
Lemma Y_perm4 V ev lm f o md (sb sk : bool) i j k l c Y1 Y2 : factor (t_e e_int2e) = Some f ->
  (0 <= v_l V i <= 15)%Z -> (0 <= v_l V j <= 15)%Z -> (0 <= v_l V k <= 15)%Z -> (0 <= v_l V l <= 15)%Z ->
  ok4 V ev e_int2e f i j k l c (kept4 V ev lm ng0 o md i j k l) Y1 ->
  ok4 V ev e_int2e f (sw sb i j) (sw sb j i) (sw sk k l) (sw sk l k) c (kept4 V ev lm ng0 o md (sw sb i j) (sw sb j i) (sw sk k l) (sw sk l k)) Y2 ->
  forall ic jc kc lc a b c' d, (0 <= a < CINTlen_cart (v_l V i))%Z -> (0 <= b < CINTlen_cart (v_l V j))%Z -> (0 <= c' < CINTlen_cart (v_l V k))%Z -> (0 <= d < CINTlen_cart (v_l V l))%Z ->
    Y1 0%Z ic jc kc lc a b c' d = Y2 0%Z (sw sb ic jc) (sw sb jc ic) (sw sk kc lc) (sw sk lc kc) (sw sb a b) (sw sb b a) (sw sk c' d) (sw sk d c').
Proof.
  intros Ef Hi Hj Hk Hl O1 O2 ic jc kc lc a b c' d Ha Hb Hc Hd.
  assert (G : exists keep, (forall ip jp kp lp, kept4 V ev lm ng0 o md i j k l ip jp kp lp <-> keep ip jp kp lp) /\
     ok4 V ev e_int2e f i j k l c keep (fun n ic jc kc lc a b c' d => Y2 n (sw sb ic jc) (sw sb jc ic) (sw sk kc lc) (sw sk lc kc) (sw sb a b) (sw sb b a) (sw sk c' d) (sw sk d c'))).
  { destruct sb, sk; cbn [sw] in O2 |- *.
    - eexists. split; [|exact (ok4_bra _ _ _ _ _ _ _ _ _ _ _ plain_2e (ok4_ket _ _ _ _ _ _ _ _ _ _ _ plain_2e O2))].
      intros ip jp kp lp. cbv beta. rewrite kept4_ket, kept4_bra. reflexivity.
    - eexists. split; [|exact (ok4_bra _ _ _ _ _ _ _ _ _ _ _ plain_2e O2)]. intros ip jp kp lp. cbv beta. rewrite kept4_bra. reflexivity.
    - eexists. split; [|exact (ok4_ket _ _ _ _ _ _ _ _ _ _ _ plain_2e O2)]. intros ip jp kp lp. cbv beta. rewrite kept4_ket. reflexivity.
    - eexists. split; [|exact O2]. intros ip jp kp lp. reflexivity. }
  destruct G as (keep & Hk' & O3).
  refine (Y_same4 V ev e_int2e f i j k l c _ keep Y1 _ cat_2e (or_introl eq_refl) Ef Hi Hj Hk Hl (fun ip jp kp lp _ _ _ _ => Hk' ip jp kp lp) O1 O3 0%Z ic jc kc lc a b c' d _ Ha Hb Hc Hd).
  split; [apply Z.le_refl|reflexivity].
Qed.
Lemma Y_perm3 V ev lm f o md i j k c Y1 Y2 : factor (t_e e_int3c2e) = Some f ->
  (0 <= v_l V i <= 15)%Z -> (0 <= v_l V j <= 15)%Z -> (0 <= v_l V k <= 15)%Z ->
  ok3 V ev e_int3c2e f i j k c (kept3 V ev lm ng0 o md i j k) Y1 -> ok3 V ev e_int3c2e f j i k c (kept3 V ev lm ng0 o md j i k) Y2 ->
  forall ic jc kc a b c', (0 <= a < CINTlen_cart (v_l V i))%Z -> (0 <= b < CINTlen_cart (v_l V j))%Z -> (0 <= c' < CINTlen_cart (v_l V k))%Z ->
    Y1 0%Z ic jc kc a b c' = Y2 0%Z jc ic kc b a c'.
Proof.
  intros Ef Hi Hj Hk O1 O2 ic jc kc a b c' Ha Hb Hc. pose proof (ok3_bra _ _ _ _ _ _ _ _ _ _ plain_3c O2) as O3.
  refine (Y_same3 V ev e_int3c2e f i j k c _ _ Y1 _ cat_3c (or_intror (or_introl eq_refl)) Ef Hi Hj Hk _ O1 O3 0%Z ic jc kc a b c' _ Ha Hb Hc).
  - intros ip jp kp _ _ _. cbv beta. rewrite kept3_bra. reflexivity.
  - split; [apply Z.le_refl|reflexivity].
Qed.

(** ** The transformation to spherical functions in another order *)
Notation TT := (apply_T 0%R Rplus Rmult sph_coef c2s_off CINTlen_cart).
Lemma TT_ext l m x y : (forall a, (0 <= a < CINTlen_cart l)%Z -> x a = y a) -> TT l m x = TT l m y.
Proof. intros H. unfold apply_T. apply lsum_ext. intros a Ha. rewrite (H a Ha). reflexivity. Qed.
Lemma TT_bra li lj lk ll I J K L (y : Z -> Z -> Z -> Z -> R) :
  TT li I (fun a => TT lk K (fun c => TT ll L (fun d => TT lj J (fun b => y a b c d)))) =
  TT lj J (fun b => TT lk K (fun c => TT ll L (fun d => TT li I (fun a => y a b c d)))).
Proof.
  transitivity (TT li I (fun a => TT lj J (fun b => TT lk K (fun c => TT ll L (fun d => y a b c d))))).
  - apply TT_ext. intros a _. transitivity (TT lk K (fun c => TT lj J (fun b => TT ll L (fun d => y a b c d)))); [|apply T_swap]. apply TT_ext. intros c _. apply T_swap.
  - rewrite T_swap. apply TT_ext. intros b _. rewrite T_swap. apply TT_ext. intros c _. apply T_swap.
Qed.
Lemma TT_ket li lj lk ll I J K L (y : Z -> Z -> Z -> Z -> R) :
  TT li I (fun a => TT lk K (fun c => TT ll L (fun d => TT lj J (fun b => y a b c d)))) =
  TT li I (fun a => TT ll L (fun d => TT lk K (fun c => TT lj J (fun b => y a b c d)))).
Proof. apply TT_ext. intros a _. apply T_swap. Qed.
Lemma TT_bra3 li lj lk I J K (y : Z -> Z -> Z -> R) :
  TT li I (fun a => TT lk K (fun c => TT lj J (fun b => y a b c))) = TT lj J (fun b => TT lk K (fun c => TT li I (fun a => y a b c))).
Proof.
  transitivity (TT li I (fun a => TT lj J (fun b => TT lk K (fun c => y a b c)))).
  - apply TT_ext. intros a _. apply T_swap.
  - rewrite T_swap. apply TT_ext. intros b _. apply T_swap.
Qed.

(** ** One electron: int1e_ovlp, int1e_nuc and int1e_rinv *)
Lemma den_one a A O pw a' A' pw' :
  (forall ax x, base a A pw ax CI x * base a A pw ax CJ x = base a' A' pw' ax CI x * base a' A' pw' ax CJ x) ->
  den a A O overlap [0%Z] pw [(cq1, m_one)] = den a' A' O overlap [0%Z] pw' [(cq1, m_one)].
Proof.
  intros H. assert (E : forall n, nth n (m_k m_one) 0%nat = 0%nat) by (intros [|[|[|[|[|[|n]]]]]]; try reflexivity; destruct n; reflexivity).
  assert (T : forall ax, term a A O overlap pw m_one 0 ax = term a' A' O overlap pw' m_one 0 ax).
  { intros ax. unfold term, overlap. rewrite !word_one. cbn [word_fun fold_right]. f_equal. apply functional_extensionality. intros x. apply H. }
  unfold den. cbn [map fst snd]. unfold mval, kpow. rewrite !E. cbn [pow map]. rewrite !T. reflexivity.
Qed.
Lemma coul1_ext op P f g v : (forall ax x, f ax x = g ax x) -> coul1 op P f v -> coul1 op P g v.
Proof. intros E (I & H1 & H2). exists I. split; [|exact H2]. intros ax s Hax. eapply line_ext; [|exact (H1 ax s Hax)]. intros x. cbv beta. rewrite E. reflexivity. Qed.
Lemma term1_one a A O pw op P v a' A' pw' :
  (forall ax x, base a A pw ax CI x * base a A pw ax CJ x = base a' A' pw' ax CI x * base a' A' pw' ax CJ x) ->
  term1 a A O pw op P m_one v -> term1 a' A' O pw' op P m_one v.
Proof.
  intros E (I & H1 & H2). exists I. split; [|rewrite rpow_one in *; exact H2]. eapply coul1_ext; [|exact H1]. intros ax x. cbv beta. rewrite !fun_one. apply E.
Qed.
Lemma pair_sym V ev i j ip jp ti tj ax x :
  base (exps2 V ev j i jp ip) (centres2 V ev j i) (powers tj ti) ax CI x * base (exps2 V ev j i jp ip) (centres2 V ev j i) (powers tj ti) ax CJ x =
  base (exps2 V ev i j ip jp) (centres2 V ev i j) (powers ti tj) ax CI x * base (exps2 V ev i j ip jp) (centres2 V ev i j) (powers ti tj) ax CJ x.
Proof. unfold base. cbn [exps2 centres2 powers]. unfold phi. ring. Qed.
Lemma pot_sym V ev at_ i j ip jp ia ti tj D :
  in_potential at_ ev (exps2 V ev j i jp ip) (centres2 V ev j i) ia tj ti [(cq1, m_one)] D ->
  in_potential at_ ev (exps2 V ev i j ip jp) (centres2 V ev i j) ia ti tj [(cq1, m_one)] D.
Proof.
  intros (chg & zeta & P & W & X1 & X2 & X3). exists chg, zeta, P, W. split; [exact X1|]. split; [|exact X3]. revert X2. apply value_one. intros v.
  apply term1_one. intros ax x. apply pair_sym.
Qed.
Lemma prim_sym V ev at_ natm fam i j ip jp ti tj D :
  prim_integral V ev at_ natm fam j i jp ip tj ti [(cq1, m_one)] D -> prim_integral V ev at_ natm fam i j ip jp ti tj [(cq1, m_one)] D.
Proof.
  unfold prim_integral. destruct fam; try (intros X; exact (False_ind _ X)).
  - intros ->. apply den_one. intros ax x. apply pair_sym.
  - apply pot_sym.
  - intros (Di & X1 & X2). exists Di. split; [|exact X2]. intros ia Hia. apply pot_sym, X1, Hia.
Qed.
Lemma contracted2_sym V ev keep i j ic jc (p q : Z -> Z -> C -> Prop) S :
  (forall ip jp D, p jp ip D -> q ip jp D) -> contracted2 V ev keep j i jc ic p S -> contracted2 V ev (fun ip jp => keep jp ip) i j ic jc q S.
Proof.
  intros H (D & K & X & ->). exists (fun ip jp => D jp ip), (fun ip jp => K jp ip). split.
  - intros ip jp H1 H2. destruct (X jp ip H2 H1) as [X1 X2]. split; [apply H, X1|exact X2].
  - rewrite csumz_swap. apply csumz_ext. intros jp _. apply csumz_ext. intros ip _. destruct (K jp ip); [|reflexivity]. f_equal. f_equal. ring.
Qed.
Definition plain_1e : list ent := [e_int1e_ovlp; e_int1e_nuc; e_int1e_rinv].
Lemma plain_in t : In t plain_1e -> In t catalogue /\ plain t /\ (en_fam (t_e t) = F1e \/ en_fam (t_e t) = F1rinv \/ en_fam (t_e t) = F1nuc) /\
  ~ In (en_name (t_e t)) except_names /\ length (g_rows (t_f t)) = 1%nat /\ cval (phase (t_e t) S1 S1) <> RtoC 0 /\
  exists ng, ent_ng t = Some ng /\ IINC ng = 0%Z /\ JINC ng = 0%Z.
Proof.
  assert (N : forall t, cval (phase (t_e t) S1 S1) = RtoC 1 -> cval (phase (t_e t) S1 S1) <> RtoC 0).
  { intros t0 -> X. apply (f_equal fst) in X. cbn in X. lra. }
  assert (P1 : cval ((1 # 1)%Q, (0 # 1)%Q) = RtoC 1). { unfold cval, RtoC, Q2R. cbn. f_equal; lra. }
  intros [<-|[<-|[<-|[]]]].
  - split; [apply (nth_error_In catalogue 0); reflexivity|]. split; [vm_compute; reflexivity|]. split; [left; reflexivity|].
    split; [intros H; cbn in H; repeat (destruct H as [H|H]; [discriminate H|]); exact H|]. split; [reflexivity|]. split; [apply N; exact P1|]. eexists. split; [reflexivity|split; reflexivity].
  - split; [apply (nth_error_In catalogue 1); reflexivity|]. split; [vm_compute; reflexivity|]. split; [right; right; reflexivity|].
    split; [intros H; cbn in H; repeat (destruct H as [H|H]; [discriminate H|]); exact H|]. split; [reflexivity|]. split; [apply N; exact P1|]. eexists. split; [reflexivity|split; reflexivity].
  - split; [apply (nth_error_In catalogue 164); reflexivity|]. split; [vm_compute; reflexivity|]. split; [right; left; reflexivity|].
    split; [intros H; cbn in H; repeat (destruct H as [H|H]; [discriminate H|]); exact H|]. split; [reflexivity|]. split; [apply N; exact P1|]. eexists. split; [reflexivity|split; reflexivity].
Qed.
(** what C62 says about the values *)
Definition ok2 V ev at_ natm t i j (c : R) (keep : Z -> Z -> Prop) (Y : Z -> Z -> Z -> Z -> Z -> R) : Prop :=
  forall (a b k : nat) ic jc ti tj s1 s2 q, nth_error (cart_list (v_l V i)) a = Some ti -> nth_error (cart_list (v_l V j)) b = Some tj ->
     nth_error (components (t_d t) (sis (en_c2s1 (t_e t))) (sis (en_c2s2 (t_e t)))) k = Some (s1, s2, q) ->
     exists S, contracted2 V ev keep i j ic jc (fun ip jp => prim_integral V ev at_ natm (en_fam (t_e t)) i j ip jp ti tj q) S /\
       (cval (phase (t_e t) s1 s2) * RtoC (Y (Z.of_nat k) ic jc (Z.of_nat a) (Z.of_nat b)) = RtoC c * S)%C.
Lemma Y_perm2 V ev at_ natm t i j c (k1 k2 : Z -> Z -> Prop) Y1 Y2 : In t plain_1e -> (0 <= v_l V i)%Z -> (0 <= v_l V j)%Z -> (forall ip jp, k2 jp ip <-> k1 ip jp) ->
  ok2 V ev at_ natm t i j c k1 Y1 -> ok2 V ev at_ natm t j i c k2 Y2 ->
  forall ic jc a b, (0 <= a < CINTlen_cart (v_l V i))%Z -> (0 <= b < CINTlen_cart (v_l V j))%Z -> Y1 0%Z ic jc a b = Y2 0%Z jc ic b a.
Proof.
  intros Ht Hi Hj Hk O1 O2 ic jc a b Ha Hb. destruct (plain_in t Ht) as (_ & Hp & _ & _ & _ & Hph & _).
  destruct (cart_nth _ _ Hi Ha) as [ti E1]. destruct (cart_nth _ _ Hj Hb) as [tj E2]. unfold plain in Hp.
  assert (E3 : nth_error (components (t_d t) (sis (en_c2s1 (t_e t))) (sis (en_c2s2 (t_e t)))) 0 = Some (S1, S1, [(cq1, m_one)])) by (rewrite Hp; reflexivity).
  destruct (O1 _ _ 0%nat ic jc _ _ _ _ _ E1 E2 E3) as (S & X1 & X2). destruct (O2 _ _ 0%nat jc ic _ _ _ _ _ E2 E1 E3) as (S' & X3 & X4).
  assert (ES : S = S').
  { refine (contracted_unique V ev at_ natm (en_fam (t_e t)) i j k1 ic jc ti tj [(cq1, m_one)] S S' X1 _).
    destruct (contracted2_sym V ev k2 i j ic jc _ (fun ip jp => prim_integral V ev at_ natm (en_fam (t_e t)) i j ip jp ti tj [(cq1, m_one)]) S' (fun ip jp D => prim_sym V ev at_ natm _ i j ip jp ti tj D) X3) as (D & K & Z1 & Z2).
    exists D, K. split; [|exact Z2]. intros ip jp H1 H2. destruct (Z1 ip jp H1 H2) as [Z3 Z4]. split; [exact Z3|]. rewrite <- Hk. exact Z4. }
  rewrite !Z2Nat.id in X2, X4 by lia. cbn [Z.of_nat] in X2, X4. rewrite ES, <- X4 in X2. apply C_cancel in X2; [|exact Hph]. apply (f_equal fst) in X2. exact X2.
Qed.
