(** TabProof.v — the table holds real solid harmonics, to double precision. *)
From Verif Require Import Base BasModel BasSpec BasProof OutModel OutSpec SphProof PiBound TrigInt TabSph TabModel TabSpec TabPoly.
From Coq Require Import Reals Lra.
From Coquelicot Require Import Coquelicot.
Local Open Scope R_scope.

(** ** The rows of the table *)
Definition nkeys (l : Z) : list nt :=
  map (fun t : triple => (Z.to_nat (fst (fst t)), Z.to_nat (snd (fst t)), Z.to_nat (snd t))) (cart_list l).
Definition row (u : list Z) (l m : Z) : list Z :=
  firstn (Z.to_nat (CINTlen_cart l)) (skipn (Z.to_nat (c2s_off l + m * CINTlen_cart l)) u).
Definition row_pol (u : list Z) (l m : Z) : pol := combine (nkeys l) (row u l m).

Lemma units_length : length g_trans_cart2sph_dec = Z.to_nat g_trans_size.
Proof. vm_cast_no_check (eq_refl (Z.to_nat g_trans_size)). Qed.
Lemma in_zseq n x : In x (zseq n) <-> (0 <= x < n)%Z.
Proof.
  unfold zseq. rewrite in_map_iff. split.
  - intros [k [<- H]]. apply in_seq in H. lia.
  - intros H. exists (Z.to_nat x). split; [lia|]. apply in_seq. lia.
Qed.
Lemma nkeys_length l : (0 <= l <= 15)%Z -> length (nkeys l) = Z.to_nat (CINTlen_cart l).
Proof.
  intros Hl. unfold nkeys. rewrite map_length. pose proof (cart_list_complete l ltac:(lia)) as [_ [_ [_ H]]]. lia.
Qed.

Definition nzp (p : pol) : pol := filter (fun c => negb (snd c =? 0)%Z) p.
Lemma ev_nzp p x y z : ev (nzp p) x y z = ev p x y z.
Proof.
  induction p as [|c p IH]; [reflexivity|]. cbn [nzp filter]. rewrite ev_cons.
  destruct (snd c =? 0)%Z eqn:E; cbn [negb].
  - apply Z.eqb_eq in E. rewrite E. fold (nzp p). rewrite IH. ring.
  - rewrite ev_cons. fold (nzp p). rewrite IH. reflexivity.
Qed.
Lemma absp_nzp p : absp (nzp p) = nzp (absp p).
Proof.
  induction p as [|c p IH]; [reflexivity|]. cbn [absp map nzp filter fst snd].
  replace (Z.abs (snd c) =? 0)%Z with (snd c =? 0)%Z by lia.
  destruct (snd c =? 0)%Z; cbn [negb]; [exact IH|]. cbn [map]. f_equal. exact IH.
Qed.
Definition harm_ok (u : list Z) : bool :=
  forallb (fun l => forallb (fun m =>
    let p := nzp (lap (row_pol u l m)) in let K := nkeys (l - 2) in
    (nz_in K p && small_on K p)%bool) (zseq (2 * l + 1))) (zseq 16)%Z.
(** square of the s and p factor, as a fraction *)
Definition fac_num (l : Z) : Z :=
  if (l =? 0)%Z then 282094791773878143 else if (l =? 1)%Z then 488602511902919921 else 1%Z.
Definition fac_den (l : Z) : Z := if (l =? 0)%Z then (10 ^ 18)%Z else if (l =? 1)%Z then (10 ^ 18)%Z else 1%Z.
(** 4 PI F g / (D / 10^20) is 1 or 0, using the two bounds of PI *)
Definition near_q (g F D : Z) (same : bool) : bool :=
  let y := (4 * (F * g))%Z in
  let x := (314159265358979323846 * y - (if same then D else 0))%Z in
  ((Z.abs x * 2 ^ 48 <=? D) && (Z.abs (x + y) * 2 ^ 48 <=? D))%Z.
(** the same products with the double factorials read from a list *)
Definition edf_list : list Z := Eval vm_compute in map even_df (seq 0 31).
Definition edf (n : nat) : Z := nth n edf_list 0%Z.
Fixpoint tgram1 (a b c : nat) (q : pol) : Z :=
  match q with
  | [] => 0
  | ((a', b', c'), k) :: q =>
      match edf (c + c') with
      | 0 => tgram1 a b c q
      | ec => edf (a + a') * edf (b + b') * ec * k + tgram1 a b c q
      end
  end%Z.
Fixpoint tgram (p q : pol) : Z :=
  match p with [] => 0 | ((a, b, c), k) :: p => k * tgram1 a b c q + tgram p q end%Z.
Lemma edf_ok n : (n <= 30)%nat -> edf n = even_df n.
Proof.
  intros H. unfold edf.
  assert (E : edf_list = map even_df (seq 0 31)) by (vm_compute; reflexivity). rewrite E.
  change 0%Z with (even_df 1). rewrite map_nth. f_equal. apply seq_nth. lia.
Qed.
Lemma tgram1_ok a b c q : (a + b + c <= 15)%nat -> (forall d, In d q -> (deg (fst d) <= 15)%nat) ->
  tgram1 a b c q = gram1 (a, b, c) q.
Proof.
  intros Ht. induction q as [|[[[a' b'] c'] k] q IH]; intros H; [reflexivity|].
  cbn [tgram1 gram1 fst snd tadd smono].
  pose proof (H _ (or_introl eq_refl)) as Hd. cbn [fst deg] in Hd.
  specialize (IH ltac:(intros; apply H; right; assumption)).
  rewrite <- !edf_ok by lia. rewrite <- IH. destruct (edf (c + c')); lia.
Qed.
Lemma tgram_ok p q : (forall d, In d p -> (deg (fst d) <= 15)%nat) -> (forall d, In d q -> (deg (fst d) <= 15)%nat) ->
  tgram p q = gram p q.
Proof.
  intros Hp Hq. induction p as [|[[[a b] c] k] p IH]; [reflexivity|]. cbn [tgram gram fst snd].
  pose proof (Hp _ (or_introl eq_refl)) as Hd. cbn [fst deg] in Hd.
  rewrite IH by (intros; apply Hp; right; assumption). rewrite tgram1_ok by assumption. reflexivity.
Qed.
Fixpoint dot (ks ws : list Z) : Z :=
  match ks, ws with
  | k :: ks, w :: ws => match k with 0 => dot ks ws | _ => k * w + dot ks ws end
  | _, _ => 0
  end%Z.
Definition weights (l : Z) (q : pol) : list Z := map (fun t : nt => let '(a, b, c) := t in tgram1 a b c q) (nkeys l).
Lemma dot_ok ks K q : dot ks (map (fun t : nt => let '(a, b, c) := t in tgram1 a b c q) K) = tgram (combine K ks) q.
Proof.
  revert K. induction ks as [|k ks IH]; intros [|[[a b] c] K]; try reflexivity.
  cbn [dot map combine tgram]. rewrite <- IH. destruct k; reflexivity.
Qed.
Definition orth_ok (u : list Z) : bool :=
  forallb (fun l =>
    let F := (fac_num l * fac_num l)%Z in
    let D := (10 ^ 36 * (fac_den l * fac_den l) * dfo (Z.to_nat l + 1) * 10 ^ 20)%Z in
    let R := map (fun m => (m, row u l m)) (zseq (2 * l + 1)) in
    forallb (fun m' => let W := weights l (nzp (row_pol u l m')) in
      forallb (fun p => (m' <? fst p) || near_q (dot (snd p) W) F D (fst p =? m')) R) (zseq (2 * l + 1))) (zseq 16)%Z.

Section Units.
Variable u : list Z.
Hypothesis units_len : length u = Z.to_nat g_trans_size.
Let coef (q : Z) : R := unitR (nth (Z.to_nat q) u 0%Z).

Lemma row_fits l m : (0 <= l <= 15 -> 0 <= m < 2 * l + 1 ->
  1 <= CINTlen_cart l /\ 0 <= c2s_off l + m * CINTlen_cart l /\
  c2s_off l + m * CINTlen_cart l + CINTlen_cart l <= g_trans_size)%Z.
Proof.
  intros Hl Hm. pose proof (off_bound l Hl) as [B1 [B2 B3]]. rewrite (len_cart_eq l Hl) in *. nia.
Qed.
Lemma row_length l m : (0 <= l <= 15)%Z -> (0 <= m < 2 * l + 1)%Z ->
  length (row u l m) = Z.to_nat (CINTlen_cart l).
Proof.
  intros Hl Hm. unfold row. rewrite firstn_length, skipn_length, units_len.
  pose proof (row_fits l m Hl Hm). lia.
Qed.
Lemma nth_firstn_lt {A} (d : A) n l i : (i < n)%nat -> nth i (firstn n l) d = nth i l d.
Proof.
  revert l i. induction n as [|n IH]; intros [|a l] [|i] H; cbn; try lia; try reflexivity. apply IH. lia.
Qed.
Lemma nth_skipn_at {A} (d : A) n l i : nth i (skipn n l) d = nth (n + i) l d.
Proof. revert l. induction n as [|n IH]; intros [|a l]; cbn [skipn Nat.add nth]; try reflexivity; [destruct i; reflexivity|apply IH]. Qed.
Lemma row_nth l m a : (0 <= l <= 15)%Z -> (0 <= m < 2 * l + 1)%Z -> (0 <= a < CINTlen_cart l)%Z ->
  Tmat coef c2s_off CINTlen_cart l m a = unitR (nth (Z.to_nat a) (row u l m) 0%Z).
Proof.
  intros Hl Hm Ha. unfold Tmat, coef, row. pose proof (row_fits l m Hl Hm).
  rewrite nth_firstn_lt by lia. rewrite nth_skipn_at. do 2 f_equal. lia.
Qed.
Lemma half_count l : (0 <= l)%Z -> ((l + 1) * (l + 2) / 2 = CINTlen_cart l)%Z.
Proof. intros. unfold CINTlen_cart. rewrite Z.quot_div_nonneg; nia. Qed.

Lemma row_poly_ev (g : Z -> Z) l m x y z : (0 <= l <= 15)%Z -> (0 <= m < 2 * l + 1)%Z ->
  row_poly l (fun a => unitR (g (nth (Z.to_nat a) (row u l m) 0%Z))) x y z
  = / 10 ^ 18 * ev (map (fun c => (fst c, g (snd c))) (row_pol u l m)) x y z.
Proof.
  intros Hl Hm. unfold row_poly. rewrite half_count by lia. rewrite lsum_seq.
  pose proof (nkeys_length l Hl) as LK. pose proof (row_length l m Hl Hm) as LR.
  assert (LC : length (cart_list l) = length (row u l m)) by (unfold nkeys in LK; rewrite map_length in LK; lia).
  rewrite <- LR, <- LC.
  rewrite (map_ext _ (fun i => (fun t c => unitR (g c) * mono t x y z)
     (nth i (cart_list l) (0, 0, 0)%Z) (nth i (row u l m) 0%Z)))
    by (intros i; rewrite Nat2Z.id; reflexivity).
  rewrite (map_seq_combine (fun t c => unitR (g c) * mono t x y z) (0, 0, 0)%Z 0%Z _ _ LC).
  unfold ev. rewrite sumR_scal. unfold row_pol, nkeys.
  clear. generalize (row u l m) as r. induction (cart_list l) as [|t L IH]; intros [|c r]; try reflexivity.
  cbn [combine map sumR fold_right fst snd]. specialize (IH r). unfold sumR in IH. rewrite IH. f_equal.
  unfold unitR, mono, nmono, Rdiv; cbn [fst snd]. ring.
Qed.

Lemma row_poly_ext l c d x y z : (forall a, (0 <= a < CINTlen_cart l)%Z -> c a = d a) -> (0 <= l)%Z ->
  row_poly l c x y z = row_poly l d x y z.
Proof.
  intros H Hl. unfold row_poly. apply lsum_ext. intros a Ha. rewrite half_count in Ha by lia. rewrite H by exact Ha. reflexivity.
Qed.

(** ** Harmonic *)
Hypothesis harm : harm_ok u = true.

Lemma nkeys_nodup l : NoDup (nkeys l).
Proof.
  unfold nkeys. destruct (Z_lt_le_dec l 0) as [Hn|Hp].
  - replace (cart_list l) with (@nil triple); [constructor|]. unfold cart_list, zseq.
    replace (Z.to_nat (l + 1)) with O by lia. reflexivity.
  - pose proof (cart_list_complete l Hp) as [C [ND _]].
    clear -ND C. assert (P : forall t, In t (cart_list l) -> BasSpec.nonneg t) by (intros t Ht; apply C, Ht). clear C.
    induction (cart_list l) as [|t L IH]; [constructor|]. inversion ND as [|? ? N1 N2]; subst.
    cbn [map]. constructor; [|apply IH; [exact N2|intros; apply P; right; assumption]].
    intros H. apply in_map_iff in H. destruct H as [t' [E Ht']]. apply N1.
    replace t with t'; [exact Ht'|].
    pose proof (P t (or_introl eq_refl)) as A. pose proof (P t' (or_intror Ht')) as B.
    destruct t as [[a b] c], t' as [[a' b'] c']. cbn [fst snd BasSpec.nonneg] in *. injection E as E1 E2 E3. repeat f_equal; lia.
Qed.

Lemma gen_rows_harmonic l m x y z : (0 <= l <= 15)%Z -> (0 <= m < 2 * l + 1)%Z ->
  let T := Tmat coef c2s_off CINTlen_cart l m in
  Rabs (laplacian (row_poly l T) x y z)
    <= / 2 ^ 50 * laplacian (row_poly l (fun a => Rabs (T a))) (Rabs x) (Rabs y) (Rabs z).
Proof.
  intros Hl Hm T.
  assert (U : 0 < / 10 ^ 18) by (apply Rinv_0_lt_compat, pow_lt; lra).
  rewrite (laplacian_ext _ (fun x y z => / 10 ^ 18 * ev (row_pol u l m) x y z)).
  2:{ intros. unfold T.
      rewrite (row_poly_ext l _ (fun a => unitR ((fun v => v) (nth (Z.to_nat a) (row u l m) 0%Z))))
        by (try lia; intros a Ha; apply row_nth; lia).
      rewrite (row_poly_ev (fun v => v)) by assumption. f_equal. f_equal.
      rewrite (map_ext _ (fun c => c)) by (intros [? ?]; reflexivity). apply map_id. }
  rewrite (laplacian_ext (row_poly l _) (fun x y z => / 10 ^ 18 * ev (absp (row_pol u l m)) x y z)).
  2:{ intros. unfold T.
      rewrite (row_poly_ext l _ (fun a => unitR (Z.abs (nth (Z.to_nat a) (row u l m) 0%Z)))).
      - rewrite (row_poly_ev Z.abs) by assumption. reflexivity.
      - intros a Ha. rewrite row_nth by lia. unfold unitR, Rdiv. rewrite Rabs_mult, abs_IZR.
        rewrite (Rabs_right (/ 10 ^ 18)) by lra. reflexivity.
      - lia. }
  rewrite !ev_lap, Rabs_mult, (Rabs_right (/ 10 ^ 18)) by lra.
  rewrite <- absp_lap.
  apply Rle_trans with (/ 10 ^ 18 * (/ 2 ^ 50 * ev (absp (lap (row_pol u l m))) (Rabs x) (Rabs y) (Rabs z)));
    [|apply Req_le; ring].
  apply Rmult_le_compat_l; [lra|].
  pose proof harm as H. unfold harm_ok in H. rewrite forallb_forall in H. specialize (H l). rewrite in_zseq in H.
  specialize (H ltac:(lia)). rewrite forallb_forall in H. specialize (H m). rewrite in_zseq in H.
  specialize (H ltac:(lia)). apply andb_prop in H. destruct H as [H1 H2].
  rewrite <- (ev_nzp (lap _)), <- (ev_nzp (absp _)), <- absp_nzp.
  apply (small_ok (nkeys (l - 2))); [apply nkeys_nodup|exact H1|exact H2].
Qed.

(** ** Orthonormal *)
Lemma fac_ok l : CINTcommon_fac_sp l = IZR (fac_num l) / IZR (fac_den l) /\ 0 < IZR (fac_den l).
Proof.
  unfold CINTcommon_fac_sp, fac_num, fac_den.
  destruct (l =? 0)%Z; [|destruct (l =? 1)%Z]; (split; [|apply (IZR_lt 0); reflexivity]);
    [unfold unitR; rewrite pow_IZR; reflexivity|unfold unitR; rewrite pow_IZR; reflexivity|field].
Qed.
Hypothesis orth : orth_ok u = true.

Lemma near_ok g F D same : (0 < D)%Z -> near_q g F D same = true ->
  Rabs (4 * PI * IZR (F * g) * 10 ^ 20 / IZR D - (if same then 1 else 0)) <= / 2 ^ 48.
Proof.
  intros HD. unfold near_q. cbv zeta. rewrite Bool.andb_true_iff, !Z.leb_le. intros [A B].
  apply (IZR_lt 0) in HD. apply IZR_le in A. apply IZR_le in B.
  rewrite mult_IZR, abs_IZR in A, B. rewrite plus_IZR in B. rewrite minus_IZR, mult_IZR in A, B.
  rewrite (mult_IZR 4 (F * g)) in A, B. set (x := IZR (F * g)) in *. set (d := IZR D) in *.
  replace (IZR (2 ^ 48)) with (2 ^ 48)%R in A, B by (rewrite pow_IZR; reflexivity).
  assert (E : IZR (if same then D else 0%Z) = (if same then 1 else 0) * d) by (destruct same; unfold d; ring).
  rewrite E in A, B. clear E. set (s := if same then 1 else 0) in *. clearbody s x d.
  pose proof PI_digits as [L H].
  assert (P48 : 0 < 2 ^ 48) by (apply pow_lt; lra).
  assert (P20 : 0 < 10 ^ 20) by (apply pow_lt; lra).
  set (w := 2 ^ 48) in *. set (v := 10 ^ 20) in *. clearbody w v.
  assert (Q1 : 314159265358979323846 <= PI * v) by (apply Rmult_le_compat_r with (r := v) in L; [|lra];
    unfold Rdiv in L; rewrite Rmult_assoc, Rinv_l in L; lra).
  assert (Q2 : PI * v <= 314159265358979323847) by (apply Rmult_le_compat_r with (r := v) in H; [|lra];
    unfold Rdiv in H; rewrite Rmult_assoc, Rinv_l in H; lra).
  replace (4 * PI * x * v / d - s) with ((PI * v * (4 * x) - s * d) / d) by (field; lra).
  set (q := PI * v) in *. clearbody q.
  assert (AB : forall r t, 0 < w -> Rabs r * w <= t <-> - t <= r * w <= t).
  { intros r t Hw. rewrite <- (Rabs_right w) at 1 by lra. rewrite <- Rabs_mult. apply Rabs_le_between. }
  rewrite AB in A, B by assumption.
  assert (K : Rabs (q * (4 * x) - s * d) * w <= d).
  { rewrite AB by assumption.
    destruct (Rle_dec 0 x) as [X|X].
    - assert (314159265358979323846 * (4 * x) <= q * (4 * x)) by nra.
      assert (q * (4 * x) <= 314159265358979323847 * (4 * x)) by nra. split; nra.
    - assert (314159265358979323847 * (4 * x) <= q * (4 * x)) by nra.
      assert (q * (4 * x) <= 314159265358979323846 * (4 * x)) by nra. split; nra. }
  unfold Rdiv. rewrite Rabs_mult, (Rabs_right (/ d)) by (left; apply Rinv_0_lt_compat, HD).
  apply (Rmult_le_reg_r d); [exact HD|]. rewrite Rmult_assoc, Rinv_l, Rmult_1_r by lra.
  apply (Rmult_le_reg_r w); [exact P48|]. replace (/ w * d * w) with d by (field; lra). exact K.
Qed.

Lemma nkeys_deg l t : (0 <= l)%Z -> In t (nkeys l) -> deg t = Z.to_nat l.
Proof.
  intros Hl H. unfold nkeys in H. apply in_map_iff in H. destruct H as [[[a b] c] [<- H]].
  apply (cart_list_complete l Hl) in H. destruct H as [[N1 [N2 N3]] D]. cbn [fst snd deg degree] in *. lia.
Qed.
Lemma row_pol_deg l m c : (0 <= l)%Z -> In c (nzp (row_pol u l m)) -> deg (fst c) = Z.to_nat l.
Proof.
  intros Hl H. unfold nzp in H. apply filter_In in H. destruct H as [H _]. destruct c as [t k].
  apply in_combine_l in H. cbn [fst]. apply (nkeys_deg l); assumption.
Qed.

Lemma row_pol_deg' l m c : (0 <= l)%Z -> In c (row_pol u l m) -> deg (fst c) = Z.to_nat l.
Proof.
  intros Hl H. destruct c as [t k]. apply in_combine_l in H. cbn [fst]. apply (nkeys_deg l); assumption.
Qed.
Lemma gen_rows_orth l m m' : (0 <= l <= 15)%Z -> (0 <= m < 2 * l + 1)%Z -> (0 <= m' < 2 * l + 1)%Z -> (m <= m')%Z ->
  let Y m x y z := CINTcommon_fac_sp l * row_poly l (Tmat coef c2s_off CINTlen_cart l m) x y z in
  Rabs (over_sphere (fun x y z => Y m x y z * Y m' x y z) - (if (m =? m')%Z then 1 else 0)) <= / 2 ^ 48.
Proof.
  intros Hl Hm Hm' Hle Y.
  pose proof orth as H. unfold orth_ok in H. rewrite forallb_forall in H. specialize (H l). rewrite in_zseq in H.
  specialize (H ltac:(lia)). cbv zeta in H. rewrite forallb_forall in H.
  specialize (H m'). rewrite in_zseq in H. specialize (H ltac:(lia)). rewrite forallb_forall in H.
  specialize (H (m, row u l m)). rewrite in_map_iff in H.
  specialize (H ltac:(exists m; rewrite in_zseq; split; [reflexivity|lia])). cbn [fst snd] in H.
  replace (m' <? m)%Z with false in H by lia. cbn [orb] in H.
  unfold weights in H. rewrite dot_ok in H. fold (row_pol u l m) in H.
  rewrite tgram_ok in H by
    (intros d Hd; first [apply row_pol_deg in Hd|apply row_pol_deg' in Hd]; lia).
  destruct (fac_ok l) as [FE FD]. apply lt_IZR in FD.
  apply near_ok in H; [|pose proof (dfo_pos (Z.to_nat l + 1)); nia].
  match type of H with Rabs (?v - _) <= _ => replace (over_sphere (fun x y z => Y m x y z * Y m' x y z)) with v; [exact H|] end.
  symmetry. change over_sphere with sphere. apply is_sphere_unique.
  assert (EY : forall m, (0 <= m < 2 * l + 1)%Z -> forall x y z,
    Y m x y z = IZR (fac_num l) / IZR (fac_den l) * (/ 10 ^ 18 * ev (row_pol u l m) x y z)).
  { intros k Hk x y z. unfold Y. rewrite FE. f_equal.
    rewrite (row_poly_ext l _ (fun a => unitR ((fun v => v) (nth (Z.to_nat a) (row u l k) 0%Z))))
      by (try lia; intros a Ha; apply row_nth; lia).
    rewrite (row_poly_ev (fun v => v)) by assumption. do 2 f_equal.
    rewrite (map_ext _ (fun c => c)) by (intros [? ?]; reflexivity). apply map_id. }
  apply (IZR_lt 0) in FD. pose proof (dfoR (Z.to_nat l + 1)) as DP.
  eapply is_sphere_ext.
  2:{ match goal with |- is_sphere _ ?v => replace v with
        ((IZR (fac_num l) / IZR (fac_den l)) * (IZR (fac_num l) / IZR (fac_den l)) / 10 ^ 36 *
         (4 * PI / IZR (dfo (Z.to_nat l + 1)) *
          IZR (gram (row_pol u l m) (nzp (row_pol u l m'))))) end.
      - apply is_sphere_scal, gram_ok. intros c d Hc Hd.
        rewrite (row_pol_deg' l m c), (row_pol_deg l m' d) by (assumption || lia). lia.
      - rewrite !mult_IZR.
        replace (IZR (10 ^ 36)) with (10 ^ 36)%R by (rewrite pow_IZR; reflexivity).
        replace (IZR (10 ^ 20)) with (10 ^ 20)%R by (rewrite pow_IZR; reflexivity).
        field. repeat split; try lra; apply pow_nonzero; lra. }
  intros x y z. cbn beta. rewrite !EY by assumption. rewrite ev_nzp.
  replace (10 ^ 36) with (10 ^ 18 * 10 ^ 18) by (rewrite <- !pow_add; reflexivity).
  field. repeat split; try lra; apply pow_nonzero; lra.
Qed.
Lemma gen_rows_orthonormal l m m' : (0 <= l <= 15)%Z -> (0 <= m < 2 * l + 1)%Z -> (0 <= m' < 2 * l + 1)%Z ->
  let Y m x y z := CINTcommon_fac_sp l * row_poly l (Tmat coef c2s_off CINTlen_cart l m) x y z in
  Rabs (over_sphere (fun x y z => Y m x y z * Y m' x y z) - (if (m =? m')%Z then 1 else 0)) <= / 2 ^ 48.
Proof.
  intros Hl Hm Hm' Y. destruct (Z_le_dec m m') as [Hle|Hgt]; [exact (gen_rows_orth l m m' Hl Hm Hm' Hle)|].
  pose proof (gen_rows_orth l m' m Hl Hm' Hm ltac:(lia)) as H. cbv zeta in H.
  rewrite Z.eqb_sym.
  replace (over_sphere (fun x y z => Y m x y z * Y m' x y z)) with (over_sphere (fun x y z => Y m' x y z * Y m x y z));
    [exact H|].
  unfold over_sphere. apply RInt_ext. intros th _. apply RInt_ext. intros ph _. f_equal. apply Rmult_comm.
Qed.
End Units.

Lemma harm_table : harm_ok g_trans_cart2sph_dec = true.
Proof. vm_cast_no_check (eq_refl true). Qed.
Lemma orth_table : orth_ok g_trans_cart2sph_dec = true.
Proof. vm_cast_no_check (eq_refl true). Qed.

Theorem rows_harmonic l m x y z : (0 <= l <= 15)%Z -> (0 <= m < 2 * l + 1)%Z ->
  let T := Tmat sph_coef c2s_off CINTlen_cart l m in
  Rabs (laplacian (row_poly l T) x y z)
    <= / 2 ^ 50 * laplacian (row_poly l (fun a => Rabs (T a))) (Rabs x) (Rabs y) (Rabs z).
Proof. exact (gen_rows_harmonic g_trans_cart2sph_dec units_length harm_table l m x y z). Qed.

Theorem rows_orthonormal l m m' : (0 <= l <= 15)%Z -> (0 <= m < 2 * l + 1)%Z -> (0 <= m' < 2 * l + 1)%Z ->
  let Y m x y z := CINTcommon_fac_sp l * row_poly l (Tmat sph_coef c2s_off CINTlen_cart l m) x y z in
  Rabs (over_sphere (fun x y z => Y m x y z * Y m' x y z) - (if (m =? m')%Z then 1 else 0)) <= / 2 ^ 48.
Proof. exact (gen_rows_orthonormal g_trans_cart2sph_dec units_length orth_table l m m'). Qed.
