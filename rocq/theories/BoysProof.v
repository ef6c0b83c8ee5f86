(** BoysProof.v *)
From Coq Require Import Reals Lra Lia Psatz ZArith.
From Coquelicot Require Import Coquelicot.
From Verif Require Import Base BoysModel BoysSpec.
Local Open Scope R_scope.

(** ** the integrals *)
Definition bk (m : nat) (t u : R) : R := u ^ (2 * m) * exp (- (t * (u * u))).

Lemma bk_cont m t u : continuous (bk m t) u.
Proof.
  apply (ex_derive_continuous (V := R_NormedModule)). unfold bk. auto_derive. exact I.
Qed.
Lemma bk_int m t a b : ex_RInt (bk m t) a b.
Proof. apply (ex_RInt_continuous (V := R_CompleteNormedModule)). intros; apply bk_cont. Qed.

Lemma bk_pos m t u : 0 <= bk m t u.
Proof.
  unfold bk. apply Rmult_le_pos; [|apply Rlt_le, exp_pos]. rewrite pow_mult. apply pow_le. cbn. nra.
Qed.

Lemma boys_pos m t l : l <= 1 -> 0 <= boys m t l.
Proof. intros H. apply RInt_ge_0; [lra|apply bk_int|]. intros; apply bk_pos. Qed.

Lemma boys_le m t l : 0 <= l <= 1 -> boys (S m) t l <= boys m t l.
Proof.
  intros H. apply RInt_le; [lra|apply bk_int|apply bk_int|]. intros u Hu.
  fold (bk (S m) t u) (bk m t u). unfold bk. replace (2 * S m)%nat with (S (S (2 * m))) by lia.
  cbn [pow]. pose proof (bk_pos m t u) as P. unfold bk in P.
  replace (u * (u * u ^ (2 * m)) * exp (- (t * (u * u)))) with
    (u * u * (u ^ (2 * m) * exp (- (t * (u * u))))) by ring.
  assert (u * u <= 1) by nra. nra.
Qed.

Lemma boys_rec m t l :
  (INR m + / 2) * boys m t l =
  / 2 * exp (- t) - / 2 * (exp (- (t * (l * l))) * l ^ (2 * m + 1)) + t * boys (S m) t l.
Proof.
  set (h := fun u => u ^ (2 * m + 1) * exp (- (t * (u * u)))).
  assert (D : forall u, is_derive h u ((2 * INR m + 1) * bk m t u + (- (2 * t)) * bk (S m) t u)).
  { intros u. unfold h, bk. auto_derive; [exact I|].
    replace (m + (m + 0) + 1)%nat with (S (2 * m)) by lia. cbn [Init.Nat.pred].
    replace (2 * S m)%nat with (S (S (2 * m))) by lia.
    replace (INR (S (2 * m))) with (2 * INR m + 1) by (rewrite S_INR, mult_INR; cbn; ring).
    rewrite <- !tech_pow_Rmult. ring. }
  assert (I1 : is_RInt (fun u => (2 * INR m + 1) * bk m t u + (- (2 * t)) * bk (S m) t u) l 1 (minus (h 1) (h l))).
  { apply (is_RInt_derive (V := R_CompleteNormedModule) h).
    - intros x _. apply D.
    - intros x _. apply (ex_derive_continuous (V := R_NormedModule)). unfold bk. auto_derive. exact I. }
  assert (I2 : is_RInt (fun u => (2 * INR m + 1) * bk m t u + (- (2 * t)) * bk (S m) t u) l 1
     ((2 * INR m + 1) * boys m t l + (- (2 * t)) * boys (S m) t l)).
  { apply (is_RInt_plus (V := R_NormedModule)); apply (is_RInt_scal (V := R_NormedModule));
    apply (RInt_correct (V := R_CompleteNormedModule)); apply bk_int. }
  assert (E : (2 * INR m + 1) * boys m t l + (- (2 * t)) * boys (S m) t l = h 1 - h l).
  { apply (is_RInt_unique (V := R_CompleteNormedModule)) in I1. apply (is_RInt_unique (V := R_CompleteNormedModule)) in I2.
    rewrite I1 in I2. symmetry. exact I2. }
  unfold h in E. rewrite pow1, Rmult_1_r, Rmult_1_r, Rmult_1_l in E.
  rewrite (Rmult_comm (l ^ _)) in E. lra.
Qed.

(** t F_{m+1} takes at most half of (m+1/2) F_m when t <= (m+1/2)/2 *)
Lemma boys_half m t l : 0 <= l <= 1 -> 0 <= t <= (INR m + / 2) / 2 ->
  t * boys (S m) t l <= / 2 * exp (- t) - / 2 * (exp (- (t * (l * l))) * l ^ (2 * m + 1)).
Proof.
  intros Hl Ht. pose proof (boys_rec m t l). pose proof (boys_le m t l Hl).
  pose proof (boys_pos (S m) t l ltac:(lra)). nra.
Qed.

(** ** the series *)
Fixpoint Tk (b t : R) (k : nat) : R :=
  match k with O => 1 | S n => Tk b t n * (t / (b + INR n + 1)) end.

Lemma Tk_pos b t k : 0 < b -> 0 <= t -> 0 <= Tk b t k.
Proof.
  intros Hb Ht. induction k as [|k IH]; [cbn; lra|]. cbn [Tk].
  apply Rmult_le_pos; [exact IH|]. apply Rdiv_le_0_compat; [lra|]. pose proof (pos_INR k). lra.
Qed.

Lemma Tk_half b t k : 0 < b -> 0 <= t <= b / 2 -> Tk b t k <= (/ 2) ^ k.
Proof.
  intros Hb Ht. induction k as [|k IH]; [cbn; lra|]. cbn [Tk pow].
  pose proof (Tk_pos b t k Hb ltac:(lra)). pose proof (pos_INR k).
  assert (0 <= t / (b + INR k + 1) <= / 2).
  { split; [apply Rdiv_le_0_compat; lra|]. apply Rle_div_l; [lra|]. lra. }
  rewrite (Rmult_comm (/ 2)). apply Rmult_le_compat; lra.
Qed.

(** the k-th term and the partial sums *)
Definition term (m : nat) (t l : R) (k : nat) : R :=
  (/ 2 * exp (- t) - / 2 * (exp (- (t * (l * l))) * l ^ (2 * (m + k) + 1))) * Tk (INR m + / 2) t k.
Fixpoint psum (m : nat) (t l : R) (k : nat) : R :=
  match k with O => term m t l 0 | S n => psum m t l n + term m t l (S n) end.

Lemma series_rest m t l k : (INR m + / 2) * boys m t l =
  psum m t l k + t * Tk (INR m + / 2) t k * boys (S (m + k)) t l.
Proof.
  induction k as [|k IH].
  - cbn [psum Tk]. unfold term. cbn [Tk]. rewrite Nat.add_0_r, boys_rec. ring.
  - rewrite IH. cbn [psum]. unfold term at 1. rewrite (Nat.add_succ_r m k).
    pose proof (boys_rec (S (m + k)) t l) as E. cbn [Tk].
    pose proof (pos_INR m). pose proof (pos_INR k).
    set (B := boys (S (m + k)) t l) in *. set (B' := boys (S (S (m + k))) t l) in *.
    rewrite S_INR, plus_INR in E.
    set (d := / 2 * exp (- t) - / 2 * (exp (- (t * (l * l))) * l ^ (2 * S (m + k) + 1))) in *.
    assert (B = (d + t * B') / (INR m + INR k + 1 + / 2)) as ->.
    { apply Rmult_eq_reg_l with (INR m + INR k + 1 + / 2); [|lra]. field_simplify; [|lra]. lra. }
    field. lra.
Qed.

Lemma series_err m t l k : 0 <= l <= 1 -> 0 <= t <= (INR m + / 2) / 2 ->
  0 <= (INR m + / 2) * boys m t l - psum m t l k <= term m t l k.
Proof.
  intros Hl Ht. rewrite (series_rest m t l k). pose proof (pos_INR m). pose proof (pos_INR k).
  pose proof (Tk_pos (INR m + / 2) t k ltac:(lra) ltac:(lra)) as T.
  pose proof (boys_pos (S (m + k)) t l ltac:(lra)) as P.
  assert (Q : t * boys (S (m + k)) t l <= / 2 * exp (- t) - / 2 * (exp (- (t * (l * l))) * l ^ (2 * (m + k) + 1))).
  { apply boys_half; [lra|]. rewrite plus_INR. lra. }
  unfold term. split.
  - assert (0 <= t * Tk (INR m + / 2) t k) by nra. nra.
  - replace (psum m t l k + t * Tk (INR m + / 2) t k * boys (S (m + k)) t l - psum m t l k)
      with (t * boys (S (m + k)) t l * Tk (INR m + / 2) t k) by ring.
    apply Rmult_le_compat_r; [exact T|exact Q].
Qed.

Lemma term_pos m t l k : 0 <= l <= 1 -> 0 <= t <= (INR m + / 2) / 2 -> 0 <= term m t l k.
Proof. intros Hl Ht. pose proof (series_err m t l k Hl Ht). lra. Qed.

Lemma term_le m t l k : 0 <= l -> 0 <= t <= (INR m + / 2) / 2 ->
  term m t l k <= / 2 * exp (- t) * (/ 2) ^ k.
Proof.
  intros Hl Ht. unfold term. pose proof (pos_INR m).
  pose proof (Tk_pos (INR m + / 2) t k ltac:(lra) ltac:(lra)).
  pose proof (Tk_half (INR m + / 2) t k ltac:(lra) Ht).
  pose proof (exp_pos (- t)).
  assert (0 <= exp (- (t * (l * l))) * l ^ (2 * (m + k) + 1)).
  { apply Rmult_le_pos; [apply Rlt_le, exp_pos|apply pow_le; exact Hl]. }
  apply Rle_trans with (/ 2 * exp (- t) * Tk (INR m + / 2) t k).
  - apply Rmult_le_compat_r; lra.
  - apply Rmult_le_compat_l; lra.
Qed.

(** ** loops with a floating-point exit test *)
Lemma while_ends {S} (st : nat -> S) c b : (forall k, st (Datatypes.S k) = b (st k)) ->
  forall N, c (st N) = false ->
  exists K, (K <= N)%nat /\ c (st K) = false /\
    forall fuel, (K < fuel)%nat -> while_ fuel c b (st O) = Some (st K).
Proof.
  intros Hb N. revert st Hb. induction N as [|N IH]; intros st Hb HN.
  - exists O. split; [lia|]. split; [exact HN|]. intros [|fuel] Hf; [lia|]. cbn. rewrite HN. reflexivity.
  - destruct (c (st O)) eqn:E.
    + destruct (IH (fun k => st (Datatypes.S k))) as [K [HK [HcK Hf]]].
      * intros k. apply Hb.
      * exact HN.
      * exists (Datatypes.S K). split; [lia|]. split; [exact HcK|]. intros [|fuel] Hfu; [lia|].
        cbn. rewrite E, <- Hb. apply Hf. lia.
    + exists O. split; [lia|]. split; [exact E|]. intros [|fuel] Hf; [lia|]. cbn. rewrite E. reflexivity.
Qed.

Lemma Rltb_true x y : Rltb x y = true <-> x < y.
Proof. unfold Rltb. destruct (Rlt_dec x y); split; auto; discriminate. Qed.
Lemma Rltb_false x y : Rltb x y = false <-> y <= x.
Proof. unfold Rltb. destruct (Rlt_dec x y); split; auto; try discriminate; lra. Qed.

Lemma half_pow_small x : 0 < x -> exists N, (/ 2) ^ N < x.
Proof.
  intros H. destruct (pow_lt_1_zero (/ 2)) with (y := x) as [N HN]; [rewrite Rabs_pos_eq; lra|lra|].
  exists N. specialize (HN N (Nat.le_refl N)). rewrite Rabs_pos_eq in HN; [exact HN|]. apply pow_le. lra.
Qed.

(** ** the turn-over table *)
Lemma turnover_rd m : (0 <= m < 40)%Z -> exists z, rd TURNOVER_POINT m = Some (IZR z / 10 ^ 12) /\
  (10 * z <= (4 * m + 2) * 1000000000000)%Z.
Proof.
  intros H.
  assert (C : forallb (fun k => match nth_error turnover_e12 k with
     | Some z => (10 * z <=? (4 * Z.of_nat k + 2) * 1000000000000)%Z | None => false end) (seq 0 40) = true)
    by (vm_compute; reflexivity).
  rewrite forallb_forall in C. specialize (C (Z.to_nat m)).
  destruct (nth_error turnover_e12 (Z.to_nat m)) as [z|] eqn:E.
  - exists z. split.
    + apply rd_spec. cbn [TURNOVER_POINT asize acell]. rewrite E. split; [exact H|reflexivity].
    + assert (K : In (Z.to_nat m) (seq 0 40)) by (apply in_seq; lia). specialize (C K). lia.
  - assert (K : In (Z.to_nat m) (seq 0 40)) by (apply in_seq; lia). specialize (C K). discriminate.
Qed.

Lemma turnover_small m t tp : (0 <= m < 40)%Z -> rd TURNOVER_POINT m = Some tp -> t < tp ->
  t <= (IZR m + / 2) / 2.
Proof.
  intros Hm Hr Ht. destruct (turnover_rd m Hm) as [z [Hz B]]. rewrite Hr in Hz. injection Hz as ->.
  apply IZR_le in B. rewrite !mult_IZR, plus_IZR, mult_IZR in B.
  assert (IZR z / 10 ^ 12 <= (4 * IZR m + 2) / 10).
  { apply Rle_div_l; [lra|]. lra. }
  pose proof (IZR_le 0 m ltac:(lia)). lra.
Qed.

(** ** first cells, with integer indices *)
Definition cellsZ (f f' : arr R) (lo m : Z) (P : nat -> R -> Prop) : Prop :=
  asize f' = asize f /\
  (forall i, (lo <= i <= m)%Z -> exists v, acell f' i = Some v /\ P (Z.to_nat i) v) /\
  (forall x : Z, (x < lo \/ m < x)%Z -> acell f' x = acell f x).

Lemma cells_first f f' m P : (m < asize f)%Z -> cellsZ f f' 0 m P -> first_cells f f' m P.
Proof.
  intros Hm [H1 [H2 H3]]. split; [exact H1|]. split; [|exact H3]. intros i Hi.
  destruct (H2 (Z.of_nat i) ltac:(lia)) as [v [Hv HP]]. rewrite Nat2Z.id in HP.
  exists v. split; [|exact HP]. apply rd_spec. split; [lia|exact Hv].
Qed.

Lemma cells_mono f f' m (P Q : nat -> R -> Prop) : first_cells f f' m P ->
  (forall i v, P i v -> Q i v) -> first_cells f f' m Q.
Proof.
  intros [H1 [H2 H3]] H. split; [exact H1|]. split; [|exact H3]. intros i Hi.
  destruct (H2 i Hi) as [v [Hv HP]]. exists v. auto.
Qed.

Lemma cells_up f f' m (P : nat -> R -> Prop) v f'' : (0 <= m + 1)%Z -> cellsZ f f' 0 m P -> P (Z.to_nat (m + 1)) v ->
  asize f'' = asize f' -> (forall j, acell f'' j = if (j =? m + 1)%Z then Some v else acell f' j) ->
  cellsZ f f'' 0 (m + 1) P.
Proof.
  intros Hm [H1 [H2 H3]] HP Hs Hc. split; [congruence|]. split.
  - intros i Hi. rewrite Hc. destruct (i =? m + 1)%Z eqn:E.
    + exists v. split; [reflexivity|]. replace i with (m + 1)%Z by lia. exact HP.
    + apply H2. lia.
  - intros x Hx. rewrite Hc. destruct (x =? m + 1)%Z eqn:E; [lia|]. apply H3. lia.
Qed.

Lemma cells_down f f' lo m (P : nat -> R -> Prop) v f'' : (lo <= m)%Z -> cellsZ f f' lo m P -> P (Z.to_nat (lo - 1)) v ->
  asize f'' = asize f' -> (forall j, acell f'' j = if (j =? lo - 1)%Z then Some v else acell f' j) ->
  cellsZ f f'' (lo - 1) m P.
Proof.
  intros Hm [H1 [H2 H3]] HP Hs Hc. split; [congruence|]. split.
  - intros i Hi. rewrite Hc. destruct (i =? lo - 1)%Z eqn:E.
    + exists v. split; [reflexivity|]. replace i with (lo - 1)%Z by lia. exact HP.
    + apply H2. lia.
  - intros x Hx. rewrite Hc. destruct (x =? lo - 1)%Z eqn:E; [lia|]. apply H3. lia.
Qed.

Lemma cells_one f v m (P : nat -> R -> Prop) : P (Z.to_nat m) v ->
  forall f', asize f' = asize f -> (forall j, acell f' j = if (j =? m)%Z then Some v else acell f j) ->
  cellsZ f f' m m P.
Proof.
  intros HP f' Hs Hc. split; [exact Hs|]. split.
  - intros i Hi. rewrite Hc. replace i with m by lia. rewrite Z.eqb_refl. exists v. auto.
  - intros x Hx. rewrite Hc. destruct (x =? m)%Z eqn:E; [lia|reflexivity].
Qed.

Definition close (sml : R) (F ref v : R) : Prop := 0 <= F - v <= sml * ref.

Lemma INR_Z m : (0 <= m)%Z -> INR (Z.to_nat m) = IZR m.
Proof. intros H. rewrite INR_IZR_INZ, Z2Nat.id by lia. reflexivity. Qed.

(** one step of the downward recurrence *)
Lemma close_down sml i t l v : (1 <= i)%Z -> 0 <= l <= 1 -> 0 <= t -> 0 <= sml ->
  close sml (boys (Z.to_nat i) t l) (boys (Z.to_nat i) t 0) v ->
  close sml (boys (Z.to_nat (i - 1)) t l) (boys (Z.to_nat (i - 1)) t 0)
    ((/ 2 * exp (- t) - / 2 * (exp (- (t * (l * l))) * l ^ (2 * Z.to_nat (i - 1) + 1)) + t * v) / (IZR i - / 2)).
Proof.
  intros Hi Hl Ht Hs [C1 C2].
  pose proof (boys_rec (Z.to_nat (i - 1)) t l) as E.
  pose proof (boys_rec (Z.to_nat (i - 1)) t 0) as E0.
  rewrite INR_Z in E, E0 by lia. rewrite minus_IZR in E, E0.
  replace (S (Z.to_nat (i - 1))) with (Z.to_nat i) in E, E0 by lia.
  rewrite (pow_i (2 * Z.to_nat (i - 1) + 1)) in E0 by lia.
  pose proof (exp_pos (- t)) as Pe. pose proof (IZR_le _ _ Hi) as Hi'.
  set (B := boys (Z.to_nat (i - 1)) t l) in *. set (B0 := boys (Z.to_nat (i - 1)) t 0) in *.
  set (C := boys (Z.to_nat i) t l) in *. set (C0 := boys (Z.to_nat i) t 0) in *.
  set (d := / 2 * exp (- t) - / 2 * (exp (- (t * (l * l))) * l ^ (2 * Z.to_nat (i - 1) + 1))) in *.
  assert (Q : B - (d + t * v) / (IZR i - / 2) = t * (C - v) / (IZR i - / 2)).
  { apply Rmult_eq_reg_l with (IZR i - / 2); [|lra]. field_simplify; [|lra|lra]. lra. }
  unfold close. rewrite Q. split.
  - apply Rdiv_le_0_compat; [|lra]. apply Rmult_le_pos; lra.
  - apply Rle_div_l; [lra|]. apply Rle_trans with (t * (sml * C0)).
    + apply Rmult_le_compat_l; lra.
    + assert (t * C0 <= (IZR i - / 2) * B0) by lra. nra.
Qed.

Lemma gamma_down sml f m t e b : (0 <= m < asize f)%Z -> 0 <= t -> 0 <= sml ->
  e = / 2 * exp (- t) -> b = IZR m + / 2 ->
  forall f0, cellsZ f0 f m m (fun i => close sml (boys i t 0) (boys i t 0)) ->
  wp (fordown m 1 (fun i (st : arr R * R) => let '(f, b) := st in
         let b := b - 1 in
         v <- rd f i ;; f <- wr f (i - 1) ((e + t * v) / b) ;; Some (f, b)) (f, b))
     (fun r => cellsZ f0 (fst r) 0 m (fun i => close sml (boys i t 0) (boys i t 0))).
Proof.
  intros Hm Ht Hs He Hb f0 Hf.
  apply (wp_fordown (fun i (st : arr R * R) => snd st = IZR i + / 2 /\
     cellsZ f0 (fst st) i m (fun i => close sml (boys i t 0) (boys i t 0)))).
  - lia.
  - cbn. auto.
  - intros i [g b'] Hi [Hb' Hg]. cbn [fst snd] in *.
    assert (Sz : (asize g = asize f)%Z) by (destruct Hg, Hf; congruence).
    destruct Hg as [G1 [G2 G3]]. destruct (G2 i ltac:(lia)) as [v [Hv Cv]].
    apply wp_bind. apply wp_rd with v; [apply rd_spec; split; [lia|exact Hv]|].
    apply wp_bind. apply wp_wr; [lia|]. intros g' Hs' Hc'. cbn [wp fst snd].
    split; [rewrite minus_IZR; lra|].
    apply (cells_down f0 g i m _ ((e + t * v) / (b' - 1)) g'); [lia|split; [exact G1|split; [exact G2|exact G3]]| |exact Hs'|exact Hc'].
    pose proof (close_down sml i t 0 v ltac:(lia) ltac:(lra) Ht Hs Cv) as Q.
    rewrite (pow_i (2 * Z.to_nat (i - 1) + 1)) in Q by lia.
    subst e. rewrite Hb'. replace (IZR i + / 2 - 1) with (IZR i - / 2) by lra.
    replace (/ 2 * exp (- t) + t * v) with (/ 2 * exp (- t) - / 2 * (exp (- (t * (0 * 0))) * 0) + t * v) by ring.
    exact Q.
  - intros [g b'] [_ Hg]. exact Hg.
Qed.

Lemma psum0 m t k : psum m t 0 k = / 2 * exp (- t) * (fix s k := match k with O => 1 | S n => s n + Tk (INR m + / 2) t (S n) end) k.
Proof.
  assert (T : forall k, term m t 0 k = / 2 * exp (- t) * Tk (INR m + / 2) t k).
  { intros j. unfold term. rewrite (pow_i (2 * (m + j) + 1)) by lia. ring. }
  induction k as [|k IH]; cbn [psum]; [rewrite T; cbn; ring|]. rewrite IH, T. ring.
Qed.

Lemma term0 m t k : term m t 0 k = / 2 * exp (- t) * Tk (INR m + / 2) t k.
Proof. unfold term. rewrite (pow_i (2 * (m + k) + 1)) by lia. ring. Qed.

Lemma psum_le m t l k : 0 <= l <= 1 -> 0 <= t <= (INR m + / 2) / 2 -> term m t l 0 <= psum m t l k.
Proof.
  intros Hl Ht. induction k as [|k IH]; cbn [psum]; [lra|]. pose proof (term_pos m t l (S k) Hl Ht). lra.
Qed.

Theorem fmt1_gamma_ok sml f m t : (0 <= m < asize f)%Z -> 0 <= t <= (IZR m + / 2) / 2 -> 0 < sml < 1 ->
  exists n, forall fuel, (n <= fuel)%nat -> exists f', fmt1_gamma_inc_like sml fuel f t m = Some f' /\
    first_cells f f' m (fun i => close sml (boys i t 0) (boys i t 0)).
Proof.
  intros Hm Ht Hs. set (M := Z.to_nat m).
  assert (EM : INR M = IZR m) by (apply INR_Z; lia).
  assert (Hm0 : 0 <= IZR m) by (apply IZR_le; lia).
  pose proof (exp_pos (- t)) as Pe.
  set (e := / 2 * exp (- t)). set (b := IZR m + / 2).
  set (st := fun k => (e * Tk b t k, psum M t 0 k, b + 1 + INR k)).
  destruct (half_pow_small sml ltac:(lra)) as [N HN].
  destruct (while_ends st (fun st => Rltb (sml * e) (fst (fst st)))
         (fun st => let '(x, s, bi) := st in
                    let x := x * (t / bi) in (x, s + x, bi + 1))) with (N := N) as [K [_ [HK Hrun]]].
  - intros k. unfold st. rewrite S_INR. cbn [Tk psum]. rewrite term0, EM. fold b e. cbn [Tk].
    replace (b + 1 + INR k) with (b + INR k + 1) by ring. f_equal; [f_equal|]; ring.
  - apply Rltb_false. unfold st. cbn [fst]. rewrite (Rmult_comm sml). unfold e.
    apply Rmult_le_compat_l; [lra|]. eapply Rle_trans; [apply (Tk_half b t N); unfold b; lra|lra].
  - exists (S K). intros fuel Hf. specialize (Hrun fuel ltac:(lia)).
    assert (W : wp (fmt1_gamma_inc_like sml fuel f t m)
       (fun f' => cellsZ f f' 0 m (fun i => close sml (boys i t 0) (boys i t 0)))).
    { unfold fmt1_gamma_inc_like. cbv zeta. cbv zeta in Hrun. fold e b. apply wp_bind.
      assert (S0 : st O = (e, e, b + 1)).
      { unfold st. cbn [Tk psum INR]. rewrite term0. cbn [Tk]. fold e. f_equal; [f_equal|]; ring. }
      rewrite S0 in Hrun. rewrite Hrun. cbn [wp]. unfold st at 1.
      apply wp_bind. apply wp_wr; [lia|]. intros f' Hs' Hc'.
      apply wp_bind. eapply wp_mono; [eapply gamma_down with (sml := sml) (f0 := f)|intros r Hr; exact Hr];
        try reflexivity; try lra; try lia.
      apply (cells_one f (psum M t 0 K / b) m); [|exact Hs'|exact Hc']. fold M.
      apply Rltb_false in HK. unfold st in HK. cbn [fst] in HK.
      pose proof (series_err M t 0 K ltac:(lra) ltac:(rewrite EM; lra)) as SE. rewrite EM in SE. fold b in SE.
      rewrite term0, EM in SE. fold b e in SE.
      pose proof (psum_le M t 0 K ltac:(lra) ltac:(rewrite EM; lra)) as PL. rewrite term0 in PL. cbn [Tk] in PL. fold e in PL.
      assert (Pb : 0 < b) by (unfold b; lra).
      assert (Q : boys M t 0 - psum M t 0 K / b = (b * boys M t 0 - psum M t 0 K) / b) by (field; lra).
      unfold close. rewrite Q. split; [apply Rdiv_le_0_compat; lra|].
      apply Rle_div_l; [lra|]. assert (e <= b * boys M t 0) by lra. nra. }
    apply wp_exists in W. destruct W as [f' [E C]]. exists f'. split; [exact E|]. apply cells_first; [lia|exact C].
Qed.

(** ** closed forms of order zero and of argument zero *)
Lemma boys_t0 m l : boys m 0 l = (1 - l ^ (2 * m + 1)) / (2 * INR m + 1).
Proof.
  pose proof (boys_rec m 0 l) as E. rewrite !Rmult_0_l, Ropp_0, exp_0 in E. pose proof (pos_INR m).
  apply Rmult_eq_reg_l with (2 * INR m + 1); [|lra]. field_simplify; [|lra]. lra.
Qed.

Lemma gauss_cont s : continuous (fun s => exp (- (s * s))) s.
Proof. apply (ex_derive_continuous (V := R_NormedModule)). auto_derive. exact I. Qed.
Lemma gauss_int a b : ex_RInt (fun s => exp (- (s * s))) a b.
Proof. apply (ex_RInt_continuous (V := R_CompleteNormedModule)). intros; apply gauss_cont. Qed.

Lemma sqrt_PI_pos : 0 < sqrt PI.
Proof. apply sqrt_lt_R0, PI_RGT_0. Qed.

Lemma boys_0 t l : 0 < t -> boys 0 t l = SQRTPIE4 / sqrt t * (erf (sqrt t) - erf (l * sqrt t)).
Proof.
  intros Ht. pose proof (sqrt_lt_R0 t Ht) as Hs. pose proof sqrt_PI_pos as Hp.
  assert (E : RInt (fun s => exp (- (s * s))) (l * sqrt t) (sqrt t) =
              RInt (fun s => exp (- (s * s))) 0 (sqrt t) - RInt (fun s => exp (- (s * s))) 0 (l * sqrt t)).
  { assert (C : RInt (fun s => exp (- (s * s))) 0 (l * sqrt t) + RInt (fun s => exp (- (s * s))) (l * sqrt t) (sqrt t)
      = RInt (fun s => exp (- (s * s))) 0 (sqrt t)).
    { exact (RInt_Chasles (V := R_CompleteNormedModule) (fun s => exp (- (s * s))) 0 (l * sqrt t) (sqrt t)
      (gauss_int _ _) (gauss_int _ _)). }
    lra. }
  assert (S1 : RInt (fun u => sqrt t * exp (- ((sqrt t * u + 0) * (sqrt t * u + 0)))) l 1 =
               RInt (fun s => exp (- (s * s))) (sqrt t * l + 0) (sqrt t * 1 + 0)).
  { apply (RInt_comp_lin (V := R_CompleteNormedModule) (fun s => exp (- (s * s))) (sqrt t) 0 l 1). apply gauss_int. }
  assert (S2 : RInt (fun u => sqrt t * exp (- ((sqrt t * u + 0) * (sqrt t * u + 0)))) l 1 = sqrt t * boys 0 t l).
  { rewrite (RInt_ext _ (fun u => scal (sqrt t) (bk 0 t u))).
    - rewrite (RInt_scal (V := R_CompleteNormedModule)); [reflexivity|apply bk_int].
    - intros u _. unfold bk. cbn [Nat.mul pow]. unfold scal; cbn; unfold mult; cbn.
      replace (- ((sqrt t * u + 0) * (sqrt t * u + 0))) with (- (sqrt t * sqrt t * (u * u))) by ring.
      rewrite sqrt_sqrt by lra. ring. }
  rewrite S2 in S1. rewrite !Rplus_0_r, Rmult_1_r, (Rmult_comm (sqrt t) l) in S1.
  unfold SQRTPIE4, erf. apply Rmult_eq_reg_l with (sqrt t); [|lra]. rewrite S1, E. field. lra.
Qed.

Lemma boys_le_exp m t l : 0 <= l <= 1 -> 0 <= t -> boys m t l <= exp (- (t * (l * l))).
Proof.
  intros Hl Ht. apply Rle_trans with (RInt (fun _ => exp (- (t * (l * l)))) l 1).
  - apply RInt_le; [lra|apply bk_int|apply ex_RInt_const|]. intros u Hu.
    rewrite <- (Rmult_1_l (exp (- (t * (l * l))))).
    apply Rmult_le_compat; [| |rewrite pow_mult, <- (pow1 m); apply pow_incr; nra|].
    + rewrite pow_mult. apply pow_le. nra.
    + apply Rlt_le, exp_pos.
    + destruct (Req_dec (t * (u * u)) (t * (l * l))) as [->|N]; [lra|].
      apply Rlt_le, exp_increasing. assert (l * l <= u * u) by nra.
      assert (t * (l * l) <= t * (u * u)) by (apply Rmult_le_compat_l; lra). lra.
  - rewrite RInt_const. unfold scal; cbn; unfold mult; cbn. pose proof (exp_pos (- (t * (l * l)))). nra.
Qed.

(** ** exact branches *)
Lemma gamma_t0 sml fuel f m : (0 <= m < asize f)%Z ->
  exists f', gamma_inc_like sml fuel f 0 m = Some f' /\ first_cells f f' m (fun i v => v = boys i 0 0).
Proof.
  intros Hm. unfold gamma_inc_like. destruct (Req_EM_T 0 0) as [_|N]; [|contradiction].
  apply wp_exists. eapply wp_mono with (P := fun f' => cellsZ f f' 0 m (fun i v => v = boys i 0 0));
    [|intros r Hr; apply cells_first; [lia|exact Hr]].
  apply wp_bind. apply wp_wr; [lia|]. intros f1 Hs1 Hc1.
  apply (wp_for (fun i g => cellsZ f g 0 (i - 1) (fun i v => v = boys i 0 0))); [lia| | |].
  - apply (cells_one f 1 0); [|exact Hs1|exact Hc1]. rewrite boys_t0. cbn [Z.to_nat INR pow Nat.mul Nat.add]. field.
  - intros i g Hi Hg. apply wp_wr; [destruct Hg; lia|]. intros g' Hs' Hc'.
    replace (i + 1 - 1)%Z with (i - 1 + 1)%Z by lia.
    eapply cells_up; [lia|exact Hg| |exact Hs'|].
    + cbv beta. instantiate (1 := 1 / IZR (2 * i + 1)). rewrite boys_t0, INR_Z by lia.
      rewrite pow_i by lia. rewrite Rminus_0_r. f_equal. rewrite plus_IZR, mult_IZR. f_equal. f_equal. f_equal. lia.
    + replace (i - 1 + 1)%Z with i by lia. exact Hc'.
  - intros g Hg. replace m with (m + 1 - 1)%Z by lia. exact Hg.
Qed.

Lemma gamma_up sml fuel f t m tp : (0 <= m < asize f)%Z -> rd TURNOVER_POINT m = Some tp -> 0 < t -> tp <= t ->
  exists f', gamma_inc_like sml fuel f t m = Some f' /\ first_cells f f' m (fun i v => v = boys i t 0).
Proof.
  intros Hm Htp Ht Hge. unfold gamma_inc_like. destruct (Req_EM_T t 0) as [N|_]; [lra|].
  rewrite Htp. cbn [bind]. destruct (Rlt_dec t tp) as [N|_]; [lra|].
  apply wp_exists. eapply wp_mono with (P := fun f' => cellsZ f f' 0 m (fun i v => v = boys i t 0));
    [|intros r Hr; apply cells_first; [lia|exact Hr]].
  cbv zeta. apply wp_bind. apply wp_wr; [lia|]. intros f1 Hs1 Hc1.
  apply (wp_for (fun i g => cellsZ f g 0 (i - 1) (fun i v => v = boys i t 0))); [lia| | |].
  - eapply (cells_one f _ 0); [|exact Hs1|exact Hc1]. cbn [Z.to_nat]. rewrite boys_0 by exact Ht.
    rewrite Rmult_0_l. replace (erf 0) with 0; [rewrite Rminus_0_r; reflexivity|].
    unfold erf. rewrite RInt_point. unfold zero; cbn. ring.
  - intros i g Hi Hg. destruct Hg as [G1 [G2 G3]]. destruct (G2 (i - 1)%Z ltac:(lia)) as [v [Hv Ev]].
    apply wp_bind. apply wp_rd with v; [apply rd_spec; split; [lia|exact Hv]|].
    apply wp_wr; [lia|]. intros g' Hs' Hc'.
    replace (i + 1 - 1)%Z with (i - 1 + 1)%Z by lia.
    eapply cells_up; [lia|split; [exact G1|split; [exact G2|exact G3]]| |exact Hs'|].
    + cbv beta. instantiate (1 := / 2 / t * (IZR (2 * i - 1) * v - exp (- t))).
      pose proof (boys_rec (Z.to_nat (i - 1)) t 0) as E. rewrite pow_i in E by lia.
      rewrite INR_Z, minus_IZR in E by lia. rewrite Ev.
      replace (Z.to_nat (i - 1 + 1)) with (S (Z.to_nat (i - 1))) by lia.
      rewrite minus_IZR, mult_IZR. apply Rmult_eq_reg_l with t; [|lra]. field_simplify; [|lra]. lra.
    + replace (i - 1 + 1)%Z with i by lia. exact Hc'.
  - intros g Hg. replace m with (m + 1 - 1)%Z by lia. exact Hg.
Qed.

(** ** integer powers by squaring *)
Lemma land_pow2 k e : (0 <= k)%Z -> negb (Z.land (2 ^ k) e =? 0)%Z = Z.testbit e k.
Proof.
  intros Hk. destruct (Z.testbit e k) eqn:E.
  - apply negb_true_iff, Z.eqb_neq. intros H.
    assert (T : Z.testbit (Z.land (2 ^ k) e) k = false) by (rewrite H; apply Z.bits_0).
    rewrite Z.land_spec, Z.pow2_bits_true, E in T by lia. discriminate.
  - apply negb_false_iff, Z.eqb_eq. apply Z.bits_inj'. intros n Hn.
    rewrite Z.land_spec, Z.bits_0, Z.pow2_bits_eqb by lia.
    destruct (k =? n)%Z eqn:Q; [|reflexivity]. replace n with k by lia. rewrite E. reflexivity.
Qed.

Lemma mod_pow2_succ e k : (0 <= k)%Z ->
  (e mod 2 ^ (k + 1) = e mod 2 ^ k + (if Z.testbit e k then 2 ^ k else 0))%Z.
Proof.
  intros Hk. rewrite Z.pow_add_r, Z.pow_1_r by lia.
  rewrite Z.rem_mul_r by (try (apply Z.pow_nonzero; lia); lia).
  pose proof (Z.testbit_spec' e k Hk) as T. rewrite <- T. destruct (Z.testbit e k); cbn [Z.b2z]; ring.
Qed.

Lemma pow_ok base m : (0 <= m)%Z -> exists n, forall fuel, (n <= fuel)%nat -> pow_ fuel base m = Some (base ^ Z.to_nat m).
Proof.
  intros Hm.
  set (st := fun k : nat => ((2 ^ Z.of_nat k)%Z, base ^ Z.to_nat (2 ^ Z.of_nat k), base ^ Z.to_nat (m mod 2 ^ Z.of_nat k))).
  assert (P2 : forall k : nat, (0 < 2 ^ Z.of_nat k)%Z) by (intros; apply Z.pow_pos_nonneg; lia).
  destruct (while_ends st (fun st => let '(i, _, _) := st in (i <=? m)%Z)
         (fun st => let '(i, base, result) := st in
            (Z.shiftl i 1, base * base,
             if negb (Z.land i m =? 0)%Z then result * base else result))) with (N := Z.to_nat (m + 1)) as [K [_ [HK Hr]]].
  - intros k. unfold st. rewrite Nat2Z.inj_succ, <- Z.add_1_r. rewrite mod_pow2_succ, land_pow2 by lia.
    specialize (P2 k). rewrite Z.pow_add_r, Z.pow_1_r by lia.
    f_equal; [f_equal|].
    + rewrite Z.shiftl_mul_pow2, Z.pow_1_r by lia. reflexivity.
    + rewrite <- pow_add. f_equal. lia.
    + pose proof (Z.mod_pos_bound m _ P2). destruct (Z.testbit m (Z.of_nat k)).
      * rewrite <- pow_add. f_equal. lia.
      * f_equal. lia.
  - unfold st. apply Z.leb_gt. rewrite Z2Nat.id by lia.
    pose proof (Z.pow_gt_lin_r 2 (m + 1) ltac:(lia) ltac:(lia)). lia.
  - exists (S K). intros fuel Hf. specialize (Hr fuel ltac:(lia)). unfold pow_.
    assert (S0 : st O = (1%Z, base, 1)).
    { unfold st. cbn [Z.of_nat]. rewrite Z.pow_0_r, Z.mod_1_r. change (Z.to_nat 1) with 1%nat. rewrite pow_1. reflexivity. }
    rewrite S0 in Hr. rewrite Hr. cbn [bind]. unfold st. cbn [snd]. unfold st in HK. apply Z.leb_gt in HK.
    rewrite Z.mod_small by lia. reflexivity.
Qed.

(** ** the range-separated values *)
Lemma erfc_zero sml fuel f t l m : (0 <= m < asize f)%Z -> 0 < l <= 1 -> 0 <= t -> 200 < t * (l * l) ->
  exists f', fmt_erfc_like sml fuel f t l m = Some f' /\
    first_cells f f' m (fun i v => v = 0 /\ 0 <= boys i t l <= exp (- 200)).
Proof.
  intros Hm Hl Ht Hb. unfold fmt_erfc_like. destruct (Req_EM_T l 0) as [N|_]; [lra|]. cbv zeta.
  destruct (Rlt_dec ERFC_bound (t * (l * l))) as [_|N]; [|unfold ERFC_bound in N; lra].
  apply wp_exists. eapply wp_mono with (P := fun f' => cellsZ f f' 0 m _);
    [|intros r Hr; apply cells_first; [lia|exact Hr]].
  apply (wp_for (fun i g => cellsZ f g 0 (i - 1) (fun i v => v = 0 /\ 0 <= boys i t l <= exp (- 200)))); [lia| | |].
  - split; [reflexivity|]. split; [intros i Hi; lia|reflexivity].
  - intros i g Hi Hg. apply wp_wr; [destruct Hg; lia|]. intros g' Hs' Hc'.
    replace (i + 1 - 1)%Z with (i - 1 + 1)%Z by lia.
    eapply cells_up; [lia|exact Hg| |exact Hs'|].
    + cbv beta. instantiate (1 := 0). split; [reflexivity|]. split; [apply boys_pos; lra|].
      eapply Rle_trans; [apply boys_le_exp; lra|]. apply Rlt_le, exp_increasing. lra.
    + replace (i - 1 + 1)%Z with i by lia. exact Hc'.
  - intros g Hg. replace m with (m + 1 - 1)%Z by lia. exact Hg.
Qed.

Lemma erfc_t0 sml fuel f l m : (0 <= m < asize f)%Z -> 0 < l ->
  exists f', fmt_erfc_like sml fuel f 0 l m = Some f' /\ first_cells f f' m (fun i v => v = boys i 0 l).
Proof.
  intros Hm Hl. unfold fmt_erfc_like. destruct (Req_EM_T l 0) as [N|_]; [lra|]. cbv zeta.
  destruct (Rlt_dec ERFC_bound (0 * (l * l))) as [N|_]; [unfold ERFC_bound in N; lra|].
  destruct (Req_EM_T 0 0) as [_|N]; [|contradiction].
  apply wp_exists. eapply wp_mono with (P := fun f' => cellsZ f f' 0 m (fun i v => v = boys i 0 l));
    [|intros r Hr; apply cells_first; [lia|exact Hr]].
  apply wp_bind. apply wp_wr; [lia|]. intros f1 Hs1 Hc1. apply wp_bind.
  apply (wp_for (fun i (st : arr R * R) => cellsZ f (fst st) 0 (i - 1) (fun i v => v = boys i 0 l) /\
     snd st = l ^ (2 * Z.to_nat (i - 1) + 1))); [lia| | |].
  - cbn [fst snd]. split.
    + eapply (cells_one f _ 0); [|exact Hs1|exact Hc1]. rewrite boys_t0. cbn [Z.to_nat INR pow Nat.mul Nat.add]. field.
    + cbn. ring.
  - intros i [g e1] Hi [Hg He]. cbn [fst snd] in *. apply wp_bind. apply wp_wr; [destruct Hg; lia|]. intros g' Hs' Hc'.
    assert (E : e1 * (l * l) = l ^ (2 * Z.to_nat i + 1)).
    { rewrite He. replace (2 * Z.to_nat i + 1)%nat with (S (S (2 * Z.to_nat (i - 1) + 1))) by lia. cbn [pow]. ring. }
    cbn [wp fst snd]. replace (i + 1 - 1)%Z with (i - 1 + 1)%Z by lia. split.
    + eapply cells_up; [lia|exact Hg| |exact Hs'|].
      * cbv beta. instantiate (1 := (1 - e1 * (l * l)) / IZR (2 * i + 1)). rewrite boys_t0, INR_Z by lia.
        rewrite E. f_equal; [f_equal; f_equal; lia|]. f_equal. rewrite plus_IZR, mult_IZR. f_equal. f_equal. f_equal. lia.
      * replace (i - 1 + 1)%Z with i by lia. exact Hc'.
    + rewrite E. f_equal. lia.
  - intros [g e1] [Hg _]. cbn [fst wp] in *. replace m with (m + 1 - 1)%Z by lia. exact Hg.
Qed.

Lemma erfc_up sml fuel f t l m tp : (0 <= m < asize f)%Z -> rd TURNOVER_POINT m = Some tp -> 0 < t -> tp <= t ->
  0 < l -> t * (l * l) <= 200 ->
  exists f', fmt_erfc_like sml fuel f t l m = Some f' /\ first_cells f f' m (fun i v => v = boys i t l).
Proof.
  intros Hm Htp Ht Hge Hl Hb. unfold fmt_erfc_like. destruct (Req_EM_T l 0) as [N|_]; [lra|]. cbv zeta.
  destruct (Rlt_dec ERFC_bound (t * (l * l))) as [N|_]; [unfold ERFC_bound in N; lra|].
  destruct (Req_EM_T t 0) as [N|_]; [lra|].
  rewrite Htp. cbn [bind]. destruct (Rlt_dec t tp) as [N|_]; [lra|].
  apply wp_exists. eapply wp_mono with (P := fun f' => cellsZ f f' 0 m (fun i v => v = boys i t l));
    [|intros r Hr; apply cells_first; [lia|exact Hr]].
  apply wp_bind. apply wp_wr; [lia|]. intros f1 Hs1 Hc1. apply wp_bind.
  apply (wp_for (fun i (st : arr R * R * R) => cellsZ f (fst (fst st)) 0 i (fun i v => v = boys i t l) /\
     snd (fst st) = boys (Z.to_nat i) t l /\
     snd st = exp (- (t * (l * l))) * l ^ (2 * Z.to_nat i + 1))); [lia| | |].
  - cbn [fst snd].
    assert (E : SQRTPIE4 / sqrt t * (erfc (l * sqrt t) - erfc (sqrt t)) = boys 0 t l).
    { rewrite boys_0 by exact Ht. unfold erfc. f_equal. ring. }
    split; [|split].
    + eapply (cells_one f _ 0); [|exact Hs1|exact Hc1]. exact E.
    + exact E.
    + cbn. rewrite Rmult_1_r. f_equal. f_equal. ring.
  - intros i [[g val] e1] Hi [Hg [Hv He]]. cbn [fst snd] in *.
    assert (E : / 2 / t * (IZR (2 * i + 1) * val - exp (- t) + e1) = boys (Z.to_nat (i + 1)) t l).
    { pose proof (boys_rec (Z.to_nat i) t l) as B. rewrite INR_Z in B by lia. rewrite Hv, He.
      replace (Z.to_nat (i + 1)) with (S (Z.to_nat i)) by lia.
      rewrite plus_IZR, mult_IZR. apply Rmult_eq_reg_l with t; [|lra]. field_simplify; [|lra]. lra. }
    apply wp_bind. apply wp_wr; [destruct Hg; lia|]. intros g' Hs' Hc'. cbn [wp fst snd].
    split; [|split; [exact E|]].
    + eapply cells_up; [lia|exact Hg| |exact Hs'|exact Hc']. exact E.
    + rewrite He. replace (2 * Z.to_nat (i + 1) + 1)%nat with (S (S (2 * Z.to_nat i + 1))) by lia. cbn [pow]. ring.
  - intros [[g val] e1] [Hg _]. exact Hg.
Qed.

Lemma erfc_down sml f m t l e b e1 val : (0 <= m < asize f)%Z -> 0 <= t -> 0 <= sml -> 0 < l <= 1 ->
  e = / 2 * exp (- t) -> b = IZR m + / 2 -> e1 = / 2 * (exp (- (t * (l * l))) * l ^ (2 * Z.to_nat m + 1)) ->
  forall f0 (P := fun i => close sml (boys i t l) (boys i t 0)), P (Z.to_nat m) val -> cellsZ f0 f m m P ->
  wp (fordown m 1 (fun i (st : arr R * R * R * R) => let '(f, b, e1, val) := st in
         let b := b - 1 in
         let e1 := e1 / (l * l) in
         let val := (e - e1 + t * val) / b in
         f <- wr f (i - 1) val ;; Some (f, b, e1, val)) (f, b, e1, val))
     (fun r => cellsZ f0 (fst (fst (fst r))) 0 m P).
Proof.
  intros Hm Ht Hs Hl He Hb He1 f0 P Hval Hf.
  apply (wp_fordown (fun i (st : arr R * R * R * R) => let '(g, b, e1, val) := st in b = IZR i + / 2 /\
     e1 = / 2 * (exp (- (t * (l * l))) * l ^ (2 * Z.to_nat i + 1)) /\ P (Z.to_nat i) val /\ cellsZ f0 g i m P)).
  - lia.
  - auto.
  - intros i [[[g b'] e1'] v] Hi [Hb' [He' [Cv Hg]]].
    assert (Sz : (asize g = asize f)%Z) by (destruct Hg, Hf; congruence).
    assert (E1 : e1' / (l * l) = / 2 * (exp (- (t * (l * l))) * l ^ (2 * Z.to_nat (i - 1) + 1))).
    { rewrite He'. replace (2 * Z.to_nat i + 1)%nat with (S (S (2 * Z.to_nat (i - 1) + 1))) by lia. cbn [pow]. field. lra. }
    apply wp_bind. apply wp_wr; [lia|]. intros g' Hs' Hc'. cbn [wp].
    assert (V : P (Z.to_nat (i - 1)) ((e - e1' / (l * l) + t * v) / (b' - 1))).
    { pose proof (close_down sml i t l v ltac:(lia) ltac:(lra) Ht Hs Cv) as Q.
      rewrite E1, He, Hb'. replace (IZR i + / 2 - 1) with (IZR i - / 2) by lra. exact Q. }
    split; [rewrite minus_IZR; lra|]. split; [exact E1|]. split; [exact V|].
    eapply cells_down; [|exact Hg|exact V|exact Hs'|exact Hc']. lia.
  - intros [[[g b'] e1'] v] [_ [_ [_ Hg]]]. exact Hg.
Qed.

Theorem fmt1_erfc_ok sml f m t l : (0 <= m < asize f)%Z -> 0 <= t <= (IZR m + / 2) / 2 -> 0 < sml < 1 -> 0 < l <= 1 ->
  exists n, forall fuel, (n <= fuel)%nat -> exists f', fmt1_erfc_like sml fuel f t l m = Some f' /\
    first_cells f f' m (fun i => close sml (boys i t l) (boys i t 0)).
Proof.
  intros Hm Ht Hs Hl. set (M := Z.to_nat m).
  assert (EM : INR M = IZR m) by (apply INR_Z; lia).
  assert (Hm0 : 0 <= IZR m) by (apply IZR_le; lia).
  pose proof (exp_pos (- t)) as Pe.
  destruct (pow_ok (l * l) m ltac:(lia)) as [n0 Hpow]. fold M in Hpow.
  assert (Pow : (l * l) ^ M = l ^ (2 * M)) by (rewrite pow_mult; f_equal; cbn; ring).
  set (e := / 2 * exp (- t)). set (b := IZR m + / 2).
  set (e1 := / 2 * exp (- t * (l * l)) * l * (l * l) ^ M).
  assert (E1 : forall k, e1 * (l * l) ^ k = / 2 * (exp (- (t * (l * l))) * l ^ (2 * (M + k) + 1))).
  { intros k. unfold e1. replace (- t * (l * l)) with (- (t * (l * l))) by ring.
    replace (2 * (M + k) + 1)%nat with (2 * M + (2 * k + 1))%nat by lia. rewrite pow_add, pow_add, pow_1, Pow.
    assert ((l * l) ^ k = l ^ (2 * k)) as -> by (rewrite pow_mult; f_equal; cbn; ring). ring. }
  assert (E10 : e1 = / 2 * (exp (- (t * (l * l))) * l ^ (2 * M + 1))).
  { specialize (E1 O). cbn [pow] in E1. rewrite Rmult_1_r, Nat.add_0_r in E1. exact E1. }
  set (d := e - e1).
  assert (D : d = term M t l 0).
  { unfold d, term. cbn [Tk]. rewrite Nat.add_0_r, E10. fold e. ring. }
  assert (Tr : 0 <= t <= (INR M + / 2) / 2) by (rewrite EM; exact Ht).
  assert (Dp : 0 <= d) by (rewrite D; apply term_pos; [lra|exact Tr]).
  set (st := fun k => (Tk b t k, e1 * (l * l) ^ k, term M t l k, psum M t l k, b + 1 + INR k)).
  assert (HN : exists N, term M t l N <= sml * d).
  { destruct (Req_dec d 0) as [Z0|Z0].
    - exists O. rewrite Z0, <- D, Z0. lra.
    - destruct (half_pow_small (sml * d / e)) as [N HN].
      + apply Rdiv_lt_0_compat; [apply Rmult_lt_0_compat; lra|unfold e; lra].
      + exists N. eapply Rle_trans; [apply term_le; [lra|exact Tr]|]. fold e.
        apply Rlt_le in HN. apply Rmult_le_compat_l with (r := e) in HN; [|unfold e; lra].
        replace (e * (sml * d / e)) with (sml * d) in HN by (field; unfold e; lra). exact HN. }
  destruct HN as [N HN].
  destruct (while_ends st (fun st => let '(_, _, delta, _, _) := st in Rltb (sml * Rabs d) (Rabs delta))
         (fun st => let '(div, x1, _, s, bi) := st in
            let div := div * (t / bi) in
            let x1 := x1 * (l * l) in
            let delta := (e - x1) * div in
            (div, x1, delta, s + delta, bi + 1))) with (N := N) as [K [_ [HK Hrun]]].
  - intros k. unfold st. cbv zeta. rewrite S_INR. cbn [Tk psum].
    replace (b + 1 + INR k) with (b + INR k + 1) by ring.
    assert (X : e1 * (l * l) ^ k * (l * l) = e1 * (l * l) ^ S k) by (cbn [pow]; ring).
    assert (Y : (e - e1 * (l * l) ^ S k) * (Tk b t k * (t / (b + INR k + 1))) = term M t l (S k)).
    { rewrite E1. unfold term. cbn [Tk]. rewrite EM. fold e b. reflexivity. }
    rewrite X, Y. f_equal. ring.
  - unfold st. apply Rltb_false. rewrite (Rabs_pos_eq d), (Rabs_pos_eq (term M t l N)); [exact HN| |exact Dp].
    apply term_pos; [lra|exact Tr].
  - exists (Nat.max n0 (S K)). intros fuel Hf. specialize (Hrun fuel ltac:(lia)).
    assert (W : wp (fmt1_erfc_like sml fuel f t l m)
       (fun f' => cellsZ f f' 0 m (fun i => close sml (boys i t l) (boys i t 0)))).
    { unfold fmt1_erfc_like. cbv zeta. cbv zeta in Hrun. rewrite Hpow by lia. cbn [bind]. fold e b. fold e1. fold d.
      apply wp_bind.
      assert (S0 : st O = (1, e1, d, d, b + 1)).
      { unfold st. cbn [Tk psum INR pow]. rewrite <- D. f_equal; [f_equal; f_equal; f_equal; ring|ring]. }
      rewrite S0 in Hrun. rewrite Hrun. cbn [wp]. unfold st at 1.
      apply wp_bind. apply wp_wr; [lia|]. intros f' Hs' Hc'.
      assert (C : close sml (boys M t l) (boys M t 0) (psum M t l K / b)).
      { unfold st in HK. apply Rltb_false in HK.
        rewrite (Rabs_pos_eq d), (Rabs_pos_eq (term M t l K)) in HK; [|apply term_pos; [lra|exact Tr]|exact Dp].
        pose proof (series_err M t l K ltac:(lra) Tr) as SE. rewrite EM in SE. fold b in SE.
        pose proof (series_err M t 0 0 ltac:(lra) Tr) as SE0. rewrite EM in SE0. fold b in SE0. cbn [psum] in SE0.
        rewrite term0 in SE0. cbn [Tk] in SE0. fold e in SE0.
        assert (d <= e). { unfold d. rewrite E10. assert (0 <= exp (- (t * (l * l))) * l ^ (2 * M + 1)).
          { apply Rmult_le_pos; [apply Rlt_le, exp_pos|apply pow_le; lra]. } lra. }
        assert (Pb : 0 < b) by (unfold b; lra).
        assert (Q : boys M t l - psum M t l K / b = (b * boys M t l - psum M t l K) / b) by (field; lra).
        unfold close. rewrite Q. split; [apply Rdiv_le_0_compat; lra|].
        apply Rle_div_l; [lra|]. assert (e <= b * boys M t 0) by lra. nra. }
      apply wp_bind. eapply wp_mono; [eapply (erfc_down sml f' m t l e b e1 (psum M t l K / b)) with (f0 := f)|].
      - lia.
      - lra.
      - lra.
      - lra.
      - reflexivity.
      - reflexivity.
      - exact E10.
      - exact C.
      - apply (cells_one f (psum M t l K / b) m); [exact C|exact Hs'|exact Hc'].
      - intros [[[g b'] e1'] v] Hr. exact Hr. }
    apply wp_exists in W. destruct W as [f' [E C]]. exists f'. split; [exact E|]. apply cells_first; [lia|exact C].
Qed.

(** ** the two entry points *)
Lemma close_exact sml F v ref : 0 <= sml -> 0 <= ref -> v = F -> close sml F ref v.
Proof. intros Hs Hr ->. unfold close. nra. Qed.

Theorem gamma_inc_ok sml f t m : (0 <= m < asize f)%Z -> (m < 40)%Z -> 0 <= t -> 0 < sml < 1 ->
  exists n, forall fuel, (n <= fuel)%nat -> exists f', gamma_inc_like sml fuel f t m = Some f' /\
    first_cells f f' m (fun i v => 0 <= boys i t 0 - v <= sml * boys i t 0).
Proof.
  intros Hm Hm' Ht Hs. destruct (Req_dec t 0) as [->|Hn].
  - exists O. intros fuel _. destruct (gamma_t0 sml fuel f m Hm) as [f' [E C]]. exists f'. split; [exact E|].
    eapply cells_mono; [exact C|]. intros i v Hv. apply close_exact; [lra|apply boys_pos; lra|exact Hv].
  - destruct (turnover_rd m ltac:(lia)) as [z [Hz _]]. destruct (Rlt_dec t (IZR z / 10 ^ 12)) as [L|L].
    + pose proof (turnover_small m t _ ltac:(lia) Hz L) as B.
      destruct (fmt1_gamma_ok sml f m t Hm ltac:(lra) Hs) as [n Hok]. exists n. intros fuel Hf.
      destruct (Hok fuel Hf) as [f' [E C]]. exists f'. split; [|exact C].
      unfold gamma_inc_like. destruct (Req_EM_T t 0) as [N|_]; [contradiction|]. rewrite Hz. cbn [bind].
      destruct (Rlt_dec t (IZR z / 10 ^ 12)) as [_|N]; [exact E|contradiction].
    + exists O. intros fuel _. destruct (gamma_up sml fuel f t m _ Hm Hz ltac:(lra) ltac:(lra)) as [f' [E C]].
      exists f'. split; [exact E|]. eapply cells_mono; [exact C|]. intros i v Hv.
      apply close_exact; [lra|apply boys_pos; lra|exact Hv].
Qed.

Theorem erfc_ok sml f t l m : (0 <= m < asize f)%Z -> (m < 40)%Z -> 0 <= t -> 0 <= l <= 1 -> t * (l * l) <= 200 ->
  0 < sml < 1 ->
  exists n, forall fuel, (n <= fuel)%nat -> exists f', fmt_erfc_like sml fuel f t l m = Some f' /\
    first_cells f f' m (fun i v => 0 <= boys i t l - v <= sml * boys i t 0).
Proof.
  intros Hm Hm' Ht Hl Hb Hs. destruct (Req_dec l 0) as [->|Hl0].
  { destruct (gamma_inc_ok sml f t m Hm Hm' Ht Hs) as [n Hok]. exists n. intros fuel Hf.
    destruct (Hok fuel Hf) as [f' [E C]]. exists f'. split; [|exact C].
    unfold fmt_erfc_like. destruct (Req_EM_T 0 0) as [_|N]; [exact E|contradiction]. }
  destruct (Req_dec t 0) as [->|Hn].
  - exists O. intros fuel _. destruct (erfc_t0 sml fuel f l m Hm ltac:(lra)) as [f' [E C]]. exists f'. split; [exact E|].
    eapply cells_mono; [exact C|]. intros i v Hv. apply close_exact; [lra|apply boys_pos; lra|exact Hv].
  - destruct (turnover_rd m ltac:(lia)) as [z [Hz _]]. destruct (Rlt_dec t (IZR z / 10 ^ 12)) as [L|L].
    + pose proof (turnover_small m t _ ltac:(lia) Hz L) as B.
      destruct (fmt1_erfc_ok sml f m t l Hm ltac:(lra) Hs ltac:(lra)) as [n Hok]. exists n. intros fuel Hf.
      destruct (Hok fuel Hf) as [f' [E C]]. exists f'. split; [|exact C].
      unfold fmt_erfc_like. destruct (Req_EM_T l 0) as [N|_]; [contradiction|]. cbv zeta.
      destruct (Rlt_dec ERFC_bound (t * (l * l))) as [N|_]; [unfold ERFC_bound in N; lra|].
      destruct (Req_EM_T t 0) as [N|_]; [contradiction|]. rewrite Hz. cbn [bind].
      destruct (Rlt_dec t (IZR z / 10 ^ 12)) as [_|N]; [exact E|contradiction].
    + exists O. intros fuel _. destruct (erfc_up sml fuel f t l m _ Hm Hz ltac:(lra) ltac:(lra) ltac:(lra) Hb) as [f' [E C]].
      exists f'. split; [exact E|]. eapply cells_mono; [exact C|]. intros i v Hv.
      apply close_exact; [lra|apply boys_pos; lra|exact Hv].
Qed.

(** orders above the table: an out-of-bounds read of TURNOVER_POINT unless t = 0 *)
Lemma turnover_oob sml fuel f t m : (40 <= m)%Z -> t <> 0 -> gamma_inc_like sml fuel f t m = None.
Proof.
  intros Hm Ht. unfold gamma_inc_like. destruct (Req_EM_T t 0) as [N|_]; [contradiction|].
  assert (E : rd TURNOVER_POINT m = None).
  { unfold rd, inb, TURNOVER_POINT. cbn [asize]. destruct (m <? 40)%Z eqn:Q; [lia|]. rewrite andb_false_r. reflexivity. }
  rewrite E. reflexivity.
Qed.

Lemma order40_bad : exists (f : arr R) (m : Z), (0 <= m < asize f)%Z /\
  forall sml fuel t, 0 < t -> gamma_inc_like sml fuel f t m = None.
Proof. exists (uninit 64), 40%Z. split; [cbn; lia|]. intros sml fuel t Ht. apply turnover_oob; [lia|lra]. Qed.
