(** WholeSpinAlg.v — the spinor transform of C26 over the real numbers, as matrix elements of two-component operators. *)
From Coq Require Import Reals Lra QArith Qreals.
From Coquelicot Require Import Coquelicot.
From Verif Require Import Base BasSpec EnvModel OutSpec IntgModel SpinorSpec IntgSpec IntgTab IntgStmt WholeSpec GiaoProof WholeSpinSpec.
Local Open Scope R_scope.

(** i to the power of the number of spin components *)
Definition ipow (n : nat) : C := cval (cqpow n).
Lemma ipow_0 : ipow 0 = RtoC 1.
Proof. unfold ipow, cval, RtoC. cbn. f_equal; unfold Q2R; cbn; lra. Qed.
Lemma ipow_S n : ipow (S n) = (Ci * ipow n)%C.
Proof.
  unfold ipow. change (cqpow (S n)) with (cqmul cqi (cqpow n)). rewrite cval_mul. f_equal. unfold cval, cqi, Ci. cbn [fst snd]. f_equal; unfold Q2R; cbn; lra.
Qed.
Lemma ipow_add a b : ipow (a + b) = (ipow a * ipow b)%C.
Proof.
  induction a as [|a IH]; [rewrite ipow_0; symmetry; apply Cmult_1_l|]. cbn [Nat.add]. rewrite !ipow_S, IH. apply Cmult_assoc.
Qed.

(** number of a component among those stored *)
Definition comp_no (si : bool) (c : spin) : Z :=
  if si then match c with SX => 0 | SY => 1 | SZ => 2 | S1 => 3 end%Z else 0%Z.
Lemma stored_nth si c : In c (stored si) -> nth_error (stored si) (Z.to_nat (comp_no si c)) = Some c /\ (0 <= comp_no si c < Z.of_nat (length (stored si)))%Z.
Proof. destruct si, c; cbn; intros H; repeat destruct H as [H|H]; try discriminate; try contradiction; (split; [reflexivity|lia]). Qed.

Notation Rspin_op := (spin_op 0 1 Rplus Rmult Rminus Ropp).
Lemma spin_op_is si (B : Z -> C) s u :
  Rspin_op (cpick 0 si B) s u = spin_sum si s u (fun c => ipow (spin_i c) * B (comp_no si c))%C.
Proof.
  unfold spin_op, spin_sum, cpick, scalar, stored, one2, sigma_x, sigma_y, sigma_z, cadd, cmul, copp, c0, c1, ci, cre.
  destruct si; cbn [map fold_right op_x op_y op_z op_1 comp_no spin_i]; rewrite ?(ipow_S 0), ?ipow_0;
    try (destruct (B 0%Z), (B 1%Z), (B 2%Z), (B 3%Z)); unfold pauli, Cplus, Cmult, Copp, Ci, RtoC; cbn [fst snd];
    destruct (s =? u)%Z; try destruct (s =? 0)%Z; cbn [fst snd]; f_equal; ring.
Qed.

Section Sums.
  Lemma cz_ext n f g : (forall i, (0 <= i < n)%Z -> f i = g i) -> csumz n f = csumz n g.
  Proof. apply lsum_ext. Qed.
  Lemma cz_mul c n f : (c * csumz n f)%C = csumz n (fun i => c * f i)%C.
  Proof. unfold csumz, lsum. induction (Z.to_nat n) as [|k IH]; cbn [lsumN]; [ring|]. rewrite <- IH. ring. Qed.
  Lemma cs_R n f : SpinorSpec.csum 0 Rplus n f = csumz n f.
  Proof. reflexivity. Qed.
  Lemma csumz_mulr c n f : (csumz n f * c)%C = csumz n (fun i => f i * c)%C.
  Proof. rewrite Cmult_comm, cz_mul. apply cz_ext. intros. apply Cmult_comm. Qed.
  Lemma csumz_zero n f : (forall i, (0 <= i < n)%Z -> f i = RtoC 0) -> csumz n f = RtoC 0.
  Proof.
    intros H. rewrite (cz_ext n f (fun _ => RtoC 0) H). clear H. unfold csumz, lsum. induction (Z.to_nat n) as [|k IH]; cbn [lsumN]; [reflexivity|].
    rewrite IH. apply Cplus_0_l.
  Qed.
End Sums.

Section Two.
  Variables (tR tI : Z -> R).
  Notation TC := (two_comp tR tI).
  Lemma two_ext kpi li kpj lj mi mj M N :
    (forall a b s u, (0 <= a < ncart li)%Z -> (0 <= b < ncart lj)%Z -> M a b s u = N a b s u) -> TC kpi li kpj lj mi mj M = TC kpi li kpj lj mi mj N.
  Proof.
    intros H. unfold two_comp. apply cz_ext. intros b Hb. apply cz_ext. intros u _. apply cz_ext. intros a Ha. apply cz_ext. intros s _.
    rewrite (H a b s u Ha Hb). reflexivity.
  Qed.
  Lemma two_mul k kpi li kpj lj mi mj M : (k * TC kpi li kpj lj mi mj M)%C = TC kpi li kpj lj mi mj (fun a b s u => k * M a b s u)%C.
  Proof.
    unfold two_comp. rewrite cz_mul. apply cz_ext. intros b Hb. rewrite cz_mul. apply cz_ext. intros u _. rewrite cz_mul. apply cz_ext. intros a Ha.
    rewrite cz_mul. apply cz_ext. intros s _. ring.
  Qed.
  Lemma two_zero kpi li kpj lj mi mj M : (forall a b s u, (0 <= a < ncart li)%Z -> (0 <= b < ncart lj)%Z -> M a b s u = RtoC 0) -> TC kpi li kpj lj mi mj M = RtoC 0.
  Proof.
    intros H. unfold two_comp. apply csumz_zero. intros b Hb. apply csumz_zero. intros u _. apply csumz_zero. intros a Ha. apply csumz_zero. intros s _.
    rewrite (H a b s u Ha Hb). ring.
  Qed.
  Lemma spin_ext si s u f g : (forall c, In c (stored si) -> f c = g c) -> spin_sum si s u f = spin_sum si s u g.
  Proof. intros H. unfold spin_sum. f_equal. apply map_ext_in. intros c Hc. rewrite (H c Hc). reflexivity. Qed.
  Lemma spin_mul k si s u f : (k * spin_sum si s u f)%C = spin_sum si s u (fun c => k * f c)%C.
  Proof. unfold spin_sum. induction (stored si) as [|c l IH]; cbn [map fold_right]; [ring|]. rewrite <- IH. ring. Qed.
  Lemma spin_zero si s u f : (forall c, In c (stored si) -> f c = RtoC 0) -> spin_sum si s u f = RtoC 0.
  Proof.
    intros H. unfold spin_sum. induction (stored si) as [|c l IH]; cbn [map fold_right]; [reflexivity|].
    rewrite IH by (intros x Hx; apply H; right; exact Hx). rewrite (H c (or_introl eq_refl)). ring.
  Qed.

  (** one pair of shells *)
  Lemma pair_is kpi li kpj lj mi mj si (B : Z -> Z -> Z -> C) :
    spinor_pair 0 1 Rplus Rmult Rminus Ropp tR tI kpi li kpj lj mi mj (fun a b => cpick 0 si (B a b)) =
    TC kpi li kpj lj mi mj (fun a b s u => spin_sum si s u (fun c => ipow (spin_i c) * B a b (comp_no si c))%C).
  Proof.
    unfold spinor_pair, ket_spinor, bra_spinor, two_comp. rewrite cs_R. apply cz_ext. intros b Hb. rewrite cs_R. apply cz_ext. intros u _.
    match goal with |- cmul _ _ _ ?X ?Y = _ => change (cmul Rplus Rmult Rminus X Y) with (Cmult X Y) end.
    rewrite cs_R, csumz_mulr. apply cz_ext. intros a Ha. rewrite cs_R, csumz_mulr. apply cz_ext. intros s _.
    rewrite spin_op_is. match goal with |- Cmult (cmul _ _ _ ?X ?Y) _ = _ => change (cmul Rplus Rmult Rminus X Y) with (Cmult X Y) end. reflexivity.
  Qed.
  Lemma phase_is p z : with_phase 0 1 Rplus Rmult Rminus p z = (ipow (if p then 1 else 0) * z)%C.
  Proof.
    destruct p; cbn [with_phase]; [rewrite ipow_S, ipow_0|rewrite ipow_0; symmetry; apply Cmult_1_l].
    change (cmul Rplus Rmult Rminus (ci 0 1) z) with (Cmult Ci z). rewrite Cmult_1_r. reflexivity.
  Qed.
  (** the phases of C58 are those of the transform *)
  Lemma pair_phase kpi li kpj lj mi mj si p (B : Z -> Z -> Z -> C) :
    with_phase 0 1 Rplus Rmult Rminus p (spinor_pair 0 1 Rplus Rmult Rminus Ropp tR tI kpi li kpj lj mi mj (fun a b => cpick 0 si (B a b))) =
    TC kpi li kpj lj mi mj (fun a b s u => spin_sum si s u (fun c => ipow ((if p then 1 else 0) + spin_i c) * B a b (comp_no si c))%C).
  Proof.
    rewrite phase_is, pair_is, two_mul. apply two_ext. intros a b s u _ _. rewrite spin_mul. apply spin_ext. intros c _. rewrite ipow_add. ring.
  Qed.
End Two.

(** ** Which component is where *)
Lemma nth_flat {A B} (F : A -> list B) k l n x c : (forall y, length (F y) = k) -> nth_error l n = Some x -> (c < k)%nat -> nth_error (flat_map F l) (n * k + c) = nth_error (F x) c.
Proof.
  intros Hk. revert n. induction l as [|y l IH]; intros n Hn Hc; [destruct n; discriminate|]. cbn [flat_map]. destruct n as [|n].
  - cbn in Hn. injection Hn as ->. cbn [Nat.mul Nat.add]. apply nth_error_app1. rewrite Hk. exact Hc.
  - cbn in Hn. rewrite nth_error_app2 by (rewrite Hk; nia). rewrite Hk. replace (S n * k + c - k)%nat with (n * k + c)%nat by nia. apply IH; assumption.
Qed.
Lemma len_flat {A B} (F : A -> list B) k l : (forall y, length (F y) = k) -> length (flat_map F l) = (length l * k)%nat.
Proof. intros Hk. induction l as [|y l IH]; [reflexivity|]. cbn [flat_map length]. rewrite app_length, IH, Hk. cbn. reflexivity. Qed.
Lemma components_nth d si1 si2 n qs c1 c2 : nth_error (spec_pairs d) n = Some qs -> In c1 (stored si1) -> In c2 (stored si2) ->
  nth_error (components d si1 si2) (Z.to_nat ((Z.of_nat n * Z.of_nat (length (stored si2)) + comp_no si2 c2) * Z.of_nat (length (stored si1)) + comp_no si1 c1)) =
    Some (c1, c2, spec_of d qs c1 c2).
Proof.
  intros Hn H1 H2. destruct (stored_nth si1 c1 H1) as [N1 R1]. destruct (stored_nth si2 c2 H2) as [N2 R2].
  set (k1 := length (stored si1)) in *. set (k2 := length (stored si2)) in *.
  replace (Z.to_nat _) with (n * (k2 * k1) + (Z.to_nat (comp_no si2 c2) * k1 + Z.to_nat (comp_no si1 c1)))%nat by nia.
  unfold components. rewrite (nth_flat _ (k2 * k1)%nat _ n qs).
  - rewrite (nth_flat _ k1 _ (Z.to_nat (comp_no si2 c2)) c2).
    + erewrite map_nth_error by exact N1. reflexivity.
    + intros y. apply map_length.
    + exact N2.
    + lia.
  - intros y. rewrite (len_flat _ k1); [reflexivity|]. intros z. apply map_length.
  - exact Hn.
  - nia.
Qed.
Lemma components_len d si1 si2 : length (components d si1 si2) = (length (spec_pairs d) * (length (stored si2) * length (stored si1)))%nat.
Proof. unfold components. apply len_flat. intros y. apply len_flat. intros z. apply map_length. Qed.

(** ** The elements of C26 *)
Section Elem.
  Variables (tR tI : Z -> R).
  Notation TC := (two_comp tR tI).
  Notation ph p c := (ipow ((if p then 1 else 0) + spin_i c)).

  Lemma spin1_value si (p : bool) ki li kj lj x ni nj e1 n I J (S : spin -> Z -> Z -> C) :
    (forall a b c, (0 <= a < ncart li)%Z -> (0 <= b < ncart lj)%Z -> In c (stored si) ->
       (ph p c * RtoC (batch2 x (ncart li * ncart lj) ni nj (n * e1 + comp_no si c) (I / nspinor ki li) (J / nspinor kj lj) (b * ncart li + a)) = S c a b)%C) ->
    spinor_1e 0 1 Rplus Rmult Rminus Ropp tR tI si p ki li kj lj x ni nj e1 n I J =
      (TC ki li kj lj (I mod nspinor ki li) (J mod nspinor kj lj) (fun a b s u => spin_sum si s u (fun c => S c a b)))%C.
  Proof.
    intros H. unfold spinor_1e. cbv zeta. rewrite (pair_phase tR tI _ _ _ _ _ _ si p). apply two_ext. intros a b s u Ha Hb.
    apply spin_ext. intros c Hc. exact (H a b c Ha Hb Hc).
  Qed.

  Lemma spin3_value coef off si (p : bool) ki li kj lj lk x ni nj nk e1 n I J K (S : spin -> Z -> Z -> Z -> C) :
    (forall a b k c, (0 <= a < ncart li)%Z -> (0 <= b < ncart lj)%Z -> (0 <= k < ncart lk)%Z -> In c (stored si) ->
       (ph p c * RtoC (batch3 x (ncart li * ncart lk * ncart lj) ni nj nk (n * e1 + comp_no si c) (I / nspinor ki li) (J / nspinor kj lj) (K / (2 * lk + 1))
          ((b * ncart lk + k) * ncart li + a)) = S c a b k)%C) ->
    spinor_3c 0 1 Rplus Rmult Rminus Ropp tR tI coef off si p ki li kj lj lk x ni nj nk e1 n I J K =
      (TC ki li kj lj (I mod nspinor ki li) (J mod nspinor kj lj) (fun a b s u => spin_sum si s u (fun c =>
        apply_T (RtoC 0) Cplus Cmult (fun q => RtoC (coef q)) off ncart lk (K mod (2 * lk + 1)) (fun k => S c a b k))))%C.
  Proof.
    intros H. unfold spinor_3c. cbv zeta. rewrite (pair_phase tR tI _ _ _ _ _ _ si p). apply two_ext. intros a b s u Ha Hb.
    apply spin_ext. intros c Hc. unfold apply_T.
    match goal with |- (_ * cre 0 ?y)%C = _ => change (cre 0 y) with (RtoC y) end.
    match goal with |- (?w * RtoC (lsum 0 Rplus ?n ?f))%C = _ => assert (E : RtoC (lsum 0 Rplus n f) = csumz n (fun i => RtoC (f i))) end.
    { clear. unfold csumz, lsum. induction (Z.to_nat (ncart lk)) as [|m IH]; cbn [lsumN]; [reflexivity|]. rewrite RtoC_plus, IH. reflexivity. }
    rewrite E. change (lsum (RtoC 0) Cplus (ncart lk)) with (csumz (ncart lk)). rewrite !cz_mul. apply cz_ext. intros k Hk. cbv beta. rewrite RtoC_mult.
    pose proof (H a b k c Ha Hb Hk Hc) as E1. rewrite Cmult_assoc, (Cmult_comm (ph p c)), <- Cmult_assoc, E1. unfold Tmat. ring.
  Qed.

  Lemma spin2_value s1 (p1 : bool) s2 (p2 : bool) ki li kj lj kk lk kl ll x ni nj nk nl e1 e2 n I J K L (S : spin -> spin -> Z -> Z -> Z -> Z -> C) :
    (forall a b c d c1 c2, (0 <= a < ncart li)%Z -> (0 <= b < ncart lj)%Z -> (0 <= c < ncart lk)%Z -> (0 <= d < ncart ll)%Z -> In c1 (stored s1) -> In c2 (stored s2) ->
       (ph p2 c2 * (ph p1 c1 * RtoC (batch4 x (ncart li * ncart lk * ncart ll * ncart lj) ni nj nk nl ((n * e2 + comp_no s2 c2) * e1 + comp_no s1 c1)
          (I / nspinor ki li) (J / nspinor kj lj) (K / nspinor kk lk) (L / nspinor kl ll) (((b * ncart ll + d) * ncart lk + c) * ncart li + a))) = S c1 c2 a b c d)%C) ->
    spinor_2e 0 1 Rplus Rmult Rminus Ropp tR tI s1 p1 s2 p2 ki li kj lj kk lk kl ll x ni nj nk nl e1 e2 n I J K L =
      (TC kk lk kl ll (K mod nspinor kk lk) (L mod nspinor kl ll) (fun c d s' u' => spin_sum s2 s' u' (fun c2 =>
        TC ki li kj lj (I mod nspinor ki li) (J mod nspinor kj lj) (fun a b s u => spin_sum s1 s u (fun c1 => S c1 c2 a b c d)))))%C.
  Proof.
    intros H. unfold spinor_2e. cbv zeta. rewrite (pair_phase tR tI _ _ _ _ _ _ s2 p2). apply two_ext. intros c d s' u' Hc Hd.
    apply spin_ext. intros c2 Hc2. rewrite (pair_phase tR tI _ _ _ _ _ _ s1 p1). rewrite two_mul. apply two_ext. intros a b s u Ha Hb.
    rewrite spin_mul. apply spin_ext. intros c1 Hc1. exact (H a b c d c1 c2 Ha Hb Hc Hd Hc1 Hc2).
  Qed.
End Elem.
Lemma batch_R0 z : part (z mod 2) (RtoC 0) = 0.
Proof. unfold part. destruct (_ =? _)%Z; reflexivity. Qed.

(** ** The catalogue: transforms and numbers of components *)
Definition spin_tab_ok (t : ent) : bool :=
  let c1 := en_c2s1 (t_e t) in let c2 := en_c2s2 (t_e t) in
  match en_fam (t_e t), ent_ng t with
  | (F1e | F1rinv | F1nuc), Some ng => (POS_E1 ng =? Z.of_nat (length (stored (sis c1))))%Z && (TENSOR ng =? Z.of_nat (length (spec_pairs (t_d t))))%Z && negb (sis c2) && Nat.eqb (ims c2) 0
  | (F3c2e | F2c2e), Some ng => (POS_E1 ng =? Z.of_nat (length (stored (sis c1))))%Z && (TENSOR ng =? Z.of_nat (length (spec_pairs (t_d t))))%Z && negb (sis c2) && Nat.eqb (ims c2) 0 && (POS_E2 ng =? 1)%Z
  | F2e, Some ng => (POS_E1 ng =? Z.of_nat (length (stored (sis c1))))%Z && (TENSOR ng =? Z.of_nat (length (spec_pairs (t_d t))))%Z && (POS_E2 ng =? Z.of_nat (length (stored (sis c2))))%Z
  | (F1e | F1rinv | F1nuc | F3c2e | F2c2e | F2e), None => false
  | _, _ => true
  end.
Lemma spin_tab_checked : forallb spin_tab_ok catalogue = true.
Proof. vm_cast_no_check (eq_refl true). Qed.
Lemma tab_one t ng : In t catalogue -> ent_ng t = Some ng ->
  en_fam (t_e t) = F1e \/ en_fam (t_e t) = F1rinv \/ en_fam (t_e t) = F1nuc \/ en_fam (t_e t) = F3c2e \/ en_fam (t_e t) = F2c2e ->
  (POS_E1 ng = Z.of_nat (length (stored (sis (en_c2s1 (t_e t))))) /\ TENSOR ng = Z.of_nat (length (spec_pairs (t_d t))))%Z /\ sis (en_c2s2 (t_e t)) = false /\ ims (en_c2s2 (t_e t)) = 0%nat /\
  (en_fam (t_e t) = F3c2e \/ en_fam (t_e t) = F2c2e -> POS_E2 ng = 1%Z).
Proof.
  intros Ht En Hf. pose proof (proj1 (forallb_forall _ _) spin_tab_checked t Ht) as H. unfold spin_tab_ok in H. rewrite En in H.
  destruct (en_fam (t_e t)); try (destruct Hf as [X|[X|[X|[X|X]]]]; discriminate); repeat rewrite andb_true_iff in H; rewrite negb_true_iff, Nat.eqb_eq, !Z.eqb_eq in H;
    (split; [tauto|]); (split; [tauto|]); (split; [tauto|]); intros [X|X]; try discriminate; tauto.
Qed.
Lemma tab_two t ng : In t catalogue -> ent_ng t = Some ng -> en_fam (t_e t) = F2e ->
  (POS_E1 ng = Z.of_nat (length (stored (sis (en_c2s1 (t_e t))))) /\ TENSOR ng = Z.of_nat (length (spec_pairs (t_d t))) /\ POS_E2 ng = Z.of_nat (length (stored (sis (en_c2s2 (t_e t))))))%Z.
Proof.
  intros Ht En Hf. pose proof (proj1 (forallb_forall _ _) spin_tab_checked t Ht) as H. unfold spin_tab_ok in H. rewrite En, Hf in H.
  rewrite !andb_true_iff, !Z.eqb_eq in H. tauto.
Qed.
Lemma stored_len si : Z.of_nat (length (stored si)) = if si then 4%Z else 1%Z.
Proof. destruct si; reflexivity. Qed.
Lemma phase_two e c1 c2 : cval (phase e c1 c2) = (ipow (ims (en_c2s2 e) + spin_i c2) * ipow (ims (en_c2s1 e) + spin_i c1))%C.
Proof. unfold phase. change (cval (cqpow ?n)) with (ipow n). rewrite <- ipow_add. f_equal. lia. Qed.
Lemma ims_some u : ims (Some u) = if c_im u then 1%nat else 0%nat.
Proof. reflexivity. Qed.
(** position of a component in the batch *)
Lemma comp_at1 t ng n qs c : In t catalogue -> ent_ng t = Some ng ->
  en_fam (t_e t) = F1e \/ en_fam (t_e t) = F1rinv \/ en_fam (t_e t) = F1nuc \/ en_fam (t_e t) = F3c2e \/ en_fam (t_e t) = F2c2e ->
  nth_error (spec_pairs (t_d t)) n = Some qs -> In c (stored (sis (en_c2s1 (t_e t)))) ->
  exists k : nat, Z.of_nat k = (Z.of_nat n * POS_E1 ng + comp_no (sis (en_c2s1 (t_e t))) c)%Z /\
    nth_error (components (t_d t) (sis (en_c2s1 (t_e t))) (sis (en_c2s2 (t_e t)))) k = Some (c, S1, spec_of (t_d t) qs c S1) /\
    cval (phase (t_e t) c S1) = ipow (ims (en_c2s1 (t_e t)) + spin_i c).
Proof.
  intros Ht En Hf Hn Hc. destruct (tab_one t ng Ht En Hf) as ([E1 _] & E2 & E3 & _).
  pose proof (components_nth (t_d t) (sis (en_c2s1 (t_e t))) false n qs c S1 Hn Hc ltac:(left; reflexivity)) as H.
  destruct (stored_nth _ c Hc) as [_ R1].
  eexists. split; [|split; [rewrite E2; exact H|]].
  - rewrite Z2Nat.id.
    + rewrite E1. cbn [stored length comp_no]. change (Z.of_nat 1) with 1%Z. ring.
    + cbn [stored length comp_no]. nia.
  - rewrite phase_two, E3. cbn [spin_i Nat.add]. rewrite ipow_0. ring.
Qed.
Lemma comp_at2 t ng n qs c1 c2 : In t catalogue -> ent_ng t = Some ng -> en_fam (t_e t) = F2e ->
  nth_error (spec_pairs (t_d t)) n = Some qs -> In c1 (stored (sis (en_c2s1 (t_e t)))) -> In c2 (stored (sis (en_c2s2 (t_e t)))) ->
  exists k : nat, Z.of_nat k = ((Z.of_nat n * POS_E2 ng + comp_no (sis (en_c2s2 (t_e t))) c2) * POS_E1 ng + comp_no (sis (en_c2s1 (t_e t))) c1)%Z /\
    nth_error (components (t_d t) (sis (en_c2s1 (t_e t))) (sis (en_c2s2 (t_e t)))) k = Some (c1, c2, spec_of (t_d t) qs c1 c2).
Proof.
  intros Ht En Hf Hn H1 H2. destruct (tab_two t ng Ht En Hf) as (E1 & _ & E2).
  pose proof (components_nth (t_d t) _ _ n qs c1 c2 Hn H1 H2) as H.
  destruct (stored_nth _ c1 H1) as [_ R1]. destruct (stored_nth _ c2 H2) as [_ R2].
  eexists. split; [|exact H]. rewrite Z2Nat.id by nia. rewrite E1, E2. reflexivity.
Qed.
(** an index of the output block: spinor number and contraction *)
Lemma spin_index p d c : (0 <= p < d * c * 2 -> 1 <= c -> 0 <= p / 2 / d < c /\ 0 <= (p / 2) mod d < d)%Z.
Proof.
  intros Hp Hc. assert (Hd : (0 < d)%Z) by nia.
  assert (H2 : (0 <= p / 2 < d * c)%Z) by (split; [apply Z.div_pos; lia|apply Z.div_lt_upper_bound; lia]).
  split; [split; [apply Z.div_pos; lia|apply Z.div_lt_upper_bound; lia]|apply Z.mod_pos_bound; lia].
Qed.
Lemma spin_index' p d c : (0 <= p < d * c -> 1 <= c -> 0 <= p / d < c /\ 0 <= p mod d < d)%Z.
Proof.
  intros Hp Hc. assert (Hd : (0 < d)%Z) by nia.
  split; [split; [apply Z.div_pos; lia|apply Z.div_lt_upper_bound; lia]|apply Z.mod_pos_bound; lia].
Qed.
Definition spin2c_ok (t : ent) : bool := match en_fam (t_e t) with F2c2e => negb (sis (en_c2s1 (t_e t))) | _ => true end.
Lemma spin2c_checked : forallb spin2c_ok catalogue = true.
Proof. vm_cast_no_check (eq_refl true). Qed.
Lemma tab_2c t : In t catalogue -> en_fam (t_e t) = F2c2e -> sis (en_c2s1 (t_e t)) = false.
Proof. intros Ht Hf. pose proof (proj1 (forallb_forall _ _) spin2c_checked t Ht) as H. unfold spin2c_ok in H. rewrite Hf in H. apply negb_true_iff. exact H. Qed.
Lemma cT_zero coef off l M v : (forall k, v k = RtoC 0) -> apply_T (RtoC 0) Cplus Cmult (fun q => RtoC (coef q)) off ncart l M v = RtoC 0.
Proof. intros H. unfold apply_T. apply csumz_zero. intros k _. cbv beta. rewrite H. ring. Qed.
