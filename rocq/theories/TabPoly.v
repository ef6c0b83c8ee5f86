(** TabPoly.v — polynomials as lists of terms: Laplacian, like terms, sphere integrals. *)
From Verif Require Import Base BasSpec TrigInt TabSpec.
From Coq Require Import Reals Lra.
From Coquelicot Require Import Coquelicot.
Local Open Scope R_scope.

(** ** Sums over lists *)
Definition sumR (l : list R) : R := fold_right Rplus 0 l.
Lemma sumR_app a b : sumR (a ++ b) = sumR a + sumR b.
Proof. unfold sumR. induction a as [|x a IH]; cbn [app fold_right]; [ring|]. rewrite IH. ring. Qed.
Lemma lsum_seq n f : lsum 0 Rplus n f = sumR (map (fun i => f (Z.of_nat i)) (seq 0 (Z.to_nat n))).
Proof.
  unfold lsum. induction (Z.to_nat n) as [|k IH]; [reflexivity|].
  rewrite seq_S, map_app, sumR_app. cbn [lsumN]. rewrite IH. cbn. ring.
Qed.
Lemma map_seq_combine {A B C} (f : A -> B -> C) (da : A) (db : B) la lb : length la = length lb ->
  map (fun i => f (nth i la da) (nth i lb db)) (seq 0 (length la)) = map (fun p => f (fst p) (snd p)) (combine la lb).
Proof.
  revert lb. induction la as [|a la IH]; intros [|b lb]; cbn [length]; intros E; try discriminate; [reflexivity|].
  cbn [seq map combine nth]. rewrite <- seq_shift, map_map. f_equal. apply IH. lia.
Qed.

(** ** Polynomials with integer coefficients *)
Definition nt : Type := (nat * nat * nat)%type.
Definition pol : Type := list (nt * Z).
Definition nmono (t : nt) (x y z : R) : R := x ^ fst (fst t) * y ^ snd (fst t) * z ^ snd t.
Definition ev (p : pol) (x y z : R) : R := sumR (map (fun c => IZR (snd c) * nmono (fst c) x y z) p).

Lemma ev_cons c p x y z : ev (c :: p) x y z = IZR (snd c) * nmono (fst c) x y z + ev p x y z.
Proof. reflexivity. Qed.
Lemma ev_app p q x y z : ev (p ++ q) x y z = ev p x y z + ev q x y z.
Proof. unfold ev. rewrite map_app, sumR_app. reflexivity. Qed.

Definition dx (p : pol) : pol := map (fun c => let '((a, b, c0), k) := c in ((pred a, b, c0), Z.of_nat a * k)%Z) p.
Definition dy (p : pol) : pol := map (fun c => let '((a, b, c0), k) := c in ((a, pred b, c0), Z.of_nat b * k)%Z) p.
Definition dz (p : pol) : pol := map (fun c => let '((a, b, c0), k) := c in ((a, b, pred c0), Z.of_nat c0 * k)%Z) p.

Lemma ev_dx p x y z : is_derive (fun t => ev p t y z) x (ev (dx p) x y z).
Proof.
  induction p as [|[[[a b] c] k] p IH]; [change (is_derive (fun _ : R => 0) x 0); auto_derive; auto|].
  apply (is_derive_plus (fun t => IZR k * nmono (a, b, c) t y z) (fun t => ev p t y z)); [|exact IH].
  unfold nmono; cbn [fst snd]. auto_derive; [exact Logic.I|]. rewrite mult_IZR, <- INR_IZR_INZ. ring.
Qed.
Lemma ev_dy p x y z : is_derive (fun t => ev p x t z) y (ev (dy p) x y z).
Proof.
  induction p as [|[[[a b] c] k] p IH]; [change (is_derive (fun _ : R => 0) y 0); auto_derive; auto|].
  apply (is_derive_plus (fun t => IZR k * nmono (a, b, c) x t z) (fun t => ev p x t z)); [|exact IH].
  unfold nmono; cbn [fst snd]. auto_derive; [exact Logic.I|]. rewrite mult_IZR, <- INR_IZR_INZ. ring.
Qed.
Lemma ev_dz p x y z : is_derive (fun t => ev p x y t) z (ev (dz p) x y z).
Proof.
  induction p as [|[[[a b] c] k] p IH]; [change (is_derive (fun _ : R => 0) z 0); auto_derive; auto|].
  apply (is_derive_plus (fun t => IZR k * nmono (a, b, c) x y t) (fun t => ev p x y t)); [|exact IH].
  unfold nmono; cbn [fst snd]. auto_derive; [exact Logic.I|]. rewrite mult_IZR, <- INR_IZR_INZ. ring.
Qed.

Definition lap (p : pol) : pol := dx (dx p) ++ dy (dy p) ++ dz (dz p).
Lemma second s (f g h : R -> R) x : (forall t, is_derive f t (g t)) -> is_derive g x (h x) ->
  Derive_n (fun t => s * f t) 2 x = s * h x.
Proof.
  intros Hf Hg. cbn [Derive_n]. rewrite (Derive_ext _ (fun t => s * g t)).
  - rewrite Derive_scal. f_equal. apply is_derive_unique, Hg.
  - intros t. rewrite Derive_scal. f_equal. apply is_derive_unique, Hf.
Qed.
Lemma ev_lap s p x y z : laplacian (fun x y z => s * ev p x y z) x y z = s * ev (lap p) x y z.
Proof.
  unfold laplacian, lap. rewrite !ev_app.
  rewrite (second s (fun t => ev p t y z) (fun t => ev (dx p) t y z) (fun t => ev (dx (dx p)) t y z))
    by (intros; apply ev_dx).
  rewrite (second s (fun t => ev p x t z) (fun t => ev (dy p) x t z) (fun t => ev (dy (dy p)) x t z))
    by (intros; apply ev_dy).
  rewrite (second s (fun t => ev p x y t) (fun t => ev (dz p) x y t) (fun t => ev (dz (dz p)) x y t))
    by (intros; apply ev_dz). ring.
Qed.
Lemma laplacian_ext f g x y z : (forall x y z, f x y z = g x y z) -> laplacian f x y z = laplacian g x y z.
Proof.
  intros E. unfold laplacian. f_equal; [f_equal|]; apply Derive_n_ext; intros; apply E.
Qed.

(** ** Collecting like terms *)
Definition eqt (t u : nt) : bool :=
  let '(a, b, c) := t in let '(a', b', c') := u in (Nat.eqb a a' && Nat.eqb b b' && Nat.eqb c c')%bool.
Lemma eqt_spec t u : eqt t u = true <-> t = u.
Proof.
  destruct t as [[a b] c], u as [[a' b'] c']. unfold eqt. rewrite !Bool.andb_true_iff, !Nat.eqb_eq.
  split; [intros [[-> ->] ->]; reflexivity|intros E; injection E as -> -> ->; auto].
Qed.
Fixpoint csum (k : nt) (p : pol) : Z :=
  match p with [] => 0 | c :: p => if eqt (fst c) k then snd c + csum k p else csum k p end%Z.
Definition absp (p : pol) : pol := map (fun c => (fst c, Z.abs (snd c))) p.

Lemma sum_one (K : list nt) (f : nt -> R) t : NoDup K -> In t K ->
  sumR (map (fun k => if eqt t k then f k else 0) K) = f t.
Proof.
  induction K as [|k K IH]; [intros _ []|]. intros ND HIn. inversion ND as [|? ? Hn ND']; subst. cbn.
  destruct HIn as [->|HIn].
  - rewrite (proj2 (eqt_spec t t) eq_refl).
    replace (fold_right Rplus 0 (map (fun k => if eqt t k then f k else 0) K)) with 0; [ring|].
    clear -Hn. induction K as [|k K IH]; [reflexivity|]. cbn.
    destruct (eqt t k) eqn:E; [apply eqt_spec in E; subst; exfalso; apply Hn; left; reflexivity|].
    rewrite <- IH by (intros H; apply Hn; right; exact H). ring.
  - destruct (eqt t k) eqn:E; [apply eqt_spec in E; subst; contradiction|].
    unfold sumR in IH. rewrite IH by assumption. ring.
Qed.
Lemma sumR_plus {A} (f g : A -> R) l : sumR (map (fun k => f k + g k) l) = sumR (map f l) + sumR (map g l).
Proof. induction l as [|a l IH]; cbn; [ring|]. unfold sumR in IH. rewrite IH. ring. Qed.
Lemma sumR_ext {A} (f g : A -> R) l : (forall a, In a l -> f a = g a) -> sumR (map f l) = sumR (map g l).
Proof. intros H. f_equal. apply map_ext_in, H. Qed.
Lemma sumR_zero {A} (l : list A) : sumR (map (fun _ => 0) l) = 0.
Proof. induction l as [|a l IH]; cbn; [ring|]. unfold sumR in IH. rewrite IH. ring. Qed.

Lemma collect K p x y z : NoDup K -> (forall c, In c p -> snd c <> 0%Z -> In (fst c) K) ->
  ev p x y z = sumR (map (fun k => IZR (csum k p) * nmono k x y z) K).
Proof.
  intros ND. induction p as [|c p IH]; intros HK.
  - cbn [csum]. rewrite (sumR_ext _ (fun _ => 0)) by (intros; ring). rewrite sumR_zero. reflexivity.
  - rewrite ev_cons, IH by (intros; apply HK; [right|]; assumption).
    destruct (Z.eq_dec (snd c) 0) as [Z0|NZ].
    + rewrite Z0. replace (0 * nmono (fst c) x y z) with 0 by ring. rewrite Rplus_0_l. apply sumR_ext.
      intros k _. cbn [csum]. rewrite Z0. destruct (eqt _ _); f_equal.
    + rewrite <- (sum_one K (fun k => IZR (snd c) * nmono k x y z) (fst c) ND (HK c (or_introl eq_refl) NZ)).
      rewrite <- sumR_plus. apply sumR_ext. intros k _. cbn [csum].
      destruct (eqt (fst c) k); [rewrite plus_IZR|]; ring.
Qed.

Definition nz_in (K : list nt) (p : pol) : bool :=
  forallb (fun c => (snd c =? 0)%Z || existsb (eqt (fst c)) K) p.
Lemma nz_in_ok K p : nz_in K p = true -> forall c, In c p -> snd c <> 0%Z -> In (fst c) K.
Proof.
  unfold nz_in. rewrite forallb_forall. intros H c Hc Hn. specialize (H c Hc).
  apply Bool.orb_true_iff in H. destruct H as [H|H]; [lia|].
  apply existsb_exists in H. destruct H as [k [Hk E]]. apply eqt_spec in E. subst. exact Hk.
Qed.

Definition small_on (K : list nt) (p : pol) : bool :=
  forallb (fun k => Z.abs (csum k p) * 2 ^ 50 <=? csum k (absp p))%Z K.

Lemma Rabs_sumR {A} (f g : A -> R) l : (forall a, In a l -> Rabs (f a) <= g a) -> Rabs (sumR (map f l)) <= sumR (map g l).
Proof.
  induction l as [|a l IH]; intros H; cbn; [rewrite Rabs_R0; lra|].
  eapply Rle_trans; [apply Rabs_triang|]. apply Rplus_le_compat; [apply H; left; reflexivity|].
  apply IH. intros; apply H; right; assumption.
Qed.
Lemma sumR_scal {A} s (f : A -> R) l : s * sumR (map f l) = sumR (map (fun a => s * f a) l).
Proof. induction l as [|a l IH]; cbn; [ring|]. unfold sumR in IH. rewrite <- IH. ring. Qed.
Lemma nmono_abs t x y z : Rabs (nmono t x y z) = nmono t (Rabs x) (Rabs y) (Rabs z).
Proof. unfold nmono. rewrite !Rabs_mult, !RPow_abs. reflexivity. Qed.
Lemma nmono_pos t x y z : 0 <= nmono t (Rabs x) (Rabs y) (Rabs z).
Proof. rewrite <- nmono_abs. apply Rabs_pos. Qed.

Lemma small_ok K p x y z : NoDup K -> nz_in K p = true -> small_on K p = true ->
  Rabs (ev p x y z) <= / 2 ^ 50 * ev (absp p) (Rabs x) (Rabs y) (Rabs z).
Proof.
  intros ND HK HS. pose proof (nz_in_ok K p HK) as H1.
  rewrite (collect K p x y z ND H1).
  rewrite (collect K (absp p) _ _ _ ND).
  2:{ intros c Hc Hn. unfold absp in Hc. apply in_map_iff in Hc. destruct Hc as [c' [<- Hc']]. cbn [fst snd] in *.
      apply H1; [exact Hc'|]. intros E. apply Hn. rewrite E. reflexivity. }
  rewrite sumR_scal. apply Rabs_sumR. intros k Hk.
  unfold small_on in HS. rewrite forallb_forall in HS. specialize (HS k Hk). apply Z.leb_le in HS.
  rewrite Rabs_mult, nmono_abs, <- Rmult_assoc. apply Rmult_le_compat_r; [apply nmono_pos|].
  rewrite <- abs_IZR. apply IZR_le in HS. rewrite mult_IZR in HS.
  replace (IZR (2 ^ 50)) with (2 ^ 50)%R in HS by (rewrite pow_IZR; reflexivity).
  apply (Rmult_le_reg_l (2 ^ 50)); [apply pow_lt; lra|].
  rewrite <- Rmult_assoc, Rinv_r, Rmult_1_l, Rmult_comm; [exact HS|apply pow_nonzero; lra].
Qed.

Lemma absp_lap p : absp (lap p) = lap (absp p).
Proof.
  unfold lap. unfold absp. rewrite !map_app.
  f_equal; [|f_equal]; unfold dx, dy, dz; rewrite !map_map; apply map_ext; intros [[[a b] c] k]; cbn [fst snd];
    f_equal; rewrite !Z.abs_mul; f_equal; [|f_equal| |f_equal| |f_equal]; lia.
Qed.

(** ** Products over the sphere *)
Definition tadd (t u : nt) : nt :=
  let '(a, b, c) := t in let '(a', b', c') := u in (a + a', b + b', c + c')%nat.
Definition smono (t : nt) : Z := let '(a, b, c) := t in (even_df a * even_df b * even_df c)%Z.
(** integral of the product over the sphere, over 4 PI / (2l+1)!! *)
Fixpoint gram1 (t : nt) (q : pol) : Z :=
  match q with [] => 0 | d :: q => smono (tadd t (fst d)) * snd d + gram1 t q end%Z.
Fixpoint gram (p q : pol) : Z :=
  match p with [] => 0 | c :: p => snd c * gram1 (fst c) q + gram p q end%Z.
Definition deg (t : nt) : nat := let '(a, b, c) := t in (a + b + c)%nat.

Section Gram.
  Variable l : nat.
  Let s : R := 4 * PI / IZR (dfo (l + 1)).
  Lemma gram1_ok t q : (forall d, In d q -> (deg t + deg (fst d) = 2 * l)%nat) ->
    is_sphere (fun x y z => nmono t x y z * ev q x y z) (s * IZR (gram1 t q)).
  Proof.
    induction q as [|d q IH]; intros H.
    - cbn [gram1]. rewrite Rmult_0_r. eapply is_sphere_ext; [|apply is_sphere_zero]. intros; cbn; ring.
    - cbn [gram1]. rewrite plus_IZR, Rmult_plus_distr_l.
      eapply is_sphere_ext; [|apply is_sphere_plus; [|apply IH; intros; apply H; right; assumption]].
      + intros x y z. rewrite ev_cons.
        instantiate (1 := fun x y z => nmono t x y z * (IZR (snd d) * nmono (fst d) x y z)). cbn beta. ring.
      + rewrite mult_IZR.
        replace (s * (IZR (smono (tadd t (fst d))) * IZR (snd d)))
          with (IZR (snd d) * (4 * PI * IZR (smono (tadd t (fst d))) / IZR (dfo (l + 1))))
          by (unfold s, Rdiv; ring).
        pose proof (H d (or_introl eq_refl)) as Hd.
        destruct d as [[[a' b'] c'] k]. destruct t as [[a b] c]. cbn [fst snd tadd smono deg] in *.
        eapply is_sphere_ext; [|apply is_sphere_scal, monomial_sphere; lia].
        intros x y z. unfold nmono; cbn [fst snd]. rewrite !pow_add. ring.
  Qed.
  Lemma gram_ok p q : (forall c d, In c p -> In d q -> (deg (fst c) + deg (fst d) = 2 * l)%nat) ->
    is_sphere (fun x y z => ev p x y z * ev q x y z) (s * IZR (gram p q)).
  Proof.
    induction p as [|c p IH]; intros H.
    - cbn [gram]. rewrite Rmult_0_r. eapply is_sphere_ext; [|apply is_sphere_zero]. intros; cbn; ring.
    - cbn [gram]. rewrite plus_IZR, Rmult_plus_distr_l.
      eapply is_sphere_ext; [|apply is_sphere_plus; [|apply IH; intros; apply H; [right|]; assumption]].
      + intros x y z. rewrite ev_cons.
        instantiate (1 := fun x y z => (IZR (snd c) * nmono (fst c) x y z) * ev q x y z). cbn beta. ring.
      + rewrite mult_IZR.
        replace (s * (IZR (snd c) * IZR (gram1 (fst c) q))) with (IZR (snd c) * (s * IZR (gram1 (fst c) q))) by ring.
        eapply is_sphere_ext; [|apply is_sphere_scal, gram1_ok; intros; apply H; [left; reflexivity|assumption]].
        intros; cbn; ring.
  Qed.
End Gram.

