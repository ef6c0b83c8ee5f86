(** OperDeg.v — degrees: the polynomial in front of a Gaussian after applying a word, the number of
    letters of the terms of an expression, and moments of polynomials. *)
From Coq Require Import Reals Lra QArith Qreals FunctionalExtensionality.
From Coquelicot Require Import Coquelicot.
From Verif Require Import Base OpSpec RecModel GaussInt Gauss2Int Rec1Real Rec2Spec IntgModel IntgSpec IntgSem
  QuadSpec QuadPoly Quad2e Quad1e OperSpec.
Local Open Scope R_scope.

(** ** Polynomial of degree at most d times a Gaussian *)
Definition gpd (a A : R) (d : nat) (f : R -> R) : Prop :=
  exists P, (length P <= S d)%nat /\ forall x, f x = peval P (x - A) * exp (- (a * ((x - A) * (x - A)))).

Lemma padd_len P Q : length (padd P Q) = max (length P) (length Q).
Proof. revert Q. induction P as [|x P IH]; intros [|y Q]; cbn; auto. Qed.

Section G.
  Variables (a A : R).
  Lemma poly_derive_d P : exists P', (length P' <= S (length P))%nat /\
    forall x : R, is_derive (fun x : R => peval P (x - A) * exp (- (a * ((x - A) * (x - A))))) x (peval P' (x - A) * exp (- (a * ((x - A) * (x - A))))).
  Proof.
    induction P as [|c P (P' & Hl & IH)].
    - exists []. split; [cbn; lia|]. intros x. cbn. apply (is_derive_ext (fun _ : R => 0)); [intros t; cbn; ring|].
      auto_derive; [exact I|ring].
    - exists (padd [0; -2 * a * c] (padd P (0 :: P'))). split; [rewrite !padd_len; cbn [length]; lia|]. intros x.
      apply (is_derive_ext (fun x : R => c * exp (- (a * ((x - A) * (x - A)))) + (x - A) * (peval P (x - A) * exp (- (a * ((x - A) * (x - A))))))).
      { intros t. cbn. ring. }
      rewrite !peval_padd. cbn [peval].
      evar_last.
      + apply (is_derive_plus (fun x : R => c * exp (- (a * ((x - A) * (x - A)))))).
        * apply (is_derive_scal (fun x : R => exp (- (a * ((x - A) * (x - A)))))). apply E_derive.
        * apply (is_derive_mult (fun x : R => x - A) (fun x : R => peval P (x - A) * exp (- (a * ((x - A) * (x - A)))))).
          -- auto_derive; [auto|reflexivity].
          -- apply IH.
          -- intros; apply Rmult_comm.
      + cbn. unfold plus, mult; cbn. ring.
  Qed.
  Lemma gpd_derive d f : gpd a A d f -> gpd a A (S d) (Derive f).
  Proof.
    intros (P & Hl & HP). destruct (poly_derive_d P) as (P' & Hl' & HP'). exists P'. split; [lia|].
    intros x. apply is_derive_unique. apply (is_derive_ext (fun x => peval P (x - A) * exp (- (a * ((x - A) * (x - A)))))); [intros t; symmetry; apply HP|apply HP'].
  Qed.
  Lemma gpd_pos o d f : gpd a A d f -> gpd a A (S d) (fun x => (x - o) * f x).
  Proof.
    intros (P & Hl & HP). exists (padd (0 :: P) (map (Rmult (A - o)) P)). split; [rewrite padd_len, map_length; cbn [length]; lia|]. intros x.
    rewrite peval_padd, peval_scale, HP. cbn. ring.
  Qed.
  Lemma gpd_phi n : gpd a A n (phi a A n).
  Proof.
    exists (repeat 0 n ++ [1]). split; [rewrite app_length, repeat_length; cbn; lia|]. intros x. unfold phi. f_equal.
    induction n as [|n IH]; cbn; [ring|]. rewrite <- IH. ring.
  Qed.
  Lemma gpd_gp d f : gpd a A d f -> gpoly a A f.
  Proof. intros (P & _ & H). exists P. exact H. Qed.
End G.

Lemma gpd_word A O b B ax w d f : gpd b B d f -> gpd b B (length w + d) (word_fun A O ax w f).
Proof.
  intros H. induction w as [|p w IH]; [exact H|]. cbn. destruct p as [|o].
  - apply gpd_derive, IH.
  - apply gpd_pos, IH.
Qed.
Lemma gpd_fun_at a A O pw m ax c : gpd (a c) (A c ax) (length (word_at m ax c) + Z.to_nat (pw ax c)) (fun_at a A O pw m ax c).
Proof. apply gpd_word, gpd_phi. Qed.

(** ** From powers to polynomials *)
Section Poly.
  Variables (T : Type) (has : nat -> (T -> R) -> Prop).
  Hypothesis has_ext : forall d f g, (forall x, f x = g x) -> has d f -> has d g.
  Hypothesis has_up : forall d d' f, (d <= d')%nat -> has d f -> has d' f.
  Hypothesis has_add : forall d f g, has d f -> has d g -> has d (fun x => f x + g x).
  Hypothesis has_scal : forall d c f, has d f -> has d (fun x => c * f x).
  Lemma has_poly (u : T -> R) P : forall d n h, (length P <= S n)%nat ->
    (forall i, (i <= n)%nat -> has (d + i) (fun x => u x ^ i * h x)) -> has (d + n) (fun x => peval P (u x) * h x).
  Proof.
    assert (H0 : forall d h n, (forall i, (i <= n)%nat -> has (d + i) (fun x => u x ^ i * h x)) -> has (d + n) (fun x : T => 0 * h x)).
    { intros d h n H. apply (has_ext _ (fun x => 0 * (u x ^ 0 * h x))); [intros x; cbn; ring|]. apply has_scal.
      apply (has_up (d + 0)); [lia|]. apply H. lia. }
    induction P as [|c P IH]; intros d n h Hl H; [exact (H0 d h n H)|]. cbn [length] in Hl.
    apply (has_ext _ (fun x => c * (u x ^ 0 * h x) + peval P (u x) * (u x * h x))); [intros x; cbn; ring|]. apply has_add.
    - apply has_scal. apply (has_up (d + 0)); [lia|]. apply H. lia.
    - destruct n as [|n].
      + destruct P; [|cbn in Hl; lia]. apply (has_ext _ (fun x => 0 * h x)); [intros x; cbn; ring|]. exact (H0 d h 0%nat H).
      + replace (d + S n)%nat with (S d + n)%nat by lia. apply IH; [lia|]. intros i Hi.
        replace (S d + i)%nat with (d + S i)%nat by lia. eapply has_ext; [|exact (H (S i) ltac:(lia))]. intros x. cbn. ring.
  Qed.
End Poly.

(** ** One electron *)
Section One.
  Variables (ai aj A B C : R).
  Let p := ai + aj.
  Hypothesis Hp : 0 < p.
  Definition has1 (d : nat) (f : R -> R) : Prop := exists M, pol d M /\
    forall s t2, 0 <= t2 < 1 -> s = p * t2 / (1 - t2) ->
      RIntLine (fun x => f x * exp (- (s * ((x - C) * (x - C))))) (nrm1 ai aj A B C t2 * M t2).
  Lemma has1_ext d f g : (forall x, f x = g x) -> has1 d f -> has1 d g.
  Proof. intros E (M & H1 & H2). exists M. split; [exact H1|]. intros s t2 Ht Es. eapply line_ext; [|exact (H2 s t2 Ht Es)]. intros x. cbv beta. rewrite E. reflexivity. Qed.
  Lemma has1_up d d' f : (d <= d')%nat -> has1 d f -> has1 d' f.
  Proof. intros E (M & H1 & H2). exists M. split; [exact (pol_le _ _ _ E H1)|exact H2]. Qed.
  Lemma has1_add d f g : has1 d f -> has1 d g -> has1 d (fun x => f x + g x).
  Proof.
    intros (M & H1 & H2) (N & H3 & H4). exists (fun t => M t + N t). split; [apply pol_add; assumption|]. intros s t2 Ht Es.
    replace (nrm1 ai aj A B C t2 * (M t2 + N t2)) with (nrm1 ai aj A B C t2 * M t2 + nrm1 ai aj A B C t2 * N t2) by ring.
    eapply line_ext; [|exact (line_plus _ _ _ _ (H2 s t2 Ht Es) (H4 s t2 Ht Es))]. intros x. cbv beta. ring.
  Qed.
  Lemma has1_scal d c f : has1 d f -> has1 d (fun x => c * f x).
  Proof.
    intros (M & H1 & H2). exists (fun t => c * M t). split; [apply pol_scal; assumption|]. intros s t2 Ht Es.
    replace (nrm1 ai aj A B C t2 * (c * M t2)) with (c * (nrm1 ai aj A B C t2 * M t2)) by ring.
    eapply line_ext; [|exact (line_scal _ c _ (H2 s t2 Ht Es))]. intros x. cbv beta. ring.
  Qed.
  Lemma has1_pair i j f g : gpd ai A i f -> gpd aj B j g -> has1 (i + j) (fun x => f x * g x).
  Proof.
    intros (P & LP & HP) (Q & LQ & HQ).
    apply (has1_ext _ (fun x => peval Q (x - B) * (peval P (x - A) * pairfun ai aj A B x))).
    { intros x. rewrite HP, HQ. unfold pairfun, Rminus. rewrite exp_plus. fold (x - A) (x - B). ring. }
    apply (has_poly R has1 has1_ext has1_up has1_add has1_scal (fun x => x - B) Q i j _ LQ). intros j' Hj.
    apply (has1_ext _ (fun x => peval P (x - A) * ((x - B) ^ j' * pairfun ai aj A B x))); [intros; cbv beta; ring|].
    rewrite Nat.add_comm. apply (has_poly R has1 has1_ext has1_up has1_add has1_scal (fun x => x - A) P j' i _ LP). intros i' Hi.
    exists (mom1 ai aj A B C i' j'). split; [rewrite Nat.add_comm; apply mom1_pol|]. intros s t2 Ht Es.
    destruct (mom1_int ai aj A B C Hp s t2 Ht Es) as (_ & _ & HI). eapply line_ext; [|exact (HI i' j')].
    intros x. cbv beta. unfold nucfun. ring.
  Qed.
End One.

(** ** Two electrons *)
Lemma plane_plus f g u v : RIntPlane f u -> RIntPlane g v -> RIntPlane (fun x y => f x y + g x y) (u + v).
Proof.
  intros (F & H1 & H2) (G & H3 & H4). exists (fun x => F x + G x). split; [|apply line_plus; assumption].
  intros x. apply line_plus; auto.
Qed.
Section Two.
  Variables (ai aj ak al A B C D : R).
  Let p := ai + aj.
  Let q := ak + al.
  Hypothesis (Hp : 0 < p) (Hq : 0 < q).
  Let a0 := p * q / (p + q).
  Definition has2 (d : nat) (f : R * R -> R) : Prop := exists M, pol d M /\
    forall r t2, 0 <= t2 < 1 -> r = a0 * (t2 / (1 - t2)) ->
      RIntPlane (fun x y => f (x, y) * exp (- (r * ((x - y) * (x - y))))) (nrm ai aj ak al A B C D t2 * M t2).
  Lemma has2_ext d f g : (forall x, f x = g x) -> has2 d f -> has2 d g.
  Proof. intros E (M & H1 & H2). exists M. split; [exact H1|]. intros s t2 Ht Es. eapply plane_ext; [|exact (H2 s t2 Ht Es)]. intros x y. cbv beta. rewrite E. reflexivity. Qed.
  Lemma has2_up d d' f : (d <= d')%nat -> has2 d f -> has2 d' f.
  Proof. intros E (M & H1 & H2). exists M. split; [exact (pol_le _ _ _ E H1)|exact H2]. Qed.
  Lemma has2_add d f g : has2 d f -> has2 d g -> has2 d (fun x => f x + g x).
  Proof.
    intros (M & H1 & H2) (N & H3 & H4). exists (fun t => M t + N t). split; [apply pol_add; assumption|]. intros s t2 Ht Es.
    replace (nrm ai aj ak al A B C D t2 * (M t2 + N t2)) with (nrm ai aj ak al A B C D t2 * M t2 + nrm ai aj ak al A B C D t2 * N t2) by ring.
    eapply plane_ext; [|exact (plane_plus _ _ _ _ (H2 s t2 Ht Es) (H4 s t2 Ht Es))]. intros x y. cbv beta. ring.
  Qed.
  Lemma has2_scal d c f : has2 d f -> has2 d (fun x => c * f x).
  Proof.
    intros (M & H1 & H2). exists (fun t => c * M t). split; [apply pol_scal; assumption|]. intros s t2 Ht Es.
    replace (nrm ai aj ak al A B C D t2 * (c * M t2)) with (c * (nrm ai aj ak al A B C D t2 * M t2)) by ring.
    eapply plane_ext; [|exact (plane_scal _ c _ (H2 s t2 Ht Es))]. intros x y. cbv beta. ring.
  Qed.
  Let poly2 := has_poly (R * R) has2 has2_ext has2_up has2_add has2_scal.
  Lemma has2_four i j k l f g h e : gpd ai A i f -> gpd aj B j g -> gpd ak C k h -> gpd al D l e ->
    has2 (i + j + k + l) (fun z => f (fst z) * g (fst z) * (h (snd z) * e (snd z))).
  Proof.
    intros (P & LP & HP) (Q & LQ & HQ) (P' & LP' & HP') (Q' & LQ' & HQ').
    set (W := fun z : R * R => exp (- (ai * ((fst z - A) * (fst z - A))) - aj * ((fst z - B) * (fst z - B))
       - ak * ((snd z - C) * (snd z - C)) - al * ((snd z - D) * (snd z - D)))).
    apply (has2_ext _ (fun z => peval Q' (snd z - D) * (peval P' (snd z - C) * (peval Q (fst z - B) * (peval P (fst z - A) * W z))))).
    { intros [x y]. unfold W. cbn [fst snd]. rewrite HP, HQ, HP', HQ'.
      replace (- (ai * ((x - A) * (x - A))) - aj * ((x - B) * (x - B)) - ak * ((y - C) * (y - C)) - al * ((y - D) * (y - D)))
        with (- (ai * ((x - A) * (x - A))) + - (aj * ((x - B) * (x - B))) + - (ak * ((y - C) * (y - C))) + - (al * ((y - D) * (y - D)))) by ring.
      rewrite !exp_plus. ring. }
    apply (poly2 (fun z => snd z - D) Q' (i + j + k) l _ LQ'). intros l' Hl.
    apply (has2_ext _ (fun z => peval P' (snd z - C) * ((snd z - D) ^ l' * (peval Q (fst z - B) * (peval P (fst z - A) * W z))))); [intros; cbv beta; ring|].
    replace (i + j + k + l')%nat with (i + j + l' + k)%nat by lia.
    apply (poly2 (fun z => snd z - C) P' (i + j + l') k _ LP'). intros k' Hk.
    apply (has2_ext _ (fun z => peval Q (fst z - B) * ((snd z - C) ^ k' * ((snd z - D) ^ l' * (peval P (fst z - A) * W z))))); [intros; cbv beta; ring|].
    replace (i + j + l' + k')%nat with (i + k' + l' + j)%nat by lia.
    apply (poly2 (fun z => fst z - B) Q (i + k' + l') j _ LQ). intros j' Hj.
    apply (has2_ext _ (fun z => peval P (fst z - A) * ((fst z - B) ^ j' * ((snd z - C) ^ k' * ((snd z - D) ^ l' * W z))))); [intros; cbv beta; ring|].
    replace (i + k' + l' + j')%nat with (j' + k' + l' + i)%nat by lia.
    apply (poly2 (fun z => fst z - A) P (j' + k' + l') i _ LP). intros i' Hi.
    exists (mom ai aj ak al A B C D i' j' k' l'). split.
    { replace (j' + k' + l' + i')%nat with (i' + j' + k' + l')%nat by lia. apply mom_pol; assumption. }
    intros r t2 Ht Er. destruct (mom_int ai aj ak al A B C D Hp Hq r t2 Ht Er) as (_ & _ & HI).
    eapply plane_ext; [|exact (HI i' j' k' l')].
    intros x y. cbv beta. unfold W, eri_weight. cbn [fst snd]. unfold Rminus at 5. rewrite exp_plus. ring.
  Qed.
End Two.

(** ** Letters *)
Lemma upd_sum k f (l : list word) : (forall w, length (f w) <= S (length w))%nat ->
  (list_sum (map (@length prim) (upd_nth k f l)) <= S (list_sum (map (@length prim) l)))%nat.
Proof.
  intros H. revert k. induction l as [|x l IH]; intros [|k]; cbn; try lia.
  - specialize (H x). lia.
  - specialize (IH k). unfold list_sum in IH. lia.
Qed.
Lemma act_letters ax c p m : (letters (act ax c p m) <= S (letters m))%nat.
Proof.
  unfold letters, act. cbn [m_w]. apply upd_sum. intros w. destruct c; cbn [length]; rewrite ?app_length; cbn [length]; lia.
Qed.
Lemma wmul_letters l r : (list_sum (map (@length prim) (wmul l r)) <= list_sum (map (@length prim) l) + list_sum (map (@length prim) r))%nat.
Proof.
  unfold wmul. revert r. induction l as [|x l IH]; intros [|y r]; cbn; try lia. rewrite app_length. specialize (IH r). unfold list_sum in IH. lia.
Qed.

Definition plet (k : nat) (q : poly) : Prop := forall t, In t q -> (letters (snd t) <= k)%nat.
Definition qlet (k : nat) (q : quat) : Prop := forall s, plet k (qsel q s).
Lemma plet_nil k : plet k []. Proof. intros t []. Qed.
Lemma plet_app k p q : plet k p -> plet k q -> plet k (p ++ q).
Proof. intros H1 H2 t Ht. apply in_app_iff in Ht. destruct Ht; auto. Qed.
Lemma plet_up k k' p : (k <= k')%nat -> plet k p -> plet k' p.
Proof. intros H H1 t Ht. specialize (H1 t Ht). lia. Qed.
Lemma plet_scale k c p : plet k p -> plet k (pscale c p).
Proof. intros H t Ht. apply in_map_iff in Ht. destruct Ht as (u & <- & Hu). exact (H u Hu). Qed.
Lemma plet_act k ax c x p : plet k p -> plet (S k) (pact (act ax c x) p).
Proof. intros H t Ht. apply in_map_iff in Ht. destruct Ht as (u & <- & Hu). cbn [snd]. pose proof (act_letters ax c x (snd u)). specialize (H u Hu). lia. Qed.
Lemma plet_kact k s ax p : plet k p -> plet k (pact (kact s ax) p).
Proof. intros H t Ht. apply in_map_iff in Ht. destruct Ht as (u & <- & Hu). exact (H u Hu). Qed.
Lemma plet_mul k k' p q : plet k p -> plet k' q -> plet (k + k') (pmul p q).
Proof.
  intros H1 H2 t Ht. apply in_flat_map in Ht. destruct Ht as (u & Hu & Ht). apply in_map_iff in Ht. destruct Ht as (v & <- & Hv).
  cbn [snd]. specialize (H1 u Hu). specialize (H2 v Hv). unfold letters, mmul in *. cbn [m_w]. pose proof (wmul_letters (m_w (snd u)) (m_w (snd v))). lia.
Qed.
Lemma qlet_up k k' q : (k <= k')%nat -> qlet k q -> qlet k' q.
Proof. intros H H1 s. exact (plet_up _ _ _ H (H1 s)). Qed.
Lemma qlet_map k k' f q : (forall p, plet k p -> plet k' (f p)) -> qlet k q -> qlet k' (qmap f q).
Proof. intros H H1 []; cbn; apply H; [apply (H1 SX)|apply (H1 SY)|apply (H1 SZ)|apply (H1 S1)]. Qed.
Lemma qlet_add k q r : qlet k q -> qlet k r -> qlet k (qadd q r).
Proof. intros H H1 []; cbn; apply plet_app; (apply (H SX) || apply (H SY) || apply (H SZ) || apply (H S1) || idtac); (apply (H1 SX) || apply (H1 SY) || apply (H1 SZ) || apply (H1 S1)). Qed.
Lemma qlet_scale k c q : qlet k q -> qlet k (qscale c q).
Proof. apply qlet_map. intros p. apply plet_scale. Qed.
Lemma qlet_sigma k q ax : qlet k q -> qlet k (qsigma q ax).
Proof.
  intros H. pose proof (H SX) as HX. pose proof (H SY) as HY. pose proof (H SZ) as HZ. pose proof (H S1) as H1. cbn in HX, HY, HZ, H1.
  destruct ax as [|[|ax]]; intros []; cbn; try apply plet_scale; assumption.
Qed.

Definition vlet (v : vec) : nat := match v with VSigma => 0 | _ => 1 end.
Lemma vapply_let k q v ax : qlet k q -> qlet (k + vlet v) (vapply q v ax).
Proof.
  intros H. destruct v; cbn [vlet vapply].
  - rewrite Nat.add_0_r. apply qlet_sigma, H.
  - rewrite Nat.add_1_r. eapply qlet_map; [|exact H]. intros; apply plet_act; assumption.
  - rewrite Nat.add_1_r. apply qlet_scale. eapply qlet_map; [|exact H]. intros; apply plet_act; assumption.
  - rewrite Nat.add_1_r. eapply qlet_map; [|exact H]. intros; apply plet_act; assumption.
  - rewrite Nat.add_1_r. apply qlet_add; apply qlet_scale; (eapply qlet_map; [|exact H]); intros p Hq; apply plet_act, plet_kact, Hq.
  - rewrite Nat.add_1_r. apply qlet_add; (eapply qlet_map; [|exact H]); intros; apply plet_act; assumption.
Qed.
Definition flet (f : fac) : nat := match f with FV v | FS v _ => vlet v | FDot v w | FCross _ v w => vlet v + vlet w end.
Lemma fapply_let k q f ax : qlet k q -> qlet (k + flet f) (fapply q f ax).
Proof.
  intros H. assert (H2 : forall v w x y, qlet (k + (vlet v + vlet w)) (vapply (vapply q v x) w y)).
  { intros v w x y. rewrite Nat.add_assoc. apply vapply_let, vapply_let, H. }
  destruct f as [v|v x|v w|neg v w]; cbn [flet fapply].
  - apply vapply_let, H.
  - apply vapply_let, H.
  - repeat apply qlet_add; apply H2.
  - assert (HR : forall b d, qlet (k + (vlet v + vlet w)) (qadd (vapply (vapply q v b) w d) (qscale (cneg cq1) (vapply (vapply q v d) w b)))).
    { intros. apply qlet_add; [apply H2|apply qlet_scale, H2]. }
    destruct neg; [apply qlet_scale|]; apply HR.
Qed.
Definition clet (l : list (fac * place)) : nat := list_sum (map (fun f => flet (fst f)) l).
Lemma slots_let nb kb kr l : list_sum (map (fun f => flet (fst f)) (slots nb kb kr l)) = clet l.
Proof.
  unfold clet. revert kb kr. induction l as [|[f pl] l IH]; intros kb kr; cbn [slots]; [reflexivity|].
  destruct (is_index f); [destruct (in_bra (f, pl))|]; cbn [map list_sum fst fold_right]; rewrite IH; reflexivity.
Qed.
Lemma eval_chain_let l ix : qlet (clet l) (eval_chain l ix).
Proof.
  unfold eval_chain. rewrite <- (slots_let (nindex (filter in_bra l)) 0 0 l). generalize (slots (nindex (filter in_bra l)) 0 0 l). intros sl.
  assert (H : forall sl k q, qlet k q -> qlet (k + list_sum (map (fun f => flet (fst f)) sl)) (fold_left (fun q fs => fapply q (fst fs) (nth (snd fs) ix 0%nat)) sl q)).
  { clear sl. induction sl as [|f sl IH]; intros k q Hq; cbn.
    - rewrite Nat.add_0_r. exact Hq.
    - rewrite Nat.add_assoc. apply IH, fapply_let, Hq. }
  apply (H sl 0%nat). intros []; cbn; try apply plet_nil. intros t [<-|[]]. cbn. lia.
Qed.

(** letters of the terms of a documented expression *)
Definition dlet (d : doc) : nat :=
  list_max (map (fun m => clet (chain false (d_1 d) (fst m)) + clet (chain true (d_2 d) (snd m)))%nat
    (match d_mid d with [] => [([], [])] | l => l end)).
Lemma components_let d si1 si2 s1 s2 q : In (s1, s2, q) (components d si1 si2) -> plet (dlet d) q.
Proof.
  intros H. unfold components in H. apply in_flat_map in H. destruct H as (qs & Hqs & H). apply in_flat_map in H. destruct H as (s2' & _ & H).
  apply in_map_iff in H. destruct H as (s1' & E & _). injection E as -> -> <-.
  unfold spec_of. apply plet_scale. unfold spec_pairs in Hqs. apply in_flat_map in Hqs. destruct Hqs as (i1 & _ & Hqs).
  apply in_map_iff in Hqs. destruct Hqs as (i2 & <- & _).
  intros t Ht. apply in_flat_map in Ht. destruct Ht as (q & Hq & Ht). apply in_map_iff in Hq. destruct Hq as (m & <- & Hm).
  cbn [fst snd] in Ht. revert t Ht. apply (plet_up (clet (chain false (d_1 d) (fst m)) + clet (chain true (d_2 d) (snd m)))).
  - unfold dlet. set (f := fun m => (clet (chain false (d_1 d) (fst m)) + clet (chain true (d_2 d) (snd m)))%nat).
    pose proof (proj1 (list_max_le (map f (match d_mid d with [] => [([], [])] | l => l end)) _) (Nat.le_refl _)) as HL.
    rewrite Forall_forall in HL. apply (HL (f m)). apply in_map. exact Hm.
  - apply plet_mul; apply eval_chain_let.
Qed.
