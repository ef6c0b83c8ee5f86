(** IntgSem.v — algebra of polynomial-times-Gaussian functions, and the values of blocks. *)
From Coq Require Import Reals Lra QArith Qreals FunctionalExtensionality.
From Coquelicot Require Import Coquelicot.
From Verif Require Import Base EnvModel OpSpec OpReal IntgModel IntgSpec IntgTab IntgStmt IntgCheck.
Local Open Scope R_scope.

Fixpoint padd (P Q : list R) : list R :=
  match P, Q with [], _ => Q | _, [] => P | x :: P, y :: Q => (x + y) :: padd P Q end.
Lemma peval_padd P Q y : peval (padd P Q) y = peval P y + peval Q y.
Proof.
  revert Q. induction P as [|x P IH]; intros [|z Q]; cbn; try ring. rewrite IH. ring.
Qed.
Lemma peval_scale s P y : peval (map (Rmult s) P) y = s * peval P y.
Proof. induction P as [|x P IH]; cbn; [ring|]. rewrite IH. ring. Qed.

Section G.
  Variables (a A : R).
  Local Notation E := (fun x : R => exp (- (a * ((x - A) * (x - A))))).
  Local Notation gp := (gpoly a A).

  Lemma E_derive (x : R) : is_derive E x (-2 * a * (x - A) * E x).
  Proof. auto_derive; [auto|]. change (x + - A) with (x - A). ring. Qed.

  Lemma poly_derive P : exists P', forall x : R, is_derive (fun x : R => peval P (x - A) * E x) x (peval P' (x - A) * E x).
  Proof.
    induction P as [|c P [P' IH]].
    - exists []. intros x. cbn. apply (is_derive_ext (fun _ : R => 0)); [intros t; cbn; ring|].
      auto_derive; [exact I|ring].
    - exists (padd [0; -2 * a * c] (padd P (0 :: P'))). intros x.
      apply (is_derive_ext (fun x : R => c * E x + (x - A) * (peval P (x - A) * E x))).
      { intros t. cbn. ring. }
      rewrite !peval_padd. cbn [peval].
      evar_last.
      + apply (is_derive_plus (fun x : R => c * E x)).
        * apply (is_derive_scal E). apply E_derive.
        * apply (is_derive_mult (fun x : R => x - A) (fun x : R => peval P (x - A) * E x)).
          -- auto_derive; [auto|reflexivity].
          -- apply IH.
          -- intros; apply Rmult_comm.
      + cbn. unfold plus, mult; cbn. ring.
  Qed.

  Lemma gp_ext f g : (forall x, f x = g x) -> gp f -> gp g.
  Proof. intros H [P HP]. exists P. intros x. rewrite <- H. apply HP. Qed.
  Lemma gp_derive f : gp f -> (forall x, ex_derive f x) /\ gp (Derive f).
  Proof.
    intros [P HP]. destruct (poly_derive P) as [P' HP'].
    assert (D : forall x, is_derive f x (peval P' (x - A) * E x)).
    { intros x. apply (is_derive_ext (fun x => peval P (x - A) * E x)); [intros t; symmetry; apply HP|apply HP']. }
    split.
    - intros x. eexists. apply D.
    - exists P'. intros x. apply is_derive_unique, D.
  Qed.
  Lemma gp_lin s t f g : gp f -> gp g -> gp (fun x => s * f x + t * g x).
  Proof.
    intros [P HP] [Q HQ]. exists (padd (map (Rmult s) P) (map (Rmult t) Q)). intros x.
    rewrite peval_padd, !peval_scale, HP, HQ. ring.
  Qed.
  Lemma gp_pos o f : gp f -> gp (fun x => (x - o) * f x).
  Proof.
    intros [P HP]. exists (padd (0 :: P) (map (Rmult (A - o)) P)). intros x.
    rewrite peval_padd, peval_scale, HP. cbn. ring.
  Qed.
  Lemma gp_phi n : gp (phi a A n).
  Proof.
    exists (repeat 0 n ++ [1]). intros x. unfold phi. f_equal.
    induction n as [|n IH]; cbn; [ring|]. rewrite <- IH. ring.
  Qed.
End G.

Section Words.
  Variables (a : centre -> R) (A : centre -> Z -> R) (O : Z -> R).
  Local Notation wf := (word_fun A O).

  Lemma gp_word b B ax w f : gpoly b B f -> gpoly b B (wf ax w f).
  Proof.
    intros H. induction w as [|p w IH]; [exact H|]. cbn. destruct p as [|o].
    - apply gp_derive, IH.
    - apply gp_pos, IH.
  Qed.
  Lemma word_app ax u w f : wf ax (u ++ w) f = wf ax u (wf ax w f).
  Proof. apply fold_right_app. Qed.
  Lemma word_lin b B ax w s t f g : gpoly b B f -> gpoly b B g ->
    wf ax w (fun x => s * f x + t * g x) = fun x => s * wf ax w f x + t * wf ax w g x.
  Proof.
    intros Hf Hg. induction w as [|p w IH]; [reflexivity|].
    change (wf ax (p :: w) ?h) with (prim_fun A O ax p (wf ax w h)). rewrite IH.
    destruct p as [|o]; cbn; extensionality x.
    - destruct (gp_derive b B _ (gp_word b B ax w f Hf)) as [E1 _].
      destruct (gp_derive b B _ (gp_word b B ax w g Hg)) as [E2 _].
      rewrite Derive_plus by (apply ex_derive_scal; auto). rewrite !Derive_scal. reflexivity.
    - ring.
  Qed.

  Lemma word_D_phi b B ax n : wf ax [D] (phi b B n) = fun x => INR n * phi b B (pred n) x + (-2 * b) * phi b B (S n) x.
  Proof.
    extensionality x. cbn. rewrite (is_derive_unique _ _ _ (phi_derive b B n x)). ring.
  Qed.
  Lemma word_X_phi b B ax o n : wf ax [X o] (phi b B n) = fun x => 1 * phi b B (S n) x + (B - origin A O o ax) * phi b B n x.
  Proof. extensionality x. cbn. unfold phi. cbn. ring. Qed.
  Lemma word_shift b c ax k n : wf ax (repeat (X (Own c)) k) (phi b (A c ax) n) = phi b (A c ax) (k + n).
  Proof.
    induction k as [|k IH]; [reflexivity|]. cbn [repeat].
    change (wf ax (?p :: ?w) ?h) with (prim_fun A O ax p (wf ax w h)). rewrite IH. cbn. extensionality x. unfold phi. cbn. ring.
  Qed.
End Words.

Lemma rsum_cons x l : rsum (x :: l) = x + rsum l. Proof. reflexivity. Qed.
Lemma rsum_lin {T} s t (f g h : T -> R) l : (forall x, In x l -> h x = s * f x + t * g x) ->
  rsum (map h l) = s * rsum (map f l) + t * rsum (map g l).
Proof.
  induction l as [|x l IH]; intros H; [unfold rsum; cbn; ring|]. cbn [map]. rewrite !rsum_cons, (H x) by (left; reflexivity). rewrite IH by (intros; apply H; right; assumption). ring.
Qed.
Lemma rsum_ext {T} (f g : T -> R) l : (forall x, In x l -> f x = g x) -> rsum (map f l) = rsum (map g l).
Proof. intros H. f_equal. apply map_ext_in, H. Qed.
Lemma rsum_app l r : rsum (l ++ r) = rsum l + rsum r.
Proof. induction l as [|x l IH]; [unfold rsum; cbn; ring|]. cbn [app]. rewrite !rsum_cons, IH. ring. Qed.

Lemma nth_upd {T} k (f : T -> T) l j d : (k < length l)%nat ->
  nth j (upd_nth k f l) d = if Nat.eqb j k then f (nth j l d) else nth j l d.
Proof.
  revert k j. induction l as [|x l IH]; intros [|k] [|j] H; cbn in *; try lia; try reflexivity.
  apply IH. lia.
Qed.
Lemma upd_length {T} k (f : T -> T) l : length (upd_nth k f l) = length l.
Proof. revert k. induction l as [|x l IH]; intros [|k]; cbn; auto. Qed.
Lemma nth_error_upd {T} k (f : T -> T) l j :
  nth_error (upd_nth k f l) j = if Nat.eqb j k then option_map f (nth_error l j) else nth_error l j.
Proof.
  revert k j. induction l as [|x l IH]; intros [|k] [|j]; cbn; try reflexivity.
  - destruct (Nat.eqb j k); reflexivity.
  - apply IH.
Qed.

Lemma cnum_lt c : (cnum c < 4)%nat. Proof. destruct c; cbn; lia. Qed.
Lemma cnum_eqb c c' : Nat.eqb (cnum c') (cnum c) = (more c c' =? 1)%Z. Proof. destruct c, c'; reflexivity. Qed.

Definition addc (n : centre -> Z) (c : centre) (k : Z) (c' : centre) : Z := (n c' + k * more c c')%Z.
Definition addv (n sh : centre -> Z) (c : centre) : Z := (n c + sh c)%Z.
Definition four (w : list word) : Prop := length w = 4%nat.

Section Block.
  Variables (fam : gfam) (a : centre -> R) (A : centre -> Z -> R) (O : Z -> R) (I : Z -> Z -> funs -> R).
  Hypothesis Hlin : forall c, used fam c = true -> linear_in a A I c.
  Local Notation wf := (word_fun A O).
  Definition wv (ax o : Z) (n : centre -> Z) (w : list word) : R :=
    I ax o (fun c => wf ax (nth (cnum c) w []) (phi (a c) (A c ax) (Z.to_nat (n c)))).
  Definition bv (ax o : Z) (ws : list (list word)) (n : centre -> Z) : R := rsum (map (wv ax o n) ws).

  Definition ctx (ax : Z) (n : centre -> Z) (w : list word) : funs :=
    fun c => wf ax (nth (cnum c) w []) (phi (a c) (A c ax) (Z.to_nat (n c))).
  Lemma ctx_gp ax n w c : gpoly (a c) (A c ax) (ctx ax n w c).
  Proof. apply gp_word, gp_phi. Qed.

  Lemma wv_app ax o n w c p : four w ->
    wv ax o n (app_word c p w) =
    I ax o (updf (ctx ax n w) c (wf ax (nth (cnum c) w []) (wf ax p (phi (a c) (A c ax) (Z.to_nat (n c)))))).
  Proof.
    intros Hw. unfold wv, ctx. f_equal. extensionality c'.
    unfold app_word. rewrite nth_upd by (rewrite Hw; apply cnum_lt).
    destruct c, c'; cbn [cnum Nat.eqb updf]; rewrite ?word_app; reflexivity.
  Qed.
  Lemma wv_addc ax o n w c k : wv ax o (addc n c k) w =
    I ax o (updf (ctx ax n w) c (wf ax (nth (cnum c) w []) (phi (a c) (A c ax) (Z.to_nat (n c + k))))).
  Proof.
    unfold wv, ctx. f_equal. extensionality c'. unfold addc.
    destruct c, c'; cbn [more updf]; rewrite ?Z.mul_0_r, ?Z.mul_1_r, ?Z.add_0_r; reflexivity.
  Qed.
  Lemma wv_lin ax o n w c s t f g : used fam c = true -> gpoly (a c) (A c ax) f -> gpoly (a c) (A c ax) g ->
    I ax o (updf (ctx ax n w) c (wf ax (nth (cnum c) w []) (fun x => s * f x + t * g x))) =
    s * I ax o (updf (ctx ax n w) c (wf ax (nth (cnum c) w []) f)) +
    t * I ax o (updf (ctx ax n w) c (wf ax (nth (cnum c) w []) g)).
  Proof.
    intros Hc Hf Hg. rewrite (word_lin A O (a c) (A c ax)) by assumption.
    apply (Hlin c Hc).
    - intros c'. apply ctx_gp.
    - apply gp_word, Hf.
    - apply gp_word, Hg.
  Qed.

  Lemma wv_D ax o n w c : four w -> used fam c = true -> (0 <= n c)%Z ->
    wv ax o n (app_word c [D] w) =
    IZR (n c) * wv ax o (addc n c (-1)) w + -2 * a c * wv ax o (addc n c 1) w.
  Proof.
    intros Hw Hc Hn. rewrite wv_app by assumption. rewrite word_D_phi.
    rewrite wv_lin by (assumption || apply gp_phi). rewrite !wv_addc.
    rewrite INR_IZR_INZ, Z2Nat.id by assumption.
    replace (Z.to_nat (n c + 1)) with (S (Z.to_nat (n c))) by lia.
    replace (Z.to_nat (n c + -1)) with (pred (Z.to_nat (n c))) by lia. reflexivity.
  Qed.
  Lemma wv_X ax o n w c og : four w -> used fam c = true -> (0 <= n c)%Z ->
    wv ax o n (app_word c [X og] w) =
    1 * wv ax o (addc n c 1) w + (A c ax - origin A O og ax) * wv ax o n w.
  Proof.
    intros Hw Hc Hn. rewrite wv_app by assumption. rewrite word_X_phi.
    rewrite wv_lin by (assumption || apply gp_phi). rewrite wv_addc.
    replace (Z.to_nat (n c + 1)) with (S (Z.to_nat (n c))) by lia.
    f_equal. f_equal. unfold wv. f_equal. extensionality c'. unfold ctx.
    destruct c, c'; cbn [updf]; reflexivity.
  Qed.
  Lemma app_four c p w : four w -> four (app_word c p w).
  Proof. unfold four, app_word. rewrite upd_length. auto. Qed.
  Lemma shift_four sh w : four w -> four (shift_words sh w).
  Proof. intros H. unfold shift_words. cbn [fold_right cs4]. repeat apply app_four. exact H. Qed.

  Lemma wv_own ax o n w c k : four w -> (0 <= n c)%Z -> (0 <= k)%Z ->
    wv ax o n (app_word c (repeat (X (Own c)) (Z.to_nat k)) w) = wv ax o (addc n c k) w.
  Proof.
    intros Hw Hn Hk. rewrite wv_app by assumption. rewrite wv_addc, word_shift. do 5 f_equal. lia.
  Qed.
  Lemma wv_shift ax o n w sh : four w -> (forall c, 0 <= n c)%Z -> (forall c, 0 <= vg sh c)%Z ->
    wv ax o n (shift_words sh w) = wv ax o (addv n (vg sh)) w.
  Proof.
    intros Hw Hn Hs. unfold shift_words. cbn [fold_right cs4].
    rewrite wv_own; [|repeat apply app_four; assumption|apply Hn|apply Hs].
    rewrite wv_own; [|repeat apply app_four; assumption| |apply Hs].
    2: { unfold addc. cbn. pose proof (Hn CJ). lia. }
    rewrite wv_own; [|repeat apply app_four; assumption| |apply Hs].
    2: { unfold addc. cbn. pose proof (Hn CK). lia. }
    rewrite wv_own; [|repeat apply app_four; assumption| |apply Hs].
    2: { unfold addc. cbn. pose proof (Hn CL). lia. }
    f_equal. extensionality c. unfold addc, addv. destruct c; cbn [more]; lia.
  Qed.

  Lemma bv_D ax o ws n c : Forall four ws -> used fam c = true -> (0 <= n c)%Z ->
    bv ax o (map (app_word c [D]) ws) n = IZR (n c) * bv ax o ws (addc n c (-1)) + -2 * a c * bv ax o ws (addc n c 1).
  Proof.
    intros Hw Hc Hn. unfold bv. rewrite map_map. apply rsum_lin. intros w Hi.
    apply wv_D; [|assumption|assumption]. exact (proj1 (Forall_forall _ _) Hw w Hi).
  Qed.
  Lemma bv_X ax o ws n c og : Forall four ws -> used fam c = true -> (0 <= n c)%Z ->
    bv ax o (map (app_word c [X og]) ws) n = bv ax o ws (addc n c 1) + (A c ax - origin A O og ax) * bv ax o ws n.
  Proof.
    intros Hw Hc Hn. unfold bv. rewrite map_map.
    rewrite (rsum_lin 1 (A c ax - origin A O og ax) (wv ax o (addc n c 1)) (wv ax o n)); [ring|].
    intros w Hi. apply wv_X; [|assumption|assumption]. exact (proj1 (Forall_forall _ _) Hw w Hi).
  Qed.
  Lemma bv_shift ax o ws n sh : Forall four ws -> (forall c, 0 <= n c)%Z -> (forall c, 0 <= vg sh c)%Z ->
    bv ax o (map (shift_words sh) ws) n = bv ax o ws (addv n (vg sh)).
  Proof.
    intros Hw Hn Hs. unfold bv. rewrite map_map. apply rsum_ext. intros w Hi.
    apply wv_shift; [|assumption|assumption]. exact (proj1 (Forall_forall _ _) Hw w Hi).
  Qed.
  Lemma bv_app ax o ws ws' n : bv ax o (ws ++ ws') n = bv ax o ws n + bv ax o ws' n.
  Proof. unfold bv. rewrite map_app. apply rsum_app. Qed.
  Lemma bv_ext ax o ws n n' : (forall c, n c = n' c) -> bv ax o ws n = bv ax o ws n'.
  Proof. intros H. replace n' with n; [reflexivity|]. extensionality c. apply H. Qed.
End Block.
