(** OpProof.v — derivative and position operators: every requested cell of the
    output block holds its value, everything else is unchanged. *)
From Verif Require Import Base EnvModel RecModel RecLay.

Lemma Frame_rd {A} (W : Z -> Prop) (a b : arr A) p : Frame W a b -> ~ W p -> rd b p = rd a p.
Proof. intros [Hs Hc] Hp. unfold rd, inb. rewrite Hs, Hc by exact Hp. reflexivity. Qed.

Section Cover.
  Context {F T : Type}.
  Variables (fo gs : Z) (addr : T -> Z) (box : T -> Prop).
  Hypothesis (Hinj : forall t u, box t -> box u -> addr t = addr u -> t = u).
  Hypothesis (Hbnd : forall t, box t -> 0 <= addr t < gs).
  Hypothesis (Ho : 0 <= fo).
  Variable V : Z -> T -> F.
  Variable m0 : arr F.
  Local Notation IV := (Inv fo gs addr box V).

  (** [c] fills the cells of [B] with their value and preserves all filled cells *)
  Definition covers (c : arr F -> option (arr F)) (B : T -> Prop) : Prop :=
    forall (P : T -> Prop) m, IV P m0 m -> wp (c m) (fun m' => IV (fun t => P t \/ B t) m0 m').

  Lemma covers_for lo hi (body : Z -> arr F -> option (arr F)) (B : Z -> T -> Prop) :
    (forall x, lo <= x < hi -> covers (body x) (B x)) ->
    covers (for_ lo hi body) (fun t => exists x, lo <= x < hi /\ B x t).
  Proof.
    intros H P m HI. destruct (Z_le_gt_dec lo hi) as [Hle|Hgt].
    - apply wp_for with (I := fun x m => IV (fun t => P t \/ exists y, lo <= y < x /\ B y t) m0 m).
      + exact Hle.
      + eapply Inv_mono; [exact HI|]. intros t _ [Hp|(y & Hy & _)]; [exact Hp|lia].
      + intros x m1 Hx HI1. eapply wp_mono; [exact (H x Hx _ _ HI1)|].
        intros m2 HI2. eapply Inv_mono; [exact HI2|].
        intros t _ [Hp|(y & Hy & Hb)]; [left; left; exact Hp|].
        destruct (Z.eq_dec y x) as [->|]; [right; exact Hb|left; right; exists y; split; [lia|exact Hb]].
      + intros m1 HI1. exact HI1.
    - rewrite for_nil by lia. apply wp_ret. eapply Inv_mono; [exact HI|].
      intros t _ [Hp|(y & Hy & _)]; [exact Hp|lia].
  Qed.

  Lemma covers_seq a b A B : covers a A -> covers b B ->
    covers (fun m => m <- a m ;; b m) (fun t => A t \/ B t).
  Proof.
    intros Ha Hb P m HI. apply wp_bind. eapply wp_mono; [exact (Ha _ _ HI)|]. intros m1 HI1.
    eapply wp_mono; [exact (Hb _ _ HI1)|]. intros m2 HI2.
    eapply Inv_mono; [exact HI2|]. intros t _ [?|[?|?]]; auto.
  Qed.

  Lemma covers_sub c (B B' : T -> Prop) : covers c B -> (forall t, box t -> B' t -> B t) -> covers c B'.
  Proof.
    intros H HB P m HI. eapply wp_mono; [exact (H _ _ HI)|]. intros m1 HI1.
    eapply Inv_mono; [exact HI1|]. intros t Hb [?|?]; auto.
  Qed.

  (** one three-axis statement whose right-hand side reads outside the block only *)
  Lemma covers_st3 t p body : box t -> p = fo + addr t ->
    (forall ax m, 0 <= ax < 3 -> Frame (fun p => fo <= p < fo + 3 * gs) m0 m -> body ax m = Some (V ax t)) ->
    covers (fun m => st3 gs m p body) (fun u => u = t).
  Proof.
    intros Hb Hp Hbody P m HI.
    apply (wp_st3 fo gs addr box Hinj Hbnd Ho V P (fun u => P u \/ u = t) m0 m t p body); auto.
    intros ax m' Hax HI' _. apply Hbody; [exact Hax|]. apply (Inv_frame _ _ _ _ _ _ _ _ HI').
  Qed.

  Lemma covers_run c (B : T -> Prop) : covers c B -> fo + 3 * gs <= asize m0 ->
    wp (c m0) (fun m' => (forall ax t, 0 <= ax < 3 -> box t -> B t ->
        rd m' (ax * gs + (fo + addr t)) = Some (V ax t)) /\
      Frame (fun p => fo <= p < fo + 3 * gs) m0 m').
  Proof.
    intros H Hs. eapply wp_mono; [apply (H (fun _ => False) m0)|].
    - apply Inv_init; [exact Hs|]. intros; contradiction.
    - intros m' HI. split.
      + intros ax t Hax Hb Ht. destruct HI as [HC _]. apply HC; auto.
      + apply (Inv_frame _ _ _ _ _ _ _ _ HI).
  Qed.
End Cover.

(** ** one-electron operators *)
Section Op1.
  Context {F : Type}.
  Variables (add mul : F -> F -> F) (inj : Z -> F).
  Variables (e : envs) (fo go : Z) (li lj lk : Z).
  Local Notation gs := (g_size e).
  Local Notation dj := (g_stride_j e).
  Local Notation dk := (g_stride_k e).
  Definition adr1 (t : Z * Z * Z) : Z := let '(i, j, k) := t in i + dj * j + dk * k.
  (** the cells an operator writes; [bi], [bj], [bk] more orders are read *)
  Definition box1 (bi bj bk : Z) (t : Z * Z * Z) : Prop :=
    let '(i, j, k) := t in 0 <= i <= li + bi /\ 0 <= j <= lj + bj /\ 0 <= k <= lk + bk.
  Definition lay_ok1 (bi bj bk : Z) : Prop :=
    (forall t u, box1 bi bj bk t -> box1 bi bj bk u -> adr1 t = adr1 u -> t = u) /\
    (forall t, box1 bi bj bk t -> 0 <= adr1 t < gs).
  Definition holds1 (o : Z) (bi bj bk : Z) (G : Z -> Z -> Z -> Z -> F) (m : arr F) : Prop :=
    forall ax i j k, 0 <= ax < 3 -> box1 bi bj bk (i, j, k) ->
      rd m (ax * gs + (o + (i + dj * j + dk * k))) = Some (G ax i j k).
  Definition apart (a b n : Z) : Prop := a + n <= b \/ b + n <= a.

  Definition op1_done (m0 : arr F) (V : Z -> Z -> Z -> Z -> F) (m : arr F) : Prop :=
    holds1 fo 0 0 0 V m /\ Frame (fun p => fo <= p < fo + 3 * gs) m0 m.

  Variables (G : Z -> Z -> Z -> Z -> F) (m0 : arr F).
  Hypothesis (Hfo : 0 <= fo) (Hsz : fo + 3 * gs <= asize m0) (Hap : apart fo go (3 * gs)).
  Hypothesis (Hli : 0 <= li) (Hlj : 0 <= lj) (Hlk : 0 <= lk).

  Lemma lay_ok1_0 bi bj bk : 0 <= bi -> 0 <= bj -> 0 <= bk -> lay_ok1 bi bj bk -> lay_ok1 0 0 0.
  Proof.
    intros Hi Hj Hk [H1 H2]. split.
    - intros [[i j] k] [[i' j'] k'] Hb Hb'. apply H1; cbn in *; lia.
    - intros [[i j] k] Hb. apply H2; cbn in *; lia.
  Qed.

  Lemma op1_rd bi bj bk m ax i j k p : lay_ok1 bi bj bk -> holds1 go bi bj bk G m0 ->
    Frame (fun p => fo <= p < fo + 3 * gs) m0 m -> 0 <= ax < 3 -> box1 bi bj bk (i, j, k) ->
    p = ax * gs + (go + (i + dj * j + dk * k)) -> rd m p = Some (G ax i j k).
  Proof.
    intros [_ Hb] Hg Fr Hax Hbx ->. rewrite (Frame_rd _ _ _ _ Fr).
    - apply Hg; assumption.
    - specialize (Hb _ Hbx). cbn in Hb. pose proof (axis_bound gs ax _ Hb Hax).
      unfold apart in Hap. lia.
  Qed.

  Local Notation cov V := (covers fo gs adr1 (box1 0 0 0) (fun ax t => let '(i, j, k) := t in V ax i j k) m0).

  Lemma op1_fin V c (B : Z * Z * Z -> Prop) : cov V c B -> (forall t, box1 0 0 0 t -> B t) ->
    wp (c m0) (op1_done m0 V).
  Proof.
    intros H HB. eapply wp_mono; [apply (covers_run _ _ _ _ _ _ _ _ H Hsz)|].
    intros m' [H1 H2]. split; [|exact H2].
    intros ax i j k Hax Hb. exact (H1 ax (i, j, k) Hax Hb (HB _ Hb)).
  Qed.

  Lemma nabla1i_ok a2 : lay_ok1 1 0 0 -> holds1 go 1 0 0 G m0 ->
    wp (nabla1i_1e add mul inj e a2 fo go li lj lk m0)
       (op1_done m0 (fun ax i j k => if i =? 0 then mul a2 (G ax (i + 1) j k)
                              else add (mul (inj i) (G ax (i - 1) j k)) (mul a2 (G ax (i + 1) j k)))).
  Proof.
    intros Hl Hg. destruct (lay_ok1_0 1 0 0 ltac:(lia) ltac:(lia) ltac:(lia) Hl) as [L1 L2].
    set (V := fun ax i j k => if i =? 0 then _ else _).
    eapply (op1_fin V).
    - unfold nabla1i_1e. cbv zeta. apply covers_for. intros k Hk. apply covers_for. intros j Hj.
      apply covers_seq.
      + apply (covers_st3 _ _ _ _ L1 L2 Hfo _ _ (0, j, k)); [unfold box1; lia|unfold adr1; lia|].
        intros ax m Hax Fr. rewrite (op1_rd 1 0 0 m ax 1 j k); [|first [assumption | unfold box1; lia | subst d; lia | lia] ..]. reflexivity.
      + apply covers_for. intros i Hi.
        apply (covers_st3 _ _ _ _ L1 L2 Hfo _ _ (i, j, k)); [unfold box1; lia|unfold adr1; lia|].
        intros ax m Hax Fr. unfold V. replace (i =? 0) with false by lia.
        rewrite (op1_rd 1 0 0 m ax (i - 1) j k); [|first [assumption | unfold box1; lia | subst d; lia | lia] ..]. cbn [bind].
        rewrite (op1_rd 1 0 0 m ax (i + 1) j k); [|first [assumption | unfold box1; lia | subst d; lia | lia] ..]. reflexivity.
    - intros [[i j] k] (Hi & Hj & Hk). exists k. split; [lia|]. exists j. split; [lia|].
      destruct (Z.eq_dec i 0) as [->|]; [left; reflexivity|]. right. exists i. split; [lia|reflexivity].
  Qed.

  Lemma nabla1j_ok a2 : lay_ok1 0 1 0 -> holds1 go 0 1 0 G m0 ->
    wp (nabla1j_1e add mul inj e a2 fo go li lj lk m0)
       (op1_done m0 (fun ax i j k => if j =? 0 then mul a2 (G ax i (j + 1) k)
                              else add (mul (inj j) (G ax i (j - 1) k)) (mul a2 (G ax i (j + 1) k)))).
  Proof.
    intros Hl Hg. destruct (lay_ok1_0 0 1 0 ltac:(lia) ltac:(lia) ltac:(lia) Hl) as [L1 L2].
    set (V := fun ax i j k => if j =? 0 then _ else _).
    eapply (op1_fin V).
    - unfold nabla1j_1e. cbv zeta. apply covers_for. intros k Hk.
      apply covers_seq.
      + apply covers_for. intros p Hp.
        apply (covers_st3 _ _ _ _ L1 L2 Hfo _ _ (p - dk * k, 0, k)); [unfold box1; lia|unfold adr1; lia|].
        intros ax m Hax Fr. rewrite (op1_rd 0 1 0 m ax (p - dk * k) 1 k); [|first [assumption | unfold box1; lia | subst d; lia | lia] ..]. reflexivity.
      + apply covers_for. intros j Hj. apply covers_for. intros p Hp.
        apply (covers_st3 _ _ _ _ L1 L2 Hfo _ _ (p - dj * j - dk * k, j, k)); [unfold box1; lia|unfold adr1; lia|].
        intros ax m Hax Fr. unfold V. replace (j =? 0) with false by lia.
        rewrite (op1_rd 0 1 0 m ax (p - dj * j - dk * k) (j - 1) k); [|first [assumption | unfold box1; lia | subst d; lia | lia] ..]. cbn [bind].
        rewrite (op1_rd 0 1 0 m ax (p - dj * j - dk * k) (j + 1) k); [|first [assumption | unfold box1; lia | subst d; lia | lia] ..]. reflexivity.
    - intros [[i j] k] (Hi & Hj & Hk). exists k. split; [lia|].
      destruct (Z.eq_dec j 0) as [->|]; [left|right; exists j; split; [lia|]].
      + exists (dk * k + i). split; [lia|]. f_equal. f_equal. lia.
      + exists (dj * j + dk * k + i). split; [lia|]. f_equal. f_equal. lia.
  Qed.

  Lemma nabla1k_ok a2 : lay_ok1 0 0 1 -> holds1 go 0 0 1 G m0 ->
    wp (nabla1k_1e add mul inj e a2 fo go li lj lk m0)
       (op1_done m0 (fun ax i j k => if k =? 0 then mul a2 (G ax i j (k + 1))
                              else add (mul (inj k) (G ax i j (k - 1))) (mul a2 (G ax i j (k + 1))))).
  Proof.
    intros Hl Hg. destruct (lay_ok1_0 0 0 1 ltac:(lia) ltac:(lia) ltac:(lia) Hl) as [L1 L2].
    set (V := fun ax i j k => if k =? 0 then _ else _).
    eapply (op1_fin V).
    - unfold nabla1k_1e. cbv zeta.
      apply covers_seq.
      + apply covers_for. intros j Hj. apply covers_for. intros p Hp.
        apply (covers_st3 _ _ _ _ L1 L2 Hfo _ _ (p - dj * j, j, 0)); [unfold box1; lia|unfold adr1; lia|].
        intros ax m Hax Fr. rewrite (op1_rd 0 0 1 m ax (p - dj * j) j 1); [|first [assumption | unfold box1; lia | subst d; lia | lia] ..]. reflexivity.
      + apply covers_for. intros k Hk. apply covers_for. intros j Hj. apply covers_for. intros p Hp.
        apply (covers_st3 _ _ _ _ L1 L2 Hfo _ _ (p - dj * j - dk * k, j, k)); [unfold box1; lia|unfold adr1; lia|].
        intros ax m Hax Fr. unfold V. replace (k =? 0) with false by lia.
        rewrite (op1_rd 0 0 1 m ax (p - dj * j - dk * k) j (k - 1)); [|first [assumption | unfold box1; lia | subst d; lia | lia] ..]. cbn [bind].
        rewrite (op1_rd 0 0 1 m ax (p - dj * j - dk * k) j (k + 1)); [|first [assumption | unfold box1; lia | subst d; lia | lia] ..]. reflexivity.
    - intros [[i j] k] (Hi & Hj & Hk).
      destruct (Z.eq_dec k 0) as [->|]; [left|right; exists k; split; [lia|]]; (exists j; split; [lia|]).
      + exists (dj * j + i). split; [lia|]. f_equal. f_equal. lia.
      + exists (dj * j + dk * k + i). split; [lia|]. f_equal. f_equal. lia.
  Qed.

  (** the position operators: the order raised is that of the stride [d] *)
  Lemma x1_ok d bi bj bk r :
    (bi, bj, bk, d) = (1, 0, 0, 1) \/ (bi, bj, bk, d) = (0, 1, 0, dj) \/ (bi, bj, bk, d) = (0, 0, 1, dk) ->
    lay_ok1 bi bj bk -> holds1 go bi bj bk G m0 ->
    wp (x1_1e add mul d e r fo go li lj lk m0)
       (op1_done m0 (fun ax i j k => add (G ax (i + bi) (j + bj) (k + bk)) (mul (r ax) (G ax i j k)))).
  Proof.
    intros Hd Hl Hg.
    assert (Hb : 0 <= bi <= 1 /\ 0 <= bj <= 1 /\ 0 <= bk <= 1 /\ d = bi + dj * bj + dk * bk).
    { destruct Hd as [H|[H|H]]; injection H as -> -> -> ->; lia. }
    destruct Hb as (Hbi & Hbj & Hbk & Ed). clear Hd.
    destruct (lay_ok1_0 bi bj bk ltac:(lia) ltac:(lia) ltac:(lia) Hl) as [L1 L2].
    set (V := fun ax i j k => add _ _).
    eapply (op1_fin V).
    - unfold x1_1e. cbv zeta.
      apply covers_for. intros k Hk. apply covers_for. intros j Hj. apply covers_for. intros p Hp.
      apply (covers_st3 _ _ _ _ L1 L2 Hfo _ _ (p - dj * j - dk * k, j, k)); [unfold box1; lia|unfold adr1; lia|].
      intros ax m Hax Fr.
      rewrite (op1_rd bi bj bk m ax (p - dj * j - dk * k + bi) (j + bj) (k + bk)); [|first [assumption | unfold box1; lia | subst d; lia | lia] ..]. cbn [bind].
      rewrite (op1_rd bi bj bk m ax (p - dj * j - dk * k) j k); [|first [assumption | unfold box1; lia | subst d; lia | lia] ..]. reflexivity.
    - intros [[i j] k] (Hi & Hj & Hk).
      exists k; split; [lia|]. exists j; split; [lia|].
      exists (dj * j + dk * k + i). split; [lia|]. f_equal. f_equal. lia.
  Qed.
End Op1.

(** ** two-electron operators *)
Section Op2.
  Context {F : Type}.
  Variables (add mul : F -> F -> F) (inj : Z -> F).
  Variables (e : envs) (fo go : Z) (li lj lk ll : Z).
  Local Notation gs := (g_size e).
  Local Notation di := (g_stride_i e).
  Local Notation dj := (g_stride_j e).
  Local Notation dk := (g_stride_k e).
  Local Notation dl := (g_stride_l e).
  Local Notation nr := (nrys_roots e).
  Local Notation T5 := (Z * Z * Z * Z * Z)%type.
  Definition adr2 (t : T5) : Z := let '(n, i, j, k, l) := t in n + di * i + dk * k + dl * l + dj * j.
  Definition box2 (bi bj bk bl : Z) (t : T5) : Prop :=
    let '(n, i, j, k, l) := t in
    0 <= n < nr /\ 0 <= i <= li + bi /\ 0 <= j <= lj + bj /\ 0 <= k <= lk + bk /\ 0 <= l <= ll + bl.
  Definition lay_ok2 (bi bj bk bl : Z) : Prop :=
    (forall t u, box2 bi bj bk bl t -> box2 bi bj bk bl u -> adr2 t = adr2 u -> t = u) /\
    (forall t, box2 bi bj bk bl t -> 0 <= adr2 t < gs).
  Definition holds2 (o : Z) (bi bj bk bl : Z) (G : Z -> Z -> Z -> Z -> Z -> Z -> F) (m : arr F) : Prop :=
    forall ax n i j k l, 0 <= ax < 3 -> box2 bi bj bk bl (n, i, j, k, l) ->
      rd m (ax * gs + (o + (n + di * i + dk * k + dl * l + dj * j))) = Some (G ax n i j k l).
  Definition op2_done (m0 : arr F) (V : Z -> Z -> Z -> Z -> Z -> Z -> F) (m : arr F) : Prop :=
    holds2 fo 0 0 0 0 V m /\ Frame (fun p => fo <= p < fo + 3 * gs) m0 m.

  Variables (G : Z -> Z -> Z -> Z -> Z -> Z -> F) (m0 : arr F).
  Hypothesis (Hfo : 0 <= fo) (Hsz : fo + 3 * gs <= asize m0) (Hap : apart fo go (3 * gs)).
  Hypothesis (Hli : 0 <= li) (Hlj : 0 <= lj) (Hlk : 0 <= lk) (Hll : 0 <= ll).

  Lemma lay_ok2_0 bi bj bk bl : 0 <= bi -> 0 <= bj -> 0 <= bk -> 0 <= bl ->
    lay_ok2 bi bj bk bl -> lay_ok2 0 0 0 0.
  Proof.
    intros Hi Hj Hk Hl [H1 H2]. split.
    - intros [[[[n i] j] k] l] [[[[n' i'] j'] k'] l'] Hb Hb'. apply H1; cbn in *; lia.
    - intros [[[[n i] j] k] l] Hb. apply H2; cbn in *; lia.
  Qed.

  Lemma op2_rd bi bj bk bl m ax n i j k l p : lay_ok2 bi bj bk bl -> holds2 go bi bj bk bl G m0 ->
    Frame (fun p => fo <= p < fo + 3 * gs) m0 m -> 0 <= ax < 3 -> box2 bi bj bk bl (n, i, j, k, l) ->
    p = ax * gs + (go + (n + di * i + dk * k + dl * l + dj * j)) -> rd m p = Some (G ax n i j k l).
  Proof.
    intros [_ Hb] Hg Fr Hax Hbx ->. rewrite (Frame_rd _ _ _ _ Fr).
    - apply Hg; assumption.
    - specialize (Hb _ Hbx). cbn in Hb. pose proof (axis_bound gs ax _ Hb Hax).
      unfold apart in Hap. lia.
  Qed.

  Local Notation cov V := (covers fo gs adr2 (box2 0 0 0 0) (fun ax t => let '(n, i, j, k, l) := t in V ax n i j k l) m0).

  Lemma op2_fin V c (B : T5 -> Prop) : cov V c B -> (forall t, box2 0 0 0 0 t -> B t) ->
    wp (c m0) (op2_done m0 V).
  Proof.
    intros H HB. eapply wp_mono; [apply (covers_run _ _ _ _ _ _ _ _ H Hsz)|].
    intros m' [H1 H2]. split; [|exact H2].
    intros ax n i j k l Hax Hb. exact (H1 ax (n, i, j, k, l) Hax Hb (HB _ Hb)).
  Qed.

  (** a unit step along one of the four orders *)
  Definition unit4 (bi bj bk bl d : Z) : Prop :=
    (bi, bj, bk, bl, d) = (1, 0, 0, 0, di) \/ (bi, bj, bk, bl, d) = (0, 1, 0, 0, dj) \/
    (bi, bj, bk, bl, d) = (0, 0, 1, 0, dk) \/ (bi, bj, bk, bl, d) = (0, 0, 0, 1, dl).

  Lemma unit4_ok bi bj bk bl d : unit4 bi bj bk bl d ->
    0 <= bi <= 1 /\ 0 <= bj <= 1 /\ 0 <= bk <= 1 /\ 0 <= bl <= 1 /\
    d = di * bi + dj * bj + dk * bk + dl * bl.
  Proof. intros [H|[H|[H|H]]]; injection H as -> -> -> -> ->; lia. Qed.

  Section Rows.
    Variables (bi bj bk bl d : Z) (a2 : F).
    Hypothesis (Hu : unit4 bi bj bk bl d) (Hl : lay_ok2 bi bj bk bl) (Hg : holds2 go bi bj bk bl G m0).
    (** derivative along the chosen order, whose value at the cell is [c] *)
    Definition DV (ax n i j k l : Z) : F :=
      let c := bi * i + bj * j + bk * k + bl * l in
      if c =? 0 then mul a2 (G ax n (i + bi) (j + bj) (k + bk) (l + bl))
      else add (mul (inj c) (G ax n (i - bi) (j - bj) (k - bk) (l - bl)))
               (mul a2 (G ax n (i + bi) (j + bj) (k + bk) (l + bl))).

    Lemma cov_first i j k l p : 0 <= i <= li -> 0 <= j <= lj -> 0 <= k <= lk -> 0 <= l <= ll ->
      bi * i + bj * j + bk * k + bl * l = 0 ->
      p = di * i + dk * k + dl * l + dj * j ->
      cov DV (first_row mul gs fo go a2 d nr p) (fun t => exists n, 0 <= n < nr /\ t = (n, i, j, k, l)).
    Proof.
      intros Hi Hj Hk Hl' Hc ->. destruct (unit4_ok _ _ _ _ _ Hu) as (B1 & B2 & B3 & B4 & Ed).
      destruct (lay_ok2_0 bi bj bk bl ltac:(lia) ltac:(lia) ltac:(lia) ltac:(lia) Hl) as [L1 L2].
      unfold first_row. eapply covers_sub.
      - apply covers_for. intros p Hp.
        apply (covers_st3 _ _ _ _ L1 L2 Hfo _ _ (p - (di * i + dk * k + dl * l + dj * j), i, j, k, l)); [unfold box2; lia|unfold adr2; lia|].
        intros ax m Hax Fr. unfold DV. rewrite Hc. cbn [Z.eqb].
        rewrite (op2_rd bi bj bk bl m ax (p - (di * i + dk * k + dl * l + dj * j)) (i + bi) (j + bj) (k + bk) (l + bl)); [|first [assumption | unfold box2; lia | subst d; lia | lia] ..]. reflexivity.
      - intros t _ (n & Hn & ->). exists (n + (di * i + dk * k + dl * l + dj * j)).
        split; [lia|]. do 4 f_equal. lia.
    Qed.

    Lemma cov_next i j k l p c : 0 <= i <= li -> 0 <= j <= lj -> 0 <= k <= lk -> 0 <= l <= ll ->
      c = bi * i + bj * j + bk * k + bl * l -> 0 < c ->
      p = di * i + dk * k + dl * l + dj * j ->
      cov DV (next_row add mul inj gs fo go a2 c d nr p) (fun t => exists n, 0 <= n < nr /\ t = (n, i, j, k, l)).
    Proof.
      intros Hi Hj Hk Hl' Hc Hc0 ->. destruct (unit4_ok _ _ _ _ _ Hu) as (B1 & B2 & B3 & B4 & Ed).
      assert (Hm : bi <= i /\ bj <= j /\ bk <= k /\ bl <= l).
      { destruct Hu as [H|[H|[H|H]]]; injection H as -> -> -> -> ->; lia. }
      destruct (lay_ok2_0 bi bj bk bl ltac:(lia) ltac:(lia) ltac:(lia) ltac:(lia) Hl) as [L1 L2].
      unfold next_row. eapply covers_sub.
      - apply covers_for. intros p Hp.
        apply (covers_st3 _ _ _ _ L1 L2 Hfo _ _ (p - (di * i + dk * k + dl * l + dj * j), i, j, k, l)); [unfold box2; lia|unfold adr2; lia|].
        intros ax m Hax Fr. unfold DV. rewrite <- Hc. replace (c =? 0) with false by lia.
        rewrite (op2_rd bi bj bk bl m ax (p - (di * i + dk * k + dl * l + dj * j)) (i - bi) (j - bj) (k - bk) (l - bl)); [|first [assumption | unfold box2; lia | subst d; lia | lia] ..]. cbn [bind].
        rewrite (op2_rd bi bj bk bl m ax (p - (di * i + dk * k + dl * l + dj * j)) (i + bi) (j + bj) (k + bk) (l + bl)); [|first [assumption | unfold box2; lia | subst d; lia | lia] ..]. reflexivity.
      - intros t _ (n & Hn & ->). exists (n + (di * i + dk * k + dl * l + dj * j)).
        split; [lia|]. do 4 f_equal. lia.
    Qed.
  End Rows.

  Ltac ex v := exists v; split; [lia|].

  Lemma nabla1i_2e_ok a2 : lay_ok2 1 0 0 0 -> holds2 go 1 0 0 0 G m0 ->
    wp (nabla1i_2e add mul inj e a2 fo go li lj lk ll m0) (op2_done m0 (DV 1 0 0 0 a2)).
  Proof.
    intros Hl Hg. assert (Hu : unit4 1 0 0 0 di) by (left; reflexivity).
    eapply op2_fin.
    - unfold nabla1i_2e. cbv zeta. apply covers_for. intros j Hj. apply covers_for. intros l Hl'.
      apply covers_for. intros k Hk. apply covers_seq.
      + apply (cov_first 1 0 0 0 di a2 Hu Hl Hg 0 j k l); lia.
      + apply covers_for. intros i Hi. apply (cov_next 1 0 0 0 di a2 Hu Hl Hg i j k l); lia.
    - intros [[[[n i] j] k] l] (Hn & Hi & Hj & Hk & Hl'). ex j. ex l. ex k.
      destruct (Z.eq_dec i 0) as [->|]; [left|right; ex i]; ex n; reflexivity.
  Qed.

  Lemma nabla1j_2e_ok a2 : lay_ok2 0 1 0 0 -> holds2 go 0 1 0 0 G m0 ->
    wp (nabla1j_2e add mul inj e a2 fo go li lj lk ll m0) (op2_done m0 (DV 0 1 0 0 a2)).
  Proof.
    intros Hl Hg. assert (Hu : unit4 0 1 0 0 dj) by (right; left; reflexivity).
    eapply op2_fin.
    - unfold nabla1j_2e. cbv zeta. apply covers_seq.
      + apply covers_for. intros l Hl'. apply covers_for. intros k Hk. apply covers_for. intros i Hi.
        apply (cov_first 0 1 0 0 dj a2 Hu Hl Hg i 0 k l); lia.
      + apply covers_for. intros j Hj. apply covers_for. intros l Hl'. apply covers_for. intros k Hk.
        apply covers_for. intros i Hi. apply (cov_next 0 1 0 0 dj a2 Hu Hl Hg i j k l); lia.
    - intros [[[[n i] j] k] l] (Hn & Hi & Hj & Hk & Hl').
      destruct (Z.eq_dec j 0) as [->|]; [left|right; ex j]; ex l; ex k; ex i; ex n; reflexivity.
  Qed.

  Lemma nabla1k_2e_ok a2 : lay_ok2 0 0 1 0 -> holds2 go 0 0 1 0 G m0 ->
    wp (nabla1k_2e add mul inj e a2 fo go li lj lk ll m0) (op2_done m0 (DV 0 0 1 0 a2)).
  Proof.
    intros Hl Hg. assert (Hu : unit4 0 0 1 0 dk) by (right; right; left; reflexivity).
    eapply op2_fin.
    - unfold nabla1k_2e. cbv zeta. apply covers_for. intros j Hj. apply covers_for. intros l Hl'. apply covers_seq.
      + apply covers_for. intros i Hi.
        apply (cov_first 0 0 1 0 dk a2 Hu Hl Hg i j 0 l); lia.
      + apply covers_for. intros k Hk.
        apply covers_for. intros i Hi. apply (cov_next 0 0 1 0 dk a2 Hu Hl Hg i j k l); lia.
    - intros [[[[n i] j] k] l] (Hn & Hi & Hj & Hk & Hl'). ex j. ex l.
      destruct (Z.eq_dec k 0) as [->|]; [left|right; ex k]; ex i; ex n; reflexivity.
  Qed.

  Lemma nabla1l_2e_ok a2 : lay_ok2 0 0 0 1 -> holds2 go 0 0 0 1 G m0 ->
    wp (nabla1l_2e add mul inj e a2 fo go li lj lk ll m0) (op2_done m0 (DV 0 0 0 1 a2)).
  Proof.
    intros Hl Hg. assert (Hu : unit4 0 0 0 1 dl) by (right; right; right; reflexivity).
    eapply op2_fin.
    - unfold nabla1l_2e. cbv zeta. apply covers_for. intros j Hj. apply covers_seq.
      + apply covers_for. intros k Hk. apply covers_for. intros i Hi.
        apply (cov_first 0 0 0 1 dl a2 Hu Hl Hg i j k 0); lia.
      + apply covers_for. intros l Hl'. apply covers_for. intros k Hk.
        apply covers_for. intros i Hi. apply (cov_next 0 0 0 1 dl a2 Hu Hl Hg i j k l); lia.
    - intros [[[[n i] j] k] l] (Hn & Hi & Hj & Hk & Hl'). ex j.
      destruct (Z.eq_dec l 0) as [->|]; [left|right; ex l]; ex k; ex i; ex n; reflexivity.
  Qed.

  Lemma x1_2e_ok bi bj bk bl d r : unit4 bi bj bk bl d ->
    lay_ok2 bi bj bk bl -> holds2 go bi bj bk bl G m0 ->
    wp (x1_2e add mul d e r fo go li lj lk ll m0) (op2_done m0 (fun ax n i j k l =>
      add (G ax n (i + bi) (j + bj) (k + bk) (l + bl)) (mul (r ax) (G ax n i j k l)))).
  Proof.
    intros Hu Hl Hg. destruct (unit4_ok _ _ _ _ _ Hu) as (B1 & B2 & B3 & B4 & Ed).
    destruct (lay_ok2_0 bi bj bk bl ltac:(lia) ltac:(lia) ltac:(lia) ltac:(lia) Hl) as [L1 L2].
    set (V := fun ax n i j k l => add _ _).
    eapply (op2_fin V).
    - unfold x1_2e. cbv zeta. apply covers_for. intros j Hj. apply covers_for. intros l Hl'.
      apply covers_for. intros k Hk. apply covers_for. intros i Hi. apply covers_for. intros p Hp.
      apply (covers_st3 _ _ _ _ L1 L2 Hfo _ _ (p - (di * i + dk * k + dl * l + dj * j), i, j, k, l)); [unfold box2; lia|unfold adr2; lia|].
      intros ax m Hax Fr.
      rewrite (op2_rd bi bj bk bl m ax (p - (di * i + dk * k + dl * l + dj * j)) (i + bi) (j + bj) (k + bk) (l + bl)); [|first [assumption | unfold box2; lia | subst d; lia | lia] ..]. cbn [bind].
      rewrite (op2_rd bi bj bk bl m ax (p - (di * i + dk * k + dl * l + dj * j)) i j k l); [|first [assumption | unfold box2; lia | subst d; lia | lia] ..]. reflexivity.
    - intros [[[[n i] j] k] l] (Hn & Hi & Hj & Hk & Hl'). ex j. ex l. ex k. ex i.
      exists (n + (di * i + dk * k + dl * l + dj * j)). split; [lia|]. do 4 f_equal. lia.
  Qed.
End Op2.

(** ** operators on blocks of grid points *)
Section OpG.
  Context {F : Type}.
  Variables (add mul : F -> F -> F) (inj : Z -> F).
  Variables (e : envs) (bg fo go li lj : Z).
  Local Notation gs := (g_size e).
  Local Notation di := (g_stride_i e).
  Local Notation dj := (g_stride_j e).
  Local Notation nr := (nrys_roots e).
  Local Notation T4 := (Z * Z * Z * Z)%type.
  Definition adrg (t : T4) : Z := let '(g, n, i, j) := t in g + GRID_BLKSIZE * n + di * i + dj * j.
  Definition boxg (bi bj : Z) (t : T4) : Prop :=
    let '(g, n, i, j) := t in 0 <= g < bg /\ 0 <= n < nr /\ 0 <= i <= li + bi /\ 0 <= j <= lj + bj.
  Definition lay_okg (bi bj : Z) : Prop :=
    (forall t u, boxg bi bj t -> boxg bi bj u -> adrg t = adrg u -> t = u) /\
    (forall t, boxg bi bj t -> 0 <= adrg t < gs).
  Definition holdsg (o : Z) (bi bj : Z) (G : Z -> Z -> Z -> Z -> Z -> F) (m : arr F) : Prop :=
    forall ax g n i j, 0 <= ax < 3 -> boxg bi bj (g, n, i, j) ->
      rd m (ax * gs + (o + (g + GRID_BLKSIZE * n + di * i + dj * j))) = Some (G ax g n i j).
  Definition opg_done (m0 : arr F) (V : Z -> Z -> Z -> Z -> Z -> F) (m : arr F) : Prop :=
    holdsg fo 0 0 V m /\ Frame (fun p => fo <= p < fo + 3 * gs) m0 m.

  Variables (G : Z -> Z -> Z -> Z -> Z -> F) (m0 : arr F).
  Hypothesis (Hfo : 0 <= fo) (Hsz : fo + 3 * gs <= asize m0) (Hap : apart fo go (3 * gs)).
  Hypothesis (Hli : 0 <= li) (Hlj : 0 <= lj).

  Lemma lay_okg_0 bi bj : 0 <= bi -> 0 <= bj -> lay_okg bi bj -> lay_okg 0 0.
  Proof.
    intros Hi Hj [H1 H2]. split.
    - intros [[[g n] i] j] [[[g' n'] i'] j'] Hb Hb'. apply H1; unfold boxg in *; lia.
    - intros [[[g n] i] j] Hb. apply H2; unfold boxg in *; lia.
  Qed.

  Lemma opg_rd bi bj m ax g n i j p : lay_okg bi bj -> holdsg go bi bj G m0 ->
    Frame (fun p => fo <= p < fo + 3 * gs) m0 m -> 0 <= ax < 3 -> boxg bi bj (g, n, i, j) ->
    p = ax * gs + (go + (g + GRID_BLKSIZE * n + di * i + dj * j)) -> rd m p = Some (G ax g n i j).
  Proof.
    intros [_ Hb] Hg Fr Hax Hbx ->. rewrite (Frame_rd _ _ _ _ Fr).
    - apply Hg; assumption.
    - specialize (Hb _ Hbx). unfold adrg in Hb. pose proof (axis_bound gs ax _ Hb Hax).
      unfold apart in Hap. lia.
  Qed.

  Local Notation cov V := (covers fo gs adrg (boxg 0 0) (fun ax t => let '(g, n, i, j) := t in V ax g n i j) m0).

  Lemma opg_fin V c (B : T4 -> Prop) : cov V c B -> (forall t, boxg 0 0 t -> B t) ->
    wp (c m0) (opg_done m0 V).
  Proof.
    intros H HB. eapply wp_mono; [apply (covers_run _ _ _ _ _ _ _ _ H Hsz)|].
    intros m' [H1 H2]. split; [|exact H2].
    intros ax g n i j Hax Hb. exact (H1 ax (g, n, i, j) Hax Hb (HB _ Hb)).
  Qed.

  Definition unit2 (bi bj d : Z) : Prop := (bi, bj, d) = (1, 0, di) \/ (bi, bj, d) = (0, 1, dj).
  Lemma unit2_ok bi bj d : unit2 bi bj d -> 0 <= bi <= 1 /\ 0 <= bj <= 1 /\ d = di * bi + dj * bj.
  Proof. intros [H|H]; injection H as -> -> ->; lia. Qed.

  Section Rows.
    Variables (bi bj d : Z) (a2 : F).
    Hypothesis (Hu : unit2 bi bj d) (Hl : lay_okg bi bj) (Hg : holdsg go bi bj G m0).
    Definition DVg (ax g n i j : Z) : F :=
      let c := bi * i + bj * j in
      if c =? 0 then mul a2 (G ax g n (i + bi) (j + bj))
      else add (mul (inj c) (G ax g n (i - bi) (j - bj))) (mul a2 (G ax g n (i + bi) (j + bj))).

    Lemma covg_first n i j p : 0 <= n < nr -> 0 <= i <= li -> 0 <= j <= lj -> bi * i + bj * j = 0 ->
      p = dj * j + di * i + n * GRID_BLKSIZE ->
      cov DVg (first_row mul gs fo go a2 d bg p) (fun t => exists g, 0 <= g < bg /\ t = (g, n, i, j)).
    Proof.
      intros Hn Hi Hj Hc ->. destruct (unit2_ok _ _ _ Hu) as (B1 & B2 & Ed).
      destruct (lay_okg_0 bi bj ltac:(lia) ltac:(lia) Hl) as [L1 L2].
      unfold first_row. eapply covers_sub.
      - apply covers_for. intros p Hp.
        apply (covers_st3 _ _ _ _ L1 L2 Hfo _ _ (p - (dj * j + di * i + n * GRID_BLKSIZE), n, i, j)); [unfold boxg; lia|unfold adrg; lia|].
        intros ax m Hax Fr. unfold DVg. rewrite Hc. cbn [Z.eqb].
        rewrite (opg_rd bi bj m ax (p - (dj * j + di * i + n * GRID_BLKSIZE)) n (i + bi) (j + bj));
          [|first [assumption | unfold boxg; lia | subst d; lia] ..]. reflexivity.
      - intros t _ (g & Hg' & ->). exists (g + (dj * j + di * i + n * GRID_BLKSIZE)).
        split; [lia|]. do 3 f_equal. lia.
    Qed.

    Lemma covg_next n i j p c : 0 <= n < nr -> 0 <= i <= li -> 0 <= j <= lj -> c = bi * i + bj * j -> 0 < c ->
      p = dj * j + di * i + n * GRID_BLKSIZE ->
      cov DVg (next_row add mul inj gs fo go a2 c d bg p) (fun t => exists g, 0 <= g < bg /\ t = (g, n, i, j)).
    Proof.
      intros Hn Hi Hj Hc Hc0 ->. destruct (unit2_ok _ _ _ Hu) as (B1 & B2 & Ed).
      assert (Hm : bi <= i /\ bj <= j).
      { destruct Hu as [H|H]; injection H as -> -> ->; lia. }
      destruct (lay_okg_0 bi bj ltac:(lia) ltac:(lia) Hl) as [L1 L2].
      unfold next_row. eapply covers_sub.
      - apply covers_for. intros p Hp.
        apply (covers_st3 _ _ _ _ L1 L2 Hfo _ _ (p - (dj * j + di * i + n * GRID_BLKSIZE), n, i, j)); [unfold boxg; lia|unfold adrg; lia|].
        intros ax m Hax Fr. unfold DVg. rewrite <- Hc. replace (c =? 0) with false by lia.
        rewrite (opg_rd bi bj m ax (p - (dj * j + di * i + n * GRID_BLKSIZE)) n (i - bi) (j - bj));
          [|first [assumption | unfold boxg; lia | subst d; lia] ..]. cbn [bind].
        rewrite (opg_rd bi bj m ax (p - (dj * j + di * i + n * GRID_BLKSIZE)) n (i + bi) (j + bj));
          [|first [assumption | unfold boxg; lia | subst d; lia] ..]. reflexivity.
      - intros t _ (g & Hg' & ->). exists (g + (dj * j + di * i + n * GRID_BLKSIZE)).
        split; [lia|]. do 3 f_equal. lia.
    Qed.
  End Rows.

  Ltac ex v := exists v; split; [lia|].

  Lemma nabla1i_grids_ok a2 : lay_okg 1 0 -> holdsg go 1 0 G m0 ->
    wp (nabla1i_grids add mul inj e bg a2 fo go li lj m0) (opg_done m0 (DVg 1 0 a2)).
  Proof.
    intros Hl Hg. assert (Hu : unit2 1 0 di) by (left; reflexivity).
    eapply opg_fin.
    - unfold nabla1i_grids. cbv zeta. apply covers_for. intros j Hj. apply covers_seq.
      + apply covers_for. intros n Hn. apply (covg_first 1 0 di a2 Hu Hl Hg n 0 j); lia.
      + apply covers_for. intros i Hi. apply covers_for. intros n Hn. apply (covg_next 1 0 di a2 Hu Hl Hg n i j); lia.
    - intros [[[g n] i] j] (Hg' & Hn & Hi & Hj). ex j.
      destruct (Z.eq_dec i 0) as [->|]; [left; ex n|right; ex i; ex n]; ex g; reflexivity.
  Qed.

  Lemma nabla1j_grids_ok a2 : lay_okg 0 1 -> holdsg go 0 1 G m0 ->
    wp (nabla1j_grids add mul inj e bg a2 fo go li lj m0) (opg_done m0 (DVg 0 1 a2)).
  Proof.
    intros Hl Hg. assert (Hu : unit2 0 1 dj) by (right; reflexivity).
    eapply opg_fin.
    - unfold nabla1j_grids. cbv zeta. apply covers_seq.
      + apply covers_for. intros i Hi. apply covers_for. intros n Hn. apply (covg_first 0 1 dj a2 Hu Hl Hg n i 0); lia.
      + apply covers_for. intros j Hj. apply covers_for. intros i Hi. apply covers_for. intros n Hn.
        apply (covg_next 0 1 dj a2 Hu Hl Hg n i j); lia.
    - intros [[[g n] i] j] (Hg' & Hn & Hi & Hj).
      destruct (Z.eq_dec j 0) as [->|]; [left|right; ex j]; ex i; ex n; ex g; reflexivity.
  Qed.

  Lemma x1_grids_ok bi bj d r : unit2 bi bj d -> lay_okg bi bj -> holdsg go bi bj G m0 ->
    wp (x1_grids add mul d e bg r fo go li lj m0) (opg_done m0 (fun ax g n i j =>
      add (G ax g n (i + bi) (j + bj)) (mul (r ax) (G ax g n i j)))).
  Proof.
    intros Hu Hl Hg. destruct (unit2_ok _ _ _ Hu) as (B1 & B2 & Ed).
    destruct (lay_okg_0 bi bj ltac:(lia) ltac:(lia) Hl) as [L1 L2].
    set (V := fun ax g n i j => add _ _).
    eapply (opg_fin V).
    - unfold x1_grids. cbv zeta. apply covers_for. intros j Hj. apply covers_for. intros i Hi.
      apply covers_for. intros n Hn. apply covers_for. intros p Hp.
      apply (covers_st3 _ _ _ _ L1 L2 Hfo _ _ (p - (dj * j + di * i + n * GRID_BLKSIZE), n, i, j)); [unfold boxg; lia|unfold adrg; lia|].
      intros ax m Hax Fr.
      rewrite (opg_rd bi bj m ax (p - (dj * j + di * i + n * GRID_BLKSIZE)) n (i + bi) (j + bj));
        [|first [assumption | unfold boxg; lia | subst d; lia] ..]. cbn [bind].
      rewrite (opg_rd bi bj m ax (p - (dj * j + di * i + n * GRID_BLKSIZE)) n i j);
        [|first [assumption | unfold boxg; lia | subst d; lia] ..]. reflexivity.
    - intros [[[g n] i] j] (Hg' & Hn & Hi & Hj). ex j. ex i. ex n.
      exists (g + (dj * j + di * i + n * GRID_BLKSIZE)). split; [lia|]. do 3 f_equal. lia.
  Qed.
End OpG.
