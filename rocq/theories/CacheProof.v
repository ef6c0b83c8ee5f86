(** CacheProof.v — the reported sizes cover the layouts of CacheModel.v. *)
From Coq Require Import Lia.
From Verif Require Import Base BasModel EnvModel CacheModel CacheSpec.
Ltac Zify.zify_post_hook ::= Z.div_mod_to_equations.

(** ** the alignment operation *)
Lemma align8_div c : align 8 c = (c + 7) / 8 * 8.
Proof.
  unfold align. replace (- (8)) with (Z.lnot (Z.ones 3)) by reflexivity.
  rewrite <- Z.ldiff_land, Z.ldiff_ones_r by lia.
  rewrite Z.shiftl_mul_pow2, Z.shiftr_div_pow2 by lia. change (2 ^ 3) with 8.
  f_equal.
Qed.
Lemma align64_div c : align 64 c = (c + 63) / 64 * 64.
Proof.
  unfold align. replace (- (64)) with (Z.lnot (Z.ones 6)) by reflexivity.
  rewrite <- Z.ldiff_land, Z.ldiff_ones_r by lia.
  rewrite Z.shiftl_mul_pow2, Z.shiftr_div_pow2 by lia. change (2 ^ 6) with 64.
  f_equal.
Qed.

Definition al_ok (al : Z) := al = 8 \/ al = 64.
Lemma align_up al c : al_ok al -> c <= align al c < c + al /\ align al c mod 8 = 0.
Proof. intros [-> | ->]; rewrite ?align8_div, ?align64_div; lia. Qed.
Lemma align8_id c : c mod 8 = 0 -> align 8 c = c.
Proof. rewrite align8_div; lia. Qed.
Lemma align8_add c n : c mod 8 = 0 -> align 8 (c + n) = c + align 8 n.
Proof. rewrite !align8_div; lia. Qed.
Lemma align8_8 n : align 8 (8 * n) = 8 * n.
Proof. rewrite align8_div; lia. Qed.
Lemma align8_fint fsz n : fsz = 4 \/ fsz = 8 -> 0 <= n -> align 8 (fsz * n) <= 8 * n.
Proof. rewrite align8_div. intros [-> | ->]; lia. Qed.
Lemma align8_le n : n <= align 8 n.
Proof. rewrite align8_div; lia. Qed.

(** ** blocks in increasing order between two addresses *)
Fixpoint packed (a : Z) (bs : list block) (b : Z) : Prop :=
  match bs with
  | [] => a <= b
  | x :: bs => a <= b_at x /\ 0 <= b_len x /\ b_at x mod 8 = 0 /\ packed (b_at x + b_len x) bs b
  end.

Lemma packed_le bs : forall a b, packed a bs b -> a <= b.
Proof. induction bs as [|x bs IH]; cbn; intros a b H; auto. destruct H as (?&?&?&H). apply IH in H. lia. Qed.
Lemma packed_app bs cs : forall a b c, packed a bs b -> packed b cs c -> packed a (bs ++ cs) c.
Proof.
  induction bs as [|x bs IH]; cbn [app packed]; intros a b c H K.
  - destruct cs as [|y cs]; cbn in *; [lia|]. intuition lia.
  - destruct H as (?&?&?&H). repeat split; auto. eapply IH; eauto.
Qed.
Lemma packed_w bs a a' b b' : packed a bs b -> a' <= a -> b <= b' -> packed a' bs b'.
Proof.
  revert a a'. induction bs as [|x bs IH]; cbn; intros a a' H Ha Hb; [lia|].
  destruct H as (?&?&?&H). repeat split; try lia. eapply IH; eauto; lia.
Qed.
Lemma packed_in bs : forall a b, packed a bs b -> forall x, In x bs ->
  a <= b_at x /\ 0 <= b_len x /\ b_at x + b_len x <= b /\ b_at x mod 8 = 0.
Proof.
  induction bs as [|y bs IH]; cbn; intros a b H x Hx; [easy|].
  destruct H as (?&?&?&H). destruct Hx as [<-|Hx].
  - apply packed_le in H. lia.
  - apply (IH _ _ H) in Hx. lia.
Qed.
Lemma packed_safe base size bs : packed base bs (base + 8 * size) -> safe base size bs.
Proof.
  intros H. split.
  - apply Forall_forall. intros x Hx. destruct (packed_in _ _ _ H x Hx). unfold inside. intuition lia.
  - revert H. generalize base at 1. induction bs as [|x bs IH]; cbn; intros a H; constructor.
    + destruct H as (?&?&?&H). apply Forall_forall. intros y Hy.
      destruct (packed_in _ _ _ H y Hy). left. lia.
    + destruct H as (?&?&?&H). eapply IH; eauto.
Qed.

(** ** the two allocation schemes *)
Definition sum_al (ns : list (nat * Z)) : Z := fold_right (fun x s => align 8 (snd x) + s) 0 ns.

Lemma instack8 ns : forall cache, cache mod 8 = 0 -> Forall (fun x : nat * Z => 0 <= snd x) ns ->
  packed cache (fst (instack 8 cache ns)) (snd (instack 8 cache ns)) /\
  align 8 (snd (instack 8 cache ns)) = cache + sum_al ns /\
  snd (instack 8 cache ns) <= cache + sum_al ns.
Proof.
  assert (G : forall (ns : list (nat * Z)) cache k, cache mod 8 = 0 -> 0 <= k -> Forall (fun x => 0 <= snd x) ns ->
    packed (cache + k) (fst (instack 8 (cache + k) ns)) (snd (instack 8 (cache + k) ns)) /\
    align 8 (snd (instack 8 (cache + k) ns)) = cache + align 8 k + sum_al ns).
  { clear ns. intros ns; induction ns as [|[t n] ns IH]; intros cache k Hc Hk Hn; cbn [instack sum_al fold_right].
    - cbn. split; [lia|]. rewrite align8_add by lia. lia.
    - inversion Hn as [|? ? Hn0 Hns]; subst. cbn [snd] in *.
      assert (Ha : align 8 (cache + k) = cache + align 8 k) by (apply align8_add; lia).
      assert (Hm : align 8 k mod 8 = 0) by (apply align_up; left; lia).
      assert (Hk' := align8_le k).
      rewrite Ha.
      destruct (IH (cache + align 8 k) n ltac:(lia) Hn0 Hns) as [P Q].
      destruct (instack 8 (cache + align 8 k + n) ns) as [bs c] eqn:E. cbn [fst snd packed b_at b_len] in *.
      split.
      + repeat split; auto; lia.
      + rewrite Q. unfold sum_al. lia. }
  intros cache Hc Hn. destruct (G ns cache 0 Hc (Z.le_refl 0) Hn) as [P Q].
  rewrite Z.add_0_r in *. change (align 8 0) with 0 in Q. rewrite Z.add_0_r in Q.
  split; [exact P|]. split; [exact Q|]. rewrite <- Q. apply align8_le.
Qed.

Lemma sum_al_cons t n ns : sum_al ((t, n) :: ns) = align 8 n + sum_al ns.
Proof. reflexivity. Qed.

Definition own (al : bool) (n : Z) : Z := if al then 0 else n.
Definition owned (ls : list (bool * nat * Z)) : Z :=
  fold_right (fun (x : bool * nat * Z) s => own (fst (fst x)) (snd x) + s) 0 ls.

Lemma carve_packed ls : forall g1, g1 mod 8 = 0 -> Forall (fun x : bool * nat * Z => 0 <= snd x) ls ->
  packed g1 (carve g1 ls) (g1 + 8 * owned ls).
Proof.
  induction ls as [|[[al t] n] ls IH]; intros g1 Hg Hn; cbn [carve owned fold_right].
  - cbn. lia.
  - inversion Hn as [|? ? Hn0 Hns]; subst. cbn [fst snd] in *. destruct al; cbn [own].
    + exact (IH g1 Hg Hns).
    + cbn [packed b_at b_len]. repeat split; try lia.
      eapply packed_w; [apply (IH (g1 + 8 * n) ltac:(lia) Hns)|lia|unfold owned; lia].
Qed.

Lemma carve_in ls : forall g1 t n, In (false, t, n) ls -> exists b, In b (carve g1 ls) /\ b_tag b = t /\ b_len b = 8 * n.
Proof.
  induction ls as [|[[al t0] n0] ls IH]; intros g1 t n H; [easy|].
  destruct H as [E|H].
  - inversion E; subst. cbn. eexists. split; [left; reflexivity|]. auto.
  - destruct al; cbn [carve].
    + auto.
    + destruct (IH (g1 + 8 * n0) t n H) as (b & Hb & ?). exists b. split; [right; exact Hb|auto].
Qed.

(** ** the shapes of the phases *)
Definition nonneg (ns : list (nat * Z)) := Forall (fun x => 0 <= snd x) ns.
Definition nonneg3 (ns : list (bool * nat * Z)) := Forall (fun x => 0 <= snd x) ns.

Definition loop_shape (pre : list (nat * Z)) (G : Z) (ls : list (bool * nat * Z)) (cache : Z) : list block :=
  let '(bs, cache) := instack 8 cache pre in
  let g := align 8 cache in
  bs ++ mkblk 14 g (8 * G) :: carve (g + 8 * G) ls.

Lemma loop_shape_packed pre G ls cache b : cache mod 8 = 0 -> nonneg pre -> 0 <= G -> nonneg3 ls ->
  cache + sum_al pre + 8 * G + 8 * owned ls <= b -> packed cache (loop_shape pre G ls cache) b.
Proof.
  intros Hc Hp HG Hl Hb. unfold loop_shape.
  destruct (instack8 pre cache Hc Hp) as (P & Q & R).
  destruct (instack 8 cache pre) as [bs c] eqn:E. cbn [fst snd] in *.
  eapply packed_app; [eapply packed_w; [exact P|lia|exact R]|].
  cbn [packed b_at b_len]. rewrite Q.
  assert (M : (cache + sum_al pre) mod 8 = 0) by (rewrite <- Q; apply align_up; left; lia).
  repeat split; try lia.
  eapply packed_w; [apply carve_packed; [lia|exact Hl]|lia|lia].
Qed.

Lemma after_shape base N phase b : base mod 8 = 0 -> 0 <= N ->
  packed (base + 8 * N) (phase (base + 8 * N)) b -> packed base (after_gctr 8 base N phase) b.
Proof.
  intros Hb HN H. unfold after_gctr. cbn [instack]. rewrite align8_id by lia.
  cbn [app packed b_at b_len]. repeat split; try lia. exact H.
Qed.

Lemma instack_shape ns cache b : cache mod 8 = 0 -> nonneg ns -> cache + sum_al ns <= b ->
  packed cache (blocks (instack 8 cache ns)) b.
Proof.
  intros Hc Hn Hb. destruct (instack8 ns cache Hc Hn) as (P & Q & R).
  unfold blocks. eapply packed_w; [exact P|lia|lia].
Qed.

Lemma loop_shape_provides pre G ls cache t n : In (false, t, n) ls ->
  exists b, In b (loop_shape pre G ls cache) /\ b_tag b = t /\ b_len b = 8 * n.
Proof.
  intros H. unfold loop_shape. destruct (instack 8 cache pre) as [bs c].
  destruct (carve_in ls (align 8 c + 8 * G) t n H) as (b & Hb & E).
  exists b. split; [|exact E]. apply in_or_app. right. right. exact Hb.
Qed.

(** ** contraction levels: a level that is not aliased is at most half of the next one *)
Lemma own_step x c : 0 <= x -> 1 <= c -> 0 <= own (c =? 1) x <= x * c - x.
Proof. unfold own. destruct (Z.eqb_spec c 1); nia. Qed.
Lemma own_le al x : 0 <= x -> 0 <= own al x <= x.
Proof. unfold own. destruct al; lia. Qed.
Lemma step_nonneg x c : 0 <= x -> 1 <= c -> 0 <= x <= x * c.
Proof. nia. Qed.
