(** OvfProof.v — evaluating the size expressions. *)
From Verif Require Import Base BasModel EnvModel CacheModel OvfModel.
Local Open Scope Z_scope.

(** ** Exact values *)
Fixpoint exact (e : cexp) : Z :=
  match e with
  | V _ z | K z => z
  | Shl1 z => 2 ^ z
  | Add a b => exact a + exact b
  | Mul a b => exact a * exact b
  | Max a b => Z.max (exact a) (exact b)
  end.

(** Positive leaves inside their types. *)
Fixpoint pos (e : cexp) : Prop :=
  match e with
  | V t z => 1 <= z < top t
  | K z => 1 <= z < 2 ^ 31
  | Shl1 z => 0 <= z
  | Add a b | Mul a b | Max a b => pos a /\ pos b
  end.

Definition signed (t : ct) : bool := match t with U64 => false | _ => true end.

(** Every signed subexpression fits its type. *)
Fixpoint fits_all (e : cexp) : bool :=
  match e with
  | V _ _ | K _ => true
  | Shl1 z => 2 ^ z <? 2 ^ 31
  | Add a b | Mul a b =>
      fits_all a && fits_all b &&
      (negb (signed (ty_of e)) || (exact e <? top (ty_of e)))
  | Max a b => fits_all a && fits_all b
  end.

Lemma pos_exact e : pos e -> 1 <= exact e.
Proof.
  induction e as [t z|z|z|e1 IHe1 e2 IHe2|e1 IHe1 e2 IHe2|e1 IHe1 e2 IHe2]; cbn [pos exact]; intros H.
  - lia.
  - lia.
  - assert (0 < 2 ^ z) by (apply Z.pow_pos_nonneg; lia). lia.
  - destruct H as [Ha Hb]. specialize (IHe1 Ha). specialize (IHe2 Hb). lia.
  - destruct H as [Ha Hb]. specialize (IHe1 Ha). specialize (IHe2 Hb). nia.
  - destruct H as [Ha Hb]. specialize (IHe1 Ha). specialize (IHe2 Hb). lia.
Qed.

Lemma top_pos t : 2 ^ 31 <= top t.
Proof. destruct t; simpl; lia. Qed.

Lemma top_common a b : top a <= top (common a b) /\ top b <= top (common a b).
Proof. destruct a, b; simpl; lia. Qed.

Lemma conv_id t z : 0 <= z < top t -> conv t z = z.
Proof.
  destruct t; simpl; intros H.
  - rewrite Z.mod_small by lia. lia.
  - rewrite Z.mod_small by lia. lia.
  - rewrite Z.mod_small by lia. reflexivity.
Qed.

Lemma fits_top e : pos e -> fits_all e = true -> exact e < 2 ^ 64 -> exact e < top (ty_of e).
Proof.
  induction e as [t z|z|z|e1 IHe1 e2 IHe2|e1 IHe1 e2 IHe2|e1 IHe1 e2 IHe2]; cbn [pos fits_all exact ty_of]; intros Hp Hf Hb; [lia|unfold top; lia|unfold top; lia| | | ].
  - rewrite !andb_true_iff in Hf. destruct Hf as [_ Hf].
    destruct (common (ty_of e1) (ty_of e2)) eqn:E; simpl in *; lia.
  - rewrite !andb_true_iff in Hf. destruct Hf as [_ Hf].
    destruct (common (ty_of e1) (ty_of e2)) eqn:E; simpl in *; lia.
  - rewrite !andb_true_iff in Hf. destruct Hf as [Ha Hbb]. destruct Hp as [Hpa Hpb].
    specialize (IHe1 Hpa Ha ltac:(lia)). specialize (IHe2 Hpb Hbb ltac:(lia)).
    destruct (top_common (ty_of e1) (ty_of e2)). lia.
Qed.

Lemma ev_ok e : pos e -> exact e < 2 ^ 64 ->
  ev e = if fits_all e then Some (exact e) else None.
Proof.
  induction e as [t z|z|z|e1 IHe1 e2 IHe2|e1 IHe1 e2 IHe2|e1 IHe1 e2 IHe2]; cbn [pos exact ev fits_all ty_of]; intros Hp Hb; [reflexivity|reflexivity| | | | ].
  - destruct (Z.ltb_spec (2 ^ z) (2 ^ 31)) as [H|H].
    + assert (z < 31) by (apply (Z.pow_lt_mono_r_iff 2); lia).
      replace ((0 <=? z) && (z <? 31)) with true by lia. reflexivity.
    + assert (~ z < 31). { intros Hz. assert (2 ^ z < 2 ^ 31) by (apply Z.pow_lt_mono_r; lia). lia. }
      replace ((0 <=? z) && (z <? 31)) with false by lia. reflexivity.
  - destruct Hp as [Hpa Hpb]. pose proof (pos_exact _ Hpa). pose proof (pos_exact _ Hpb).
    rewrite IHe1, IHe2 by (try assumption; lia).
    destruct (fits_all e1) eqn:F1; [|reflexivity].
    destruct (fits_all e2) eqn:F2; [|reflexivity]. simpl bind.
    pose proof (fits_top _ Hpa F1 ltac:(lia)). pose proof (fits_top _ Hpb F2 ltac:(lia)).
    destruct (top_common (ty_of e1) (ty_of e2)).
    rewrite !conv_id by lia. simpl andb.
    destruct (common (ty_of e1) (ty_of e2)); unfold result; simpl.
    + replace (- 2147483648 <=? exact e1 + exact e2) with true by lia. reflexivity.
    + replace (- 9223372036854775808 <=? exact e1 + exact e2) with true by lia. reflexivity.
    + rewrite Z.mod_small by lia. reflexivity.
  - destruct Hp as [Hpa Hpb]. pose proof (pos_exact _ Hpa). pose proof (pos_exact _ Hpb).
    assert (exact e1 <= exact e1 * exact e2 /\ exact e2 <= exact e1 * exact e2) as [M1 M2] by nia.
    rewrite IHe1, IHe2 by (try assumption; lia).
    destruct (fits_all e1) eqn:F1; [|reflexivity].
    destruct (fits_all e2) eqn:F2; [|reflexivity]. simpl bind.
    pose proof (fits_top _ Hpa F1 ltac:(lia)). pose proof (fits_top _ Hpb F2 ltac:(lia)).
    destruct (top_common (ty_of e1) (ty_of e2)).
    rewrite !conv_id by lia. simpl andb.
    set (p := exact e1 * exact e2) in *.
    destruct (common (ty_of e1) (ty_of e2)); unfold result; simpl.
    + replace (- 2147483648 <=? p) with true by lia. reflexivity.
    + replace (- 9223372036854775808 <=? p) with true by lia. reflexivity.
    + rewrite Z.mod_small by lia. reflexivity.
  - destruct Hp as [Hpa Hpb]. pose proof (pos_exact _ Hpa). pose proof (pos_exact _ Hpb).
    rewrite IHe1, IHe2 by (try assumption; lia).
    destruct (fits_all e1) eqn:F1; [|reflexivity].
    destruct (fits_all e2) eqn:F2; [|reflexivity]. simpl bind.
    pose proof (fits_top _ Hpa F1 ltac:(lia)). pose proof (fits_top _ Hpb F2 ltac:(lia)).
    destruct (top_common (ty_of e1) (ty_of e2)).
    rewrite !conv_id by lia. reflexivity.
Qed.

Lemma store_ok t e : pos e -> exact e < 2 ^ 64 ->
  store t e = if fits_all e then Some (conv t (exact e)) else None.
Proof. intros Hp Hb. unfold store. rewrite ev_ok by assumption. destruct (fits_all e); reflexivity. Qed.

(** Without 64-bit leaves: the whole expression fits or not. *)
Fixpoint pure32 (e : cexp) : bool :=
  match e with
  | V I32 _ | K _ | Shl1 _ => true
  | V _ _ => false
  | Add a b | Mul a b | Max a b => pure32 a && pure32 b
  end.

Lemma pure32_ty e : pure32 e = true -> ty_of e = I32.
Proof.
  induction e as [t z|z|z|e1 IHe1 e2 IHe2|e1 IHe1 e2 IHe2|e1 IHe1 e2 IHe2]; simpl; try reflexivity.
  - destruct t; simpl; congruence.
  - rewrite andb_true_iff. intros [Ha Hb]. rewrite IHe1, IHe2 by assumption. reflexivity.
  - rewrite andb_true_iff. intros [Ha Hb]. rewrite IHe1, IHe2 by assumption. reflexivity.
  - rewrite andb_true_iff. intros [Ha Hb]. rewrite IHe1, IHe2 by assumption. reflexivity.
Qed.

Lemma pure32_fits e : pure32 e = true -> pos e -> fits_all e = (exact e <? 2 ^ 31).
Proof.
  induction e as [t z|z|z|e1 IHe1 e2 IHe2|e1 IHe1 e2 IHe2|e1 IHe1 e2 IHe2]; simpl; intros Hq Hp.
  - destruct t; try discriminate. simpl in Hp. lia.
  - lia.
  - reflexivity.
  - rewrite andb_true_iff in Hq. destruct Hq as [Ha Hb]. destruct Hp as [Hpa Hpb].
    rewrite IHe1, IHe2, (pure32_ty e1), (pure32_ty e2) by assumption. simpl.
    pose proof (pos_exact _ Hpa). pose proof (pos_exact _ Hpb). lia.
  - rewrite andb_true_iff in Hq. destruct Hq as [Ha Hb]. destruct Hp as [Hpa Hpb].
    rewrite IHe1, IHe2, (pure32_ty e1), (pure32_ty e2) by assumption. simpl.
    pose proof (pos_exact _ Hpa). pose proof (pos_exact _ Hpb).
    assert (exact e1 <= exact e1 * exact e2 /\ exact e2 <= exact e1 * exact e2) as [M1 M2] by nia.
    set (p := exact e1 * exact e2) in *. lia.
  - rewrite andb_true_iff in Hq. destruct Hq as [Ha Hb]. destruct Hp as [Hpa Hpb].
    rewrite IHe1, IHe2 by assumption. lia.
Qed.

Lemma ev32 e : pure32 e = true -> pos e ->
  ev e = if exact e <? 2 ^ 31 then Some (exact e) else None.
Proof.
  induction e as [t z|z|z|e1 IHe1 e2 IHe2|e1 IHe1 e2 IHe2|e1 IHe1 e2 IHe2]; intros Hq Hp.
  - destruct t; try discriminate. cbn [pos ev exact top] in *. destruct (Z.ltb_spec z (2 ^ 31)); [reflexivity|lia].
  - cbn [pos ev exact] in *. destruct (Z.ltb_spec z (2 ^ 31)); [reflexivity|lia].
  - cbn [ev exact]. destruct (Z.ltb_spec (2 ^ z) (2 ^ 31)) as [H|H].
    + assert (z < 31) by (apply (Z.pow_lt_mono_r_iff 2); lia). simpl in Hp.
      replace ((0 <=? z) && (z <? 31)) with true by lia. reflexivity.
    + assert (~ z < 31). { intros Hz. assert (2 ^ z < 2 ^ 31) by (apply Z.pow_lt_mono_r; lia). lia. }
      replace ((0 <=? z) && (z <? 31)) with false by lia. reflexivity.
  - cbn [pure32] in Hq. rewrite andb_true_iff in Hq. destruct Hq as [Ha Hb]. destruct Hp as [Hpa Hpb].
    cbn [ev exact]. rewrite IHe1, IHe2, (pure32_ty e1), (pure32_ty e2) by assumption.
    pose proof (pos_exact _ Hpa). pose proof (pos_exact _ Hpb).
    destruct (Z.ltb_spec (exact e1) (2 ^ 31)); cbn [bind common].
    2:{ destruct (Z.ltb_spec (exact e1 + exact e2) (2 ^ 31)); [lia|reflexivity]. }
    destruct (Z.ltb_spec (exact e2) (2 ^ 31)); cbn [bind].
    2:{ destruct (Z.ltb_spec (exact e1 + exact e2) (2 ^ 31)); [lia|reflexivity]. }
    rewrite !conv_id by (simpl; lia). unfold result, top.
    replace (- 2 ^ 31 <=? exact e1 + exact e2) with true by lia. reflexivity.
  - cbn [pure32] in Hq. rewrite andb_true_iff in Hq. destruct Hq as [Ha Hb]. destruct Hp as [Hpa Hpb].
    cbn [ev exact]. rewrite IHe1, IHe2, (pure32_ty e1), (pure32_ty e2) by assumption.
    pose proof (pos_exact _ Hpa). pose proof (pos_exact _ Hpb).
    assert (exact e1 <= exact e1 * exact e2 /\ exact e2 <= exact e1 * exact e2) as [M1 M2] by nia.
    set (p := exact e1 * exact e2) in *.
    destruct (Z.ltb_spec (exact e1) (2 ^ 31)); cbn [bind common].
    2:{ destruct (Z.ltb_spec p (2 ^ 31)); [lia|reflexivity]. }
    destruct (Z.ltb_spec (exact e2) (2 ^ 31)); cbn [bind].
    2:{ destruct (Z.ltb_spec p (2 ^ 31)); [lia|reflexivity]. }
    rewrite !conv_id by (simpl; lia). unfold result, top. fold p.
    replace (- 2 ^ 31 <=? p) with true by lia. reflexivity.
  - cbn [pure32] in Hq. rewrite andb_true_iff in Hq. destruct Hq as [Ha Hb]. destruct Hp as [Hpa Hpb].
    cbn [ev exact]. rewrite IHe1, IHe2, (pure32_ty e1), (pure32_ty e2) by assumption.
    pose proof (pos_exact _ Hpa). pose proof (pos_exact _ Hpb).
    destruct (Z.ltb_spec (exact e1) (2 ^ 31)); cbn [bind common].
    2:{ destruct (Z.ltb_spec (Z.max (exact e1) (exact e2)) (2 ^ 31)); [lia|reflexivity]. }
    destruct (Z.ltb_spec (exact e2) (2 ^ 31)); cbn [bind].
    2:{ destruct (Z.ltb_spec (Z.max (exact e1) (exact e2)) (2 ^ 31)); [lia|reflexivity]. }
    rewrite !conv_id by (simpl; lia).
    destruct (Z.ltb_spec (Z.max (exact e1) (exact e2)) (2 ^ 31)); [reflexivity|lia].
Qed.

(** A 32-bit expression stored in any variable. *)
Lemma store32 t e : pure32 e = true -> pos e ->
  store t e = if exact e <? 2 ^ 31 then Some (exact e) else None.
Proof.
  intros Hq Hp. unfold store. rewrite ev32 by assumption.
  destruct (Z.ltb_spec (exact e) (2 ^ 31)); [|reflexivity].
  pose proof (pos_exact _ Hp). pose proof (top_pos t). cbn [bind]. rewrite conv_id by lia. reflexivity.
Qed.
