(** RecLay.v — the invariant "these cells of the x, y and z arrays hold their
    value" over an arbitrary injective layout, with the rule for statements that
    write one cell of each of the three arrays. *)
From Verif Require Import Base RecModel.

(** [gx[p] = x; gy[p] = y; gz[p] = z] is the three-axis statement. *)
Lemma st3_three {F} gs (g : arr F) p (x y z : F) :
  (g <- wr g p x ;; g <- wr g (gs + p) y ;; wr g (gs * 2 + p) z) =
  st3 gs g p (fun ax _ => Some (if ax =? 0 then x else if ax =? 1 then y else z)).
Proof.
  unfold st3, for_. change (Z.to_nat (3 - 0)) with 3%nat. cbn [forN bind].
  change (0 + 1) with 1. change (1 + 1) with 2. cbn [Z.eqb].
  replace (0 * gs + p) with p by lia.
  destruct (wr g p x) as [g1|]; [|reflexivity]. cbn [bind].
  replace (1 * gs + p) with (gs + p) by lia. cbn [Z.eqb Pos.eqb].
  destruct (wr g1 (gs + p) y) as [g2|]; [|reflexivity]. cbn [bind].
  replace (2 * gs + p) with (gs * 2 + p) by lia.
  destruct (wr g2 (gs * 2 + p) z); reflexivity.
Qed.

Lemma axis_split gs x y p q : 0 <= p < gs -> 0 <= q < gs ->
  x * gs + p = y * gs + q -> x = y /\ p = q.
Proof. intros Hp Hq E. assert (x = y) by nia. subst. split; lia. Qed.

Lemma axis_bound gs x p : 0 <= p < gs -> 0 <= x < 3 -> 0 <= x * gs + p < 3 * gs.
Proof. intros. nia. Qed.

Section Lay.
  Context {F T : Type}.
  Variables (o gs : Z) (addr : T -> Z) (box : T -> Prop).
  Hypothesis (Hinj : forall t u, box t -> box u -> addr t = addr u -> t = u).
  Hypothesis (Hbnd : forall t, box t -> 0 <= addr t < gs).
  Hypothesis (Ho : 0 <= o).
  Variable S : Z -> T -> F.

  (** [P t] says cell [t] (of each axis) has been filled; nothing outside the
      three arrays [o, o+3*gs) has changed since [m0]. *)
  Definition Inv (P : T -> Prop) (m0 m : arr F) : Prop :=
    (forall ax t, 0 <= ax < 3 -> box t -> P t ->
       rd m (ax * gs + (o + addr t)) = Some (S ax t)) /\
    Frame (fun p => o <= p < o + 3 * gs) m0 m /\ o + 3 * gs <= asize m.

  Lemma Inv_rd (P : T -> Prop) m0 m ax t p :
    Inv P m0 m -> 0 <= ax < 3 -> box t -> P t ->
    p = ax * gs + (o + addr t) -> rd m p = Some (S ax t).
  Proof. intros (H & _) Hx Hbx HP ->. apply H; assumption. Qed.

  Lemma Inv_mono (P P' : T -> Prop) m0 m :
    Inv P m0 m -> (forall t, box t -> P' t -> P t) -> Inv P' m0 m.
  Proof. intros (H & HF) HP. split; [|exact HF]. intros. apply H; auto. Qed.

  Lemma Inv_size P m0 m : Inv P m0 m -> o + 3 * gs <= asize m /\ asize m = asize m0.
  Proof. intros (_ & HF & Hs). split; [exact Hs|apply HF]. Qed.

  Lemma Inv_frame P m0 m : Inv P m0 m -> Frame (fun p => o <= p < o + 3 * gs) m0 m.
  Proof. intros (_ & HF & _). exact HF. Qed.

  Lemma Inv_init (P : T -> Prop) m :
    o + 3 * gs <= asize m ->
    (forall ax t, 0 <= ax < 3 -> box t -> P t ->
       rd m (ax * gs + (o + addr t)) = Some (S ax t)) ->
    Inv P m m.
  Proof. intros Hs H. split; [exact H|]. split; [apply Frame_refl|exact Hs]. Qed.

  Lemma wp_st3 (P P' : T -> Prop) m0 m t p body (Q : arr F -> Prop) :
    Inv P m0 m -> box t -> p = o + addr t ->
    (forall ax m', 0 <= ax < 3 -> Inv P m0 m' ->
       (forall i, ~ (exists a, 0 <= a < ax /\ i = a * gs + p) -> acell m' i = acell m i) ->
       body ax m' = Some (S ax t)) ->
    (forall u, box u -> P' u -> P u \/ u = t) ->
    (forall m', Inv P' m0 m' -> Q m') ->
    wp (st3 gs m p body) Q.
  Proof.
    intros HI Hbx -> Hbody HP HQ. unfold st3.
    pose proof (Hbnd _ Hbx) as Hob.
    apply wp_for with (I := fun ax m' => Inv P m0 m' /\
      (forall ax', 0 <= ax' < ax -> rd m' (ax' * gs + (o + addr t)) = Some (S ax' t)) /\
      (forall i, ~ (exists a, 0 <= a < ax /\ i = a * gs + (o + addr t)) ->
                 acell m' i = acell m i)).
    - lia.
    - split; [exact HI|]. split; [intros; lia|reflexivity].
    - intros ax m' Hax (HI' & Hdone & Hsame).
      rewrite (Hbody ax m' ltac:(lia) HI' Hsame). cbn [bind].
      destruct HI' as (HC & HF & Hs).
      pose proof (axis_bound gs ax (addr t) Hob Hax) as Hin.
      apply wp_wr; [lia|].
      intros m'' Hs'' Hc''.
      split; [split; [|split]|split].
      + intros ax' u Hax' Hbx' HP'.
        apply rd_spec. rewrite Hs'', Hc''.
        pose proof (Hbnd _ Hbx') as Hob'.
        destruct (_ =? _) eqn:E.
        * destruct (axis_split gs ax' ax (addr u) (addr t)) as [-> Ho']; try lia.
          apply Hinj in Ho'; auto. subst u. split; [lia|reflexivity].
        * apply rd_spec. apply HC; auto.
      + eapply Frame_step; eauto. lia.
      + lia.
      + intros ax' Hax'. apply rd_spec. rewrite Hs'', Hc''.
        destruct (_ =? _) eqn:E.
        * destruct (axis_split gs ax' ax (addr t) (addr t)) as [-> _]; try lia.
          split; [lia|reflexivity].
        * apply rd_spec. apply Hdone.
          assert (ax' <> ax) by (intros ->; lia). lia.
      + intros i Hi. rewrite Hc''. destruct (i =? _) eqn:E.
        * exfalso. apply Hi. exists ax. split; lia.
        * apply Hsame. intros (a & Ha & ->). apply Hi. exists a. split; [lia|reflexivity].
    - intros m' ((HC & HF & Hs) & Hdone & _). apply HQ. split; [|auto].
      intros ax' u Hax' Hbx' HP'.
      destruct (HP _ Hbx' HP') as [Hold| ->].
      + apply HC; auto.
      + apply Hdone. exact Hax'.
  Qed.
End Lay.

(** Addresses of a mixed-radix layout. *)
Lemma radix3_inj r a x y z x' y' z' :
  0 <= x < r -> 0 <= x' < r -> 0 <= y < a -> 0 <= y' < a ->
  x + r * y + r * a * z = x' + r * y' + r * a * z' -> x = x' /\ y = y' /\ z = z'.
Proof.
  intros Hx Hx' Hy Hy' E.
  assert (E' : x + r * (y + a * z) = x' + r * (y' + a * z')) by nia.
  apply radix2_inj in E'; try lia. destruct E' as [-> E'].
  apply radix2_inj in E'; lia.
Qed.

Lemma radix3_bound r a b x y z :
  0 <= x < r -> 0 <= y < a -> 0 <= z < b -> 0 <= x + r * y + r * a * z < r * a * b.
Proof.
  intros Hx Hy Hz.
  assert (B1 := radix_bound a b y z Hy Hz).
  assert (B2 := radix_bound r (a * b) x _ Hx B1). lia.
Qed.

Lemma radix5_inj r a b c x1 x2 x3 x4 x5 y1 y2 y3 y4 y5 :
  0 <= x1 < r -> 0 <= y1 < r -> 0 <= x2 < a -> 0 <= y2 < a ->
  0 <= x3 < b -> 0 <= y3 < b -> 0 <= x4 < c -> 0 <= y4 < c ->
  x1 + r * x2 + r * a * x3 + r * a * b * x4 + r * a * b * c * x5 =
  y1 + r * y2 + r * a * y3 + r * a * b * y4 + r * a * b * c * y5 ->
  x1 = y1 /\ x2 = y2 /\ x3 = y3 /\ x4 = y4 /\ x5 = y5.
Proof.
  intros H1 H1' H2 H2' H3 H3' H4 H4' E.
  assert (E' : x1 + r * (x2 + a * (x3 + b * (x4 + c * x5))) =
               y1 + r * (y2 + a * (y3 + b * (y4 + c * y5)))).
  { etransitivity; [|etransitivity; [exact E|]]; ring. }
  apply radix2_inj in E'; try assumption. destruct E' as [-> E'].
  apply radix2_inj in E'; try assumption. destruct E' as [-> E'].
  apply radix2_inj in E'; try assumption. destruct E' as [-> E'].
  apply radix2_inj in E'; try assumption. destruct E' as [-> ->]. auto.
Qed.

Lemma radix5_bound r a b c d x1 x2 x3 x4 x5 :
  0 <= x1 < r -> 0 <= x2 < a -> 0 <= x3 < b -> 0 <= x4 < c -> 0 <= x5 < d ->
  0 <= x1 + r * x2 + r * a * x3 + r * a * b * x4 + r * a * b * c * x5 < r * a * b * c * d.
Proof.
  intros H1 H2 H3 H4 H5.
  assert (B1 := radix_bound c d x4 x5 H4 H5).
  assert (B2 := radix_bound b (c * d) x3 _ H3 B1).
  assert (B3 := radix_bound a _ x2 _ H2 B2).
  assert (B4 := radix_bound r _ x1 _ H1 B3).
  replace (x1 + r * x2 + r * a * x3 + r * a * b * x4 + r * a * b * c * x5)
    with (x1 + r * (x2 + a * (x3 + b * (x4 + c * x5)))) by ring.
  replace (r * a * b * c * d) with (r * (a * (b * (c * d)))) by ring. exact B4.
Qed.
