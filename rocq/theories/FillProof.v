(** FillProof.v — a rule set for recurrences in which every cell has exactly one right value:
    a program fragment [fills] the cells [B] provided the cells [A] hold their value. *)
From Verif Require Import Base EnvModel RecModel RecLay.

Section Fill.
  Context {F T : Type}.
  Variables (fo gs : Z) (addr : T -> Z) (box : T -> Prop).
  Hypothesis (Hinj : forall t u, box t -> box u -> addr t = addr u -> t = u).
  Hypothesis (Hbnd : forall t, box t -> 0 <= addr t < gs).
  Hypothesis (Ho : 0 <= fo).
  Variable V : Z -> T -> F.
  Variable m0 : arr F.
  Local Notation IV := (Inv fo gs addr box V).

  Definition fills (c : arr F -> option (arr F)) (A B : T -> Prop) : Prop :=
    forall (P : T -> Prop) m, (forall t, box t -> A t -> P t) -> IV P m0 m ->
      wp (c m) (fun m' => IV (fun t => P t \/ B t) m0 m').

  Lemma fills_ret (A B : T -> Prop) : (forall t, box t -> B t -> A t) -> fills Some A B.
  Proof. intros H P m HA HI. apply wp_ret. eapply Inv_mono; [exact HI|]. intros t Hb [?|?]; auto. Qed.

  Lemma fills_for lo hi (body : Z -> arr F -> option (arr F)) (A : T -> Prop) (B : Z -> T -> Prop) :
    (forall x, lo <= x < hi -> fills (body x) (fun t => A t \/ exists y, lo <= y < x /\ B y t) (B x)) ->
    fills (for_ lo hi body) A (fun t => exists x, lo <= x < hi /\ B x t).
  Proof.
    intros H P m HA HI. destruct (Z_le_gt_dec lo hi) as [Hle|Hgt].
    - apply wp_for with (I := fun x m => IV (fun t => P t \/ exists y, lo <= y < x /\ B y t) m0 m).
      + exact Hle.
      + eapply Inv_mono; [exact HI|]. intros t _ [Hp|(y & Hy & _)]; [exact Hp|lia].
      + intros x m1 Hx HI1. eapply wp_mono; [refine (H x Hx _ _ _ HI1)|].
        * intros t Hb [Ha|Hy]; [left; auto|right; exact Hy].
        * intros m2 HI2. eapply Inv_mono; [exact HI2|].
          intros t _ [Hp|(y & Hy & Hb)]; [left; left; exact Hp|].
          destruct (Z.eq_dec y x) as [->|]; [right; exact Hb|left; right; exists y; split; [lia|exact Hb]].
      + intros m1 HI1. exact HI1.
    - rewrite for_nil by lia. apply wp_ret. eapply Inv_mono; [exact HI|].
      intros t _ [Hp|(y & Hy & _)]; [exact Hp|lia].
  Qed.

  Lemma fills_seq a b (A B C : T -> Prop) : fills a A B -> fills b (fun t => A t \/ B t) C ->
    fills (fun m => m <- a m ;; b m) A (fun t => B t \/ C t).
  Proof.
    intros Ha Hb P m HA HI. apply wp_bind. eapply wp_mono; [exact (Ha _ _ HA HI)|]. intros m1 HI1.
    eapply wp_mono; [refine (Hb _ _ _ HI1)|].
    - intros t Hbx [?|?]; auto.
    - intros m2 HI2. eapply Inv_mono; [exact HI2|]. intros t _ [?|[?|?]]; auto.
  Qed.

  Lemma fills_sub c (A A' B B' : T -> Prop) : fills c A B ->
    (forall t, box t -> A t -> A' t) -> (forall t, box t -> B' t -> B t) -> fills c A' B'.
  Proof.
    intros H HA HB P m HP HI. eapply wp_mono; [refine (H _ _ _ HI); auto|]. intros m1 HI1.
    eapply Inv_mono; [exact HI1|]. intros t Hb [?|?]; auto.
  Qed.

  Lemma fills_sub_A c (A B B' : T -> Prop) : fills c A B ->
    (forall t, box t -> B' t -> A t \/ B t) -> fills c A B'.
  Proof.
    intros H HB P m HP HI. eapply wp_mono; [refine (H _ _ _ HI); auto|]. intros m1 HI1.
    eapply Inv_mono; [exact HI1|]. intros t Hb [?|Ht]; [auto|]. destruct (HB t Hb Ht); auto.
  Qed.

  Lemma fills_st3 t p body (A : T -> Prop) : box t -> p = fo + addr t ->
    (forall ax m, 0 <= ax < 3 ->
       (forall u q, box u -> A u -> q = ax * gs + (fo + addr u) -> rd m q = Some (V ax u)) ->
       body ax m = Some (V ax t)) ->
    fills (fun m => st3 gs m p body) A (fun u => u = t).
  Proof.
    intros Hb Hp Hbody P m HA HI.
    apply (wp_st3 fo gs addr box Hinj Hbnd Ho V P (fun u => P u \/ u = t) m0 m t p body); auto.
    intros ax m' Hax HI' _. apply Hbody; [exact Hax|].
    intros u q Hu Hau ->. destruct HI' as [HC _]. apply HC; auto.
  Qed.

  Lemma fills_run c (A B : T -> Prop) : fills c A B -> fo + 3 * gs <= asize m0 ->
    (forall ax t, 0 <= ax < 3 -> box t -> A t -> rd m0 (ax * gs + (fo + addr t)) = Some (V ax t)) ->
    wp (c m0) (fun m' => (forall ax t, 0 <= ax < 3 -> box t -> A t \/ B t ->
        rd m' (ax * gs + (fo + addr t)) = Some (V ax t)) /\
      Frame (fun p => fo <= p < fo + 3 * gs) m0 m').
  Proof.
    intros H Hs H0. eapply wp_mono; [apply (H A m0)|].
    - auto.
    - apply Inv_init; [exact Hs|]. exact H0.
    - intros m' HI. split.
      + intros ax t Hax Hb Ht. destruct HI as [HC _]. apply HC; auto.
      + apply (Inv_frame _ _ _ _ _ _ _ _ HI).
  Qed.

  (** the transfer row g[n] = r g[n-d1] + g[n-d1+d2] *)
  Section Row.
    Variables (add mul : F -> F -> F).
    Lemma fills_row r d1 d2 ptr len (A : T -> Prop) (cell low high : Z -> T) : fo = 0 ->
      (forall x, 0 <= x < len -> box (cell x) /\ box (low x) /\ box (high x) /\ A (low x) /\ A (high x) /\
         addr (cell x) = ptr + x /\ addr (low x) = ptr + x - d1 /\ addr (high x) = ptr + x - d1 + d2 /\
         (forall ax, 0 <= ax < 3 -> V ax (cell x) = add (mul (r ax) (V ax (low x))) (V ax (high x)))) ->
      fills (hrr_row add mul gs r d1 d2 ptr len) A (fun t => exists x, 0 <= x < len /\ t = cell x).
    Proof.
      intros Hfo H. unfold hrr_row. eapply fills_sub with (A := A).
      - apply fills_for. intros p Hp.
        destruct (H (p - ptr) ltac:(lia)) as (B1 & B2 & B3 & A2 & A3 & E1 & E2 & E3 & EV).
        apply (fills_st3 (cell (p - ptr))); [exact B1|lia|].
        intros ax m Hax Hrd.
        rewrite (Hrd (low (p - ptr)) (ax * gs + (p - d1))); [|exact B2|left; exact A2|lia]. cbn [bind].
        rewrite (Hrd (high (p - ptr)) (ax * gs + (p - d1 + d2))); [|exact B3|left; exact A3|lia]. cbn [bind].
        rewrite EV by exact Hax. reflexivity.
      - auto.
      - intros t _ (x & Hx & ->). exists (x + ptr). split; [lia|]. f_equal. lia.
    Qed.
  End Row.
End Fill.
