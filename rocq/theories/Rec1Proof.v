(** Rec1Proof.v — the one-electron recurrences fill the moment table. *)
From Coq Require Import Ring Ring_theory.
From Verif Require Import Base EnvModel RecModel RecSpec RecLay.

Lemma st3_origin {F} gs (g : arr F) (x y z : F) :
  (g <- wr g 0 x ;; g <- wr g gs y ;; wr g (gs * 2) z) =
  st3 gs g 0 (fun ax _ => Some (if ax =? 0 then x else if ax =? 1 then y else z)).
Proof. rewrite <- st3_three. rewrite !Z.add_0_r. reflexivity. Qed.

Lemma bind_assoc {A B C} (m : option A) (k : A -> option B) (h : B -> option C) :
  bind (bind m k) h = bind m (fun x => bind (k x) h).
Proof. destruct m; reflexivity. Qed.

Lemma st3_origin_bind {F B} gs (g : arr F) (x y z : F) (k : arr F -> option B) :
  (g <- wr g 0 x ;; g <- wr g gs y ;; g <- wr g (gs * 2) z ;; k g) =
  bind (st3 gs g 0 (fun ax _ => Some (if ax =? 0 then x else if ax =? 1 then y else z))) k.
Proof.
  rewrite <- st3_origin, bind_assoc. destruct (wr g 0 x); [|reflexivity]. cbn [bind].
  rewrite bind_assoc. reflexivity.
Qed.

(** Triples (point, running index, transferred index); a point is a root, or a
    root together with a grid point. *)
Definition T3 := (Z * Z * Z)%type.

Section Rec1.
  Context {F : Type}.
  Variables (one : F) (add mul : F -> F -> F) (inj : Z -> F).
  Variables (gs di dj : Z) (nmax lj : Z).
  Variable (pt : Z -> Prop).
  Hypothesis (Hn : 0 <= nmax) (Hl : 0 <= lj <= nmax).
  Hypothesis (Hpt0 : forall q, pt q -> 0 <= q).

  Definition addr3 (t : T3) : Z := let '(n, u, v) := t in n + di * u + dj * v.
  Definition box3 (t : T3) : Prop :=
    let '(n, u, v) := t in pt n /\ 0 <= u <= nmax /\ 0 <= v <= lj.
  Hypothesis (Hinj : forall t u, box3 t -> box3 u -> addr3 t = addr3 u -> t = u).
  Hypothesis (Hbnd : forall t, box3 t -> 0 <= addr3 t < gs).

  Variables (rt : Z -> F) (r0 : Z -> Z -> F) (rirj : Z -> F).
  Variable (S : Z -> Z -> Z -> Z -> F). (* axis, point, running, transferred *)
  Definition S3 (ax : Z) (t : T3) : F := let '(n, u, v) := t in S ax n u v.
  Hypothesis (Hv0 : forall ax n, S ax n 1 0 = mul (r0 ax n) (S ax n 0 0)).
  Hypothesis (Hv : forall ax n u, 0 < u ->
    S ax n (u + 1) 0 = add (mul (mul (inj u) (rt n)) (S ax n (u - 1) 0)) (mul (r0 ax n) (S ax n u 0))).
  Hypothesis (Hh : forall ax n u v, 0 <= u -> 0 <= v ->
    S ax n u (v + 1) = add (S ax n (u + 1) v) (mul (rirj ax) (S ax n u v))).

  Local Notation Inv := (@Inv F T3 0 gs addr3 box3 S3).

  Ltac ok := first [eassumption | reflexivity | lia].

  (** first step: cells (n, 1, 0) *)
  Lemma wp_first (P P' : T3 -> Prop) m0 m n (Q : arr F -> Prop) p src :
    pt n -> 1 <= nmax -> p = n + di -> src = n ->
    Inv P m0 m -> P (n, 0, 0) ->
    (forall t, box3 t -> P' t -> P t \/ t = (n, 1, 0)) ->
    (forall m', Inv P' m0 m' -> Q m') ->
    wp (st3 gs m p (fun ax g => v <- rd g (ax * gs + src) ;; Some (mul (r0 ax n) v))) Q.
  Proof.
    intros Hp H1 -> -> HI HP0 HPP HQ.
    eapply (wp_st3 0 gs addr3 box3 Hinj Hbnd (Z.le_refl 0) S3 P P' m0 m (n, 1, 0)).
    - exact HI.
    - cbn. split; [exact Hp|lia].
    - cbn. lia.
    - intros ax m' Hax HI' _.
      erewrite (Inv_rd 0 gs addr3 box3 S3) with (t := (n, 0, 0)); [|exact HI'|exact Hax| |exact HP0|].
      + cbn. rewrite Hv0. reflexivity.
      + cbn. split; [exact Hp|lia].
      + cbn. lia.
    - exact HPP.
    - exact HQ.
  Qed.

  (** later steps: cell (n, u+1, 0) *)
  Lemma wp_next (P P' : T3 -> Prop) m0 m n u (Q : arr F -> Prop) p q1 q0 :
    pt n -> 0 < u < nmax -> p = n + di * (u + 1) -> q1 = n + di * (u - 1) -> q0 = n + di * u ->
    Inv P m0 m -> P (n, u - 1, 0) -> P (n, u, 0) ->
    (forall t, box3 t -> P' t -> P t \/ t = (n, u + 1, 0)) ->
    (forall m', Inv P' m0 m' -> Q m') ->
    wp (st3 gs m p (fun ax g =>
          v1 <- rd g (ax * gs + q1) ;; v0 <- rd g (ax * gs + q0) ;;
          Some (add (mul (mul (inj u) (rt n)) v1) (mul (r0 ax n) v0)))) Q.
  Proof.
    intros Hp H1 -> -> -> HI HP1 HP0 HPP HQ.
    eapply (wp_st3 0 gs addr3 box3 Hinj Hbnd (Z.le_refl 0) S3 P P' m0 m (n, u + 1, 0)).
    - exact HI.
    - cbn. split; [exact Hp|lia].
    - cbn. lia.
    - intros ax m' Hax HI' _.
      erewrite (Inv_rd 0 gs addr3 box3 S3) with (t := (n, u - 1, 0)); [|exact HI'|exact Hax| |exact HP1|].
      + cbn [bind].
        erewrite (Inv_rd 0 gs addr3 box3 S3) with (t := (n, u, 0)); [|exact HI'|exact Hax| |exact HP0|].
        * cbn. rewrite Hv by lia. reflexivity.
        * cbn. split; [exact Hp|lia].
        * cbn. lia.
      + cbn. split; [exact Hp|lia].
      + cbn. lia.
    - exact HPP.
    - exact HQ.
  Qed.

  (** transfer: cell (n, u, v) from (n, u+1, v-1) and (n, u, v-1) *)
  Lemma wp_trans (P P' : T3 -> Prop) m0 m n u v (Q : arr F -> Prop) p q2 q1 :
    pt n -> 0 <= u -> u + 1 <= nmax -> 1 <= v <= lj ->
    p = n + di * u + dj * v -> q2 = n + di * (u + 1) + dj * (v - 1) ->
    q1 = n + di * u + dj * (v - 1) ->
    Inv P m0 m -> P (n, u + 1, v - 1) -> P (n, u, v - 1) ->
    (forall t, box3 t -> P' t -> P t \/ t = (n, u, v)) ->
    (forall m', Inv P' m0 m' -> Q m') ->
    wp (st3 gs m p (fun ax g =>
          v2 <- rd g (ax * gs + q2) ;; v1 <- rd g (ax * gs + q1) ;;
          Some (add v2 (mul (rirj ax) v1)))) Q.
  Proof.
    intros Hp Hu Hu1 Hv1 -> -> -> HI HP1 HP0 HPP HQ.
    eapply (wp_st3 0 gs addr3 box3 Hinj Hbnd (Z.le_refl 0) S3 P P' m0 m (n, u, v)).
    - exact HI.
    - cbn. split; [exact Hp|lia].
    - cbn. lia.
    - intros ax m' Hax HI' _.
      erewrite (Inv_rd 0 gs addr3 box3 S3) with (t := (n, u + 1, v - 1)); [|exact HI'|exact Hax| |exact HP1|].
      + cbn [bind].
        erewrite (Inv_rd 0 gs addr3 box3 S3) with (t := (n, u, v - 1)); [|exact HI'|exact Hax| |exact HP0|].
        * cbn. replace v with (v - 1 + 1) at 3 by lia. rewrite Hh by lia. reflexivity.
        * cbn. split; [exact Hp|lia].
        * cbn. lia.
      + cbn. split; [exact Hp|lia].
      + cbn. lia.
    - exact HPP.
    - exact HQ.
  Qed.

  Ltac boxcase := let q := fresh "q" in let u := fresh "u" in let v := fresh "v" in
    let Hq := fresh "Hq" in intros [[q u] v] (Hq & ? & ?) ?; pose proof (Hpt0 _ Hq).

  (** which cells are filled *)
  Definition Pvrr (a b i : Z) (t : T3) : Prop := (* points below a done; those in [a,b) up to i *)
    let '(q, u, v) := t in v = 0 /\ (u = 0 \/ q < a \/ (q < b /\ u <= i)).
  Definition Phrr (j i n : Z) (t : T3) : Prop :=
    let '(q, u, v) := t in
    u + v <= nmax /\ (v < j \/ (v = j /\ (u < i \/ (u = i /\ q < n)))).
  Definition Pend (t : T3) : Prop := let '(q, u, v) := t in u + v <= nmax.

  Lemma Pend_of_Phrr m0 m : Inv (Phrr (lj + 1) 0 0) m0 m -> Inv Pend m0 m.
  Proof.
    intros H. eapply Inv_mono; [exact H|]. boxcase. cbn in *. lia.
  Qed.

  Lemma Phrr_of_Pvrr a m0 m : (forall q, pt q -> q < a) ->
    Inv (Pvrr a a 0) m0 m -> Inv (Phrr 1 0 0) m0 m.
  Proof.
    intros Ha H. eapply Inv_mono; [exact H|]. boxcase. cbn in *.
    specialize (Ha q Hq). lia.
  Qed.

  (** The transfer loops over [nroots] roots (g1e.c:299-318), one point each. *)
  Lemma wp_hrr_roots nroots m0 m (Q : arr F -> Prop) :
    1 <= nmax -> (forall q, pt q <-> 0 <= q < nroots) ->
    Inv (Phrr 1 0 0) m0 m ->
    (forall m', Inv Pend m0 m' -> Q m') ->
    wp (for_ 1 (lj + 1) (fun j g =>
      for_ 0 (nmax - j + 1) (fun i g =>
        for_ 0 nroots (fun n g =>
          let q := j * dj + (n + i * di) in
          st3 gs g q (fun ax g =>
            v2 <- rd g (ax * gs + (q - dj + di)) ;;
            v1 <- rd g (ax * gs + (q - dj)) ;;
            Some (add v2 (mul (rirj ax) v1)))) g) g) m) Q.
  Proof.
    intros H1 Hpt HI HQ.
    apply wp_for with (I := fun j m => Inv (Phrr j 0 0) m0 m); [lia|exact HI| |].
    2:{ intros m' H. apply HQ. apply Pend_of_Phrr. exact H. }
    intros j m1 Hj HI1.
    apply wp_for with (I := fun i m => Inv (Phrr j i 0) m0 m); [lia|exact HI1| |].
    2:{ intros m' H. eapply Inv_mono; [exact H|]. boxcase. cbn in *. lia. }
    intros i m2 Hi HI2.
    destruct (Z_le_gt_dec nroots 0) as [Hz|Hnz].
    { rewrite for_nil by lia. apply wp_ret.
      eapply Inv_mono; [exact HI2|]. boxcase. cbn in *.
      apply Hpt in Hq. lia. }
    apply wp_for with (I := fun n m => Inv (Phrr j i n) m0 m); [lia| | |].
    - exact HI2.
    - intros n m3 Hn3 HI3. cbv zeta.
      eapply wp_trans with (v := j) (u := i) (n := n) (P := Phrr j i n) (P' := Phrr j i (n + 1)); eauto; try lia.
      + apply Hpt. lia.
      + cbn. lia.
      + cbn. lia.
      + boxcase. cbn in *. 
        destruct (Z.eq_dec q n) as [->|]; [|left; lia].
        destruct (Z.eq_dec u i) as [->|]; [|left; lia].
        destruct (Z.eq_dec v j) as [->|]; [|left; lia]. right. reflexivity.
    - intros m' H. eapply Inv_mono; [exact H|]. boxcase. cbn in *.
      apply Hpt in Hq. lia.
  Qed.

  (** Vertical recurrence for each root in turn (g1e.c:272-291). *)
  Lemma wp_vrr_roots nroots m0 m (Q : arr F -> Prop) :
    1 <= nmax -> 0 <= nroots -> (forall q, pt q <-> 0 <= q < nroots) ->
    Inv (Pvrr 0 0 0) m0 m ->
    (forall m', Inv (Phrr 1 0 0) m0 m' -> Q m') ->
    wp (for_ 0 nroots (fun n g =>
           g <- st3 gs g (n + di) (fun ax g =>
                  v <- rd g (ax * gs + n) ;; Some (mul (r0 ax n) v)) ;;
           for_ 1 nmax (fun i g =>
             st3 gs g (di + (n + i * di)) (fun ax g =>
               v1 <- rd g (ax * gs + (n + i * di - di)) ;;
               v0 <- rd g (ax * gs + (n + i * di)) ;;
               Some (add (mul (mul (inj i) (rt n)) v1) (mul (r0 ax n) v0)))) g) m) Q.
  Proof.
    intros H1 Hz Hpt HI HQ.
    apply wp_for with (I := fun n m => Inv (Pvrr n n 0) m0 m); [lia|exact HI| |].
    2:{ intros m' H. apply HQ. eapply Phrr_of_Pvrr; [|exact H].
        intros q Hq. apply Hpt in Hq. lia. }
    intros n m1 Hn1 HI1. apply wp_bind.
    assert (Hpn : pt n) by (apply Hpt; lia).
    eapply wp_first with (n := n) (P := Pvrr n n 0) (P' := Pvrr n (n + 1) 1); eauto; try lia.
    { cbn. lia. }
    { boxcase. cbn in *. apply Hpt in Hq.
      destruct (Z.eq_dec u 1) as [->|]; [|left; lia].
      destruct (Z.eq_dec q n) as [->|]; [|left; lia].
      destruct (Z.eq_dec v 0) as [->|]; [|left; lia]. right. reflexivity. }
    intros m2 HI2.
    apply wp_for with (I := fun i m => Inv (Pvrr n (n + 1) i) m0 m); [lia|exact HI2| |].
    2:{ intros m' H. eapply Inv_mono; [exact H|]. boxcase. cbn in *. lia. }
    intros i m3 Hi HI3.
    eapply wp_next with (n := n) (u := i) (P := Pvrr n (n + 1) i) (P' := Pvrr n (n + 1) (i + 1)); eauto; try lia.
    - cbn. lia.
    - cbn. lia.
    - boxcase. cbn in *.
      destruct (Z.eq_dec u (i + 1)) as [->|]; [|left; lia].
      destruct (Z.eq_dec q n) as [->|]; [|left; lia].
      destruct (Z.eq_dec v 0) as [->|]; [|left; lia]. right. reflexivity.
  Qed.

  (** The same loops with a single point 0 (g1e.c:157-181). *)
  Lemma wp_hrr_one m0 m (Q : arr F -> Prop) :
    1 <= nmax -> (forall q, pt q <-> q = 0) ->
    Inv (Phrr 1 0 0) m0 m ->
    (forall m', Inv Pend m0 m' -> Q m') ->
    wp (for_ 1 (lj + 1) (fun j g =>
      for_ 0 (nmax - j + 1) (fun i g =>
        let n := dj * j + di * i in
        st3 gs g n (fun ax g =>
          v2 <- rd g (ax * gs + (n + di - dj)) ;;
          v1 <- rd g (ax * gs + (n - dj)) ;;
          Some (add v2 (mul (rirj ax) v1)))) g) m) Q.
  Proof.
    intros H1 Hpt HI HQ.
    apply wp_for with (I := fun j m => Inv (Phrr j 0 0) m0 m); [lia|exact HI| |].
    2:{ intros m' H. apply HQ. apply Pend_of_Phrr. exact H. }
    intros j m1 Hj HI1.
    apply wp_for with (I := fun i m => Inv (Phrr j i 0) m0 m); [lia|exact HI1| |].
    2:{ intros m' H. eapply Inv_mono; [exact H|]. boxcase. cbn in *. lia. }
    intros i m2 Hi HI2. cbv zeta.
    eapply wp_trans with (v := j) (u := i) (n := 0) (P := Phrr j i 0) (P' := Phrr j (i + 1) 0); eauto; try lia.
    - apply Hpt. reflexivity.
    - cbn. lia.
    - cbn. lia.
    - boxcase. cbn in *. apply Hpt in Hq. subst q.
      destruct (Z.eq_dec u i) as [->|]; [|left; lia].
      destruct (Z.eq_dec v j) as [->|]; [|left; lia]. right. reflexivity.
  Qed.

  Lemma wp_vrr_one (aij2 : F) (rij : Z -> F) m0 m (Q : arr F -> Prop) :
    1 <= nmax -> (forall q, pt q <-> q = 0) -> rt 0 = aij2 -> (forall ax, r0 ax 0 = rij ax) ->
    Inv (Pvrr 0 0 0) m0 m ->
    (forall m', Inv (Phrr 1 0 0) m0 m' -> Q m') ->
    wp (g <- st3 gs m di (fun ax g => v <- rd g (ax * gs) ;; Some (mul (rij ax) v)) ;;
        for_ 1 nmax (fun i g =>
           st3 gs g ((i + 1) * di) (fun ax g =>
             v1 <- rd g (ax * gs + (i - 1) * di) ;;
             v0 <- rd g (ax * gs + i * di) ;;
             Some (add (mul (mul (inj i) aij2) v1) (mul (rij ax) v0)))) g) Q.
  Proof.
    intros H1 Hpt <- Hr HI HQ.
    assert (Hp0 : pt 0) by (apply Hpt; reflexivity).
    apply wp_bind.
    assert (Ext : forall g p b1 b2, (forall ax g, b1 ax g = b2 ax g) ->
                    st3 gs g p b1 = @st3 F gs g p b2).
    { intros g p b1 b2 E. unfold st3. apply for_ext. intros ax s _. rewrite E. reflexivity. }
    rewrite (Ext m di _ (fun ax g => v <- rd g (ax * gs + 0) ;; Some (mul (r0 ax 0) v))).
    2:{ intros ax g. rewrite Z.add_0_r, Hr. reflexivity. }
    eapply wp_first with (n := 0) (P := Pvrr 0 0 0) (P' := Pvrr 0 1 1); eauto; try lia.
    { cbn. lia. }
    { boxcase. cbn in *. apply Hpt in Hq. subst q.
      destruct (Z.eq_dec u 1) as [->|]; [|left; lia].
      destruct (Z.eq_dec v 0) as [->|]; [|left; lia]. right. reflexivity. }
    intros m2 HI2.
    apply wp_for with (I := fun i m => Inv (Pvrr 0 1 i) m0 m); [lia|exact HI2| |].
    2:{ intros m' H. apply HQ. eapply Inv_mono; [exact H|].
        boxcase. cbn in *. apply Hpt in Hq. lia. }
    intros i m3 Hi HI3.
    rewrite (Ext m3 ((i + 1) * di) _ (fun ax g =>
       v1 <- rd g (ax * gs + (i - 1) * di) ;; v0 <- rd g (ax * gs + i * di) ;;
       Some (add (mul (mul (inj i) (rt 0)) v1) (mul (r0 ax 0) v0)))).
    2:{ intros ax g. rewrite Hr. reflexivity. }
    eapply wp_next with (n := 0) (u := i) (P := Pvrr 0 1 i) (P' := Pvrr 0 1 (i + 1)); eauto; try lia.
    - cbn. lia.
    - cbn. lia.
    - boxcase. cbn in *. apply Hpt in Hq. subst q.
      destruct (Z.eq_dec u (i + 1)) as [->|]; [|left; lia].
      destruct (Z.eq_dec v 0) as [->|]; [|left; lia]. right. reflexivity.
  Qed.

  (** Grid points: a point is q = ig + BLK*n (g1e_grids.c:213-288). *)
  Definition gpt (nroots bg q : Z) : Prop :=
    exists n ig, 0 <= n < nroots /\ 0 <= ig < bg /\ q = ig + GRID_BLKSIZE * n.

  Lemma wp_vrr_grids nroots bg (t2 : Z -> Z -> F) (rirg : Z -> Z -> Z -> F) m0 m (Q : arr F -> Prop) :
    1 <= nmax -> 0 <= nroots -> 0 <= bg <= GRID_BLKSIZE ->
    (forall q, pt q <-> gpt nroots bg q) ->
    (forall n ig, 0 <= n < nroots -> 0 <= ig < bg -> rt (ig + GRID_BLKSIZE * n) = t2 n ig) ->
    (forall ax n ig, 0 <= n < nroots -> 0 <= ig < bg -> r0 ax (ig + GRID_BLKSIZE * n) = rirg ax n ig) ->
    Inv (Pvrr 0 0 0) m0 m ->
    (forall m', Inv (Phrr 1 0 0) m0 m' -> Q m') ->
    wp (for_ 0 nroots (fun n g =>
           g <- for_ 0 bg (fun ig g =>
             st3 gs g (GRID_BLKSIZE * n + di + ig) (fun ax g =>
                  v <- rd g (ax * gs + (GRID_BLKSIZE * n + ig)) ;;
                  Some (mul (rirg ax n ig) v))) g ;;
           for_ 1 nmax (fun i g =>
             for_ 0 bg (fun ig g =>
             let p0 := GRID_BLKSIZE * n + i * di + ig in
             st3 gs g (p0 + di) (fun ax g =>
               v2 <- rd g (ax * gs + (p0 - di)) ;;
               v0 <- rd g (ax * gs + p0) ;;
               Some (add (mul (mul (inj i) (t2 n ig)) v2) (mul (rirg ax n ig) v0)))) g) g) m) Q.
  Proof.
    intros H1 Hz Hbg Hpt Hrt Hr0 HI HQ.
    assert (Ext : forall g p b1 b2, (forall ax g, b1 ax g = b2 ax g) ->
                    st3 gs g p b1 = @st3 F gs g p b2).
    { intros g p b1 b2 E. unfold st3. apply for_ext. intros ax s _. rewrite E. reflexivity. }
    set (B := GRID_BLKSIZE) in *. assert (HB : B = 104) by reflexivity.
    assert (HBG : GRID_BLKSIZE = B) by reflexivity. clearbody B.
    apply wp_for with (I := fun n m => Inv (Pvrr (B * n) (B * n) 0) m0 m); [lia| | |].
    { rewrite Z.mul_0_r. exact HI. }
    2:{ intros m' H. apply HQ. eapply Phrr_of_Pvrr; [|exact H].
        intros q Hq. apply Hpt in Hq. destruct Hq as (n & ig & ? & ? & ->). rewrite ?HBG in *. nia. }
    intros n m1 Hn1 HI1. apply wp_bind.
    assert (Hpn : forall ig, 0 <= ig < bg -> pt (ig + B * n)).
    { intros ig Hig. apply Hpt. exists n, ig. rewrite ?HBG in *. repeat split; lia. }
    assert (Hrow : forall q, pt q -> B * n <= q < B * n + B -> q < B * n + bg).
    { intros q Hq Hr. apply Hpt in Hq. destruct Hq as (n' & ig & ? & ? & ->). rewrite ?HBG in *.
      subst B. lia. }
    apply wp_for with (I := fun ig m => Inv (Pvrr (B * n) (B * n + ig) 1) m0 m); [lia| | |].
    { eapply Inv_mono; [exact HI1|]. boxcase. cbn in *. lia. }
    { intros ig m2 Hig HI2.
      rewrite (Ext m2 _ _ (fun ax g => v <- rd g (ax * gs + (B * n + ig)) ;;
                                       Some (mul (r0 ax (ig + B * n)) v))).
      2:{ intros ax g. rewrite Hr0 by lia. reflexivity. }
      eapply wp_first with (n := ig + B * n) (P := Pvrr (B * n) (B * n + ig) 1) (P' := Pvrr (B * n) (B * n + (ig + 1)) 1); eauto; try lia.
      - cbn. lia.
      - boxcase. cbn in *.
        destruct (Z.eq_dec q (ig + B * n)) as [->|]; [|left; lia].
        destruct (Z.eq_dec u 1) as [->|]; [|left; lia].
        destruct (Z.eq_dec v 0) as [->|]; [|left; lia]. right. reflexivity. }
    intros m2 HI2.
    apply wp_for with (I := fun i m => Inv (Pvrr (B * n) (B * n + bg) i) m0 m); [lia|exact HI2| |].
    2:{ intros m' H. eapply Inv_mono; [exact H|].
        boxcase. cbn in *. specialize (Hrow q Hq). lia. }
    intros i m3 Hi HI3.
    apply wp_for with (I := fun ig m => Inv (fun t => let '(q, u, v) := t in v = 0 /\
       (u = 0 \/ q < B * n \/ (q < B * n + bg /\ u <= i) \/ (q < B * n + ig /\ u = i + 1))) m0 m); [lia| | |].
    { eapply Inv_mono; [exact HI3|]. boxcase. cbn in *. lia. }
    2:{ intros m' H. eapply Inv_mono; [exact H|]. boxcase. cbn in *. lia. }
    intros ig m4 Hig HI4. cbv zeta.
    rewrite (Ext m4 _ _ (fun ax g =>
       v1 <- rd g (ax * gs + (B * n + i * di + ig - di)) ;;
       v0 <- rd g (ax * gs + (B * n + i * di + ig)) ;;
       Some (add (mul (mul (inj i) (rt (ig + B * n))) v1) (mul (r0 ax (ig + B * n)) v0)))).
    2:{ intros ax g. rewrite Hr0, Hrt by lia. reflexivity. }
    eapply wp_next with (n := ig + B * n) (u := i) (P' := fun t => let '(q, u, v) := t in v = 0 /\
       (u = 0 \/ q < B * n \/ (q < B * n + bg /\ u <= i) \/ (q < B * n + (ig + 1) /\ u = i + 1))); try exact HI4; eauto; try lia; cbn; try lia.
    boxcase. cbn in *.
    destruct (Z.eq_dec q (ig + B * n)) as [->|]; [|left; lia].
    destruct (Z.eq_dec u (i + 1)) as [->|]; [|left; lia].
    destruct (Z.eq_dec v 0) as [->|]; [|left; lia]. right. reflexivity.
  Qed.

  Lemma wp_hrr_grids nroots bg m0 m (Q : arr F -> Prop) :
    1 <= nmax -> 0 <= nroots -> 0 <= bg <= GRID_BLKSIZE ->
    (forall q, pt q <-> gpt nroots bg q) ->
    Inv (Phrr 1 0 0) m0 m ->
    (forall m', Inv Pend m0 m' -> Q m') ->
    wp (for_ 1 (lj + 1) (fun j g =>
      for_ 0 (nmax - j + 1) (fun i g =>
        for_ 0 nroots (fun n g =>
          for_ 0 bg (fun ig g =>
          let p0 := j * dj + i * di + (ig + GRID_BLKSIZE * n) in
          st3 gs g p0 (fun ax g =>
            v2 <- rd g (ax * gs + (p0 - dj + di)) ;;
            v1 <- rd g (ax * gs + (p0 - dj)) ;;
            Some (add v2 (mul (rirj ax) v1)))) g) g) g) m) Q.
  Proof.
    intros H1 Hz Hbg Hpt HI HQ.
    set (B := GRID_BLKSIZE) in *. assert (HB : B = 104) by reflexivity.
    assert (HBG : GRID_BLKSIZE = B) by reflexivity. clearbody B.
    apply wp_for with (I := fun j m => Inv (Phrr j 0 0) m0 m); [lia|exact HI| |].
    2:{ intros m' H. apply HQ. apply Pend_of_Phrr. exact H. }
    intros j m1 Hj HI1.
    apply wp_for with (I := fun i m => Inv (Phrr j i 0) m0 m); [lia|exact HI1| |].
    2:{ intros m' H. eapply Inv_mono; [exact H|]. boxcase. cbn in *. lia. }
    intros i m2 Hi HI2.
    apply wp_for with (I := fun n m => Inv (Phrr j i (B * n)) m0 m); [lia| | |].
    { rewrite Z.mul_0_r. exact HI2. }
    2:{ intros m' H. eapply Inv_mono; [exact H|]. boxcase. cbn in *.
        assert (q < B * nroots).
        { apply Hpt in Hq. destruct Hq as (n & ig & ? & ? & ->). rewrite ?HBG in *. nia. }
        lia. }
    intros n m3 Hn3 HI3.
    apply wp_for with (I := fun ig m => Inv (Phrr j i (B * n + ig)) m0 m); [lia| | |].
    { rewrite Z.add_0_r. exact HI3. }
    2:{ intros m' H. eapply Inv_mono; [exact H|]. boxcase. cbn in *.
        assert (q < B * (n + 1) -> q < B * n + bg).
        { apply Hpt in Hq. destruct Hq as (n' & ig & ? & ? & ->). rewrite ?HBG in *. intros Hlt.
          subst B. lia. }
        lia. }
    intros ig m4 Hig HI4. cbv zeta.
    eapply wp_trans with (v := j) (u := i) (n := ig + B * n) (P' := Phrr j i (B * n + (ig + 1))); try exact HI4; eauto; try lia.
    - apply Hpt. exists n, ig. rewrite ?HBG in *. repeat split; lia.
    - cbn. lia.
    - cbn. lia.
    - boxcase. cbn in *.
      destruct (Z.eq_dec q (ig + B * n)) as [->|]; [|left; lia].
      destruct (Z.eq_dec u i) as [->|]; [|left; lia].
      destruct (Z.eq_dec v j) as [->|]; [|left; lia]. right. reflexivity.
  Qed.
End Rec1.
