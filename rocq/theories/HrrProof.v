(** HrrProof.v — the four horizontal transfers fill the table of the four centres. *)
From Verif Require Import Base EnvModel RecModel RecSpec RecLay FillProof.

(** Three nested loops around a transfer row: each source cell is given or was produced by an
    earlier iteration. *)
Section Rows.
  Context {F T : Type} (add mul : F -> F -> F).
  Variables (gs : Z) (addr : T -> Z) (box : T -> Prop).
  Hypothesis (Hinj : forall t u, box t -> box u -> addr t = addr u -> t = u).
  Hypothesis (Hbnd : forall t, box t -> 0 <= addr t < gs).
  Variable V : Z -> T -> F.
  Variable m0 : arr F.
  Variables (lo1 hi1 lo2 lo3 : Z) (hi2 : Z -> Z) (hi3 : Z -> Z -> Z) (len : Z -> Z) (ptr : Z -> Z -> Z -> Z).
  Variables (r : Z -> F) (d1 d2 : Z) (A : T -> Prop) (cell low high : Z -> Z -> Z -> Z -> T).

  Definition in3 x y z p := lo1 <= x < hi1 /\ lo2 <= y < hi2 x /\ lo3 <= z < hi3 x y /\ 0 <= p < len x.
  Definition ready x y z (t : T) := A t \/ exists x' y' z' p', in3 x' y' z' p' /\ t = cell x' y' z' p' /\
     (x' < x \/ (x' = x /\ (y' < y \/ (y' = y /\ z' < z)))).

  Lemma fills_rows :
    (forall x y z p, in3 x y z p ->
       box (cell x y z p) /\ box (low x y z p) /\ box (high x y z p) /\
       ready x y z (low x y z p) /\ ready x y z (high x y z p) /\
       addr (cell x y z p) = ptr x y z + p /\ addr (low x y z p) = ptr x y z + p - d1 /\
       addr (high x y z p) = ptr x y z + p - d1 + d2 /\
       (forall ax, 0 <= ax < 3 -> V ax (cell x y z p) = add (mul (r ax) (V ax (low x y z p))) (V ax (high x y z p)))) ->
    fills 0 gs addr box V m0
      (for_ lo1 hi1 (fun x g => for_ lo2 (hi2 x) (fun y g => for_ lo3 (hi3 x y) (fun z g =>
         hrr_row add mul gs r d1 d2 (ptr x y z) (len x) g) g) g)) A
      (fun t => exists x y z p, in3 x y z p /\ t = cell x y z p).
  Proof.
    intros H. eapply fills_sub; [apply fills_for with (B := fun x t => exists y z p, in3 x y z p /\ t = cell x y z p); intros x Hx| |].
    2:{ intros t _ Ht. exact Ht. }
    2:{ intros t _ (x & y & z & p & Hi & Ht). exists x. split; [apply Hi|eauto]. }
    eapply fills_sub; [apply fills_for with (B := fun y t => exists z p, in3 x y z p /\ t = cell x y z p)
       (A := fun t => A t \/ (exists x', lo1 <= x' < x /\ exists y z p, in3 x' y z p /\ t = cell x' y z p)); intros y Hy| |].
    2:{ intros t _ Ht. exact Ht. }
    2:{ intros t _ (y & z & p & Hi & Ht). exists y. split; [apply Hi|eauto]. }
    eapply fills_sub; [apply fills_for with (B := fun z t => exists p, in3 x y z p /\ t = cell x y z p)
       (A := fun t => (A t \/ (exists x', lo1 <= x' < x /\ exists y z p, in3 x' y z p /\ t = cell x' y z p)) \/
                      (exists y', lo2 <= y' < y /\ exists z p, in3 x y' z p /\ t = cell x y' z p)); intros z Hz| |].
    2:{ intros t _ Ht. exact Ht. }
    2:{ intros t _ (z & p & Hi & Ht). exists z. split; [apply Hi|eauto]. }
    eapply fills_sub; [apply (fills_row 0 gs addr box Hinj Hbnd ltac:(lia) V m0 add mul) with
       (A := ready x y z) (cell := cell x y z) (low := low x y z) (high := high x y z)| |].
    - reflexivity.
    - intros p Hp. destruct (H x y z p) as (B1 & B2 & B3 & B4 & B5 & B6 & B7 & B8 & B9); [unfold in3; lia|]. auto 10.
    - intros t _ [Ha|(x' & y' & z' & p' & Hi & -> & [L|[-> [L|[-> L]]]])].
      + left. left. left. exact Ha.
      + left. left. right. exists x'. split; [unfold in3 in Hi; lia|eauto].
      + left. right. exists y'. split; [unfold in3 in Hi; lia|eauto].
      + right. exists z'. split; [unfold in3 in Hi; lia|eauto].
    - intros t _ (p & Hi & ->). exists p. split; [apply Hi|reflexivity].
  Qed.
End Rows.

Section Hrr.
  Context {F : Type} (add mul : F -> F -> F).
  Local Notation T := (Z * Z * Z * Z * Z)%type. (* n, i, k, l, j *)
  Variables (e : envs) (rirj rkrl : Z -> F).
  Let gs := g_size e.
  Let nr := nrys_roots e.
  Let nmax := li_ceil e + lj_ceil e.
  Let mmax := lk_ceil e + ll_ceil e.
  Variables (mi mk ml mj : Z).

  Definition adr4 (t : T) : Z := let '(n, i, k, l, j) := t in
    n + g_stride_i e * i + g_stride_k e * k + g_stride_l e * l + g_stride_j e * j.
  Definition box4 (t : T) : Prop := let '(n, i, k, l, j) := t in
    0 <= n < nrys_roots e /\ 0 <= i <= mi /\ 0 <= k <= mk /\ 0 <= l <= ml /\ 0 <= j <= mj.
  Hypothesis Hinj : forall t u, box4 t -> box4 u -> adr4 t = adr4 u -> t = u.
  Hypothesis Hbnd : forall t, box4 t -> 0 <= adr4 t < gs.
  Hypothesis Hdi : g_stride_i e = nr.
  Hypothesis (Pi : 0 <= li_ceil e) (Pj : 0 <= lj_ceil e) (Pk : 0 <= lk_ceil e) (Pl : 0 <= ll_ceil e).

  Variable S : Z -> Z -> Z -> Z -> Z -> Z -> F. (* axis, root, i, j, k, l *)
  Definition V4 (ax : Z) (t : T) : F := let '(n, i, k, l, j) := t in S ax n i j k l.
  Variable m0 : arr F.
  Local Notation FL := (fills 0 gs adr4 box4 V4 m0).

  (** the cells the later stages use *)
  Definition want (t : T) : Prop := let '(n, i, k, l, j) := t in
    i <= li_ceil e /\ k <= lk_ceil e /\ l <= ll_ceil e /\ j <= lj_ceil e.

  Lemma divmod_bound x c : 0 <= c -> 0 <= x < nr * c ->
    0 < nr /\ 0 <= x mod nr < nr /\ 0 <= x / nr < c /\ x mod nr + nr * (x / nr) = x.
  Proof.
    intros Hc H. assert (Hn : 0 < nr) by nia.
    pose proof (Z.div_mod x nr ltac:(lia)). pose proof (Z.mod_pos_bound x nr Hn).
    assert (0 <= x / nr) by (apply Z.div_pos; lia).
    assert (x / nr < c) by (apply Z.div_lt_upper_bound; lia).
    repeat split; lia.
  Qed.
  Lemma pack n i c : 0 <= n < nr -> 0 <= i < c -> 0 <= n + nr * i < nr * c /\ (n + nr * i) mod nr = n /\ (n + nr * i) / nr = i.
  Proof.
    intros Hn Hi. split; [nia|]. split.
    - rewrite Z.mul_comm, Z.mod_add by lia. apply Z.mod_small; lia.
    - rewrite Z.mul_comm, Z.div_add by lia. rewrite Z.div_small by lia. lia.
  Qed.

  Definition step_i := forall ax n i j k l, 0 <= ax < 3 -> 0 <= n < nr -> 0 <= i -> 0 <= j -> 0 <= k -> 0 <= l ->
       S ax n (i + 1) j k l = add (mul (rirj ax) (S ax n i j k l)) (S ax n i (j + 1) k l).
  Definition step_j := forall ax n i j k l, 0 <= ax < 3 -> 0 <= n < nr -> 0 <= i -> 0 <= j -> 0 <= k -> 0 <= l ->
       S ax n i (j + 1) k l = add (mul (rirj ax) (S ax n i j k l)) (S ax n (i + 1) j k l).
  Definition step_k := forall ax n i j k l, 0 <= ax < 3 -> 0 <= n < nr -> 0 <= i -> 0 <= j -> 0 <= k -> 0 <= l ->
       S ax n i j (k + 1) l = add (mul (rkrl ax) (S ax n i j k l)) (S ax n i j k (l + 1)).
  Definition step_l := forall ax n i j k l, 0 <= ax < 3 -> 0 <= n < nr -> 0 <= i -> 0 <= j -> 0 <= k -> 0 <= l ->
       S ax n i j k (l + 1) = add (mul (rkrl ax) (S ax n i j k l)) (S ax n i j (k + 1) l).

  Lemma lj_ok :
    mi = li_ceil e -> mj = nmax -> mk = lk_ceil e -> ml = mmax ->
    (0 < lk_ceil e -> g_stride_k e = nr * (mi + 1)) -> (0 < li_ceil e -> step_i) -> (0 < lk_ceil e -> step_k) ->
    FL (g0_lj2d_4d add mul e rirj rkrl) (fun t => let '(n, i, k, l, j) := t in i = 0 /\ k = 0) want.
  Proof.
    intros Ei Ej Ek El Hdk T1 T2. unfold g0_lj2d_4d. fold gs nr nmax mmax.
    destruct ((li_ceil e =? 0) && (lk_ceil e =? 0)) eqn:E0.
    { apply fills_ret. intros [[[[n i] k] l] j] (B1 & B2 & B3 & B4 & B5) (W1 & W2 & W3 & W4). lia. }
    eapply fills_sub_A; [apply fills_seq with
        (B := fun t : T => let '(n, i, k, l, j) := t in 1 <= i /\ i + j <= nmax /\ k = 0)
        (C := fun t : T => let '(n, i, k, l, j) := t in 1 <= k /\ k + l <= mmax /\ j <= lj_ceil e)|].
    - eapply fills_sub; [refine (fills_rows add mul gs adr4 box4 Hinj Hbnd V4 m0 1 (li_ceil e + 1) 0 0 (fun x => nmax - x + 1) (fun _ _ => mmax + 1) (fun _ => nr) (fun x y z => y * g_stride_j e + z * g_stride_l e + x * g_stride_i e) rirj (g_stride_i e) (g_stride_j e)
         (fun t => let '(n, i, k, l, j) := t in i = 0 /\ k = 0)
         (fun x y z p : Z => (p, x, 0, z, y))
         (fun x y z p : Z => (p, (x - 1), 0, z, y))
         (fun x y z p : Z => (p, (x - 1), 0, z, (y + 1))) _)| |].
      + intros x y z p Hi. unfold box4, adr4, V4. fold nr.
        assert (0 <= p < nr /\ 1 <= x) by (unfold in3 in Hi; lia).
        assert (Hi' := Hi). unfold in3 in Hi'.
        split; [lia|]. split; [lia|]. split; [lia|]. split; [|split; [|split; [lia|split; [lia|split; [lia|]]]]].
        * destruct (Z.eq_dec x 1); [left; lia|right; exists (x - 1), y, z, p; split; [unfold in3; lia|split; [reflexivity|lia]]].
        * destruct (Z.eq_dec x 1); [left; lia|right; exists (x - 1), (y + 1), z, p; split; [unfold in3; lia|split; [reflexivity|lia]]].
        * intros ax Hax. pose proof (T1 ltac:(lia) ax p (x - 1) y 0 z) as E. rewrite ?Z.sub_add in E. apply E; lia.
      + intros [[[[n i] k] l] j] _ Ht. exact Ht.
      + intros [[[[n i] k] l] j] (B1 & B2 & B3 & B4 & B5) Ht. fold nr in B1.
        exists i, j, l, n. unfold in3. replace k with 0 by lia. split; [lia|reflexivity].
    - eapply fills_sub; [refine (fills_rows add mul gs adr4 box4 Hinj Hbnd V4 m0 0 (lj_ceil e + 1) 1 0 (fun _ => lk_ceil e + 1) (fun _ y => mmax - y + 1) (fun _ => g_stride_k e) (fun x y z => x * g_stride_j e + z * g_stride_l e + y * g_stride_k e) rkrl (g_stride_k e) (g_stride_l e)
         (fun t => (let '(n, i, k, l, j) := t in i = 0 /\ k = 0) \/ (let '(n, i, k, l, j) := t in 1 <= i /\ i + j <= nmax /\ k = 0))
         (fun x y z p : Z => (p mod nr, p / nr, y, z, x))
         (fun x y z p : Z => (p mod nr, p / nr, (y - 1), z, x))
         (fun x y z p : Z => (p mod nr, p / nr, (y - 1), (z + 1), x)) _)| |].
      + intros x y z p Hi. assert (Hdk' := Hdk ltac:(unfold in3 in Hi; lia)); destruct (divmod_bound p (mi + 1) ltac:(lia)) as (Q1 & Q2 & Q3 & Q4); [unfold in3 in Hi; lia|].
        unfold box4, adr4, V4. fold nr.
        assert (Hi' := Hi). unfold in3 in Hi'.
        split; [lia|]. split; [lia|]. split; [lia|]. split; [|split; [|split; [lia|split; [lia|split; [lia|]]]]].
        * destruct (Z.eq_dec y 1) as [->|]; [left; destruct (Z.eq_dec (p / nr) 0) as [->|]; [left; lia|right; lia]|right; exists x, (y - 1), z, p; split; [unfold in3; lia|split; [reflexivity|lia]]].
        * destruct (Z.eq_dec y 1) as [->|]; [left; destruct (Z.eq_dec (p / nr) 0) as [->|]; [left; lia|right; lia]|right; exists x, (y - 1), (z + 1), p; split; [unfold in3; lia|split; [reflexivity|lia]]].
        * intros ax Hax. pose proof (T2 ltac:(lia) ax (p mod nr) (p / nr) x (y - 1) z) as E. rewrite ?Z.sub_add in E. apply E; lia.
      + intros [[[[n i] k] l] j] _ Ht. exact Ht.
      + intros [[[[n i] k] l] j] (B1 & B2 & B3 & B4 & B5) Ht. fold nr in B1.
        exists j, k, l, (n + nr * i). unfold in3.
        destruct (pack n i (mi + 1)) as (Q1 & -> & ->); [lia|lia|].
        rewrite Hdk by lia. split; [lia|reflexivity].
    - intros [[[[n i] k] l] j] (B1 & B2 & B3 & B4 & B5) (W1 & W2 & W3 & W4).
      destruct (Z.eq_dec i 0), (Z.eq_dec k 0); lia.
  Qed.

  Lemma kj_ok :
    mi = li_ceil e -> mj = nmax -> mk = mmax -> ml = ll_ceil e ->
    (0 < ll_ceil e -> g_stride_k e = nr * (mi + 1)) -> (0 < li_ceil e -> step_i) -> (0 < ll_ceil e -> step_l) ->
    FL (g0_kj2d_4d add mul e rirj rkrl) (fun t => let '(n, i, k, l, j) := t in i = 0 /\ l = 0) want.
  Proof.
    intros Ei Ej Ek El Hdk T1 T2. unfold g0_kj2d_4d. fold gs nr nmax mmax.
    destruct ((li_ceil e =? 0) && (ll_ceil e =? 0)) eqn:E0.
    { apply fills_ret. intros [[[[n i] k] l] j] (B1 & B2 & B3 & B4 & B5) (W1 & W2 & W3 & W4). lia. }
    eapply fills_sub_A; [apply fills_seq with
        (B := fun t : T => let '(n, i, k, l, j) := t in 1 <= i /\ i + j <= nmax /\ l = 0)
        (C := fun t : T => let '(n, i, k, l, j) := t in 1 <= l /\ k + l <= mmax /\ j <= lj_ceil e)|].
    - eapply fills_sub; [refine (fills_rows add mul gs adr4 box4 Hinj Hbnd V4 m0 1 (li_ceil e + 1) 0 0 (fun x => nmax - x + 1) (fun _ _ => mmax + 1) (fun _ => nr) (fun x y z => y * g_stride_j e + z * g_stride_k e + x * g_stride_i e) rirj (g_stride_i e) (g_stride_j e)
         (fun t => let '(n, i, k, l, j) := t in i = 0 /\ l = 0)
         (fun x y z p : Z => (p, x, z, 0, y))
         (fun x y z p : Z => (p, (x - 1), z, 0, y))
         (fun x y z p : Z => (p, (x - 1), z, 0, (y + 1))) _)| |].
      + intros x y z p Hi. unfold box4, adr4, V4. fold nr.
        assert (0 <= p < nr /\ 1 <= x) by (unfold in3 in Hi; lia).
        assert (Hi' := Hi). unfold in3 in Hi'.
        split; [lia|]. split; [lia|]. split; [lia|]. split; [|split; [|split; [lia|split; [lia|split; [lia|]]]]].
        * destruct (Z.eq_dec x 1); [left; lia|right; exists (x - 1), y, z, p; split; [unfold in3; lia|split; [reflexivity|lia]]].
        * destruct (Z.eq_dec x 1); [left; lia|right; exists (x - 1), (y + 1), z, p; split; [unfold in3; lia|split; [reflexivity|lia]]].
        * intros ax Hax. pose proof (T1 ltac:(lia) ax p (x - 1) y z 0) as E. rewrite ?Z.sub_add in E. apply E; lia.
      + intros [[[[n i] k] l] j] _ Ht. exact Ht.
      + intros [[[[n i] k] l] j] (B1 & B2 & B3 & B4 & B5) Ht. fold nr in B1.
        exists i, j, k, n. unfold in3. replace l with 0 by lia. split; [lia|reflexivity].
    - eapply fills_sub; [refine (fills_rows add mul gs adr4 box4 Hinj Hbnd V4 m0 0 (lj_ceil e + 1) 1 0 (fun _ => ll_ceil e + 1) (fun _ y => mmax - y + 1) (fun _ => g_stride_k e) (fun x y z => x * g_stride_j e + y * g_stride_l e + z * g_stride_k e) rkrl (g_stride_l e) (g_stride_k e)
         (fun t => (let '(n, i, k, l, j) := t in i = 0 /\ l = 0) \/ (let '(n, i, k, l, j) := t in 1 <= i /\ i + j <= nmax /\ l = 0))
         (fun x y z p : Z => (p mod nr, p / nr, z, y, x))
         (fun x y z p : Z => (p mod nr, p / nr, z, (y - 1), x))
         (fun x y z p : Z => (p mod nr, p / nr, (z + 1), (y - 1), x)) _)| |].
      + intros x y z p Hi. assert (Hdk' := Hdk ltac:(unfold in3 in Hi; lia)); destruct (divmod_bound p (mi + 1) ltac:(lia)) as (Q1 & Q2 & Q3 & Q4); [unfold in3 in Hi; lia|].
        unfold box4, adr4, V4. fold nr.
        assert (Hi' := Hi). unfold in3 in Hi'.
        split; [lia|]. split; [lia|]. split; [lia|]. split; [|split; [|split; [lia|split; [lia|split; [lia|]]]]].
        * destruct (Z.eq_dec y 1) as [->|]; [left; destruct (Z.eq_dec (p / nr) 0) as [->|]; [left; lia|right; lia]|right; exists x, (y - 1), z, p; split; [unfold in3; lia|split; [reflexivity|lia]]].
        * destruct (Z.eq_dec y 1) as [->|]; [left; destruct (Z.eq_dec (p / nr) 0) as [->|]; [left; lia|right; lia]|right; exists x, (y - 1), (z + 1), p; split; [unfold in3; lia|split; [reflexivity|lia]]].
        * intros ax Hax. pose proof (T2 ltac:(lia) ax (p mod nr) (p / nr) x z (y - 1)) as E. rewrite ?Z.sub_add in E. apply E; lia.
      + intros [[[[n i] k] l] j] _ Ht. exact Ht.
      + intros [[[[n i] k] l] j] (B1 & B2 & B3 & B4 & B5) Ht. fold nr in B1.
        exists j, l, k, (n + nr * i). unfold in3.
        destruct (pack n i (mi + 1)) as (Q1 & -> & ->); [lia|lia|].
        rewrite Hdk by lia. split; [lia|reflexivity].
    - intros [[[[n i] k] l] j] (B1 & B2 & B3 & B4 & B5) (W1 & W2 & W3 & W4).
      destruct (Z.eq_dec i 0), (Z.eq_dec l 0); lia.
  Qed.

  Lemma il_ok :
    mi = nmax -> mj = lj_ceil e -> mk = lk_ceil e -> ml = mmax ->
    (0 < lj_ceil e -> g_stride_k e = nr * (mi + 1)) -> (0 < lk_ceil e -> step_k) -> (0 < lj_ceil e -> step_j) ->
    FL (g0_il2d_4d add mul e rirj rkrl) (fun t => let '(n, i, k, l, j) := t in j = 0 /\ k = 0) want.
  Proof.
    intros Ei Ej Ek El Hdk T1 T2. unfold g0_il2d_4d. fold gs nr nmax mmax.
    destruct ((lj_ceil e =? 0) && (lk_ceil e =? 0)) eqn:E0.
    { apply fills_ret. intros [[[[n i] k] l] j] (B1 & B2 & B3 & B4 & B5) (W1 & W2 & W3 & W4). lia. }
    eapply fills_sub_A; [apply fills_seq with
        (B := fun t : T => let '(n, i, k, l, j) := t in 1 <= k /\ k + l <= mmax /\ j = 0)
        (C := fun t : T => let '(n, i, k, l, j) := t in 1 <= j /\ i + j <= nmax /\ k <= lk_ceil e /\ l <= ll_ceil e)|].
    - eapply fills_sub; [refine (fills_rows add mul gs adr4 box4 Hinj Hbnd V4 m0 1 (lk_ceil e + 1) 0 0 (fun x => mmax - x + 1) (fun _ _ => nmax + 1) (fun _ => nr) (fun x y z => y * g_stride_l e + x * g_stride_k e + z * g_stride_i e) rkrl (g_stride_k e) (g_stride_l e)
         (fun t => let '(n, i, k, l, j) := t in j = 0 /\ k = 0)
         (fun x y z p : Z => (p, z, x, y, 0))
         (fun x y z p : Z => (p, z, (x - 1), y, 0))
         (fun x y z p : Z => (p, z, (x - 1), (y + 1), 0)) _)| |].
      + intros x y z p Hi. unfold box4, adr4, V4. fold nr.
        assert (0 <= p < nr /\ 1 <= x) by (unfold in3 in Hi; lia).
        assert (Hi' := Hi). unfold in3 in Hi'.
        split; [lia|]. split; [lia|]. split; [lia|]. split; [|split; [|split; [lia|split; [lia|split; [lia|]]]]].
        * destruct (Z.eq_dec x 1); [left; lia|right; exists (x - 1), y, z, p; split; [unfold in3; lia|split; [reflexivity|lia]]].
        * destruct (Z.eq_dec x 1); [left; lia|right; exists (x - 1), (y + 1), z, p; split; [unfold in3; lia|split; [reflexivity|lia]]].
        * intros ax Hax. pose proof (T1 ltac:(lia) ax p z 0 (x - 1) y) as E. rewrite ?Z.sub_add in E. apply E; lia.
      + intros [[[[n i] k] l] j] _ Ht. exact Ht.
      + intros [[[[n i] k] l] j] (B1 & B2 & B3 & B4 & B5) Ht. fold nr in B1.
        exists k, l, i, n. unfold in3. replace j with 0 by lia. split; [lia|reflexivity].
    - eapply fills_sub; [refine (fills_rows add mul gs adr4 box4 Hinj Hbnd V4 m0 1 (lj_ceil e + 1) 0 0 (fun _ => ll_ceil e + 1) (fun _ _ => lk_ceil e + 1) (fun x => g_stride_k e - g_stride_i e * x) (fun x y z => x * g_stride_j e + y * g_stride_l e + z * g_stride_k e) rirj (g_stride_j e) (g_stride_i e)
         (fun t => (let '(n, i, k, l, j) := t in j = 0 /\ k = 0) \/ (let '(n, i, k, l, j) := t in 1 <= k /\ k + l <= mmax /\ j = 0))
         (fun x y z p : Z => (p mod nr, p / nr, z, y, x))
         (fun x y z p : Z => (p mod nr, p / nr, z, y, (x - 1)))
         (fun x y z p : Z => (p mod nr, (p / nr + 1), z, y, (x - 1))) _)| |].
      + intros x y z p Hi. assert (Hdk' := Hdk ltac:(unfold in3 in Hi; lia)); destruct (divmod_bound p (mi + 1 - x) ltac:(unfold in3 in Hi; lia)) as (Q1 & Q2 & Q3 & Q4); [unfold in3 in Hi; lia|]; assert (nr * (p / nr + 1) <= nr * (mi + 1 - x)) by (apply Z.mul_le_mono_nonneg_l; lia).
        unfold box4, adr4, V4. fold nr.
        assert (Hi' := Hi). unfold in3 in Hi'.
        split; [lia|]. split; [lia|]. split; [lia|]. split; [|split; [|split; [lia|split; [lia|split; [lia|]]]]].
        * destruct (Z.eq_dec x 1) as [->|]; [left; destruct (Z.eq_dec z 0) as [->|]; [left; lia|right; lia]|right; exists (x - 1), y, z, p; split; [unfold in3; lia|split; [|lia]]; reflexivity].
        * destruct (Z.eq_dec x 1) as [->|]; [left; destruct (Z.eq_dec z 0) as [->|]; [left; lia|right; lia]|right; exists (x - 1), y, z, (p mod nr + nr * (p / nr + 1)); split; [unfold in3; lia|split; [|lia]]; destruct (pack (p mod nr) (p / nr + 1) (mi + 1)) as (_ & -> & ->); [lia|lia|reflexivity]].
        * intros ax Hax. pose proof (T2 ltac:(lia) ax (p mod nr) (p / nr) (x - 1) z y) as E. rewrite ?Z.sub_add in E. apply E; lia.
      + intros [[[[n i] k] l] j] _ Ht. exact Ht.
      + intros [[[[n i] k] l] j] (B1 & B2 & B3 & B4 & B5) Ht. fold nr in B1.
        exists j, l, k, (n + nr * i). unfold in3.
        destruct (pack n i (mi + 1 - j)) as (Q1 & -> & ->); [lia|lia|].
        rewrite Hdk by lia. split; [lia|reflexivity].
    - intros [[[[n i] k] l] j] (B1 & B2 & B3 & B4 & B5) (W1 & W2 & W3 & W4).
      destruct (Z.eq_dec j 0), (Z.eq_dec k 0); lia.
  Qed.

  Lemma ik_ok :
    mi = nmax -> mj = lj_ceil e -> mk = mmax -> ml = ll_ceil e ->
    (0 < lj_ceil e -> g_stride_k e = nr * (mi + 1)) -> (0 < ll_ceil e -> step_l) -> (0 < lj_ceil e -> step_j) ->
    FL (g0_ik2d_4d add mul e rirj rkrl) (fun t => let '(n, i, k, l, j) := t in j = 0 /\ l = 0) want.
  Proof.
    intros Ei Ej Ek El Hdk T1 T2. unfold g0_ik2d_4d. fold gs nr nmax mmax.
    destruct ((lj_ceil e =? 0) && (ll_ceil e =? 0)) eqn:E0.
    { apply fills_ret. intros [[[[n i] k] l] j] (B1 & B2 & B3 & B4 & B5) (W1 & W2 & W3 & W4). lia. }
    eapply fills_sub_A; [apply fills_seq with
        (B := fun t : T => let '(n, i, k, l, j) := t in 1 <= l /\ k + l <= mmax /\ j = 0)
        (C := fun t : T => let '(n, i, k, l, j) := t in 1 <= j /\ i + j <= nmax /\ k <= lk_ceil e /\ l <= ll_ceil e)|].
    - eapply fills_sub; [refine (fills_rows add mul gs adr4 box4 Hinj Hbnd V4 m0 1 (ll_ceil e + 1) 0 0 (fun x => mmax - x + 1) (fun _ _ => nmax + 1) (fun _ => nr) (fun x y z => x * g_stride_l e + y * g_stride_k e + z * g_stride_i e) rkrl (g_stride_l e) (g_stride_k e)
         (fun t => let '(n, i, k, l, j) := t in j = 0 /\ l = 0)
         (fun x y z p : Z => (p, z, y, x, 0))
         (fun x y z p : Z => (p, z, y, (x - 1), 0))
         (fun x y z p : Z => (p, z, (y + 1), (x - 1), 0)) _)| |].
      + intros x y z p Hi. unfold box4, adr4, V4. fold nr.
        assert (0 <= p < nr /\ 1 <= x) by (unfold in3 in Hi; lia).
        assert (Hi' := Hi). unfold in3 in Hi'.
        split; [lia|]. split; [lia|]. split; [lia|]. split; [|split; [|split; [lia|split; [lia|split; [lia|]]]]].
        * destruct (Z.eq_dec x 1); [left; lia|right; exists (x - 1), y, z, p; split; [unfold in3; lia|split; [reflexivity|lia]]].
        * destruct (Z.eq_dec x 1); [left; lia|right; exists (x - 1), (y + 1), z, p; split; [unfold in3; lia|split; [reflexivity|lia]]].
        * intros ax Hax. pose proof (T1 ltac:(lia) ax p z 0 y (x - 1)) as E. rewrite ?Z.sub_add in E. apply E; lia.
      + intros [[[[n i] k] l] j] _ Ht. exact Ht.
      + intros [[[[n i] k] l] j] (B1 & B2 & B3 & B4 & B5) Ht. fold nr in B1.
        exists l, k, i, n. unfold in3. replace j with 0 by lia. split; [lia|reflexivity].
    - eapply fills_sub; [refine (fills_rows add mul gs adr4 box4 Hinj Hbnd V4 m0 1 (lj_ceil e + 1) 0 0 (fun _ => ll_ceil e + 1) (fun _ _ => lk_ceil e + 1) (fun x => g_stride_k e - g_stride_i e * x) (fun x y z => x * g_stride_j e + y * g_stride_l e + z * g_stride_k e) rirj (g_stride_j e) (g_stride_i e)
         (fun t => (let '(n, i, k, l, j) := t in j = 0 /\ l = 0) \/ (let '(n, i, k, l, j) := t in 1 <= l /\ k + l <= mmax /\ j = 0))
         (fun x y z p : Z => (p mod nr, p / nr, z, y, x))
         (fun x y z p : Z => (p mod nr, p / nr, z, y, (x - 1)))
         (fun x y z p : Z => (p mod nr, (p / nr + 1), z, y, (x - 1))) _)| |].
      + intros x y z p Hi. assert (Hdk' := Hdk ltac:(unfold in3 in Hi; lia)); destruct (divmod_bound p (mi + 1 - x) ltac:(unfold in3 in Hi; lia)) as (Q1 & Q2 & Q3 & Q4); [unfold in3 in Hi; lia|]; assert (nr * (p / nr + 1) <= nr * (mi + 1 - x)) by (apply Z.mul_le_mono_nonneg_l; lia).
        unfold box4, adr4, V4. fold nr.
        assert (Hi' := Hi). unfold in3 in Hi'.
        split; [lia|]. split; [lia|]. split; [lia|]. split; [|split; [|split; [lia|split; [lia|split; [lia|]]]]].
        * destruct (Z.eq_dec x 1) as [->|]; [left; destruct (Z.eq_dec y 0) as [->|]; [left; lia|right; lia]|right; exists (x - 1), y, z, p; split; [unfold in3; lia|split; [|lia]]; reflexivity].
        * destruct (Z.eq_dec x 1) as [->|]; [left; destruct (Z.eq_dec y 0) as [->|]; [left; lia|right; lia]|right; exists (x - 1), y, z, (p mod nr + nr * (p / nr + 1)); split; [unfold in3; lia|split; [|lia]]; destruct (pack (p mod nr) (p / nr + 1) (mi + 1)) as (_ & -> & ->); [lia|lia|reflexivity]].
        * intros ax Hax. pose proof (T2 ltac:(lia) ax (p mod nr) (p / nr) (x - 1) z y) as E. rewrite ?Z.sub_add in E. apply E; lia.
      + intros [[[[n i] k] l] j] _ Ht. exact Ht.
      + intros [[[[n i] k] l] j] (B1 & B2 & B3 & B4 & B5) Ht. fold nr in B1.
        exists j, l, k, (n + nr * i). unfold in3.
        destruct (pack n i (mi + 1 - j)) as (Q1 & -> & ->); [lia|lia|].
        rewrite Hdk by lia. split; [lia|reflexivity].
    - intros [[[[n i] k] l] j] (B1 & B2 & B3 & B4 & B5) (W1 & W2 & W3 & W4).
      destruct (Z.eq_dec j 0), (Z.eq_dec l 0); lia.
  Qed.
End Hrr.
