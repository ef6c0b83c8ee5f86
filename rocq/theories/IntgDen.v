(** IntgDen.v — values of combinations of terms; soundness of their comparison. *)
From Coq Require Import Reals Lra QArith Qreals FunctionalExtensionality.
From Coquelicot Require Import Coquelicot.
From Verif Require Import Base EnvModel OpSpec OpReal IntgModel IntgSpec IntgTab IntgStmt IntgCheck IntgStep IntgSem IntgRun IntgExec.
Local Open Scope R_scope.

Notation cvalQ := IntgSpec.cval.
Lemma Ceq (x y : C) : fst x = fst y -> snd x = snd y -> x = y.
Proof. destruct x, y. cbn. congruence. Qed.
Ltac cring := apply Ceq; cbn; ring.

Lemma Q2R_red q : Q2R (Qred q) = Q2R q. Proof. apply Qeq_eqR, Qred_correct. Qed.
Lemma cval_mul q s : cvalQ (cqmul q s) = (cvalQ q * cvalQ s)%C.
Proof.
  destruct q as [q1 q2], s as [s1 s2]. unfold IntgSpec.cval, cqmul, Cmult. cbn [fst snd]. rewrite !Q2R_red, Q2R_minus, Q2R_plus, !Q2R_mult. reflexivity.
Qed.
Lemma cval_add q s : cvalQ (cqadd q s) = (cvalQ q + cvalQ s)%C.
Proof.
  destruct q as [q1 q2], s as [s1 s2]. unfold IntgSpec.cval, cqadd, Cplus. cbn [fst snd]. rewrite !Q2R_red, !Q2R_plus. reflexivity.
Qed.
Lemma cval_0 q : cq0b q = true -> cvalQ q = RtoC 0.
Proof.
  unfold cq0b. intros H. apply andb_true_iff in H. destruct H as [H1 H2].
  apply Qeq_bool_eq, Qeq_eqR in H1, H2. rewrite RMicromega.Q2R_0 in *. unfold IntgSpec.cval. rewrite H1, H2. reflexivity.
Qed.
Lemma cval_neg q : cvalQ (cneg q) = (- cvalQ q)%C.
Proof.
  unfold cneg. rewrite cval_mul. unfold cvalQ; cbn [fst snd].
  assert (Q2R (-1) = -1) as -> by (unfold Q2R; cbn; lra). assert (Q2R 0 = 0) as -> by (unfold Q2R; cbn; lra). cring.
Qed.
Lemma cval_1 : cvalQ cq1 = RtoC 1.
Proof. apply Ceq; cbn; unfold Q2R; cbn; lra. Qed.

Lemma centre_eqb_ok c d : centre_eqb c d = true -> c = d. Proof. destruct c, d; cbn; congruence. Qed.
Lemma prim_eqb_ok p q : prim_eqb p q = true -> p = q.
Proof.
  destruct p as [|o], q as [|o']; cbn; try congruence. destruct o as [c| |], o' as [d| |]; cbn; try congruence.
  intros E. apply centre_eqb_ok in E. congruence.
Qed.
Lemma list_eqb_ok {A} (eqb : A -> A -> bool) : (forall x y, eqb x y = true -> x = y) ->
  forall l m, list_eqb eqb l m = true -> l = m.
Proof.
  intros H l. induction l as [|x l IH]; intros [|y m]; cbn; try congruence.
  destruct (eqb x y) eqn:E; [|discriminate]. intros E'. f_equal; auto.
Qed.
Lemma mono_eqb_ok m n : mono_eqb m n = true -> m = n.
Proof.
  destruct m as [k w], n as [k' w']. unfold mono_eqb. cbn [m_w m_k].
  destruct (list_eqb (list_eqb prim_eqb) w w') eqn:E1; [|discriminate]. intros E2.
  apply (list_eqb_ok _ (list_eqb_ok _ prim_eqb_ok)) in E1. apply (list_eqb_ok Nat.eqb) in E2; [congruence|].
  intros u v. apply Nat.eqb_eq.
Qed.

Section Den.
  (** comparison of combinations, whatever the values of the terms are *)
  Variable mv : mono -> R.
  Definition dn (p : poly) : C := csum (map (fun t => cvalQ (fst t) * RtoC (mv (snd t)))%C p).
  Lemma dn_cons t p : dn (t :: p) = (cvalQ (fst t) * RtoC (mv (snd t)) + dn p)%C. Proof. reflexivity. Qed.
  Lemma dn_app p q : dn (p ++ q) = (dn p + dn q)%C.
  Proof.
    induction p as [|t p IH]; cbn [app]; [unfold dn at 2; cbn; cring|]. rewrite !dn_cons, IH. cring.
  Qed.
  Lemma dn_scale c p : dn (pscale c p) = (cvalQ c * dn p)%C.
  Proof.
    induction p as [|t p IH]; [unfold dn; cbn; cring|]. cbn [pscale map]. rewrite !dn_cons. cbn [fst snd].
    fold (pscale c p). rewrite IH, cval_mul. cring.
  Qed.
  Lemma take_ok m p : let (s, r) := take m p in dn p = (cvalQ s * RtoC (mv m) + dn r)%C.
  Proof.
    induction p as [|[q n] p IH]; cbn [take].
    - unfold dn; cbn. apply Ceq; cbn; unfold Q2R; cbn; ring.
    - destruct (take m p) as [s r]. destruct (mono_eqb m n) eqn:E.
      + apply mono_eqb_ok in E. subst n. rewrite dn_cons, IH, cval_add. cbn [fst snd]. cring.
      + rewrite !dn_cons, IH. cbn [fst snd]. cring.
  Qed.
  Lemma pzero_ok fuel : forall p, pzero fuel p = true -> dn p = RtoC 0.
  Proof.
    induction fuel as [|fuel IH]; intros [|[q m] p]; cbn [pzero]; try discriminate; try reflexivity.
    pose proof (take_ok m p) as T. destruct (take m p) as [s r]. destruct (cq0b (cqadd q s)) eqn:E; [|discriminate].
    intros Hz. rewrite dn_cons, T, (IH r Hz). cbn [fst snd]. apply cval_0 in E. rewrite cval_add in E.
    transitivity ((cvalQ q + cvalQ s) * RtoC (mv m))%C; [cring|]. rewrite E. cring.
  Qed.
  Lemma peqb_ok p q : peqb p q = true -> dn p = dn q.
  Proof.
    unfold peqb. intros E. apply pzero_ok in E. rewrite dn_app, dn_scale, cval_neg, cval_1 in E.
    transitivity ((dn p + - RtoC 1 * dn q) + dn q)%C; [cring|]. rewrite E. cring.
  Qed.
End Den.

Section Mv.
  Variables (a : centre -> R) (A : centre -> Z -> R) (O : Z -> R) (I : Z -> Z -> funs -> R).
  Variables (rts : list Z) (pw : Z -> centre -> Z).
  Local Notation MV := (mval a A O I rts pw).
  Local Notation TM := (term a A O I pw).

  Definition tv (w : list word) : R :=
    rsum (map (fun o => TM (mkm [] w) o 0%Z * TM (mkm [] w) o 1%Z * TM (mkm [] w) o 2%Z) rts).
  Definition kv (k : list nat) : R :=
    kpow A (mkm k []) (CI, CJ) 0 0%Z * kpow A (mkm k []) (CI, CJ) 0 1%Z * kpow A (mkm k []) (CI, CJ) 0 2%Z *
    (kpow A (mkm k []) (CK, CL) 3 0%Z * kpow A (mkm k []) (CK, CL) 3 1%Z * kpow A (mkm k []) (CK, CL) 3 2%Z).
  Lemma mval_split m : MV m = kv (m_k m) * tv (m_w m).
  Proof. reflexivity. Qed.

  Lemma term_wv wx wy wz o : four wx -> four wy -> four wz ->
    TM (mkm [] (wx ++ wy ++ wz)) o 0%Z = wv a A O I 0 o (pw 0%Z) wx /\
    TM (mkm [] (wx ++ wy ++ wz)) o 1%Z = wv a A O I 1 o (pw 1%Z) wy /\
    TM (mkm [] (wx ++ wy ++ wz)) o 2%Z = wv a A O I 2 o (pw 2%Z) wz.
  Proof.
    unfold four. intros Hx Hy Hz.
    destruct wx as [|x0 [|x1 [|x2 [|x3 [|? ?]]]]]; try discriminate.
    destruct wy as [|y0 [|y1 [|y2 [|y3 [|? ?]]]]]; try discriminate.
    destruct wz as [|z0 [|z1 [|z2 [|z3 [|? ?]]]]]; try discriminate.
    unfold term, wv, base, word_at. cbn [m_w app].
    repeat split; f_equal; extensionality c; destruct c; reflexivity.
  Qed.

  Lemma rsum_mul {S T} (f : S -> R) (g : T -> R) l m :
    rsum (map f l) * rsum (map g m) = rsum (flat_map (fun x => map (fun y => f x * g y) m) l).
  Proof.
    induction l as [|x l IH]; [unfold rsum; cbn; ring|]. cbn [map flat_map]. rewrite rsum_cons, rsum_app, <- IH.
    assert (rsum (map (fun y => f x * g y) m) = f x * rsum (map g m)) as ->.
    { clear. induction m as [|y m IH]; [unfold rsum; cbn; ring|]. cbn [map]. rewrite !rsum_cons, IH. ring. }
    ring.
  Qed.
  Lemma rsum_plus {T} (f g : T -> R) l : rsum (map (fun x => f x + g x) l) = rsum (map f l) + rsum (map g l).
  Proof. induction l as [|x l IH]; [unfold rsum; cbn; ring|]. cbn [map]. rewrite !rsum_cons, IH. ring. Qed.
  Lemma rsum_zero {T} (l : list T) : rsum (map (fun _ => 0) l) = 0.
  Proof. induction l as [|x l IH]; [reflexivity|]. cbn [map]. rewrite rsum_cons, IH. ring. Qed.
  (** exchange of sums *)
  Lemma rsum_swap {S T} (f : S -> T -> R) l m :
    rsum (map (fun x => rsum (map (f x) m)) l) = rsum (map (fun y => rsum (map (fun x => f x y) l)) m).
  Proof.
    induction l as [|x l IH].
    - cbn [map]. unfold rsum at 1. cbn. rewrite rsum_zero. reflexivity.
    - cbn [map]. rewrite rsum_cons, IH, <- rsum_plus. f_equal.
  Qed.
  Lemma map_flat_map {S T U} (f : T -> U) (g : S -> list T) l : map f (flat_map g l) = flat_map (fun x => map f (g x)) l.
  Proof. induction l as [|x l IH]; [reflexivity|]. cbn. rewrite map_app, IH. reflexivity. Qed.
  Lemma flat_map_ext_in' {S T} (f g : S -> list T) l : (forall x, In x l -> f x = g x) -> flat_map f l = flat_map g l.
  Proof. induction l as [|x l IH]; intros H; [reflexivity|]. cbn. rewrite (H x), IH; auto using in_eq, in_cons. Qed.

  Lemma rsum_flat {S T} (f : T -> R) (g : S -> list T) l : rsum (map f (flat_map g l)) = rsum (map (fun x => rsum (map f (g x))) l).
  Proof. induction l as [|x l IH]; [reflexivity|]. cbn [flat_map map]. rewrite map_app, rsum_app, IH. reflexivity. Qed.
  Lemma rsum_scal {T} s (f : T -> R) l : rsum (map (fun x => s * f x) l) = s * rsum (map f l).
  Proof. induction l as [|x l IH]; [unfold rsum; cbn; ring|]. cbn [map]. rewrite !rsum_cons, IH. ring. Qed.

  Lemma combos_ok (x : gin R) wx wy wz : x_a x = a -> x_R x = A -> x_C x = O ->
    Forall four wx -> Forall four wy -> Forall four wz ->
    rsum (map (pr3 x I pw wx wy wz) rts) =
    rsum (map tv (flat_map (fun x => flat_map (fun y => map (fun z => x ++ y ++ z) wz) wy) wx)).
  Proof.
    intros Ea EA EO Fx Fy Fz. unfold tv.
    rewrite rsum_swap. apply rsum_ext. intros o _. unfold pr3. rewrite Ea, EA, EO.
    symmetry. rewrite rsum_flat.
    transitivity (rsum (map (fun w => (bv a A O I 1 o wy (pw 1%Z) * bv a A O I 2 o wz (pw 2%Z)) * wv a A O I 0 o (pw 0%Z) w) wx)).
    2: { rewrite (rsum_scal _ (wv a A O I 0 o (pw 0%Z))). unfold bv. ring. }
    apply rsum_ext. intros ux Hux. rewrite rsum_flat.
    transitivity (rsum (map (fun w => (wv a A O I 0 o (pw 0%Z) ux * bv a A O I 2 o wz (pw 2%Z)) * wv a A O I 1 o (pw 1%Z) w) wy)).
    2: { rewrite (rsum_scal _ (wv a A O I 1 o (pw 1%Z))). unfold bv. ring. }
    apply rsum_ext. intros uy Huy. rewrite map_map.
    transitivity (rsum (map (fun w => (wv a A O I 0 o (pw 0%Z) ux * wv a A O I 1 o (pw 1%Z) uy) * wv a A O I 2 o (pw 2%Z) w) wz)).
    2: { rewrite (rsum_scal _ (wv a A O I 2 o (pw 2%Z))). unfold bv. ring. }
    apply rsum_ext.
    intros uz Huz.
    pose proof (proj1 (Forall_forall _ _) Fx _ Hux). pose proof (proj1 (Forall_forall _ _) Fy _ Huy). pose proof (proj1 (Forall_forall _ _) Fz _ Huz).
    destruct (term_wv ux uy uz o) as (-> & -> & ->); auto.
  Qed.

  Lemma kv6 c0 c1 c2 c3 c4 c5 : kv [c0; c1; c2; c3; c4; c5] =
    (A CI 0%Z - A CJ 0%Z) ^ c0 * (A CI 1%Z - A CJ 1%Z) ^ c1 * (A CI 2%Z - A CJ 2%Z) ^ c2 *
    ((A CK 0%Z - A CL 0%Z) ^ c3 * (A CK 1%Z - A CL 1%Z) ^ c4 * (A CK 2%Z - A CL 2%Z) ^ c5).
  Proof. reflexivity. Qed.
  Definition cnt (i : Z) (k : gconst) : nat :=
    length (filter (fun qa : bool * Z => (i =? (if fst qa then 3 else 0) + snd qa)%Z) k).
  Lemma cnt_cons i q ax k : cnt i ((q, ax) :: k) = if (i =? (if q then 3 else 0) + ax)%Z then S (cnt i k) else cnt i k.
  Proof. unfold cnt. cbn [filter fst snd]. destruct (_ =? _)%Z; reflexivity. Qed.
  Lemma kv_cnt k : kv (kcount k) =
    (A CI 0%Z - A CJ 0%Z) ^ cnt 0 k * (A CI 1%Z - A CJ 1%Z) ^ cnt 1 k * (A CI 2%Z - A CJ 2%Z) ^ cnt 2 k *
    ((A CK 0%Z - A CL 0%Z) ^ cnt 3 k * (A CK 1%Z - A CL 1%Z) ^ cnt 4 k * (A CK 2%Z - A CL 2%Z) ^ cnt 5 k).
  Proof. reflexivity. Qed.
  Lemma consts_ok (x : gin R) k : x_R x = A -> k_ok k = true -> IntgModel.cval 1 Rmult Rminus x k = kv (kcount k).
  Proof.
    intros EA. unfold IntgModel.cval.
    assert (G : forall v, k_ok k = true -> fold_left (fun v qa => v * pairR Rminus x (fst qa) (snd qa)) k v = v * kv (kcount k)).
    { induction k as [|[q ax] k IH]; intros v Hk.
      - cbn [fold_left]. rewrite kv_cnt. unfold cnt. cbn [filter length pow]. ring.
      - cbn [k_ok forallb] in Hk. apply andb_true_iff in Hk. destruct Hk as [H1 H2]. cbn [fst snd] in H1.
        cbn [fold_left]. rewrite IH by assumption. rewrite !kv_cnt, !cnt_cons.
        assert (Hax : ax = 0%Z \/ ax = 1%Z \/ ax = 2%Z) by lia. clear H1 H2 IH.
        unfold pairR. rewrite EA. cbn [fst snd].
        destruct q, Hax as [-> | [-> | ->]]; cbn [Z.eqb Pos.eqb Z.add Pos.add Pos.succ pow]; ring. }
    intros Hk. rewrite G by assumption. ring.
  Qed.

  (** real combinations *)
  Definition rv (p : poly) : R := rsum (map (fun t => Q2R (fst (fst t)) * MV (snd t)) p).
  Lemma rv_app p q : rv (p ++ q) = rv p + rv q. Proof. unfold rv. rewrite map_app. apply rsum_app. Qed.
  Definition realp (p : poly) : Prop := Forall (fun t => snd (fst t) = 0%Q) p.
  Lemma dn_real p : realp p -> dn MV p = RtoC (rv p).
  Proof.
    induction p as [|[[q s] m] p IH]; intros Hp; [reflexivity|]. inversion Hp as [|? ? E Hp']; subst. cbn in E. subst s.
    rewrite dn_cons, (IH Hp'). unfold rv. cbn [map]. rewrite rsum_cons. unfold cvalQ. cbn [fst snd].
    assert (Q2R 0 = 0) as -> by (unfold Q2R; cbn; lra). cring.
  Qed.
  Lemma Q2R_Z k : Q2R (inject_Z k) = IZR k. Proof. unfold Q2R. cbn. field. Qed.
  Lemma rv_term k kc ws : rv (map (fun w => (zq k, mkm (kcount kc) w)) ws) = IZR k * kv (kcount kc) * rsum (map tv ws).
  Proof.
    unfold rv. rewrite map_map. cbn [fst snd zq]. rewrite Q2R_Z. rewrite <- rsum_scal. apply rsum_ext. intros w _.
    rewrite mval_split. cbn [m_k m_w]. ring.
  Qed.

  Lemma row_ok fam ng st cs (x : gin R) ss s : x_R x = A ->
    length s = length ss -> (forall i ws v, nth_error ss i = Some ws -> nth_error s i = Some v -> v = rsum (map tv ws)) ->
    forall ts p acc, sym_row fam ng st cs ss ts = Some p ->
      row 1 Rplus Rmult Rminus IZR x cs s ts acc = Some (acc + rv p) /\ realp p.
  Proof.
    intros EA Hlen Hs ts. induction ts as [|[[k oc] i] ts IH]; intros p acc E; cbn [sym_row] in E.
    - injection E as <-. cbn. unfold rv, rsum. cbn. split; [f_equal; ring|constructor].
    - apply bind_some in E. destruct E as (ws & E1 & E). apply bind_some in E. destruct E as (kc & E2 & E).
      apply bind_some in E. destruct E as (u & E3 & E). apply chk_some in E3. apply bind_some in E. destruct E as (r & E4 & E).
      injection E as <-.
      assert (Hi : (N.to_nat i < length s)%nat). { rewrite Hlen. apply nth_error_Some. rewrite E1. discriminate. }
      destruct (nth_error s (N.to_nat i)) as [v|] eqn:Ev; [|apply nth_error_None in Ev; lia].
      specialize (Hs _ _ _ E1 Ev). cbn [row]. rewrite Ev. cbn [bind].
      assert (Ec : (match oc with None => Some 1 | Some j => k <- nth_error cs j ;; Some (IntgModel.cval 1 Rmult Rminus x k) end) = Some (kv (kcount kc))).
      { rewrite <- (consts_ok x kc EA E3). destruct oc as [j|]; [rewrite E2; reflexivity|]. injection E2 as <-. reflexivity. }
      rewrite Ec. cbn [bind]. destruct (IH _ (acc + IZR k * kv (kcount kc) * v) E4) as [-> Hr]. split.
      + f_equal. rewrite rv_app, rv_term, Hs. ring.
      + apply Forall_app. split; [|exact Hr]. apply Forall_forall. intros t Ht. apply in_map_iff in Ht. destruct Ht as (w & <- & _). reflexivity.
  Qed.

  (** ** partial integration *)
  Section Parts.
    Hypothesis Hp : by_parts a A I.
    Definition sgn (w : word) : R := if Nat.odd (nD w) then -1 else 1.
    Lemma move_ok ax o (F : funs) : (forall c, gpoly (a c) (A c ax) (F c)) -> forall wi wj,
      I ax o (updf (updf F CI (word_fun A O ax wi (F CI))) CJ (word_fun A O ax wj (F CJ))) =
      sgn wi * I ax o (updf F CJ (word_fun A O ax (rev wi ++ wj) (F CJ))).
    Proof.
      intros HF wi. induction wi as [|p wi IH]; intros wj.
      - cbn [rev app]. unfold sgn. cbn. rewrite Rmult_1_l. f_equal. extensionality c. destruct c; reflexivity.
      - set (G := updf (updf F CI (word_fun A O ax wi (F CI))) CJ (word_fun A O ax wj (F CJ))).
        assert (HG : forall c, gpoly (a c) (A c ax) (G c)).
        { intros c. unfold G. destruct c; cbn [updf]; try apply HF; apply gp_word, HF. }
        assert (E1 : updf (updf F CI (word_fun A O ax (p :: wi) (F CI))) CJ (word_fun A O ax wj (F CJ)) =
                     updf G CI (prim_fun A O ax p (G CI))).
        { extensionality c. destruct c; reflexivity. }
        assert (E2 : updf G CJ (prim_fun A O ax p (G CJ)) =
                     updf (updf F CI (word_fun A O ax wi (F CI))) CJ (word_fun A O ax (p :: wj) (F CJ))).
        { extensionality c. destruct c; reflexivity. }
        rewrite E1. cbn [rev]. rewrite <- app_assoc. cbn [app].
        assert (E3 : I ax o (updf G CI (prim_fun A O ax p (G CI))) =
                     (match p with D => -1 | _ => 1 end) * I ax o (updf G CJ (prim_fun A O ax p (G CJ)))).
        { destruct (Hp ax o G HG) as [P1 P2]. destruct p as [|og]; cbn [prim_fun].
          - rewrite P1. ring.
          - rewrite P2. ring. }
        rewrite E3, E2, IH. unfold sgn, nD. destruct p; cbn [filter length].
        + rewrite Nat.odd_succ, <- Nat.negb_odd. destruct (Nat.odd _); cbn; ring.
        + ring.
    Qed.
    Lemma move_term ax o wi wj wk wl :
      wv a A O I ax o (pw ax) [wi; wj; wk; wl] = sgn wi * wv a A O I ax o (pw ax) [[]; rev wi ++ wj; wk; wl].
    Proof.
      set (F := fun c => word_fun A O ax (nth (cnum c) [[]; []; wk; wl] []) (phi (a c) (A c ax) (Z.to_nat (pw ax c)))).
      assert (HF : forall c, gpoly (a c) (A c ax) (F c)). { intros c. apply gp_word, gp_phi. }
      pose proof (move_ok ax o F HF wi wj) as E.
      assert (Q1 : wv a A O I ax o (pw ax) [wi; wj; wk; wl] =
        I ax o (updf (updf F CI (word_fun A O ax wi (F CI))) CJ (word_fun A O ax wj (F CJ)))).
      { unfold wv. f_equal. extensionality c. destruct c; reflexivity. }
      assert (Q2 : wv a A O I ax o (pw ax) [[]; rev wi ++ wj; wk; wl] = I ax o (updf F CJ (word_fun A O ax (rev wi ++ wj) (F CJ)))).
      { unfold wv. f_equal. extensionality c. destruct c; reflexivity. }
      rewrite Q1, Q2. exact E.
    Qed.
    Lemma sgn3 u v w : sgn u * sgn v * sgn w = if Nat.odd (nD u + nD v + nD w) then -1 else 1.
    Proof.
      unfold sgn. rewrite !Nat.odd_add. destruct (Nat.odd (nD u)), (Nat.odd (nD v)), (Nat.odd (nD w)); cbn; ring.
    Qed.
    Lemma move_val t : (cvalQ (fst (move t)) * RtoC (MV (snd (move t))) = cvalQ (fst t) * RtoC (MV (snd t)))%C.
    Proof.
      destruct t as [q [k w]]. unfold move. cbn [fst snd m_w m_k].
      destruct w as [|xi [|xj [|xk [|xl [|yi [|yj [|yk [|yl [|zi [|zj [|zk [|zl [|? ?]]]]]]]]]]]]]; try reflexivity.
      cbn [fst snd]. rewrite !mval_split. cbn [m_k m_w].
      assert (T : tv [xi; xj; xk; xl; yi; yj; yk; yl; zi; zj; zk; zl] =
        sgn xi * sgn yi * sgn zi * tv [[]; rev xi ++ xj; xk; xl; []; rev yi ++ yj; yk; yl; []; rev zi ++ zj; zk; zl]).
      { unfold tv. rewrite <- rsum_scal. apply rsum_ext. intros o _.
        destruct (term_wv [xi; xj; xk; xl] [yi; yj; yk; yl] [zi; zj; zk; zl] o eq_refl eq_refl eq_refl) as (T1 & T2 & T3).
        destruct (term_wv [[]; rev xi ++ xj; xk; xl] [[]; rev yi ++ yj; yk; yl] [[]; rev zi ++ zj; zk; zl] o eq_refl eq_refl eq_refl) as (U1 & U2 & U3).
        
        refine (eq_trans (f_equal2 Rmult (f_equal2 Rmult T1 T2) T3) _).
        refine (eq_trans _ (eq_sym (f_equal (Rmult (sgn xi * sgn yi * sgn zi)) (f_equal2 Rmult (f_equal2 Rmult U1 U2) U3)))).
        rewrite (move_term 0), (move_term 1), (move_term 2). ring. }
      rewrite T, sgn3. destruct (Nat.odd _); rewrite ?cval_neg; cring.
    Qed.
    Lemma dn_move p : dn MV (map move p) = dn MV p.
    Proof. induction p as [|t p IH]; [reflexivity|]. cbn [map]. rewrite !dn_cons, IH, move_val. reflexivity. Qed.
  End Parts.

  Lemma peqb'_ok parts p q : (parts = true -> by_parts a A I) -> peqb' parts p q = true -> dn MV p = dn MV q.
  Proof.
    unfold peqb'. intros Hp E. destruct parts; [|exact (peqb_ok _ _ _ E)].
    apply (peqb_ok MV) in E. rewrite !dn_move in E by auto. exact E.
  Qed.
End Mv.
