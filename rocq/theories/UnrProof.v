(** UnrProof.v — symbolic execution of the unrolled kernels with polynomials over the recurrence
    coefficients, and comparison with the polynomials of the moment table. *)
From Coq Require Import EnvRing InitialRing Ring_theory Ring.
From Verif Require Import Base EnvModel RecModel RecSpec UnrModel UnrTab UnrTabSr UnrKern.

Notation pol := (Pol Z).
Definition padd : pol -> pol -> pol := Padd 0 Z.add Zeq_bool.
Definition pmul : pol -> pol -> pol := Pmul 0 1 Z.add Z.mul Zeq_bool.
Definition pX (p : positive) : pol := mk_X 0 1 p.
Definition pc (z : Z) : pol := Pc z.
Definition peq : pol -> pol -> bool := Peq Zeq_bool.

(** variables: coefficients of 3 axes and up to 4 roots, two vectors, 4 weights *)
Definition okax (ax : Z) : bool := (0 <=? ax) && (ax <? 3).
Definition okn (n : Z) : bool := (0 <=? n) && (n <? 4).
Definition venc (v : ucoef) : option positive :=
  match v with
  | C0 ax n => if okax ax && okn n then Some (Z.to_pos (1 + (4 * ax + n))) else None
  | CP ax n => if okax ax && okn n then Some (Z.to_pos (13 + (4 * ax + n))) else None
  | B10 n => if okn n then Some (Z.to_pos (25 + n)) else None
  | B01 n => if okn n then Some (Z.to_pos (29 + n)) else None
  | B00 n => if okn n then Some (Z.to_pos (33 + n)) else None
  | RIJ ax => if okax ax then Some (Z.to_pos (37 + ax)) else None
  | RKL ax => if okax ax then Some (Z.to_pos (40 + ax)) else None
  end.
Definition wenc (n : Z) : positive := Z.to_pos (43 + n).

Definition sym := list (Z * pol).
Fixpoint look (s : sym) (p : Z) : option pol :=
  match s with
  | [] => None
  | (q, v) :: s => if q =? p then Some v else look s p
  end.
Fixpoint seval (s : sym) (e : uexpr) : option pol :=
  match e with
  | UV v => match venc v with Some p => Some (pX p) | None => None end
  | UG p => look s p
  | UK z => if 0 <=? z then Some (pc z) else None
  | UAdd a b => match seval s a, seval s b with Some x, Some y => Some (padd x y) | _, _ => None end
  | UMul a b => match seval s a, seval s b with Some x, Some y => Some (pmul x y) | _, _ => None end
  end.
Fixpoint srun (N : Z) (k : list ustmt) (s : sym) : option sym :=
  match k with
  | [] => Some s
  | Set_ p e :: k =>
      if (0 <=? p) && (p <? N) then
        match seval s e with Some v => srun N k ((p, v) :: s) | None => None end
      else None
  end.

Section Sound.
  Context {F : Type} (zero one : F) (add mul sub : F -> F -> F) (opp : F -> F) (inj : Z -> F).
  Hypothesis RT : ring_theory zero one add mul sub opp (@eq F).
  Hypothesis inj0 : inj 0 = zero.
  Hypothesis injS : forall i, 0 <= i -> inj (i + 1) = add (inj i) one.
  Add Ring Fring : RT.
  Let phi := gen_phiZ zero one add mul opp.
  Let Rsth := Eqsth F.
  Let Reqe := Eq_ext add mul opp.
  Let ARth := Rth_ARth Rsth Reqe RT.
  Let MOR := gen_phiZ_morph Rsth Reqe RT.

  Variables (bc : @rys2e F) (rirj rkrl : Z -> F) (w : Z -> F).
  Definition vals : list F :=
    [zero;
     c00 bc 0 0; c00 bc 0 1; c00 bc 0 2; c00 bc 0 3; c00 bc 1 0; c00 bc 1 1; c00 bc 1 2; c00 bc 1 3;
     c00 bc 2 0; c00 bc 2 1; c00 bc 2 2; c00 bc 2 3;
     c0p bc 0 0; c0p bc 0 1; c0p bc 0 2; c0p bc 0 3; c0p bc 1 0; c0p bc 1 1; c0p bc 1 2; c0p bc 1 3;
     c0p bc 2 0; c0p bc 2 1; c0p bc 2 2; c0p bc 2 3;
     b10 bc 0; b10 bc 1; b10 bc 2; b10 bc 3; b01 bc 0; b01 bc 1; b01 bc 2; b01 bc 3;
     b00 bc 0; b00 bc 1; b00 bc 2; b00 bc 3;
     rirj 0; rirj 1; rirj 2; rkrl 0; rkrl 1; rkrl 2; w 0; w 1; w 2; w 3].
  Definition venv : Env.Env F := fun p => nth (Pos.to_nat p) vals zero.
  Definition pval (p : pol) : F := Pphi add mul phi venv p.

  Lemma pval_add a b : pval (padd a b) = add (pval a) (pval b).
  Proof. exact (Padd_ok Rsth Reqe ARth MOR b a venv). Qed.
  Lemma pval_mul a b : pval (pmul a b) = mul (pval a) (pval b).
  Proof. exact (Pmul_ok Rsth Reqe ARth MOR a b venv). Qed.
  Lemma pval_X p : pval (pX p) = venv p.
  Proof. symmetry. exact (mkX_ok Rsth Reqe ARth MOR p venv). Qed.
  Lemma pval_eq a b : peq a b = true -> pval a = pval b.
  Proof. intros H. exact (Peq_ok Rsth Reqe MOR a b H venv). Qed.
  Lemma pval_c z : 0 <= z -> pval (pc z) = inj z.
  Proof.
    intros Hz. change (pval (pc z)) with (phi z). revert z Hz. apply natlike_ind.
    - rewrite inj0. reflexivity.
    - intros z Hz IH. replace (Z.succ z) with (z + 1) by lia. rewrite (injS z Hz), <- IH.
      transitivity (add (phi z) (phi 1)); [exact (morph_add MOR z 1)|reflexivity].
  Qed.

  Lemma four n : okn n = true -> n = 0 \/ n = 1 \/ n = 2 \/ n = 3.
  Proof. unfold okn. lia. Qed.
  Lemma three n : okax n = true -> n = 0 \/ n = 1 \/ n = 2.
  Proof. unfold okax. lia. Qed.
  Lemma venc_ok v p : venc v = Some p -> venv p = coef bc rirj rkrl v.
  Proof.
    destruct v as [ax n|ax n|n|n|n|ax|ax]; cbn [venc];
      match goal with |- (if ?b then _ else _) = _ -> _ => destruct b eqn:E; [|discriminate] end;
      intros [= <-];
      try (apply andb_prop in E; destruct E as [E1 E2]; apply three in E1; apply four in E2;
           destruct E1 as [->|[->| ->]], E2 as [->|[->|[->| ->]]]; reflexivity);
      try (apply four in E; destruct E as [->|[->|[->| ->]]]; reflexivity);
      try (apply three in E; destruct E as [->|[->| ->]]; reflexivity).
  Qed.
  Lemma wenc_ok n : 0 <= n < 4 -> venv (wenc n) = w n.
  Proof. intros H. destruct (four n) as [->|[->|[->| ->]]]; [unfold okn; lia|reflexivity..]. Qed.

  Definition Rel (s : sym) (g : arr F) : Prop := forall p v, look s p = Some v -> rd g p = Some (pval v).

  Lemma seval_ok s g : Rel s g -> forall e v, seval s e = Some v -> eval add mul inj bc rirj rkrl g e = Some (pval v).
  Proof.
    intros HR. induction e as [u|p|z|a IHa b IHb|a IHa b IHb]; intros v; cbn [seval eval].
    - destruct (venc u) as [q|] eqn:E; [|discriminate]. intros [= <-]. rewrite pval_X, (venc_ok _ _ E). reflexivity.
    - apply HR.
    - destruct (0 <=? z) eqn:E; [|discriminate]. intros [= <-]. rewrite pval_c by lia. reflexivity.
    - destruct (seval s a) as [x|]; [|discriminate]. destruct (seval s b) as [y|]; [|discriminate].
      intros [= <-]. rewrite (IHa x eq_refl), (IHb y eq_refl). cbn [bind]. rewrite pval_add. reflexivity.
    - destruct (seval s a) as [x|]; [|discriminate]. destruct (seval s b) as [y|]; [|discriminate].
      intros [= <-]. rewrite (IHa x eq_refl), (IHb y eq_refl). cbn [bind]. rewrite pval_mul. reflexivity.
  Qed.

  Lemma srun_ok N k : forall s g s', srun N k s = Some s' -> Rel s g -> N <= asize g ->
    wp (run add mul inj bc rirj rkrl k g) (fun g' => Rel s' g' /\ Frame (fun p => 0 <= p < N) g g').
  Proof.
    induction k as [|[p e] k IH]; intros s g s'; cbn [srun run].
    - intros [= <-] HR _. cbn [wp]. split; [exact HR|apply Frame_refl].
    - destruct ((0 <=? p) && (p <? N)) eqn:E; [|discriminate]. destruct (seval s e) as [v|] eqn:Ev; [|discriminate].
      intros Hs HR HN. unfold step. rewrite (seval_ok s g HR e v Ev). cbn [bind].
      apply wp_bind. apply wp_wr; [lia|]. intros g1 S1 G1.
      assert (R1 : Rel ((p, v) :: s) g1).
      { intros q u Hq. cbn [look] in Hq. apply rd_spec. rewrite S1, G1. destruct (p =? q) eqn:Eq.
        - injection Hq as <-. replace q with p by lia. rewrite Z.eqb_refl. split; [lia|reflexivity].
        - specialize (HR q u Hq). rewrite Z.eqb_sym in Eq. rewrite Eq. apply rd_spec. exact HR. }
      assert (F1 : Frame (fun p => 0 <= p < N) g g1) by (eapply Frame_step; [apply Frame_refl|exact S1|exact G1|cbv beta; lia]).
      eapply wp_mono; [apply (IH _ g1 s' Hs R1)|]; [lia|]. cbv beta. intros g' [H1 H2]. split; [exact H1|].
      exact (Frame_trans _ _ _ _ F1 H2).
  Qed.

  (** ** The polynomials of the moment table *)
  Definition tX (c : ucoef) : pol := match venc c with Some p => pX p | None => pc 0 end.
  Lemma tX_ok c : venc c <> None -> pval (tX c) = coef bc rirj rkrl c.
  Proof. unfold tX. destruct (venc c) eqn:E; [|congruence]. intros _. rewrite pval_X. exact (venc_ok _ _ E). Qed.

  (** one raising step: a (n G(n-1) + m G(m-1)) with absent terms left out *)
  Definition term (n : Z) (p : pol) : pol := if n =? 0 then pc 0 else pmul (pc n) p.
End Sound.

Section Poly.
  Variables (iB kB : bool) (ax n : Z).
  Definition cAp := if iB then tX (C0 ax n) else padd (tX (C0 ax n)) (tX (RIJ ax)).
  Definition cBp := if iB then padd (tX (C0 ax n)) (tX (RIJ ax)) else tX (C0 ax n).
  Definition cCp := if kB then tX (CP ax n) else padd (tX (CP ax n)) (tX (RKL ax)).
  Definition cDp := if kB then padd (tX (CP ax n)) (tX (RKL ax)) else tX (CP ax n).
  Fixpoint spol (fuel : nat) (i j k l : Z) : pol :=
    match fuel with
    | O => if ax =? 2 then pX (wenc n) else pc 1
    | Datatypes.S f =>
        let raise (c bs bo : pol) (i j k l : Z) (own : bool) :=
          let t1 := padd (term i (spol f (i - 1) j k l)) (term j (spol f i (j - 1) k l)) in
          let t2 := padd (term k (spol f i j (k - 1) l)) (term l (spol f i j k (l - 1))) in
          padd (padd (pmul c (spol f i j k l)) (pmul bs (if own then t1 else t2))) (pmul bo (if own then t2 else t1)) in
        if 0 <? i then raise cAp (tX (B10 n)) (tX (B00 n)) (i - 1) j k l true
        else if 0 <? j then raise cBp (tX (B10 n)) (tX (B00 n)) i (j - 1) k l true
        else if 0 <? k then raise cCp (tX (B01 n)) (tX (B00 n)) i j (k - 1) l false
        else if 0 <? l then raise cDp (tX (B01 n)) (tX (B00 n)) i j k (l - 1) false
        else spol f i j k l
    end.
End Poly.

(** ** The layout and the check *)
Definition d_i (a b : Z) : Z := if a >? b then a + b + 1 else a + 1.
Definition d_j (a b : Z) : Z := if a >? b then b + 1 else a + b + 1.
Definition gsz (nr a b c d : Z) : Z := nr * d_i a b * d_i c d * d_j c d * d_j a b.
Definition cell (nr a b c d n i j k l : Z) : Z :=
  n + nr * i + nr * d_i a b * k + nr * d_i a b * d_i c d * l + nr * d_i a b * d_i c d * d_j c d * j.
Fixpoint upto (n : nat) : list Z := match n with O => [] | Datatypes.S n => upto n ++ [Z.of_nat n] end.
Definition rng (n : Z) : list Z := upto (Z.to_nat n).
Fixpoint mentions (f : ucoef -> bool) (e : uexpr) : bool :=
  match e with
  | UV v => f v
  | UAdd a b | UMul a b => mentions f a || mentions f b
  | _ => false
  end.
Definition isij (v : ucoef) := match v with RIJ _ => true | _ => false end.
Definition iskl (v : ucoef) := match v with RKL _ => true | _ => false end.
Definition free (f : ucoef -> bool) (k : list ustmt) : bool := forallb (fun s => match s with Set_ _ e => negb (mentions f e) end) k.

Definition order4 (a b c d : Z) : Z := Z.quot (a + b + c + d) 2 + 1.
Definition check (k : list ustmt) (nr a b c d : Z) : bool :=
  let gs := gsz nr a b c d in
  match srun (3 * gs) k (map (fun n => (2 * gs + n, pX (wenc n))) (rng nr)) with
  | None => false
  | Some s =>
    forallb (fun ax => forallb (fun n =>
      forallb (fun i => forallb (fun j => forallb (fun k => forallb (fun l =>
        match look s (ax * gs + cell nr a b c d n i j k l) with
        | Some p => peq p (spol (a >? b) (c >? d) ax n (Z.to_nat (i + j + k + l)) i j k l)
        | None => false
        end) (rng (d + 1))) (rng (c + 1))) (rng (b + 1))) (rng (a + 1))) (rng nr)) (rng 3)
    && (((0 <? a) && (0 <? b)) || free isij k) && (((0 <? c) && (0 <? d)) || free iskl k) && (nr <=? 4)
  end.

Definition code (a b c d : Z) : Z := Z.lor (Z.lor (Z.lor (Z.shiftl a 6) (Z.shiftl b 4)) (Z.shiftl c 2)) d.
Definition check_all (sr : bool) : bool :=
  forallb (fun a => forallb (fun b => forallb (fun c => forallb (fun d =>
    negb (a + b + c + d <=? 3) ||
    match (if sr then srg0_unrolled_switch else g0_unrolled_switch) (code a b c d) with
    | Some k => check k (if sr then 2 * order4 a b c d else order4 a b c d) a b c d
    | None => false
    end) (rng 4)) (rng 4)) (rng 4)) (rng 4).

Lemma check_plain : check_all false = true.
Proof. vm_cast_no_check (eq_refl true). Qed.
Lemma check_sr : check_all true = true.
Proof. vm_cast_no_check (eq_refl true). Qed.
