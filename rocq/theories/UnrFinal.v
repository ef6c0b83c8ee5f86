(** UnrFinal.v — the unrolled kernels compute the moment table. *)
From Coq Require Import Ring.
From Verif Require Import Base EnvModel RecModel RecSpec RecMoments UnrModel UnrTab UnrTabSr UnrKern UnrProof Rec2Spec Rec2Final Rec2Kern.

Lemma rng_in n z : 0 <= z < n -> In z (rng n).
Proof.
  intros H. unfold rng. assert (G : forall m, (Z.to_nat z < m)%nat -> In z (upto m)).
  { induction m as [|m IH]; intros Hm; [lia|]. cbn [upto]. apply in_or_app.
    destruct (Nat.eq_dec (Z.to_nat z) m) as [E|E]; [right; left; lia|left; apply IH; lia]. }
  apply G. lia.
Qed.
Lemma all_rng n f : forallb f (rng n) = true -> forall z, 0 <= z < n -> f z = true.
Proof. intros H z Hz. rewrite forallb_forall in H. exact (H z (rng_in n z Hz)). Qed.
Lemma in_rng n z : In z (rng n) -> 0 <= z < n.
Proof.
  unfold rng. assert (G : forall m, In z (upto m) -> 0 <= z < Z.of_nat m).
  { induction m as [|m IH]; cbn [upto]; [intros []|]. intros H. apply in_app_or in H. destruct H as [H|[<-|[]]]; [specialize (IH H); lia|lia]. }
  intros H. specialize (G _ H). lia.
Qed.

(** the kernel the switch selects for given momenta *)
Definition switch_of (sr : bool) := if sr then srg0_unrolled_switch else g0_unrolled_switch.
Definition roots_of (sr : bool) (a b c d : Z) : Z := if sr then 2 * order4 a b c d else order4 a b c d.
Lemma checked sr a b c d : 0 <= a -> 0 <= b -> 0 <= c -> 0 <= d -> a + b + c + d <= 3 ->
  exists k, switch_of sr (code a b c d) = Some k /\ check k (roots_of sr a b c d) a b c d = true.
Proof.
  intros Ha Hb Hc Hd Hs.
  assert (H : check_all sr = true) by (destruct sr; [exact check_sr|exact check_plain]).
  unfold check_all in H.
  pose proof (all_rng _ _ (all_rng _ _ (all_rng _ _ (all_rng _ _ H a ltac:(lia)) b ltac:(lia)) c ltac:(lia)) d ltac:(lia)) as G.
  cbv beta in G. replace (a + b + c + d <=? 3) with true in G by lia. cbn [negb orb] in G.
  unfold switch_of, roots_of. destruct sr; destruct (_ (code a b c d)) as [k|]; try discriminate G; exists k; split; auto.
Qed.

(** environments whose initialiser may select an unrolled kernel *)
Inductive unr_env : envs -> Prop :=
| ue_2e om ng li lj lk ll ci cj ck cl :
    0 <= li + IINC ng -> 0 <= lj + JINC ng -> 0 <= lk + KINC ng -> 0 <= ll + LINC ng ->
    unr_env (init_int2e om ng li lj lk ll ci cj ck cl)
| ue_3c2e om ng li lj lk ci cj ck :
    0 <= li + IINC ng -> 0 <= lj + JINC ng -> 0 <= lk + KINC ng ->
    unr_env (init_int3c2e om ng li lj lk ci cj ck)
| ue_2c2e om ng li lk ci ck :
    0 <= li + IINC ng -> 0 <= lk + KINC ng -> unr_env (init_int2c2e om ng li lk ci ck).

Section Fin.
  Context {F : Type} (zero one : F) (add mul sub : F -> F -> F) (opp : F -> F) (inj : Z -> F).
  Hypothesis RT : ring_theory zero one add mul sub opp (@eq F).
  Hypothesis inj0 : inj 0 = zero.
  Hypothesis injS : forall i, 0 <= i -> inj (i + 1) = add (inj i) one.
  Add Ring Fring2 : RT.

  (** kernels that do not mention a vector do not depend on it *)
  Lemma eval_free bc r1 r2 s1 s2 (g : arr F) e :
    (mentions isij e = false \/ forall ax, r1 ax = r2 ax) -> (mentions iskl e = false \/ forall ax, s1 ax = s2 ax) ->
    eval add mul inj bc r1 s1 g e = eval add mul inj bc r2 s2 g e.
  Proof.
    induction e as [u|p|z|a IHa b IHb|a IHa b IHb]; cbn [mentions eval]; intros H1 H2.
    - f_equal. destruct u; cbn [coef isij iskl] in *; try reflexivity; [destruct H1 as [H|H]|destruct H2 as [H|H]]; try discriminate H; apply H.
    - reflexivity.
    - reflexivity.
    - assert (H1' : (mentions isij a = false \/ (forall ax, r1 ax = r2 ax)) /\ (mentions isij b = false \/ (forall ax, r1 ax = r2 ax)))
        by (destruct H1 as [H|H]; [apply orb_false_elim in H; destruct H; auto|auto]).
      assert (H2' : (mentions iskl a = false \/ (forall ax, s1 ax = s2 ax)) /\ (mentions iskl b = false \/ (forall ax, s1 ax = s2 ax)))
        by (destruct H2 as [H|H]; [apply orb_false_elim in H; destruct H; auto|auto]).
      rewrite (IHa (proj1 H1') (proj1 H2')), (IHb (proj2 H1') (proj2 H2')). reflexivity.
    - assert (H1' : (mentions isij a = false \/ (forall ax, r1 ax = r2 ax)) /\ (mentions isij b = false \/ (forall ax, r1 ax = r2 ax)))
        by (destruct H1 as [H|H]; [apply orb_false_elim in H; destruct H; auto|auto]).
      assert (H2' : (mentions iskl a = false \/ (forall ax, s1 ax = s2 ax)) /\ (mentions iskl b = false \/ (forall ax, s1 ax = s2 ax)))
        by (destruct H2 as [H|H]; [apply orb_false_elim in H; destruct H; auto|auto]).
      rewrite (IHa (proj1 H1') (proj1 H2')), (IHb (proj2 H1') (proj2 H2')). reflexivity.
  Qed.
  Lemma run_free bc r1 r2 s1 s2 k : (free isij k = true \/ forall ax, r1 ax = r2 ax) -> (free iskl k = true \/ forall ax, s1 ax = s2 ax) ->
    forall g : arr F, run add mul inj bc r1 s1 k g = run add mul inj bc r2 s2 k g.
  Proof.
    induction k as [|[p e] k IH]; intros H1 H2 g; cbn [run]; [reflexivity|].
    unfold free in H1, H2. cbn [forallb] in H1, H2.
    unfold step. rewrite (eval_free bc r1 r2 s1 s2 g e).
    - destruct (eval add mul inj bc r2 s2 g e) as [v|]; [|reflexivity]. cbn [bind]. destruct (wr g p v) as [g'|]; [|reflexivity]. cbn [bind].
      apply IH; [destruct H1 as [H|H]; [left; apply andb_prop in H; apply H|right; exact H]|destruct H2 as [H|H]; [left; apply andb_prop in H; apply H|right; exact H]].
    - destruct H1 as [H|H]; [left; apply andb_prop in H; destruct H as [H _]; destruct (mentions isij e); [discriminate H|reflexivity]|right; exact H].
    - destruct H2 as [H|H]; [left; apply andb_prop in H; destruct H as [H _]; destruct (mentions iskl e); [discriminate H|reflexivity]|right; exact H].
  Qed.

  (** the polynomials are the table *)
  Section Tab.
    Variables (bc : @rys2e F) (rirj rkrl : Z -> F) (w : Z -> F) (iB kB : bool) (ax n : Z).
    Hypothesis (Hax : 0 <= ax < 3) (Hn : 0 <= n < 4).
    Let ev := pval zero one add mul opp bc rirj rkrl w.
    Let cA := if iB then c00 bc ax n else add (c00 bc ax n) (rirj ax).
    Let cB := if iB then add (c00 bc ax n) (rirj ax) else c00 bc ax n.
    Let cC := if kB then c0p bc ax n else add (c0p bc ax n) (rkrl ax).
    Let cD := if kB then add (c0p bc ax n) (rkrl ax) else c0p bc ax n.
    Variable T : Z -> Z -> Z -> Z -> F.
    Hypothesis HT : gauss2 add mul inj (b10 bc n) (b01 bc n) (b00 bc n) cA cB cC cD T.
    Hypothesis HO : T 0 0 0 0 = origin one (w n) ax.

    Lemma ev_coef c : venc c <> None -> ev (tX c) = coef bc rirj rkrl c.
    Proof. exact (tX_ok zero one add mul sub opp RT bc rirj rkrl w c). Qed.
    Lemma okaxT : okax ax = true. Proof. unfold okax. lia. Qed.
    Lemma oknT : okn n = true. Proof. unfold okn. lia. Qed.
    Lemma ev_C0 : ev (tX (C0 ax n)) = c00 bc ax n.
    Proof. rewrite ev_coef; [reflexivity|]. cbn [venc]. rewrite okaxT, oknT. discriminate. Qed.
    Lemma ev_CP : ev (tX (CP ax n)) = c0p bc ax n.
    Proof. rewrite ev_coef; [reflexivity|]. cbn [venc]. rewrite okaxT, oknT. discriminate. Qed.
    Lemma ev_B10 : ev (tX (B10 n)) = b10 bc n.
    Proof. rewrite ev_coef; [reflexivity|]. cbn [venc]. rewrite oknT. discriminate. Qed.
    Lemma ev_B01 : ev (tX (B01 n)) = b01 bc n.
    Proof. rewrite ev_coef; [reflexivity|]. cbn [venc]. rewrite oknT. discriminate. Qed.
    Lemma ev_B00 : ev (tX (B00 n)) = b00 bc n.
    Proof. rewrite ev_coef; [reflexivity|]. cbn [venc]. rewrite oknT. discriminate. Qed.
    Lemma ev_RIJ : ev (tX (RIJ ax)) = rirj ax.
    Proof. rewrite ev_coef; [reflexivity|]. cbn [venc]. rewrite okaxT. discriminate. Qed.
    Lemma ev_RKL : ev (tX (RKL ax)) = rkrl ax.
    Proof. rewrite ev_coef; [reflexivity|]. cbn [venc]. rewrite okaxT. discriminate. Qed.
    Lemma ev_add a b : ev (padd a b) = add (ev a) (ev b).
    Proof. exact (pval_add zero one add mul sub opp RT bc rirj rkrl w a b). Qed.
    Lemma ev_mul a b : ev (pmul a b) = mul (ev a) (ev b).
    Proof. exact (pval_mul zero one add mul sub opp RT bc rirj rkrl w a b). Qed.
    Lemma ev_c z : 0 <= z -> ev (pc z) = inj z.
    Proof. exact (pval_c zero one add mul sub opp inj RT inj0 injS bc rirj rkrl w z). Qed.
    Lemma ev_cA : ev (cAp iB ax n) = cA.
    Proof. unfold cAp, cA. destruct iB; [exact ev_C0|rewrite ev_add, ev_C0, ev_RIJ; reflexivity]. Qed.
    Lemma ev_cB : ev (cBp iB ax n) = cB.
    Proof. unfold cBp, cB. destruct iB; [rewrite ev_add, ev_C0, ev_RIJ; reflexivity|exact ev_C0]. Qed.
    Lemma ev_cC : ev (cCp kB ax n) = cC.
    Proof. unfold cCp, cC. destruct kB; [exact ev_CP|rewrite ev_add, ev_CP, ev_RKL; reflexivity]. Qed.
    Lemma ev_cD : ev (cDp kB ax n) = cD.
    Proof. unfold cDp, cD. destruct kB; [rewrite ev_add, ev_CP, ev_RKL; reflexivity|exact ev_CP]. Qed.
    Lemma ev_term m p v : 0 <= m -> (0 < m -> ev p = v) -> ev (term m p) = mul (inj m) v.
    Proof.
      intros Hm H. unfold term. destruct (m =? 0) eqn:E.
      - replace m with 0 by lia. rewrite ev_c by lia. rewrite inj0. ring.
      - rewrite ev_mul, ev_c, H by lia. reflexivity.
    Qed.

    Lemma spol_ok : forall f i j k l, 0 <= i -> 0 <= j -> 0 <= k -> 0 <= l -> i + j + k + l = Z.of_nat f ->
      ev (spol iB kB ax n f i j k l) = T i j k l.
    Proof.
      assert (I1 : inj 1 = one) by (change 1 with (0 + 1); rewrite injS, inj0 by lia; ring).
      assert (G : forall f i j k l, 0 <= i -> 0 <= j -> 0 <= k -> 0 <= l -> i + j + k + l <= Z.of_nat f ->
                ev (spol iB kB ax n f i j k l) = T i j k l); [|intros; apply G; lia].
      induction f as [|f IH]; intros i j k l Hi Hj Hk Hl Hf.
      - replace i with 0 by lia. replace j with 0 by lia. replace k with 0 by lia. replace l with 0 by lia.
        rewrite HO. cbn [spol]. unfold origin. destruct (ax =? 2) eqn:E.
        + replace (ax =? 0) with false by lia. replace (ax =? 1) with false by lia.
          unfold ev. rewrite (pval_X zero one add mul sub opp RT bc rirj rkrl w). apply wenc_ok. exact Hn.
        + rewrite ev_c, I1 by lia. destruct (ax =? 0) eqn:E0; [reflexivity|]. replace (ax =? 1) with true by lia. reflexivity.
      - cbn [spol].
        destruct (0 <? i) eqn:Ei; [|destruct (0 <? j) eqn:Ej; [|destruct (0 <? k) eqn:Ek; [|destruct (0 <? l) eqn:El]]].
        + pose proof (g2_i _ _ _ _ _ _ _ _ _ _ _ HT (i - 1) j k l ltac:(lia) Hj Hk Hl) as E. replace (i - 1 + 1) with i in E by lia. rewrite E.
          rewrite !ev_add, !ev_mul, !ev_add, ev_cA, ev_B10, ev_B00.
          rewrite (ev_term (i - 1) _ (T (i - 1 - 1) j k l)) by (try (intros; apply IH); lia).
          rewrite (ev_term j _ (T (i - 1) (j - 1) k l)) by (try (intros; apply IH); lia).
          rewrite (ev_term k _ (T (i - 1) j (k - 1) l)) by (try (intros; apply IH); lia).
          rewrite (ev_term l _ (T (i - 1) j k (l - 1))) by (try (intros; apply IH); lia).
          rewrite IH by lia. reflexivity.
        + pose proof (g2_j _ _ _ _ _ _ _ _ _ _ _ HT i (j - 1) k l Hi ltac:(lia) Hk Hl) as E. replace (j - 1 + 1) with j in E by lia. rewrite E.
          rewrite !ev_add, !ev_mul, !ev_add, ev_cB, ev_B10, ev_B00.
          rewrite (ev_term i _ (T (i - 1) (j - 1) k l)) by (try (intros; apply IH); lia).
          rewrite (ev_term (j - 1) _ (T i (j - 1 - 1) k l)) by (try (intros; apply IH); lia).
          rewrite (ev_term k _ (T i (j - 1) (k - 1) l)) by (try (intros; apply IH); lia).
          rewrite (ev_term l _ (T i (j - 1) k (l - 1))) by (try (intros; apply IH); lia).
          rewrite IH by lia. reflexivity.
        + pose proof (g2_k _ _ _ _ _ _ _ _ _ _ _ HT i j (k - 1) l Hi Hj ltac:(lia) Hl) as E. replace (k - 1 + 1) with k in E by lia. rewrite E.
          rewrite !ev_add, !ev_mul, !ev_add, ev_cC, ev_B01, ev_B00.
          rewrite (ev_term i _ (T (i - 1) j (k - 1) l)) by (try (intros; apply IH); lia).
          rewrite (ev_term j _ (T i (j - 1) (k - 1) l)) by (try (intros; apply IH); lia).
          rewrite (ev_term (k - 1) _ (T i j (k - 1 - 1) l)) by (try (intros; apply IH); lia).
          rewrite (ev_term l _ (T i j (k - 1) (l - 1))) by (try (intros; apply IH); lia).
          rewrite IH by lia. reflexivity.
        + pose proof (g2_l _ _ _ _ _ _ _ _ _ _ _ HT i j k (l - 1) Hi Hj Hk ltac:(lia)) as E. replace (l - 1 + 1) with l in E by lia. rewrite E.
          rewrite !ev_add, !ev_mul, !ev_add, ev_cD, ev_B01, ev_B00.
          rewrite (ev_term i _ (T (i - 1) j k (l - 1))) by (try (intros; apply IH); lia).
          rewrite (ev_term j _ (T i (j - 1) k (l - 1))) by (try (intros; apply IH); lia).
          rewrite (ev_term k _ (T i j (k - 1) (l - 1))) by (try (intros; apply IH); lia).
          rewrite (ev_term (l - 1) _ (T i j k (l - 1 - 1))) by (try (intros; apply IH); lia).
          rewrite IH by lia. reflexivity.
        + apply IH; lia.
    Qed.
  End Tab.

  (** a checked kernel *)
  Lemma kernel_ok k nr a b c d bc rirj rkrl (A B C D : Z -> F) (P Q : Z -> Z -> F) (S : Z -> Z -> Z -> Z -> Z -> Z -> F) w (g : arr F) :
    check k nr a b c d = true ->
    let gs := gsz nr a b c d in
    let iB := a >? b in
    let kB := c >? d in
    (forall ax n, 0 <= ax < 3 -> 0 <= n < nr ->
      gauss2 add mul inj (b10 bc n) (b01 bc n) (b00 bc n)
        (sub (P ax n) (A ax)) (sub (P ax n) (B ax)) (sub (Q ax n) (C ax)) (sub (Q ax n) (D ax)) (S ax n)) ->
    (forall ax n, 0 <= ax < 3 -> 0 <= n < nr ->
       c00 bc ax n = sub (P ax n) (if iB then A ax else B ax) /\
       c0p bc ax n = sub (Q ax n) (if kB then C ax else D ax) /\
       S ax n 0 0 0 0 = origin one (w n) ax) ->
    (0 < a -> 0 < b -> forall ax, 0 <= ax < 3 -> rirj ax = if iB then sub (A ax) (B ax) else sub (B ax) (A ax)) ->
    (0 < c -> 0 < d -> forall ax, 0 <= ax < 3 -> rkrl ax = if kB then sub (C ax) (D ax) else sub (D ax) (C ax)) ->
    3 * gs <= asize g ->
    (forall n, 0 <= n < nr -> rd g (2 * gs + n) = Some (w n)) ->
    wp (run add mul inj bc rirj rkrl k g) (fun g' =>
      (forall ax n i j k l, 0 <= ax < 3 -> 0 <= n < nr -> 0 <= i <= a -> 0 <= j <= b -> 0 <= k <= c -> 0 <= l <= d ->
         rd g' (ax * gs + cell nr a b c d n i j k l) = Some (S ax n i j k l)) /\
      Frame (fun p => 0 <= p < 3 * gs) g g').
  Proof.
    intros HC gs iB kB HS Hc Hij Hkl Hsz Hw. unfold check in HC. fold gs in HC.
    destruct (srun (3 * gs) k _) as [s|] eqn:Es; [|discriminate HC].
    apply andb_prop in HC. destruct HC as [HC H4]. apply andb_prop in HC. destruct HC as [HC Fkl]. apply andb_prop in HC. destruct HC as [HC Fij].
    assert (Hnr : nr <= 4) by lia.
    set (r1 := fun ax => if (0 <=? ax) && (ax <? 3) then (if iB then sub (A ax) (B ax) else sub (B ax) (A ax)) else rirj ax).
    set (s1 := fun ax => if (0 <=? ax) && (ax <? 3) then (if kB then sub (C ax) (D ax) else sub (D ax) (C ax)) else rkrl ax).
    rewrite (run_free bc rirj r1 rkrl s1 k).
    2:{ apply orb_prop in Fij. destruct Fij as [H|H]; [right|left; exact H]. intros ax. unfold r1.
        destruct ((0 <=? ax) && (ax <? 3)) eqn:E; [|reflexivity]. apply Hij; lia. }
    2:{ apply orb_prop in Fkl. destruct Fkl as [H|H]; [right|left; exact H]. intros ax. unfold s1.
        destruct ((0 <=? ax) && (ax <? 3)) eqn:E; [|reflexivity]. apply Hkl; lia. }
    eapply wp_mono; [apply (srun_ok zero one add mul sub opp inj RT inj0 injS bc r1 s1 w (3 * gs) k _ g s Es)|]; [|exact Hsz|].
    - (* the weights *)
      intros p v. assert (G : forall l, (forall z, In z l -> 0 <= z < nr) -> look (map (fun n => (2 * gs + n, pX (wenc n))) l) p = Some v ->
        exists z, 0 <= z < nr /\ p = 2 * gs + z /\ v = pX (wenc z)).
      { induction l as [|z l IH]; cbn [map look]; [discriminate|]. intros Hl. destruct (2 * gs + z =? p) eqn:E.
        - intros [= <-]. exists z. split; [apply Hl; left; reflexivity|]. split; [lia|reflexivity].
        - apply IH. intros y Hy. apply Hl. right. exact Hy. }
      intros H. destruct (G _ (in_rng nr) H) as (z & Hz & -> & ->). rewrite (Hw z Hz).
      rewrite (pval_X zero one add mul sub opp RT bc r1 s1 w). f_equal. symmetry. apply wenc_ok. lia.
    - cbv beta. intros g' [HR HF]. split; [|exact HF].
      intros ax n i j kk l Hax Hn Hi Hj Hk Hl.
      pose proof (all_rng _ _ (all_rng _ _ (all_rng _ _ (all_rng _ _ (all_rng _ _ (all_rng _ _ HC ax Hax) n Hn) i ltac:(lia)) j ltac:(lia)) kk ltac:(lia)) l ltac:(lia)) as G.
      cbv beta in G. destruct (look s _) as [p|] eqn:El; [|discriminate G].
      rewrite (HR _ _ El). f_equal. rewrite (pval_eq zero one add mul sub opp RT bc r1 s1 w _ _ G).
      destruct (Hc ax n Hax Hn) as (E1 & E2 & E3).
      assert (Hn4 : 0 <= n < 4) by (clear -Hn Hnr; lia).
      apply (spol_ok bc r1 s1 w iB kB ax n Hax Hn4 (S ax n)); [|exact E3|apply Hi|apply Hj|apply Hk|apply Hl|clear -Hi Hj Hk Hl; lia].
      assert (ER : r1 ax = if iB then sub (A ax) (B ax) else sub (B ax) (A ax)) by (unfold r1; replace ((0 <=? ax) && (ax <? 3)) with true by lia; reflexivity).
      assert (EK : s1 ax = if kB then sub (C ax) (D ax) else sub (D ax) (C ax)) by (unfold s1; replace ((0 <=? ax) && (ax <? 3)) with true by lia; reflexivity).
      rewrite ER, EK, E1, E2. clear -HS Hax Hn RT. specialize (HS ax n Hax Hn).
      replace (if iB then sub (P ax n) (if iB then A ax else B ax) else add (sub (P ax n) (if iB then A ax else B ax)) (if iB then sub (A ax) (B ax) else sub (B ax) (A ax)))
        with (sub (P ax n) (A ax)) by (destruct iB; ring).
      replace (if iB then add (sub (P ax n) (if iB then A ax else B ax)) (if iB then sub (A ax) (B ax) else sub (B ax) (A ax)) else sub (P ax n) (if iB then A ax else B ax))
        with (sub (P ax n) (B ax)) by (destruct iB; ring).
      replace (if kB then sub (Q ax n) (if kB then C ax else D ax) else add (sub (Q ax n) (if kB then C ax else D ax)) (if kB then sub (C ax) (D ax) else sub (D ax) (C ax)))
        with (sub (Q ax n) (C ax)) by (destruct kB; ring).
      replace (if kB then add (sub (Q ax n) (if kB then C ax else D ax)) (if kB then sub (C ax) (D ax) else sub (D ax) (C ax)) else sub (Q ax n) (if kB then C ax else D ax))
        with (sub (Q ax n) (D ax)) by (destruct kB; ring).
      exact HS.
  Qed.

  (** ** The environments of the drivers that choose an unrolled kernel *)
  Lemma layout_of e : unr_env e -> 
    let a := li_ceil e in let b := lj_ceil e in let c := lk_ceil e in let d := ll_ceil e in
    0 <= a /\ 0 <= b /\ 0 <= c /\ 0 <= d /\ rys_order e = order4 a b c d /\
    (nrys_roots e = rys_order e \/ nrys_roots e = 2 * rys_order e) /\
    g_size e = gsz (nrys_roots e) a b c d /\
    forall n i j k l, inbox e n i j k l -> adrs e n i j k l = cell (nrys_roots e) a b c d n i j k l.
  Proof.
    intros [om ng li lj lk ll ci cj ck cl H1 H2 H3 H4|om ng li lj lk ci cj ck H1 H2 H3|om ng li lk ci ck H1 H2];
      unfold init_int2e, init_4c, init_int3c2e, init_int2c2e; cbv zeta;
      cbn [li_ceil lj_ceil lk_ceil ll_ceil rys_order nrys_roots g_size];
      unfold inbox, adrs, cell, gsz, order4, d_i, d_j;
      cbn [li_ceil lj_ceil lk_ceil ll_ceil rys_order nrys_roots g_size g_stride_i g_stride_j g_stride_k g_stride_l].
    - set (o := Z.quot _ 2 + 1). destruct (sr_roots_cases om o) as [E|E]; rewrite E.
      + repeat (split; [first [assumption|reflexivity|left; reflexivity]|]). intros; ring.
      + repeat (split; [first [assumption|reflexivity|right; lia]|]). intros; ring.
    - replace (li + IINC ng + (lj + JINC ng) + 0 + (lk + KINC ng)) with (li + IINC ng + (lj + JINC ng) + (lk + KINC ng)) by lia.
      set (o := Z.quot _ 2 + 1). replace (0 >? lk + KINC ng) with false by lia.
      destruct (sr_roots_cases om o) as [E|E]; rewrite E.
      + repeat (split; [first [assumption|reflexivity|left; reflexivity]|]).
        destruct (li + IINC ng >? lj + JINC ng); (split; [ring|intros n i j k l H]); assert (k = 0) as -> by lia; ring.
      + repeat (split; [first [assumption|reflexivity|right; lia]|]).
        destruct (li + IINC ng >? lj + JINC ng); (split; [ring|intros n i j k l H]); assert (k = 0) as -> by lia; ring.
    - replace (li + IINC ng + 0 + (lk + KINC ng) + 0) with (li + IINC ng + (lk + KINC ng)) by lia.
      set (o := Z.quot _ 2 + 1).
      destruct (sr_roots_cases om o) as [E|E]; rewrite E.
      + repeat (split; [first [assumption|reflexivity|left; reflexivity]|]).
        clear E. clearbody o. revert H1 H2. generalize (li + IINC ng), (lk + KINC ng). intros a c H1 H2.
        destruct (a >? 0) eqn:Q1, (c >? 0) eqn:Q2; try (assert (a = 0) as -> by lia); try (assert (c = 0) as -> by lia);
          (split; [ring|intros n i j k l H]); assert (j = 0) as -> by lia; assert (l = 0) as -> by lia; ring.
      + repeat (split; [first [assumption|reflexivity|right; lia]|]).
        clear E. clearbody o. revert H1 H2. generalize (li + IINC ng), (lk + KINC ng). intros a c H1 H2.
        destruct (a >? 0) eqn:Q1, (c >? 0) eqn:Q2; try (assert (a = 0) as -> by lia); try (assert (c = 0) as -> by lia);
          (split; [ring|intros n i j k l H]); assert (j = 0) as -> by lia; assert (l = 0) as -> by lia; ring.
  Qed.
End Fin.
