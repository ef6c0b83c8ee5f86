(** OptProof.v — the filling routines of an optimizer compute the tables they should. *)
From Coq Require Import ZifyBool Permutation.
From Verif Require Import Base BasModel BasSpec EnvModel IdxModel IdxSpec IdxProof CtrModel CtrProof CtrFinal OutModel OptModel OptSpec.
Ltac Zify.zify_post_hook ::= Z.div_mod_to_equations.

(** ** sums *)
Lemma Zsum_nonneg n f : (forall k, 0 <= k < n -> 0 <= f k) -> 0 <= Zsum n f.
Proof.
  unfold Zsum. intros H. assert (H' : forall k, 0 <= k < Z.of_nat (Z.to_nat n) -> 0 <= f k) by (intros; apply H; lia).
  revert H'. generalize (Z.to_nat n). clear. induction n as [|m IH]; intros H; cbn [zsum]; [lia|].
  specialize (IH ltac:(intros; apply H; lia)). specialize (H (Z.of_nat m) ltac:(lia)). lia.
Qed.

Lemma Zsum_le i n f : 0 <= i <= n -> (forall k, 0 <= k < n -> 0 <= f k) -> Zsum i f <= Zsum n f.
Proof.
  intros Hi H. unfold Zsum.
  assert (G : forall d, (Z.to_nat i + d <= Z.to_nat n)%nat -> zsum (Z.to_nat i) f <= zsum (Z.to_nat i + d) f).
  { induction d as [|d IH]; intros Hd; [rewrite Nat.add_0_r; lia|].
    replace (Z.to_nat i + S d)%nat with (S (Z.to_nat i + d)) by lia. cbn [zsum].
    specialize (IH ltac:(lia)). specialize (H (Z.of_nat (Z.to_nat i + d)) ltac:(lia)). lia. }
  specialize (G (Z.to_nat n - Z.to_nat i)%nat ltac:(lia)).
  replace (Z.to_nat i + (Z.to_nat n - Z.to_nat i))%nat with (Z.to_nat n) in G by lia. exact G.
Qed.

Lemma Zsum_next i n f : 0 <= i < n -> (forall k, 0 <= k < n -> 0 <= f k) -> Zsum i f + f i <= Zsum n f.
Proof. intros Hi H. rewrite <- Zsum_succ by lia. apply Zsum_le; [lia|exact H]. Qed.

Lemma rd_frame {A} W (a b : arr A) i v : Frame W a b -> ~ W i -> rd a i = Some v -> rd b i = Some v.
Proof. intros [S C] H E. apply rd_spec in E. apply rd_spec. rewrite S, C by exact H. exact E. Qed.

Lemma wp_wr' {A} (a : arr A) i v (Q : arr A -> Prop) : 0 <= i < asize a ->
  (forall a', rd a' i = Some v -> Frame (fun x => x = i) a a' -> Q a') -> wp (wr a i v) Q.
Proof.
  intros Hi H. apply wp_wr; [exact Hi|]. intros a' Hs Hc. apply H.
  - apply rd_spec. rewrite Hs, Hc, Z.eqb_refl. split; [lia|reflexivity].
  - split; [exact Hs|]. intros j Hj. rewrite Hc. destruct (j =? i) eqn:E; [lia|reflexivity].
Qed.

Section Fills.
  Context {F : Type} (O : fops F).
  Variables (atm bas : arr Z) (nbas : Z) (env : arr F) (V : view) (ev : Z -> F).
  Hypothesis Hn : 0 <= nbas.
  Hypothesis HV : has_shells atm bas nbas V.
  Hypothesis HS : shells_ok nbas V (asize env).
  Hypothesis HE : env_is env ev.

  Let tot := Zsum nbas (v_np V).
  Definition off (i : Z) : Z := Zsum i (v_np V).

  Lemma np_nonneg k : 0 <= k < nbas -> 0 <= v_np V k.
  Proof. intros H. destruct (HS k H) as (_ & H1 & _). exact H1. Qed.
  Lemma nc_nonneg k : 0 <= k < nbas -> 0 <= v_nc V k.
  Proof. intros H. destruct (HS k H) as (_ & _ & H1 & _). exact H1. Qed.

  Lemma off_bound i : 0 <= i < nbas -> 0 <= off i /\ off i + v_np V i <= tot.
  Proof.
    intros H. split; [apply Zsum_nonneg; intros; apply np_nonneg; lia|].
    apply Zsum_next; [exact H|exact np_nonneg].
  Qed.

  Lemma rd_np i : 0 <= i < nbas -> bas_at bas NPRIM_OF i = Some (v_np V i).
  Proof. intros H. destruct (HV i H) as (_ & _ & E & _). exact E. Qed.
  Lemma rd_nc i : 0 <= i < nbas -> bas_at bas NCTR_OF i = Some (v_nc V i).
  Proof. intros H. destruct (HV i H) as (_ & _ & _ & E & _). exact E. Qed.
  Lemma rd_l i : 0 <= i < nbas -> bas_at bas ANG_OF i = Some (v_l V i).
  Proof. intros H. destruct (HV i H) as (_ & E & _). exact E. Qed.
  Lemma rd_exp i : 0 <= i < nbas -> bas_at bas PTR_EXP i = Some (v_exp V i).
  Proof. intros H. destruct (HV i H) as (_ & _ & _ & _ & E & _). exact E. Qed.
  Lemma rd_coef i : 0 <= i < nbas -> bas_at bas PTR_COEFF i = Some (v_coef V i).
  Proof. intros H. destruct (HV i H) as (_ & _ & _ & _ & _ & E). exact E. Qed.
  Lemma rd_xyz i : 0 <= i < nbas -> coord_of atm bas i = Some (v_xyz V i).
  Proof.
    intros H. destruct (HV i H) as ((a & E1 & E2) & _). unfold coord_of, bas_at, BAS_SLOTS, ATOM_OF, ATM_SLOTS, PTR_COORD.
    rewrite E1. exact E2.
  Qed.
  Lemma rd_env x : 0 <= x < asize env -> rd env x = Some (ev x).
  Proof. apply HE. Qed.

  Lemma tot_prim_ok : tot_prim bas nbas = Some tot.
  Proof.
    unfold tot_prim.
    assert (H : wp (for_ 0 nbas (fun i s => n <- bas_at bas NPRIM_OF i ;; Some (s + n)) 0) (fun r => r = tot)).
    { apply (wp_for (fun i s => s = Zsum i (v_np V))); [exact Hn|rewrite Zsum_0 by lia; reflexivity| |intros s ->; reflexivity].
      intros i s Hi ->. rewrite rd_np by lia. cbn [bind wp]. rewrite Zsum_succ by lia. reflexivity. }
    apply wp_exists in H. destruct H as [x [E ->]]. exact E.
  Qed.

  (** ** logarithms of the largest coefficients *)
  (** largest absolute value of [cf 0 .. cf (n-1)] as the code accumulates it *)
  Fixpoint maxabs (cf : Z -> F) (n : nat) : F :=
    match n with Datatypes.O => f0 O | S m => fmax O (maxabs cf m) (fabs O (cf (Z.of_nat m))) end.
  Definition lmv (i ip : Z) : F :=
    flog O (maxabs (fun c => ev (v_coef V i + (c * v_np V i + ip))) (Z.to_nat (v_nc V i))).

  Lemma log_max_ok lm i : 0 <= i < nbas -> asize lm = tot ->
    wp (CINTOpt_log_max_pgto_coeff O lm (off i) env (v_coef V i) (v_np V i) (v_nc V i))
       (fun lm' => Frame (fun x => off i <= x < off i + v_np V i) lm lm' /\
                   forall ip, 0 <= ip < v_np V i -> rd lm' (off i + ip) = Some (lmv i ip)).
  Proof.
    intros Hi Hs. pose proof (off_bound i Hi). pose proof (HS i Hi) as (_ & P1 & P2 & _ & _ & P3 & P4 & _).
    unfold CINTOpt_log_max_pgto_coeff.
    apply (wp_for (fun p a => Frame (fun x => off i <= x < off i + v_np V i) lm a /\
                              forall ip, 0 <= ip < p -> rd a (off i + ip) = Some (lmv i ip)));
      [exact P1|split; [apply Frame_refl|intros; lia]| |auto].
    intros p a Hp [Fr Dn]. apply wp_bind.
    apply (wp_for (fun c m => m = maxabs (fun c => ev (v_coef V i + (c * v_np V i + p))) (Z.to_nat c)));
      [exact P2|reflexivity| |].
    - intros c m Hc ->. rewrite rd_env by nia. cbn [bind wp].
      replace (Z.to_nat (c + 1)) with (S (Z.to_nat c)) by lia. cbn [maxabs]. rewrite Z2Nat.id by lia. reflexivity.
    - intros m ->. apply wp_wr'; [destruct Fr; lia|]. intros a' E Fr'. split.
      + eapply Frame_trans; [exact Fr|]. eapply Frame_mono; [exact Fr'|]. cbv beta. intros; lia.
      + intros ip Hip. destruct (Z.eq_dec ip p) as [->|N]; [exact E|].
        eapply rd_frame; [exact Fr'|cbv beta; lia|]. apply Dn. lia.
  Qed.

  Definition logm_table (t : arr ptr) (lm : arr F) : Prop :=
    asize t = Z.max nbas 1 /\ asize lm = tot /\
    forall i, 0 <= i < nbas -> rd t i = Some (Off (off i)) /\
      forall ip, 0 <= ip < v_np V i -> rd lm (off i + ip) = Some (lmv i ip).

  Lemma set_log_maxc_ok : wp (set_log_maxc O bas nbas env)
    (fun r => match r with None => tot = 0 | Some (t, lm) => tot <> 0 /\ logm_table t lm /\ rd t 0 = Some (Off 0) end).
  Proof.
    unfold set_log_maxc. rewrite tot_prim_ok. cbn [bind]. destruct (tot =? 0) eqn:E0; [cbn [wp]; lia|].
    apply wp_bind. apply wp_wr'; [cbn [asize uninit]; lia|]. intros t0 E0' Fr0. apply wp_bind.
    apply (wp_for (fun i '(t, lm, o) => o = off i /\ asize t = Z.max nbas 1 /\ asize lm = tot /\ rd t 0 = Some (Off 0) /\
       forall k, 0 <= k < i -> rd t k = Some (Off (off k)) /\
         forall ip, 0 <= ip < v_np V k -> rd lm (off k + ip) = Some (lmv k ip))); [exact Hn| | |].
    - split; [unfold off; rewrite Zsum_0 by lia; reflexivity|].
      split; [destruct Fr0 as [-> _]; reflexivity|]. split; [reflexivity|]. split; [exact E0'|intros; lia].
    - intros i [[t lm] o] Hi (-> & St & Sl & Z0 & Dn).
      rewrite rd_np, rd_nc, rd_coef by lia. cbn [bind].
      apply wp_bind. apply wp_wr'; [lia|]. intros t' E' Fr'. apply wp_bind.
      eapply wp_mono; [apply log_max_ok; [lia|exact Sl]|]. intros lm' [Frl Dnl]. cbn [wp].
      split; [unfold off; rewrite Zsum_succ by lia; reflexivity|].
      split; [destruct Fr'; congruence|]. split; [destruct Frl; congruence|]. split.
      { destruct (Z.eq_dec i 0) as [->|N]; [rewrite E'; unfold off; rewrite Zsum_0 by lia; reflexivity|].
        eapply rd_frame; [exact Fr'|cbv beta; lia|exact Z0]. }
      intros k Hk. destruct (Z.eq_dec k i) as [->|N]; [split; [exact E'|exact Dnl]|].
      destruct (Dn k ltac:(lia)) as [D1 D2]. split; [eapply rd_frame; [exact Fr'|cbv beta; lia|exact D1]|].
      intros ip Hip. eapply rd_frame; [exact Frl|cbv beta|apply D2, Hip].
      assert (off k + v_np V k <= off i).
      { unfold off. rewrite <- Zsum_succ by lia. apply Zsum_le; [lia|intros; apply np_nonneg; lia]. }
      lia.
    - intros [[t lm] o] (_ & St & Sl & Z0 & Dn). cbn [wp]. split; [lia|]. split; [|exact Z0]. split; [exact St|]. split; [exact Sl|exact Dn].
  Qed.

  (** ** pair data of two shells *)
  Definition rr_of (i j : Z) : F :=
    let d c := fsub O (ev (v_xyz V i + c)) (ev (v_xyz V j + c)) in
    fadd O (fadd O (fmul O (d 0) (d 0)) (fmul O (d 1) (d 1))) (fmul O (d 2) (d 2)).

  Lemma xyz_rd i : 0 <= i < nbas -> rd env (v_xyz V i) = Some (ev (v_xyz V i + 0)) /\
    rd env (v_xyz V i + 1) = Some (ev (v_xyz V i + 1)) /\ rd env (v_xyz V i + 2) = Some (ev (v_xyz V i + 2)).
  Proof.
    intros H. destruct (HS i H) as (_ & _ & _ & _ & _ & _ & _ & P1 & P2).
    rewrite Z.add_0_r. repeat split; apply rd_env; lia.
  Qed.

  Lemma dist2_ok i j : 0 <= i < nbas -> 0 <= j < nbas -> dist2 O env (v_xyz V i) (v_xyz V j) = Some (rr_of i j).
  Proof.
    intros Hi Hj. destruct (xyz_rd i Hi) as (A1 & A2 & A3), (xyz_rd j Hj) as (B1 & B2 & B3).
    unfold dist2. rewrite A1, A2, A3, B1, B2, B3. reflexivity.
  Qed.

  (** the screening constant of a pair of shells, and one pair of primitives *)
  Definition lrr_of (i j lic ljc : Z) : F :=
    let aij := fadd O (ev (v_exp V i + (v_np V i - 1))) (ev (v_exp V j + (v_np V j - 1))) in
    let l0 := fsub O (f1_7 O) (fmul O (f1_5 O) (flog O aij)) in
    if 0 <? lic + ljc then
      let om := ev 8 in let dist := fsqrt O (rr_of i j) in
      let reach := if flt O om (f0 O)
                   then fadd O dist (fmul O (fdiv O (fmul O om om) (fadd O (fmul O om om) aij)) (fofZ O 8))
                   else dist in
      fadd O l0 (fmul O (fofZ O (lic + ljc)) (flog O (fadd O reach (f1 O))))
    else l0.
  Definition entry (i j lic ljc : Z) (cut : F) (ip jp : Z) : pdata F :=
    pair_entry O (ev (v_exp V i + ip)) (ev (v_exp V j + jp))
      (ev (v_xyz V i + 0)) (ev (v_xyz V i + 1)) (ev (v_xyz V i + 2))
      (ev (v_xyz V j + 0)) (ev (v_xyz V j + 1)) (ev (v_xyz V j + 2))
      (lmv i ip) (lmv j jp) (lrr_of i j lic ljc) (rr_of i j) cut.
  Definition keeps (i j lic ljc : Z) (cut : F) (ip jp : Z) : bool :=
    flt O (cceij (entry i j lic ljc cut ip jp)) cut.

  Lemma log_rr_ok i j lic ljc : 0 <= i < nbas -> 0 <= j < nbas ->
    log_rr O env (v_exp V i) (v_exp V j) lic ljc (v_np V i) (v_np V j) (rr_of i j) = Some (lrr_of i j lic ljc).
  Proof.
    intros Hi Hj. destruct (HS i Hi) as (_ & P1 & _ & P3 & P4 & _), (HS j Hj) as (_ & Q1 & _ & Q3 & Q4 & _).
    destruct HE as [E20 _].
    unfold log_rr, lrr_of. rewrite rd_env by lia. rewrite rd_env by lia. cbn [bind]. cbv zeta.
    destruct (0 <? lic + ljc); [|reflexivity]. unfold PTR_RANGE_OMEGA. rewrite rd_env by lia. cbn [bind].
    destruct (flt O (ev 8) (f0 O)); reflexivity.
  Qed.

  Lemma addr_lt p q P Q : 0 <= p < P -> 0 <= q < Q -> 0 <= q * P + p < P * Q.
  Proof. nia. Qed.

  Lemma set_pairdata_ok lm pd po i j lic ljc cut t : 0 <= i < nbas -> 0 <= j < nbas -> logm_table t lm ->
    0 <= po -> po + v_np V i * v_np V j <= asize pd ->
    wp (CINTset_pairdata O pd po env (v_exp V i) (v_exp V j) (v_xyz V i) (v_xyz V j)
          lm (off i) (off j) lic ljc (v_np V i) (v_np V j) (rr_of i j) cut)
       (fun '(pd', empty) =>
          Frame (fun x => po <= x < po + v_np V i * v_np V j) pd pd' /\
          (forall ip jp, 0 <= ip < v_np V i -> 0 <= jp < v_np V j ->
             rd pd' (po + (jp * v_np V i + ip)) = Some (entry i j lic ljc cut ip jp)) /\
          (empty = true <-> forall ip jp, 0 <= ip < v_np V i -> 0 <= jp < v_np V j -> keeps i j lic ljc cut ip jp = false)).
  Proof.
    intros Hi Hj (_ & _ & HL) Hpo Hsz.
    destruct (HL i Hi) as [_ Li], (HL j Hj) as [_ Lj].
    destruct (HS i Hi) as (_ & P1 & _ & P3 & P4 & _), (HS j Hj) as (_ & Q1 & _ & Q3 & Q4 & _).
    destruct (xyz_rd i Hi) as (A1 & A2 & A3), (xyz_rd j Hj) as (B1 & B2 & B3).
    set (P := v_np V i) in *. set (Q := v_np V j) in *.
    unfold CINTset_pairdata. fold P Q. unfold P at 1, Q at 1. rewrite log_rr_ok by assumption. fold P Q. cbn [bind].
    set (W := fun x => po <= x < po + P * Q).
    set (done := fun jp0 ip0 ip jp => 0 <= ip < P /\ 0 <= jp < Q /\ (jp < jp0 \/ jp = jp0 /\ ip < ip0)).
    set (Inv := fun jp0 ip0 (s : arr (pdata F) * bool) =>
          Frame W pd (fst s) /\
          (forall ip jp, done jp0 ip0 ip jp -> rd (fst s) (po + (jp * P + ip)) = Some (entry i j lic ljc cut ip jp)) /\
          (snd s = true <-> forall ip jp, done jp0 ip0 ip jp -> keeps i j lic ljc cut ip jp = false)).
    apply (wp_for (fun jp s => Inv jp 0 s)); [exact Q1| | |].
    - split; [apply Frame_refl|]. unfold done. split; [intros; lia|]. cbn [snd]. split; [intros; lia|reflexivity].
    - intros jp s Hjp HI. apply (wp_for (fun ip s => Inv jp ip s)); [exact P1|exact HI| |].
      + clear s HI. intros ip [a empty] Hip (Fr & Dn & Em). cbn [fst snd] in Fr, Dn, Em.
        rewrite rd_env by lia. rewrite rd_env by lia. cbn [bind].
        rewrite Li, Lj by assumption. rewrite A1, A2, A3, B1, B2, B3. cbn [bind].
        fold (entry i j lic ljc cut ip jp). pose proof (addr_lt ip jp P Q Hip Hjp).
        apply wp_bind. apply wp_wr'; [destruct Fr; lia|]. intros a' E Fr'. cbn [wp]. unfold Inv. cbn [fst snd].
        split; [|split].
        * eapply Frame_trans; [exact Fr|]. eapply Frame_mono; [exact Fr'|]. unfold W. cbv beta. intros; lia.
        * intros ip' jp' D. destruct (Z.eq_dec (jp' * P + ip') (jp * P + ip)) as [Eq|N].
          -- assert (jp' = jp /\ ip' = ip) as [-> ->] by (unfold done in D; nia). exact E.
          -- eapply rd_frame; [exact Fr'|cbv beta; lia|]. apply Dn. unfold done in *.
             assert (~ (jp' = jp /\ ip' = ip)) by (intros [-> ->]; lia). lia.
        * fold (keeps i j lic ljc cut ip jp). destruct (keeps i j lic ljc cut ip jp) eqn:K.
          -- split; [discriminate|]. intros Hall. specialize (Hall ip jp ltac:(unfold done; lia)). congruence.
          -- rewrite Em. split.
             ++ intros Hall ip' jp' D. destruct (Z.eq_dec ip' ip) as [->|N1]; [destruct (Z.eq_dec jp' jp) as [->|N2]; [exact K|]|];
                apply Hall; unfold done in *; lia.
             ++ intros Hall ip' jp' D. apply Hall. unfold done in *; lia.
      + clear s HI. intros s (Fr & Dn & Em). split; [exact Fr|].
        assert (D : forall ip jp', done (jp + 1) 0 ip jp' <-> done jp P ip jp') by (intros; unfold done; lia).
        split; [intros ip jp' Hd; apply Dn, D, Hd|]. rewrite Em. split; intros Hall ip jp' Hd; apply Hall, D, Hd.
    - intros [a empty] (Fr & Dn & Em). cbn [fst snd] in *. split; [exact Fr|]. split.
      + intros ip jp H1 H2. apply Dn. unfold done. lia.
      + rewrite Em. unfold done. split; intros Hall ip jp; [intros; apply Hall; lia|intros (H1 & H2 & _); auto].
  Qed.

  Lemma transpose_ok pd dst src P Q : 0 <= P -> 0 <= Q -> 0 <= src -> src + P * Q <= dst -> dst + P * Q <= asize pd ->
    (forall ip jp, 0 <= ip < P -> 0 <= jp < Q -> exists v, rd pd (src + (jp * P + ip)) = Some v) ->
    wp (transpose_pd (F := F) pd dst src P Q) (fun pd' =>
      Frame (fun x => dst <= x < dst + P * Q) pd pd' /\
      forall ip jp, 0 <= ip < P -> 0 <= jp < Q -> rd pd' (dst + (ip * Q + jp)) = rd pd (src + (jp * P + ip))).
  Proof.
    intros HP HQ Hs Hd Hz Hr. unfold transpose_pd.
    set (W := fun x => dst <= x < dst + P * Q).
    set (Inv := fun ip0 jp0 (a : arr (pdata F)) => Frame W pd a /\
      forall ip jp, 0 <= ip < P -> 0 <= jp < Q -> ip < ip0 \/ ip = ip0 /\ jp < jp0 ->
        rd a (dst + (ip * Q + jp)) = rd pd (src + (jp * P + ip))).
    apply (wp_for (fun ip a => Inv ip 0 a)); [exact HP|split; [apply Frame_refl|intros; lia]| |].
    - intros ip a Hip HI. apply (wp_for (fun jp a => Inv ip jp a)); [exact HQ|exact HI| |].
      + clear a HI. intros jp a Hjp [Fr Dn]. destruct (Hr ip jp Hip Hjp) as [v Ev].
        pose proof (addr_lt ip jp P Q Hip Hjp). pose proof (addr_lt jp ip Q P Hjp Hip).
        apply wp_bind. rewrite (rd_frame W pd a (src + (jp * P + ip)) v Fr ltac:(unfold W; lia) Ev). cbn [wp].
        apply wp_wr'; [destruct Fr; lia|]. intros a' E Fr'. split.
        * eapply Frame_trans; [exact Fr|]. eapply Frame_mono; [exact Fr'|]. unfold W. cbv beta. intros; lia.
        * intros ip' jp' H1 H2 D. destruct (Z.eq_dec (ip' * Q + jp') (ip * Q + jp)) as [Eq|N].
          -- destruct (radix2_inj Q jp' ip' jp ip H2 Hjp ltac:(lia)) as [-> ->]. congruence.
          -- destruct (Hr ip' jp' H1 H2) as [v' Ev']. rewrite Ev'. eapply rd_frame; [exact Fr'|cbv beta; lia|].
             rewrite <- Ev'. apply Dn; [exact H1|exact H2|].
             assert (~ (jp' = jp /\ ip' = ip)) by (intros [-> ->]; lia). lia.
      + clear a HI. intros a [Fr Dn]. split; [exact Fr|]. intros. apply Dn; lia.
    - intros a [Fr Dn]. split; [exact Fr|]. intros. apply Dn; lia.
  Qed.

  (** ** the table of all pairs *)
  Variable ng : ngT.
  Definition cutv : F := if feq O (ev 0) (f0 O) then fofZ O 60 else fmax O (fofZ O 40) (ev 0).
  Definition ent (i j ip jp : Z) : pdata F := entry i j (v_l V i + ijkl_inc ng) (v_l V j) cutv ip jp.
  Definition kept (i j ip jp : Z) : bool := flt O (cceij (ent i j ip jp)) cutv.
  (** no primitive pair of the shells (i, j) is below the cutoff *)
  Definition all_screened (i j : Z) : Prop :=
    forall ip jp, 0 <= ip < v_np V i -> 0 <= jp < v_np V j -> kept i j ip jp = false.

  Lemma cutv_ok : expcutoff_of O env = Some cutv.
  Proof. unfold expcutoff_of, PTR_EXPCUTOFF. rewrite rd_env; [reflexivity|]. destruct HE. lia. Qed.

  (** what the table says about the pair i >= j *)
  Definition pair_at (t : arr ptr) (pd : arr (pdata F)) (hi i j : Z) : Prop :=
    (exists o1 o2, ((i = 0 /\ j = 0) \/ ~ all_screened i j) /\
       rd t (i * nbas + j) = Some (Off o1) /\ rd t (j * nbas + i) = Some (Off o2) /\
       (forall ip jp, 0 <= ip < v_np V i -> 0 <= jp < v_np V j ->
          0 <= o1 + (jp * v_np V i + ip) < hi /\ 0 <= o2 + (ip * v_np V j + jp) < hi /\
          rd pd (o1 + (jp * v_np V i + ip)) = Some (ent i j ip jp) /\
          (i <> j -> rd pd (o2 + (ip * v_np V j + jp)) = Some (ent i j ip jp)))) \/
    (~ (i = 0 /\ j = 0) /\ all_screened i j /\
       rd t (i * nbas + j) = Some NoValue /\ rd t (j * nbas + i) = Some NoValue).

  Definition before (i j a b : Z) : Prop := 0 <= b <= a /\ (a < i \/ a = i /\ b < j).

  Definition ij_inv (i j : Z) (s : arr ptr * arr (pdata F) * Z) : Prop :=
    let '(t, pd, o) := s in
    asize t = Z.max (nbas * nbas) 1 /\ asize pd = tot * tot /\ rd t 0 = Some (Off 0) /\
    0 <= o <= off i * off i + 2 * v_np V i * off j - (if i <? j then v_np V i * v_np V i else 0) /\
    forall a b, before i j a b -> pair_at t pd o a b.

  Lemma cell_inj a b c d : 0 <= a < nbas -> 0 <= b < nbas -> 0 <= c < nbas -> 0 <= d < nbas ->
    a * nbas + b = c * nbas + d -> a = c /\ b = d.
  Proof. clear. intros. destruct (radix2_inj nbas b a d c); lia. Qed.

  Lemma cell_nz i j : 0 <= j <= i -> i < nbas -> ~ (i = 0 /\ j = 0) -> 0 <> i * nbas + j /\ 0 <> j * nbas + i.
  Proof. clear. intros. split; intros E; [destruct (Z.eq_dec i 0)|destruct (Z.eq_dec j 0)]; subst; nia. Qed.
  Lemma before_cells i j a b : i < nbas -> 0 <= j <= i -> before i (j + 1) a b -> ~ (a = i /\ b = j) ->
    before i j a b /\ a * nbas + b <> i * nbas + j /\ a * nbas + b <> j * nbas + i /\
    b * nbas + a <> i * nbas + j /\ b * nbas + a <> j * nbas + i.
  Proof.
    clear. unfold before. intros Hi Hj Hab N. split; [lia|].
    repeat split; intros Hc; apply cell_inj in Hc; lia.
  Qed.

  Lemma pair_at_keep t t' pd pd' hi hi' W i j : pair_at t pd hi i j ->
    rd t' (i * nbas + j) = rd t (i * nbas + j) -> rd t' (j * nbas + i) = rd t (j * nbas + i) ->
    Frame W pd pd' -> (forall x, W x -> hi <= x) -> hi <= hi' -> pair_at t' pd' hi' i j.
  Proof.
    intros [H|H] E1 E2 Fr HW Hh.
    - left. destruct H as (o1 & o2 & H1 & H2 & H3 & H4). exists o1, o2. split; [exact H1|]. rewrite E1, E2.
      split; [exact H2|]. split; [exact H3|]. intros ip jp Hi Hj. destruct (H4 ip jp Hi Hj) as (B1 & B2 & C1 & C2).
      split; [lia|]. split; [lia|]. split.
      + eapply rd_frame; [exact Fr|intros w; apply HW in w; lia|exact C1].
      + intros N. eapply rd_frame; [exact Fr|intros w; apply HW in w; lia|exact (C2 N)].
    - right. rewrite E1, E2. exact H.
  Qed.

  Lemma off_succ i : 0 <= i -> off (i + 1) = off i + v_np V i.
  Proof. intros H. unfold off. apply Zsum_succ. exact H. Qed.
  Lemma off_le i : 0 <= i <= nbas -> 0 <= off i <= tot.
  Proof.
    intros H. split; [apply Zsum_nonneg; intros; apply np_nonneg; lia|].
    apply Zsum_le; [lia|exact np_nonneg].
  Qed.

  Lemma bas_cell a b : 0 <= a < nbas -> 0 <= b < nbas -> 0 <= a * nbas + b < Z.max (nbas * nbas) 1.
  Proof. intros. nia. Qed.

  Lemma setij_pair_ok lt lm i j s : logm_table lt lm -> 0 <= j <= i -> i < nbas -> ij_inv i j s ->
    wp (setij_pair O ng atm bas nbas env cutv lt lm i j s) (ij_inv i (j + 1)).
  Proof.
    intros HL Hj Hi HI. destruct s as [[t pd] o]. destruct HI as (St & Sp & Z0 & Bo & Dn).
    pose proof HL as (_ & _ & HLt). destruct (HLt i ltac:(lia)) as [Ti _], (HLt j ltac:(lia)) as [Tj _].
    unfold setij_pair. rewrite !rd_xyz, !rd_exp, !rd_np, !rd_l by lia. cbn [bind].
    unfold tab_off at 1 2. rewrite Ti, Tj. cbn [bind]. rewrite dist2_ok by lia. cbn [bind].
    pose proof (off_le i ltac:(lia)) as Oi. pose proof (off_le j ltac:(lia)) as Oj.
    pose proof (off_bound i ltac:(lia)) as [_ Obi].
    pose proof (off_bound j ltac:(lia)) as [_ Obj].
    pose proof (np_nonneg i ltac:(lia)) as Pi. pose proof (np_nonneg j ltac:(lia)) as Pj.
    assert (Oij : j < i -> off j + v_np V j <= off i).
    { intros L. rewrite <- off_succ by lia. unfold off. apply Zsum_le; [lia|intros; apply np_nonneg; lia]. }
    assert (Hns : (i <? j) = false) by lia. rewrite Hns in Bo.
    pose proof (off_succ j ltac:(lia)) as Osj.
    assert (Hroom1 : o + v_np V i * v_np V j <= tot * tot).
    { destruct (Z.eq_dec i j) as [->|N]; [nia|]. specialize (Oij ltac:(lia)). nia. }
    assert (Hroom2 : j < i -> o + v_np V i * v_np V j + v_np V i * v_np V j <= tot * tot).
    { intros L. specialize (Oij L). nia. }
    apply wp_bind. eapply wp_mono; [eapply (set_pairdata_ok lm pd o i j); [lia|lia|exact HL|lia|lia]|].
    intros [pd1 empty] (Fr & En & Em). cbv beta iota.
    change (empty = true <-> all_screened i j) in Em.
    change (forall ip jp, 0 <= ip < v_np V i -> 0 <= jp < v_np V j ->
      rd pd1 (o + (jp * v_np V i + ip)) = Some (ent i j ip jp)) in En.
    pose proof (bas_cell i j ltac:(lia) ltac:(lia)) as Cij. pose proof (bas_cell j i ltac:(lia) ltac:(lia)) as Cji.
    assert (Sp1 : asize pd1 = tot * tot) by (destruct Fr; congruence).
    assert (CC : forall ip jp, 0 <= ip < v_np V i -> 0 <= jp < v_np V j ->
               0 <= jp * v_np V i + ip < v_np V i * v_np V j /\ 0 <= ip * v_np V j + jp < v_np V i * v_np V j) by (intros; nia).
    destruct ((i =? 0) && (j =? 0)) eqn:E00.
    - assert (i = 0) by lia. assert (j = 0) by lia. subst i j.
      assert (o = 0) by (revert Bo; unfold off; rewrite Zsum_0 by lia; lia). subst o.
      apply wp_bind. apply wp_wr'; [rewrite St; nia|]. intros t' E Fr'. cbn [wp]. unfold ij_inv.
      split; [destruct Fr'; congruence|]. split; [exact Sp1|]. split; [exact E|].
      assert (O0 : off 0 = 0) by (unfold off; rewrite Zsum_0 by lia; reflexivity).
      split; [rewrite Osj, O0; replace (0 <? 0 + 1) with true by lia; nia|].
      intros a b Hab. assert (a = 0) by (unfold before in Hab; lia). assert (b = 0) by (unfold before in Hab; lia). subst a b.
      left. exists 0, 0. split; [left; lia|]. split; [exact E|]. split; [exact E|]. intros ip jp H1 H2.
      destruct (CC ip jp H1 H2). split; [lia|]. split; [lia|]. split; [apply En; assumption|lia].
    - destruct (cell_nz i j Hj Hi ltac:(lia)) as [Hnz1 Hnz2]. destruct empty; cbn [negb].
      + apply wp_bind. apply wp_wr'; [rewrite St; exact Cij|]. intros t1 E1 Fr1.
        apply wp_bind. apply wp_wr'; [destruct Fr1 as [-> _]; rewrite St; exact Cji|]. intros t2 E2 Fr2. cbn [wp]. unfold ij_inv.
        assert (Hcell : forall x, x <> i * nbas + j -> x <> j * nbas + i -> rd t2 x = rd t x).
        { intros x N1 N2. destruct Fr1 as [S1 C1], Fr2 as [S2 C2]. unfold rd, inb. rewrite S2, S1, C2, C1 by (cbv beta; lia). reflexivity. }
        split; [destruct Fr1, Fr2; congruence|]. split; [exact Sp1|].
        split; [rewrite Hcell by assumption; exact Z0|].
        split.
        { rewrite Osj. destruct (i <? j + 1) eqn:Eq; [assert (i = j) by lia; subst; nia|nia]. }
        intros a b Hab. destruct (Z.eq_dec a i) as [->|Na]; [destruct (Z.eq_dec b j) as [->|Nb]|].
        * right. split; [lia|]. split; [apply Em; reflexivity|]. split; [|exact E2].
          destruct (Z.eq_dec i j) as [->|N]; [exact E2|].
          eapply rd_frame; [exact Fr2| |exact E1]. cbv beta. intros Hc. apply cell_inj in Hc; lia.
        * destruct (before_cells i j _ _ Hi ltac:(lia) Hab ltac:(lia)) as (Hb & N1 & N2 & N3 & N4). clear Hab Oij CC;
            eapply pair_at_keep; [apply Dn, Hb| | |exact Fr|cbv beta; intros; lia|lia]; apply Hcell; assumption.
        * destruct (before_cells i j _ _ Hi ltac:(lia) Hab ltac:(lia)) as (Hb & N1 & N2 & N3 & N4). clear Hab Oij CC;
            eapply pair_at_keep; [apply Dn, Hb| | |exact Fr|cbv beta; intros; lia|lia]; apply Hcell; assumption.
      + assert (Hne : ~ all_screened i j) by (intros Ha; apply Em in Ha; discriminate).
        apply wp_bind. apply wp_wr'; [rewrite St; exact Cij|]. intros t1 E1 Fr1.
        destruct (i =? j) eqn:Eij; cbn [negb].
        * assert (i = j) by lia. subst j. cbn [wp]. unfold ij_inv.
          assert (Hcell : forall x, x <> i * nbas + i -> rd t1 x = rd t x).
          { intros x N1. destruct Fr1 as [S1 C1]. unfold rd, inb. rewrite S1, C1 by (cbv beta; lia). reflexivity. }
          split; [destruct Fr1; congruence|]. split; [exact Sp1|]. split; [rewrite Hcell by assumption; exact Z0|].
          split. { rewrite Osj. replace (i <? i + 1) with true by lia. nia. }
          intros a b Hab. destruct (Z.eq_dec a i) as [->|Na]; [destruct (Z.eq_dec b i) as [->|Nb]|].
          -- left. exists o, o. split; [right; exact Hne|]. split; [exact E1|]. split; [exact E1|].
             intros ip jp H1 H2. destruct (CC ip jp H1 H2). split; [lia|]. split; [lia|]. split; [apply En; assumption|lia].
          -- destruct (before_cells i i _ _ Hi ltac:(lia) Hab ltac:(lia)) as (Hb & N1 & N2 & N3 & N4). clear Hab Oij CC;
            eapply pair_at_keep; [apply Dn, Hb| | |exact Fr|cbv beta; intros; lia|nia]; apply Hcell; assumption.
          -- destruct (before_cells i i _ _ Hi ltac:(lia) Hab ltac:(lia)) as (Hb & N1 & N2 & N3 & N4). clear Hab Oij CC;
            eapply pair_at_keep; [apply Dn, Hb| | |exact Fr|cbv beta; intros; lia|nia]; apply Hcell; assumption.
        * apply wp_bind. apply wp_wr'; [destruct Fr1 as [-> _]; rewrite St; exact Cji|]. intros t2 E2 Fr2.
          assert (E1' : rd t2 (i * nbas + j) = Some (Off o)).
          { eapply rd_frame; [exact Fr2| |exact E1]. cbv beta. intros Hc. apply cell_inj in Hc; lia. }
          unfold tab_off. rewrite E1'. cbn [bind]. specialize (Hroom2 ltac:(lia)).
          apply wp_bind. eapply wp_mono; [apply transpose_ok; [lia|lia|lia|lia|lia|]|].
          { intros ip jp H1 H2. exists (ent i j ip jp). apply En; assumption. }
          intros pd2 [Fr3 Tr]. cbn [wp]. unfold ij_inv.
          assert (Hcell : forall x, x <> i * nbas + j -> x <> j * nbas + i -> rd t2 x = rd t x).
          { intros x N1 N2. destruct Fr1 as [S1 C1], Fr2 as [S2 C2]. unfold rd, inb. rewrite S2, S1, C2, C1 by (cbv beta; lia). reflexivity. }
          split; [destruct Fr1, Fr2; congruence|]. split; [destruct Fr3; congruence|].
          split; [rewrite Hcell by assumption; exact Z0|].
          split. { rewrite Osj. replace (i <? j + 1) with false by lia. nia. }
          set (W := fun x => o <= x).
          assert (FrW : Frame W pd pd2).
          { eapply Frame_trans; [eapply Frame_mono; [exact Fr|]|eapply Frame_mono; [exact Fr3|]]; unfold W; cbv beta; intros; nia. }
          intros a b Hab. destruct (Z.eq_dec a i) as [->|Na]; [destruct (Z.eq_dec b j) as [->|Nb]|].
          -- left. exists o, (o + v_np V i * v_np V j). split; [right; exact Hne|]. split; [exact E1'|]. split; [exact E2|].
             intros ip jp H1 H2. destruct (CC ip jp H1 H2). split; [lia|]. split; [lia|]. split.
             ++ eapply rd_frame; [exact Fr3|cbv beta; lia|apply En; assumption].
             ++ intros _. rewrite Tr by assumption. apply En; assumption.
          -- destruct (before_cells i j _ _ Hi ltac:(lia) Hab ltac:(lia)) as (Hb & N1 & N2 & N3 & N4). clear Hab Oij CC;
            eapply pair_at_keep; [apply Dn, Hb| | |exact FrW|unfold W; intros; lia|nia]; apply Hcell; assumption.
          -- destruct (before_cells i j _ _ Hi ltac:(lia) Hab ltac:(lia)) as (Hb & N1 & N2 & N3 & N4). clear Hab Oij CC;
            eapply pair_at_keep; [apply Dn, Hb| | |exact FrW|unfold W; intros; lia|nia]; apply Hcell; assumption.
  Qed.

  Definition pair_table (t : arr ptr) (pd : arr (pdata F)) : Prop :=
    forall i j, 0 <= j <= i -> i < nbas -> pair_at t pd (tot * tot) i j.

  Lemma setij_ok lmt : (tot = 0 \/ exists t lm, lmt = Some (t, lm) /\ logm_table t lm) ->
    wp (setij O ng atm bas nbas env lmt)
       (fun r => match r with
                 | None => tot = 0 \/ 2048 < tot
                 | Some (t, pd) => 0 < tot <= 2048 /\ rd t 0 = Some (Off 0) /\ pair_table t pd
                 end).
  Proof.
    intros Hl. unfold setij. rewrite cutv_ok, tot_prim_ok. cbn [bind]. unfold MAX_PGTO_FOR_PAIRDATA.
    destruct ((tot =? 0) || (2048 <? tot)) eqn:E; [cbn [wp]; lia|].
    destruct Hl as [?|(t & lm & -> & HL)]; [lia|].
    apply wp_bind. apply wp_wr'; [cbn [asize uninit]; lia|]. intros t0 E0 Fr0. apply wp_bind.
    pose proof (off_le nbas ltac:(lia)) as Ot.
    apply (wp_for (fun i s => ij_inv i 0 s)); [exact Hn| | |].
    - unfold ij_inv. split; [destruct Fr0 as [-> _]; reflexivity|]. split; [reflexivity|]. split; [exact E0|].
      split; [unfold off; rewrite Zsum_0 by lia; cbn; lia|]. intros a b Hab. unfold before in Hab. lia.
    - intros i s Hi HI. apply (wp_for (fun j s => ij_inv i j s)); [lia|exact HI| |].
      + intros j s' Hj HI'. apply setij_pair_ok; [exact HL|lia|lia|exact HI'].
      + intros [[t' pd'] o'] (S1 & S2 & S3 & S4 & S5). unfold ij_inv. split; [exact S1|]. split; [exact S2|]. split; [exact S3|].
        split.
        * rewrite (off_succ i ltac:(lia)) in *. replace (i <? i + 1) with true in S4 by lia. replace (i + 1 <? 0) with false by lia.
          replace (off 0) with 0 by (unfold off; rewrite Zsum_0 by lia; reflexivity). lia.
        * intros a b Hab. apply S5. unfold before in *. lia.
    - intros [[t' pd'] o'] (S1 & S2 & S3 & S4 & S5). cbn [wp]. split; [lia|]. split; [exact S3|].
      replace (off 0) with 0 in S4 by (unfold off; rewrite Zsum_0 by lia; reflexivity).
      replace (nbas <? 0) with false in S4 by lia.
      intros i j Hj Hi. eapply pair_at_keep; [apply S5; unfold before; lia|reflexivity|reflexivity|apply (Frame_refl (fun _ => False))|tauto|].
      change (off nbas) with tot in S4. lia.
  Qed.
End Fills.
