(** OptPair.v — what the pair data mean over the real numbers. *)
From Coq Require Import Reals Lra Permutation.
From Verif Require Import Base EnvModel BasSpec IdxProof OutModel OptModel OptSpec OptProof.
Open Scope Z_scope.

Section Gen.
  Context {F : Type} (O : fops F).

  Lemma set_pairdata_gen env lm pd po oai oaj ori orj olmi olmj lic ljc P Q rr cut lrr
      (va vb la lb : Z -> F) (x y : Z -> F) :
    0 <= P -> 0 <= Q -> 0 <= po -> po + P * Q <= asize pd ->
    log_rr O env oai oaj lic ljc P Q rr = Some lrr ->
    (forall p, 0 <= p < P -> rd env (oai + p) = Some (va p)) ->
    (forall p, 0 <= p < Q -> rd env (oaj + p) = Some (vb p)) ->
    (forall p, 0 <= p < P -> rd lm (olmi + p) = Some (la p)) ->
    (forall p, 0 <= p < Q -> rd lm (olmj + p) = Some (lb p)) ->
    (forall c, 0 <= c < 3 -> rd env (ori + c) = Some (x c)) ->
    (forall c, 0 <= c < 3 -> rd env (orj + c) = Some (y c)) ->
    let E ip jp := pair_entry O (va ip) (vb jp) (x 0) (x 1) (x 2) (y 0) (y 1) (y 2) (la ip) (lb jp) lrr rr cut in
    wp (CINTset_pairdata O pd po env oai oaj ori orj lm olmi olmj lic ljc P Q rr cut)
       (fun '(pd', empty) =>
          Frame (fun z => po <= z < po + P * Q) pd pd' /\
          (forall ip jp, 0 <= ip < P -> 0 <= jp < Q -> rd pd' (po + (jp * P + ip)) = Some (E ip jp)) /\
          (empty = true <-> forall ip jp, 0 <= ip < P -> 0 <= jp < Q -> flt O (cceij (E ip jp)) cut = false)).
  Proof.
    intros P1 Q1 Hpo Hsz HR Ha Hb Li Lj Hx Hy E.
    pose proof (Hx 0 ltac:(lia)) as A1. rewrite Z.add_0_r in A1. pose proof (Hx 1 ltac:(lia)) as A2. pose proof (Hx 2 ltac:(lia)) as A3.
    pose proof (Hy 0 ltac:(lia)) as B1. rewrite Z.add_0_r in B1. pose proof (Hy 1 ltac:(lia)) as B2. pose proof (Hy 2 ltac:(lia)) as B3.
    unfold CINTset_pairdata. rewrite HR. cbn [bind].
    set (W := fun z => po <= z < po + P * Q).
    set (done := fun jp0 ip0 ip jp => 0 <= ip < P /\ 0 <= jp < Q /\ (jp < jp0 \/ jp = jp0 /\ ip < ip0)).
    set (Inv := fun jp0 ip0 (s : arr (pdata F) * bool) =>
          Frame W pd (fst s) /\
          (forall ip jp, done jp0 ip0 ip jp -> rd (fst s) (po + (jp * P + ip)) = Some (E ip jp)) /\
          (snd s = true <-> forall ip jp, done jp0 ip0 ip jp -> flt O (cceij (E ip jp)) cut = false)).
    apply (wp_for (fun jp s => Inv jp 0 s)); [exact Q1| | |].
    - split; [apply Frame_refl|]. unfold done. split; [intros; lia|]. cbn [snd]. split; [intros; lia|reflexivity].
    - intros jp s Hjp HI. apply (wp_for (fun ip s => Inv jp ip s)); [exact P1|exact HI| |].
      + clear s HI. intros ip [a empty] Hip (Fr & Dn & Em). cbn [fst snd] in Fr, Dn, Em.
        rewrite Ha, Hb by lia. cbn [bind].
        rewrite Li, Lj by assumption. rewrite A1, A2, A3, B1, B2, B3. cbn [bind].
        fold (E ip jp). assert (0 <= jp * P + ip < P * Q) by (clear - Hip Hjp; nia).
        apply wp_bind. apply wp_wr'; [destruct Fr; lia|]. intros a' Ea Fr'. cbn [wp]. unfold Inv. cbn [fst snd].
        split; [|split].
        * eapply Frame_trans; [exact Fr|]. eapply Frame_mono; [exact Fr'|]. unfold W. cbv beta. intros; lia.
        * intros ip' jp' D. destruct (Z.eq_dec (jp' * P + ip') (jp * P + ip)) as [Eq|N].
          -- assert (jp' = jp /\ ip' = ip) as [-> ->] by (unfold done in D; nia). exact Ea.
          -- eapply rd_frame; [exact Fr'|cbv beta; lia|]. apply Dn. unfold done in *.
             assert (~ (jp' = jp /\ ip' = ip)) by (intros [-> ->]; lia). lia.
        * destruct (flt O (cceij (E ip jp)) cut) eqn:K.
          -- split; [discriminate|]. intros Hall. specialize (Hall ip jp ltac:(unfold done; lia)). congruence.
          -- rewrite Em. split.
             ++ intros Hall ip' jp' D. destruct (Z.eq_dec ip' ip) as [->|N1]; [destruct (Z.eq_dec jp' jp) as [->|N2]; [exact K|]|];
                apply Hall; unfold done in *; lia.
             ++ intros Hall ip' jp' D. apply Hall. unfold done in *; lia.
      + clear s HI. intros s (Fr & Dn & Em). split; [exact Fr|].
        assert (D : forall ip jp', done (jp + 1) 0 ip jp' <-> done jp P ip jp') by (intros; unfold done; lia).
        split; [intros ip jp' Hd; apply Dn, D, Hd|]. rewrite Em. split; intros Hall ip jp' Hd; apply Hall, D, Hd.
    - intros [a empty] (Fr & Dn & Em). cbn [fst snd] in *. split; [exact Fr|]. split.
      + intros ip jp H1 H2. apply Dn. unfold done. lia.
      + rewrite Em. unfold done. split; intros Hall ip jp; [intros; apply Hall; lia|intros (H1 & H2 & _); auto].
  Qed.
End Gen.

(** ** Real numbers *)
Definition Rltb (a b : R) : bool := if Rlt_dec a b then true else false.
Definition Reqb (a b : R) : bool := if Req_EM_T a b then true else false.
Definition Rops : fops R :=
  mkfops R 0%R 1%R Rplus Rminus Rmult Rdiv Ropp Rabs ln exp sqrt Rltb Reqb IZR (17 / 10)%R (3 / 2)%R (IZR (10 ^ 18)).

Section Spec.
  Open Scope R_scope.
  (** squared distance of two centres *)
  Definition dist_sq (x y : Z -> R) : R := (x 0%Z - y 0%Z) ^ 2 + (x 1%Z - y 1%Z) ^ 2 + (x 2%Z - y 2%Z) ^ 2.

  (** the logarithm of the size of the polynomial part: [al], [bl] are the last
      exponents of the two shells, [l] the sum of their angular momenta, [om] the
      range-separation parameter *)
  Definition log_size (al bl rr om : R) (l : Z) : R :=
    17 / 10 - 3 / 2 * ln (al + bl) +
    (if (0 <? l)%Z then
       IZR l * ln (sqrt rr + (if Rlt_dec om 0 then om * om / (om * om + (al + bl)) * 8 else 0) + 1)
     else 0).

  (** minus the logarithm of the estimated size of a pair of primitives *)
  Definition estimate (a b rr ls lma lmb : R) : R := a * b / (a + b) * rr - ls - lma - lmb.

  Definition pair_spec (a b : R) (x y : Z -> R) (ls lma lmb cut : R) (p : pdata R) : Prop :=
    let est := estimate a b (dist_sq x y) ls lma lmb in
    cceij p = est /\
    (est < cut ->
       rij0 p = (a * x 0%Z + b * y 0%Z) / (a + b) /\
       rij1 p = (a * x 1%Z + b * y 1%Z) / (a + b) /\
       rij2 p = (a * x 2%Z + b * y 2%Z) / (a + b) /\
       eij p = exp (- (a * b / (a + b) * dist_sq x y))) /\
    (cut <= est -> eij p = 0).

  (** [m] is the logarithm of the largest absolute value of [n] numbers, which is not 0 *)
  Definition log_largest (f : Z -> R) (n : Z) (m : R) : Prop :=
    exists v, 0 < v /\ (forall k, (0 <= k < n)%Z -> Rabs (f k) <= v) /\ (exists k, (0 <= k < n)%Z /\ Rabs (f k) = v) /\ m = ln v.
End Spec.

Section OverR.
  Open Scope R_scope.

  Lemma entry_spec a b x y ls lma lmb cut rr : 0 < a + b -> rr = dist_sq x y ->
    pair_spec a b x y ls lma lmb cut
      (pair_entry Rops a b (x 0%Z) (x 1%Z) (x 2%Z) (y 0%Z) (y 1%Z) (y 2%Z) lma lmb ls rr cut).
  Proof.
    intros Hab ->. unfold pair_spec, pair_entry. cbn [fadd fsub fmul fdiv fneg fexp flt f0 f1 f1e18 Rops].
    assert (E1 : dist_sq x y * a * b * (1 / (a + b)) = a * b / (a + b) * dist_sq x y) by (field; lra).
    rewrite E1. fold (estimate a b (dist_sq x y) ls lma lmb). set (est := estimate a b (dist_sq x y) ls lma lmb).
    unfold Rltb. destruct (Rlt_dec est cut) as [L|L]; cbn [cceij rij0 rij1 rij2 eij].
    - split; [reflexivity|]. split; [|intros; lra]. intros _. repeat split; try (field; lra).
    - split; [reflexivity|]. split; [intros; lra|reflexivity].
  Qed.

  Lemma log_rr_R env oai oaj lic ljc P Q rr al bl om :
    rd env (oai + (P - 1))%Z = Some al -> rd env (oaj + (Q - 1))%Z = Some bl -> rd env 8%Z = Some om ->
    log_rr Rops env oai oaj lic ljc P Q rr = Some (log_size al bl rr om (lic + ljc)).
  Proof.
    intros H1 H2 H3. unfold log_rr. rewrite H1, H2. cbn [bind]. cbv zeta. unfold PTR_RANGE_OMEGA. rewrite H3. cbn [bind].
    unfold log_size. cbn [fadd fsub fmul fdiv flog fsqrt flt f0 f1 f1_7 f1_5 fofZ Rops]. unfold Rltb.
    destruct (0 <? lic + ljc)%Z; [|rewrite Rplus_0_r; reflexivity].
    destruct (Rlt_dec om 0); [reflexivity|]. do 2 f_equal. rewrite Rplus_0_r. reflexivity.
  Qed.

  (** the routine on its own *)
  Lemma pairdata_R env lm pd po oai oaj ori orj olmi olmj lic ljc P Q cut om
      (a b la lb : Z -> R) (x y : Z -> R) :
    (0 < P)%Z -> (0 < Q)%Z -> (0 <= po)%Z -> (po + P * Q <= asize pd)%Z ->
    rd env 8%Z = Some om ->
    (forall p, (0 <= p < P)%Z -> rd env (oai + p)%Z = Some (a p) /\ 0 < a p) ->
    (forall p, (0 <= p < Q)%Z -> rd env (oaj + p)%Z = Some (b p) /\ 0 < b p) ->
    (forall p, (0 <= p < P)%Z -> rd lm (olmi + p)%Z = Some (la p)) ->
    (forall p, (0 <= p < Q)%Z -> rd lm (olmj + p)%Z = Some (lb p)) ->
    (forall c, (0 <= c < 3)%Z -> rd env (ori + c)%Z = Some (x c)) ->
    (forall c, (0 <= c < 3)%Z -> rd env (orj + c)%Z = Some (y c)) ->
    let ls := log_size (a (P - 1)%Z) (b (Q - 1)%Z) (dist_sq x y) om (lic + ljc) in
    exists pd' empty,
      CINTset_pairdata Rops pd po env oai oaj ori orj lm olmi olmj lic ljc P Q (dist_sq x y) cut = Some (pd', empty) /\
      Frame (fun z => po <= z < po + P * Q)%Z pd pd' /\
      (forall ip jp, (0 <= ip < P)%Z -> (0 <= jp < Q)%Z ->
         exists p, rd pd' (po + (jp * P + ip))%Z = Some p /\ pair_spec (a ip) (b jp) x y ls (la ip) (lb jp) cut p) /\
      (empty = true <-> forall ip jp, (0 <= ip < P)%Z -> (0 <= jp < Q)%Z ->
         cut <= estimate (a ip) (b jp) (dist_sq x y) ls (la ip) (lb jp)).
  Proof.
    intros HP HQ Hpo Hsz Hom Ha Hb Hla Hlb Hx Hy ls.
    assert (HR : log_rr Rops env oai oaj lic ljc P Q (dist_sq x y) = Some ls).
    { apply log_rr_R; [apply Ha; lia|apply Hb; lia|exact Hom]. }
    pose proof (set_pairdata_gen Rops env lm pd po oai oaj ori orj olmi olmj lic ljc P Q (dist_sq x y) cut ls a b la lb x y
      ltac:(lia) ltac:(lia) Hpo Hsz HR (fun p Hp => proj1 (Ha p Hp)) (fun p Hp => proj1 (Hb p Hp)) Hla Hlb Hx Hy) as H.
    apply wp_exists in H. destruct H as ([pd' empty] & E & Fr & D & Em). exists pd', empty. split; [exact E|]. split; [exact Fr|].
    assert (SP : forall ip jp, (0 <= ip < P)%Z -> (0 <= jp < Q)%Z -> pair_spec (a ip) (b jp) x y ls (la ip) (lb jp) cut
       (pair_entry Rops (a ip) (b jp) (x 0%Z) (x 1%Z) (x 2%Z) (y 0%Z) (y 1%Z) (y 2%Z) (la ip) (lb jp) ls (dist_sq x y) cut)).
    { intros ip jp H1 H2. apply entry_spec; [|reflexivity]. destruct (Ha ip H1), (Hb jp H2). lra. }
    split; [intros ip jp H1 H2; eexists; split; [apply D; assumption|apply SP; assumption]|].
    rewrite Em. split; intros Hall ip jp H1 H2; specialize (Hall ip jp H1 H2); destruct (SP ip jp H1 H2) as (S1 & _).
    - cbv beta in Hall. rewrite S1 in Hall. cbn [flt Rops] in Hall. unfold Rltb in Hall. destruct Rlt_dec in Hall; [discriminate|lra].
    - rewrite S1. cbn [flt Rops]. unfold Rltb. destruct Rlt_dec; [lra|reflexivity].
  Qed.

  (** ** the whole table of an optimizer *)
  Lemma maxabs_R (f : Z -> R) n : (0 < n)%Z -> exists v, maxabs Rops f (Z.to_nat n) = v /\ 0 <= v /\
    (forall k, (0 <= k < n)%Z -> Rabs (f k) <= v) /\ (exists k, (0 <= k < n)%Z /\ Rabs (f k) = v).
  Proof.
    intros Hn. replace n with (Z.of_nat (Z.to_nat n)) by lia. rewrite Nat2Z.id. assert (Hm : (0 < Z.to_nat n)%nat) by lia.
    revert Hm. generalize (Z.to_nat n) as m. clear n Hn. intros m Hm. eexists. split; [reflexivity|].
    assert (G : forall m, 0 <= maxabs Rops f m /\ (forall k, (0 <= k < Z.of_nat m)%Z -> Rabs (f k) <= maxabs Rops f m) /\
       (maxabs Rops f m = 0 \/ exists k, (0 <= k < Z.of_nat m)%Z /\ Rabs (f k) = maxabs Rops f m)).
    { clear. induction m as [|m (I1 & I2 & I3)]; cbn [maxabs].
      - cbn [f0 Rops]. split; [lra|]. split; [intros; lia|left; reflexivity].
      - unfold fmax. cbn [flt fabs Rops]. unfold Rltb. destruct Rlt_dec as [L|L].
        + split; [exact I1|]. split.
          * intros k Hk. destruct (Z.eq_dec k (Z.of_nat m)) as [->|]; [lra|apply I2; lia].
          * destruct I3 as [I3|(k & Hk & E)]; [left; exact I3|right; exists k; split; [lia|exact E]].
        + split; [apply Rabs_pos|]. split.
          * intros k Hk. destruct (Z.eq_dec k (Z.of_nat m)) as [->|]; [lra|]. specialize (I2 k ltac:(lia)). lra.
          * right. exists (Z.of_nat m). split; [lia|reflexivity]. }
    destruct (G m) as (G1 & G2 & G3). split; [exact G1|]. split; [exact G2|].
    destruct G3 as [G3|G3]; [|exact G3]. exists 0%Z. split; [lia|]. specialize (G2 0%Z ltac:(lia)). pose proof (Rabs_pos (f 0%Z)). lra.
  Qed.

End OverR.

Section TableSpec.
  Open Scope R_scope.
  (** shells as seen through the tables; [lm i p]: logarithm of the largest coefficient of
      primitive [p] of shell [i] *)
  Variables (nbas : Z) (V : view) (ev : Z -> R) (ng : ngT) (lm : Z -> Z -> R).
  (** data of shell i: exponents, centre, coefficients of primitive p *)
  Definition ex (i p : Z) : R := ev (v_exp V i + p)%Z.
  Definition ctr (i c : Z) : R := ev (v_xyz V i + c)%Z.
  Definition cf (i p c : Z) : R := ev (v_coef V i + (c * v_np V i + p))%Z.
  Definition last_ex (i : Z) : R := ex i (v_np V i - 1).
  (** the optimizer adds the larger number of derivatives of the two electrons to every pair *)
  Definition size_of (i j : Z) : R :=
    log_size (last_ex i) (last_ex j) (dist_sq (ctr i) (ctr j)) (ev 8%Z)
      (v_l V i + v_l V j + Z.max (IINC ng + JINC ng) (KINC ng + LINC ng)).
  Definition cutoff : R := if Req_EM_T (ev 0%Z) 0 then 60 else Rmax 40 (ev 0%Z).

  Definition screened (i j : Z) : Prop := forall ip jp, (0 <= ip < v_np V i)%Z -> (0 <= jp < v_np V j)%Z ->
    cutoff <= estimate (ex i ip) (ex j jp) (dist_sq (ctr i) (ctr j)) (size_of i j) (lm i ip) (lm j jp).

  (** what the table says about the shells i and j, in either order *)
  Definition pair_full (t : arr ptr) (pd : arr (pdata R)) (i j : Z) : Prop :=
    (rd t (i * nbas + j)%Z = Some NoValue /\ rd t (j * nbas + i)%Z = Some NoValue /\ screened i j) \/
    exists o o', rd t (i * nbas + j)%Z = Some (Off o) /\ rd t (j * nbas + i)%Z = Some (Off o') /\
      (screened i j -> i = 0%Z /\ j = 0%Z) /\
      forall ip jp, (0 <= ip < v_np V i)%Z -> (0 <= jp < v_np V j)%Z ->
        exists p, rd pd (o + (jp * v_np V i + ip))%Z = Some p /\
          (i <> j -> rd pd (o' + (ip * v_np V j + jp))%Z = Some p) /\
          pair_spec (ex i ip) (ex j jp) (ctr i) (ctr j) (size_of i j) (lm i ip) (lm j jp) cutoff p.
End TableSpec.

Section Table.
  Open Scope R_scope.
  Variables (atm bas : arr Z) (nbas : Z) (env : arr R) (V : view) (ev : Z -> R) (ng : ngT).
  Hypothesis Hn : (0 <= nbas)%Z.
  Hypothesis HV : has_shells atm bas nbas V.
  Hypothesis HS : shells_ok nbas V (asize env).
  Hypothesis HE : env_is env ev.
  Hypothesis Hpos : forall i p, (0 <= i < nbas)%Z -> (0 <= p < v_np V i)%Z -> 0 < ex V ev i p.
  Hypothesis Hcf : forall i p, (0 <= i < nbas)%Z -> (0 <= p < v_np V i)%Z ->
    exists c, (0 <= c < v_nc V i)%Z /\ cf V ev i p c <> 0.
  Notation ex := (ex V ev). Notation ctr := (ctr V ev). Notation cf := (cf V ev). Notation last_ex := (last_ex V ev).
  Notation size_of := (size_of V ev ng). Notation cutoff := (cutoff ev).
  Notation lm := (lmv Rops V ev).
  Notation screened := (screened V ev ng lm). Notation pair_full := (pair_full nbas V ev ng lm).

  Lemma rr_R i j : rr_of Rops V ev i j = dist_sq (ctr i) (ctr j).
  Proof. unfold rr_of, dist_sq, OptPair.ctr. cbn [fadd fsub fmul Rops]. ring. Qed.
  Lemma lrr_R i j : lrr_of Rops V ev i j (v_l V i + ijkl_inc ng) (v_l V j) = size_of i j.
  Proof.
    unfold lrr_of, OptPair.size_of, log_size, OptPair.last_ex, OptPair.ex. rewrite rr_R. cbn [fadd fsub fmul fdiv flog fsqrt flt f0 f1 f1_7 f1_5 fofZ Rops].
    replace (v_l V i + ijkl_inc ng + v_l V j)%Z with (v_l V i + v_l V j + Z.max (IINC ng + JINC ng) (KINC ng + LINC ng))%Z
      by (unfold ijkl_inc; destruct (KINC ng + LINC ng <? IINC ng + JINC ng)%Z eqn:E; lia).
    unfold Rltb. destruct (0 <? _)%Z; [|rewrite Rplus_0_r; reflexivity].
    destruct (Rlt_dec (ev 8%Z) 0); [reflexivity|]. rewrite Rplus_0_r. reflexivity.
  Qed.
  Lemma lmv_R i p : (0 <= i < nbas)%Z -> (0 <= p < v_np V i)%Z -> log_largest (cf i p) (v_nc V i) (lm i p).
  Proof.
    intros Hi Hp. destruct (Hcf i p Hi Hp) as (c & Hc & Nc). destruct (maxabs_R (cf i p) (v_nc V i) ltac:(lia)) as (v & E & _ & H1 & H2).
    exists v. split; [|split; [exact H1|split; [exact H2|]]].
    - specialize (H1 c Hc). pose proof (Rabs_pos_lt _ Nc). lra.
    - unfold lmv. cbn [flog Rops]. f_equal. exact E.
  Qed.

  Lemma spec_sym a b x y ls la lb cut p : 0 < a + b -> pair_spec a b x y ls la lb cut p -> pair_spec b a y x ls lb la cut p.
  Proof.
    intros Hab. unfold pair_spec.
    assert (E0 : dist_sq y x = dist_sq x y) by (unfold dist_sq; ring).
    assert (E1 : estimate b a (dist_sq y x) ls lb la = estimate a b (dist_sq x y) ls la lb) by (rewrite E0; unfold estimate; field; lra).
    rewrite E1, E0. intros (H1 & H2 & H3). split; [exact H1|]. split; [|exact H3]. intros L. destruct (H2 L) as (A & B & C & D).
    rewrite A, B, C, D. repeat split; try (field; lra). f_equal. field. lra.
  Qed.
  Lemma size_sym i j : size_of i j = size_of j i.
  Proof.
    unfold OptPair.size_of, log_size. replace (v_l V i + v_l V j)%Z with (v_l V j + v_l V i)%Z by lia.
    replace (dist_sq (ctr i) (ctr j)) with (dist_sq (ctr j) (ctr i)) by (unfold dist_sq; ring).
    rewrite (Rplus_comm (last_ex i) (last_ex j)). reflexivity.
  Qed.

  Lemma cut_R : cutv Rops ev = cutoff.
  Proof.
    unfold cutv, OptPair.cutoff. cbn [feq f0 fofZ Rops]. unfold Reqb. destruct (Req_EM_T (ev 0%Z) 0); [reflexivity|].
    unfold fmax. cbn [flt fofZ Rops]. unfold Rltb, Rmax. destruct Rlt_dec, Rle_dec; lra.
  Qed.

  Lemma ent_spec i j ip jp : (0 <= i < nbas)%Z -> (0 <= j < nbas)%Z -> (0 <= ip < v_np V i)%Z -> (0 <= jp < v_np V j)%Z ->
    pair_spec (ex i ip) (ex j jp) (ctr i) (ctr j) (size_of i j) (lmv Rops V ev i ip) (lmv Rops V ev j jp) cutoff
      (ent Rops V ev ng i j ip jp).
  Proof.
    intros Hi Hj Hip Hjp. unfold ent, entry. rewrite lrr_R, cut_R. apply (entry_spec (ex i ip) (ex j jp) (ctr i) (ctr j)).
    - pose proof (Hpos i ip Hi Hip). pose proof (Hpos j jp Hj Hjp). unfold OptPair.ex in *. lra.
    - apply rr_R.
  Qed.

  Lemma screened_iff i j : (0 <= i < nbas)%Z -> (0 <= j < nbas)%Z -> all_screened Rops V ev ng i j <-> screened i j.
  Proof.
    intros Hi Hj. unfold all_screened, OptPair.screened, kept. split; intros H ip jp H1 H2; specialize (H ip jp H1 H2);
      destruct (ent_spec i j ip jp Hi Hj H1 H2) as (E & _); rewrite cut_R in *; rewrite E in *; cbn [flt Rops] in *; unfold Rltb in *; destruct Rlt_dec; try lra; try discriminate; reflexivity.
  Qed.
  Lemma screened_sym i j : (0 <= i < nbas)%Z -> (0 <= j < nbas)%Z -> screened i j -> screened j i.
  Proof.
    intros Hi Hj H ip jp H1 H2. specialize (H jp ip H2 H1). rewrite (size_sym j i).
    pose proof (Hpos i jp Hi H2). pose proof (Hpos j ip Hj H1).
    replace (estimate (ex j ip) (ex i jp) (dist_sq (ctr j) (ctr i)) (size_of i j) (lmv Rops V ev j ip) (lmv Rops V ev i jp))
      with (estimate (ex i jp) (ex j ip) (dist_sq (ctr i) (ctr j)) (size_of i j) (lmv Rops V ev i jp) (lmv Rops V ev j ip)); [exact H|].
    replace (dist_sq (ctr j) (ctr i)) with (dist_sq (ctr i) (ctr j)) by (unfold dist_sq; ring).
    unfold estimate. unfold OptPair.ex in *. field. lra.
  Qed.

  Lemma table_R t pd : pair_table Rops nbas V ev ng t pd -> forall i j, (0 <= i < nbas)%Z -> (0 <= j < nbas)%Z -> pair_full t pd i j.
  Proof.
    intros HT.
    assert (G : forall i j, (0 <= j <= i)%Z -> (i < nbas)%Z -> pair_full t pd i j /\ (i <> j -> pair_full t pd j i)).
    { intros i j Hj Hi. destruct (HT i j Hj Hi) as [(o1 & o2 & Hs & T1 & T2 & D)|(N & Hs & T1 & T2)].
      - split; [right|intros Nij; right].
        + exists o1, o2. split; [exact T1|]. split; [exact T2|]. split.
          * intros S. destruct Hs as [Hs|Hs]; [lia|]. exfalso. apply Hs, screened_iff; [lia|lia|exact S].
          * intros ip jp H1 H2. destruct (D ip jp H1 H2) as (_ & _ & D1 & D2). eexists. split; [exact D1|]. split; [exact D2|].
            apply ent_spec; lia.
        + exists o2, o1. split; [exact T2|]. split; [exact T1|]. split.
          * intros S. destruct Hs as [Hs|Hs]; [lia|]. exfalso. apply Hs, screened_iff; [lia|lia|]. apply screened_sym; [lia|lia|exact S].
          * intros ip jp H1 H2. destruct (D jp ip H2 H1) as (_ & _ & D1 & D2).
            exists (ent Rops V ev ng i j jp ip). split; [exact (D2 Nij)|]. split; [intros _; exact D1|].
            rewrite size_sym. apply spec_sym; [|apply ent_spec; lia].
            pose proof (Hpos j ip ltac:(lia) H1). pose proof (Hpos i jp ltac:(lia) H2). unfold OptPair.ex in *. lra.
      - assert (S : screened i j) by (apply screened_iff; [lia|lia|exact Hs]).
        split; [left|intros _; left].
        + split; [exact T1|]. split; [exact T2|exact S].
        + split; [exact T2|]. split; [exact T1|]. apply screened_sym; [lia|lia|exact S]. }
    intros i j Hi Hj. destruct (Z_le_gt_dec j i) as [L|L]; [exact (proj1 (G i j ltac:(lia) ltac:(lia)))|]. exact (proj2 (G j i ltac:(lia) ltac:(lia)) ltac:(lia)).
  Qed.

  Lemma setij_R : (exists i, (0 <= i < nbas)%Z /\ (0 < v_np V i)%Z) -> (Zsum nbas (v_np V) <= 2048)%Z ->
    exists lt lv t pd, set_log_maxc Rops bas nbas env = Some (Some (lt, lv)) /\
      setij Rops ng atm bas nbas env (Some (lt, lv)) = Some (Some (t, pd)) /\
      rd t 0%Z = Some (Off 0) /\
      exists lm : Z -> Z -> R,
        (forall i p, (0 <= i < nbas)%Z -> (0 <= p < v_np V i)%Z -> log_largest (cf i p) (v_nc V i) (lm i p)) /\
        forall i j, (0 <= i < nbas)%Z -> (0 <= j < nbas)%Z -> OptPair.pair_full nbas V ev ng lm t pd i j.
  Proof.
    intros (i0 & Hi0 & Hp0) Ht. assert (Ht0 : (0 < Zsum nbas (v_np V))%Z).
    { pose proof (Zsum_next i0 nbas (v_np V) Hi0 (np_nonneg nbas env V HS)).
      pose proof (Zsum_nonneg i0 (v_np V) ltac:(intros; apply (np_nonneg nbas env V HS); lia)). lia. }
    pose proof (set_log_maxc_ok Rops atm bas nbas env V ev Hn HV HS HE) as H1. apply wp_exists in H1. destruct H1 as (r & E1 & H1).
    destruct r as [[lt lv]|]; [|lia]. destruct H1 as (_ & HL & _).
    pose proof (setij_ok Rops atm bas nbas env V ev Hn HV HS HE ng (Some (lt, lv)) (or_intror (ex_intro _ lt (ex_intro _ lv (conj eq_refl HL))))) as H2.
    apply wp_exists in H2. destruct H2 as (r & E2 & H2). destruct r as [[t pd]|]; [|lia]. destruct H2 as (_ & H0 & HT).
    exists lt, lv, t, pd. split; [exact E1|]. split; [exact E2|]. split; [exact H0|]. exists lm. split; [exact lmv_R|].
    exact (table_R t pd HT).
  Qed.
End Table.
