(** PropsOpt.v — properties C36, C37 and the table part of C38: optimizers.

    OptSpec.v says what a caller may do ([calls_ok]); OptPair.v has the small
    specification of pair data ([estimate], [pair_spec], [pair_full]);
    OptFinal.v the one of the index tables ([fresh_index], [table_pos]). *)
From Coq Require Import Reals Lra Permutation.
From Verif Require Import Base BasSpec EnvModel IdxModel IdxProof CtrModel OutModel OptModel OptSpec OptProof OptIdx OptHeap OptPair OptFinal.

(** ** C36: memory *)
(** A caller with any number of variables makes any number of calls that create,
    fill and delete optimizers: no call touches freed memory or frees something
    that is not a live allocation (the run would have no final state), no allocation is freed
    twice, a deleted variable is NULL, and when no live optimizer is left
    the allocations have been freed exactly once each and nothing is live. *)
Theorem C36_lifecycle {F} (O : fops F) (l : list (op F)) f :
  calls_ok l (fun _ => AUndef) f ->
  exists st, execs O l start = Some st /\
    (forall v, f v = ANull -> s_var st v = Holds None) /\
    NoDup (hfrees (s_heap st)) /\
    (forall x, In x (hfrees (s_heap st)) -> 0 <= x < hnext (s_heap st) /\ hblk (s_heap st) x = None) /\
    ((forall v, ~ is_live (f v)) ->
       Permutation (hfrees (s_heap st)) (zseq (hnext (s_heap st))) /\ forall x, hblk (s_heap st) x = None).
Proof. exact (lifecycle O l f). Qed.
Print Assumptions C36_lifecycle.

(** integers as scalars, for examples *)
Definition Zops : fops Z := mkfops Z 0 1 Z.add Z.sub Z.mul Z.div Z.opp Z.abs Z.log2 (fun x => 2 ^ x) Z.sqrt Z.ltb Z.eqb (fun x => x) 2 1 (10 ^ 18).
Definition tab (n : Z) (l : list Z) : arr Z := of_fun n (fun i => nth (Z.to_nat i) l 0).
(** an s and a p shell on one atom; env[8] = [om] *)
Definition ex_basis (om : Z) : basis Z :=
  mkbasis (tab 6 [1; 20]) 1 (tab 16 [0; 0; 1; 1; 0; 23; 24; 0;  0; 1; 2; 1; 0; 25; 27; 0]) 2
    (of_fun 29 (fun i => if i =? 8 then om else i)).
Definition ex_ng : ngT := mkng 0 0 0 0 0 1 1 1.

Lemma ex_good om : good_basis (ex_basis om).
Proof.
  split; [cbn; lia|]. split; [exists 20; reflexivity|].
  exists (mkview (fun i => i) (fun i => if i =? 0 then 1 else 2) (fun _ => 1) (fun i => if i =? 0 then 23 else 25)
                 (fun i => if i =? 0 then 24 else 27) (fun _ => 20)), (fun i => if i =? 8 then om else i).
  split; [|split].
  - intros i Hi. cbn in Hi. assert (i = 0 \/ i = 1) as [->| ->] by lia; (split; [exists 0; split; reflexivity|repeat split]).
  - intros i Hi. cbn in Hi. assert (i = 0 \/ i = 1) as [->| ->] by lia; cbn; lia.
  - split; [cbn; lia|]. intros x Hx. unfold ex_basis in *. cbn [b_env asize of_fun] in *. unfold rd, inb. cbn [asize acell of_fun].
    replace ((0 <=? x) && (x <? 29)) with true by lia. reflexivity.
Qed.

Example C36_ex_calls : calls_ok
  [OAll 0 K2c2e ex_ng (ex_basis 0); OInit 1 (ex_basis 0); OIj 1 ex_ng (ex_basis 0); ODel 0; ODelPair 1; ODel 1; ODel 1]
  (fun _ => AUndef) (fun v => if (v =? 0) || (v =? 1) then ANull else AUndef).
Proof.
  pose proof (ex_good 0) as G. assert (ng_ok ex_ng) by (unfold ng_ok; cbn; lia).
  apply C_cons with (v := 0) (f1 := fun v => if v =? 0 then ALive (ex_basis 0) true false true else AUndef);
    [cbn; apply (A_all 0 K2c2e); auto|intros w Hw; replace (w =? 0) with false by lia; reflexivity|].
  apply C_cons with (v := 1) (f1 := fun v => if v =? 1 then ALive (ex_basis 0) false false false else if v =? 0 then ALive (ex_basis 0) true false true else AUndef);
    [cbn; apply A_init; auto|intros w Hw; replace (w =? 1) with false by lia; reflexivity|].
  apply C_cons with (v := 1) (f1 := fun v => if v =? 1 then ALive (ex_basis 0) true true false else if v =? 0 then ALive (ex_basis 0) true false true else AUndef);
    [cbn; apply A_ij; auto|intros w Hw; replace (w =? 1) with false by lia; reflexivity|].
  apply C_cons with (v := 0) (f1 := fun v => if v =? 1 then ALive (ex_basis 0) true true false else if v =? 0 then ANull else AUndef);
    [cbn; apply A_del; auto|intros w Hw; replace (w =? 0) with false by lia; reflexivity|].
  apply C_cons with (v := 1) (f1 := fun v => if v =? 1 then ALive (ex_basis 0) true false false else if v =? 0 then ANull else AUndef);
    [cbn; apply A_delpair; auto|intros w Hw; replace (w =? 1) with false by lia; reflexivity|].
  apply C_cons with (v := 1) (f1 := fun v => if (v =? 0) || (v =? 1) then ANull else AUndef);
    [cbn; apply A_del; auto|intros w Hw; replace (w =? 1) with false by lia; rewrite orb_false_r; reflexivity|].
  apply C_cons with (v := 1) (f1 := fun v => if (v =? 0) || (v =? 1) then ANull else AUndef);
    [cbn; apply A_del_null; auto|reflexivity|]. apply C_nil.
Qed.
Example C36_ex_run : match execs Zops
  [OAll 0 K2c2e ex_ng (ex_basis 0); OInit 1 (ex_basis 0); OIj 1 ex_ng (ex_basis 0); ODel 0; ODelPair 1; ODel 1; ODel 1] start with
  | Some st => (s_var st 0, s_var st 1, hnext (s_heap st), hfrees (s_heap st)) | None => (Undef, Undef, 0, []) end
  = (Holds None, Holds None, 14, [9; 10; 11; 12; 13; 0; 1; 2; 3; 5; 4; 6; 8; 7]).
Proof. vm_compute. reflexivity. Qed.

(** Filling the same part twice, or creating over a live optimizer, loses memory:
    after deleting, the variable is NULL but an allocation is still live. *)
Theorem C36_refill_refuted : exists (B : basis Z) st x,
  good_basis B /\
  execs Zops [OInit 0 B; OLog 0 B; OLog 0 B; ODel 0] start = Some st /\
  s_var st 0 = Holds None /\ hblk (s_heap st) x <> None.
Proof. exists (ex_basis 0). eexists. exists 1. split; [apply ex_good|]. split; [vm_compute; reflexivity|]. split; [reflexivity|]. vm_compute. discriminate. Qed.
Print Assumptions C36_refill_refuted.

Theorem C36_recreate_refuted : exists (B : basis Z) st x,
  good_basis B /\
  execs Zops [OInit 0 B; OInit 0 B; ODel 0] start = Some st /\
  s_var st 0 = Holds None /\ hblk (s_heap st) x <> None.
Proof. exists (ex_basis 0). eexists. exists 0. split; [apply ex_good|]. split; [vm_compute; reflexivity|]. split; [reflexivity|]. vm_compute. discriminate. Qed.
Print Assumptions C36_recreate_refuted.

(** With no atom and no shell the index tables are still generated for s functions
    on atom 0: atm is read out of bounds. *)
Theorem C36_no_atoms_refuted : exists k ng (B : basis Z),
  b_natm B = 0 /\ b_nbas B = 0 /\ asize (b_atm B) = 6 * b_natm B /\ asize (b_bas B) = 8 * b_nbas B /\ 20 <= asize (b_env B) /\
  execs Zops [OAll 0 k ng B] start = None.
Proof. exists K2c2e, ex_ng, (mkbasis (tab 0 []) 0 (tab 0 []) 0 (of_fun 20 (fun _ => 0))). repeat split; vm_compute; congruence. Qed.
Print Assumptions C36_no_atoms_refuted.

(** ** C37: pair data *)
(** The routine on its own.  [a], [b] exponents, [x], [y] centres, [la], [lb] logarithms of the largest
    coefficients, [cut] the cutoff. *)
Theorem C37_pairdata env lm pd po oai oaj ori orj olmi olmj lic ljc P Q cut om
    (a b la lb : Z -> R) (x y : Z -> R) :
  0 < P -> 0 < Q -> 0 <= po -> po + P * Q <= asize pd ->
  rd env 8 = Some om ->
  (forall p, 0 <= p < P -> rd env (oai + p) = Some (a p) /\ (0 < a p)%R) ->
  (forall p, 0 <= p < Q -> rd env (oaj + p) = Some (b p) /\ (0 < b p)%R) ->
  (forall p, 0 <= p < P -> rd lm (olmi + p) = Some (la p)) ->
  (forall p, 0 <= p < Q -> rd lm (olmj + p) = Some (lb p)) ->
  (forall c, 0 <= c < 3 -> rd env (ori + c) = Some (x c)) ->
  (forall c, 0 <= c < 3 -> rd env (orj + c) = Some (y c)) ->
  let ls := log_size (a (P - 1)) (b (Q - 1)) (dist_sq x y) om (lic + ljc) in
  exists pd' empty,
    CINTset_pairdata Rops pd po env oai oaj ori orj lm olmi olmj lic ljc P Q (dist_sq x y) cut = Some (pd', empty) /\
    Frame (fun z => po <= z < po + P * Q) pd pd' /\
    (forall ip jp, 0 <= ip < P -> 0 <= jp < Q ->
       exists p, rd pd' (po + (jp * P + ip)) = Some p /\ pair_spec (a ip) (b jp) x y ls (la ip) (lb jp) cut p) /\
    (empty = true <-> forall ip jp, 0 <= ip < P -> 0 <= jp < Q ->
       (cut <= estimate (a ip) (b jp) (dist_sq x y) ls (la ip) (lb jp))%R).
Proof. exact (pairdata_R env lm pd po oai oaj ori orj olmi olmj lic ljc P Q cut om a b la lb x y). Qed.
Print Assumptions C37_pairdata.

(** All pairs of shells of a basis, in either order.  Exponents are positive and every
    primitive has a non-zero coefficient (otherwise a logarithm of 0 appears). *)
Theorem C37_table (atm bas : arr Z) (nbas : Z) (env : arr R) V ev ng :
  0 <= nbas -> has_shells atm bas nbas V -> shells_ok nbas V (asize env) -> env_is env ev ->
  (forall i p, 0 <= i < nbas -> 0 <= p < v_np V i -> (0 < ex V ev i p)%R) ->
  (forall i p, 0 <= i < nbas -> 0 <= p < v_np V i -> exists c, 0 <= c < v_nc V i /\ cf V ev i p c <> 0%R) ->
  (exists i, 0 <= i < nbas /\ 0 < v_np V i) -> Zsum nbas (v_np V) <= 2048 ->
  exists lt lv t pd, set_log_maxc Rops bas nbas env = Some (Some (lt, lv)) /\
    setij Rops ng atm bas nbas env (Some (lt, lv)) = Some (Some (t, pd)) /\
    rd t 0 = Some (Off 0) /\
    exists lm : Z -> Z -> R,
      (forall i p, 0 <= i < nbas -> 0 <= p < v_np V i -> log_largest (cf V ev i p) (v_nc V i) (lm i p)) /\
      forall i j, 0 <= i < nbas -> 0 <= j < nbas -> pair_full nbas V ev ng lm t pd i j.
Proof. intros H1 H2 H3 H4 H5 H6. exact (setij_R atm bas nbas env V ev ng H1 H2 H3 H4 H5 H6). Qed.
Print Assumptions C37_table.

(** two s functions with exponent 1/2, two units apart, coefficients [c0], [c1] *)
Definition ex_atm := tab 12 [1; 20; 0; 0; 0; 0;  1; 23].
Definition ex_bas := tab 16 [0; 0; 1; 1; 0; 26; 28; 0;  1; 0; 1; 1; 0; 27; 29; 0].
Definition ex_ev (c0 c1 : R) (i : Z) : R :=
  (if (i =? 23)%Z then 2 else if (i =? 26)%Z || (i =? 27)%Z then / 2
   else if (i =? 28)%Z then c0 else if (i =? 29)%Z then c1 else 0)%R.
Definition ex_V : view := mkview (fun _ => 0) (fun _ => 1) (fun _ => 1) (fun i => 26 + i) (fun i => 28 + i) (fun i => 20 + 3 * i).

Lemma ex_log (c : R) f m : (0 < c)%R -> f 0 = c -> log_largest f 1 m -> m = ln c.
Proof.
  intros Hc Hf (v & _ & H1 & (k & Hk & Hv) & ->). assert (k = 0) as -> by lia. rewrite Hf in Hv.
  rewrite Rabs_right in Hv by lra. rewrite Hv. reflexivity.
Qed.

Lemma ex_table c0 c1 : (0 < c0)%R -> (0 < c1)%R ->
  exists lt lv t pd, set_log_maxc Rops ex_bas 2 (of_fun 30 (ex_ev c0 c1)) = Some (Some (lt, lv)) /\
    setij Rops ex_ng ex_atm ex_bas 2 (of_fun 30 (ex_ev c0 c1)) (Some (lt, lv)) = Some (Some (t, pd)) /\
    rd t 0 = Some (Off 0) /\
    exists lm : Z -> Z -> R, lm 0 0 = ln c0 /\ lm 1 0 = ln c1 /\
      forall i j, 0 <= i < 2 -> 0 <= j < 2 -> pair_full 2 ex_V (ex_ev c0 c1) ex_ng lm t pd i j.
Proof.
  intros Hc0 Hc1.
  destruct (C37_table ex_atm ex_bas 2 (of_fun 30 (ex_ev c0 c1)) ex_V (ex_ev c0 c1) ex_ng) as (lt & lv & t & pd & E1 & E2 & E3 & lm & L & T).
  - lia.
  - intros i Hi. assert (i = 0 \/ i = 1) as [->| ->] by lia; (split; [eexists; split; reflexivity|repeat split]).
  - intros i Hi. assert (i = 0 \/ i = 1) as [->| ->] by lia; cbn; lia.
  - split; [cbn; lia|]. intros x Hx. cbn [asize of_fun] in Hx. unfold rd, inb. cbn [asize acell of_fun].
    replace ((0 <=? x) && (x <? 30)) with true by lia. reflexivity.
  - intros i p Hi Hp. cbn in Hp. assert (p = 0) as -> by lia. assert (i = 0 \/ i = 1) as [->| ->] by lia; unfold ex; cbn; lra.
  - intros i p Hi Hp. cbn in Hp. assert (p = 0) as -> by lia. exists 0. split; [cbn; lia|].
    assert (i = 0 \/ i = 1) as [->| ->] by lia; unfold cf; cbn; lra.
  - exists 0. cbn. lia.
  - vm_compute. discriminate.
  - exists lt, lv, t, pd. split; [exact E1|]. split; [exact E2|]. split; [exact E3|]. exists lm.
    split; [|split; [|exact T]].
    + apply (ex_log c0 (cf ex_V (ex_ev c0 c1) 0 0)); [exact Hc0|reflexivity|]. apply (L 0 0); cbn; lia.
    + apply (ex_log c1 (cf ex_V (ex_ev c0 c1) 1 0)); [exact Hc1|reflexivity|]. apply (L 1 0); cbn; lia.
Qed.

(** coefficients 1: the pair (0,1) is kept, centre (1,0,0), prefactor exp(-1), the same for (1,0) *)
Example C37_ex : exists lt lv t pd o o' p,
  set_log_maxc Rops ex_bas 2 (of_fun 30 (ex_ev 1 1)) = Some (Some (lt, lv)) /\
  setij Rops ex_ng ex_atm ex_bas 2 (of_fun 30 (ex_ev 1 1)) (Some (lt, lv)) = Some (Some (t, pd)) /\
  rd t 1 = Some (Off o) /\ rd t 2 = Some (Off o') /\ rd pd o = Some p /\ rd pd o' = Some p /\
  (rij0 p = 1 /\ rij1 p = 0 /\ rij2 p = 0 /\ eij p = exp (- (1)))%R.
Proof.
  destruct (ex_table 1 1 ltac:(lra) ltac:(lra)) as (lt & lv & t & pd & E1 & E2 & _ & lm & L0 & L1 & T).
  specialize (T 0 1 ltac:(lia) ltac:(lia)). exists lt, lv, t, pd.
  assert (ES : estimate (/ 2) (/ 2) (dist_sq (ctr ex_V (ex_ev 1 1) 0) (ctr ex_V (ex_ev 1 1) 1)) (size_of ex_V (ex_ev 1 1) ex_ng 0 1) (lm 0 0) (lm 1 0) = (- 7 / 10)%R).
  { rewrite L0, L1, ln_1. unfold estimate, size_of, log_size, last_ex, ex, dist_sq, ctr. cbn -[IZR].
    replace (/ 2 + / 2)%R with 1%R by lra. rewrite ln_1. field. }
  assert (CU : cutoff (ex_ev 1 1) = 60%R) by (unfold cutoff; destruct Req_EM_T as [|N]; [reflexivity|exfalso; apply N; reflexivity]).
  destruct T as [(_ & _ & S)|(o & o' & P1 & P2 & _ & P)].
  - exfalso. specialize (S 0 0 ltac:(cbn; lia) ltac:(cbn; lia)). rewrite CU in S. change (ex ex_V (ex_ev 1 1) 0 0) with (/ 2)%R in S.
    change (ex ex_V (ex_ev 1 1) 1 0) with (/ 2)%R in S. rewrite ES in S. lra.
  - destruct (P 0 0 ltac:(cbn; lia) ltac:(cbn; lia)) as (p & A & B & _ & C & _). specialize (B ltac:(lia)).
    change (ex ex_V (ex_ev 1 1) 0 0) with (/ 2)%R in C. change (ex ex_V (ex_ev 1 1) 1 0) with (/ 2)%R in C. rewrite ES, CU in C.
    destruct (C ltac:(lra)) as (C1 & C2 & C3 & C4). exists o, o', p.
    replace (o + (0 * v_np ex_V 0 + 0)) with o in A by (cbn; lia). replace (o' + (0 * v_np ex_V 1 + 0)) with o' in B by (cbn; lia).
    split; [exact E1|]. split; [exact E2|]. split; [exact P1|]. split; [exact P2|]. split; [exact A|]. split; [exact B|].
    rewrite C1, C2, C3, C4. unfold dist_sq, ctr. cbn -[IZR]. repeat split; try field. f_equal. field.
Qed.

(** The pair of shell 0 with itself is never marked empty, even when all its primitives are below the cutoff. *)
Theorem C37_first_pair_refuted : exists atm bas nbas (env : arr R) V ev ng lm lt lv t pd,
  has_shells atm bas nbas V /\ shells_ok nbas V (asize env) /\ env_is env ev /\
  set_log_maxc Rops bas nbas env = Some (Some (lt, lv)) /\
  setij Rops ng atm bas nbas env (Some (lt, lv)) = Some (Some (t, pd)) /\
  (forall i p, 0 <= i < nbas -> 0 <= p < v_np V i -> log_largest (cf V ev i p) (v_nc V i) (lm i p)) /\
  screened V ev ng lm 0 0 /\ rd t 0 <> Some NoValue.
Proof.
  set (c := exp (- (100))). assert (Hc : (0 < c)%R) by apply exp_pos.
  destruct (C37_table ex_atm ex_bas 2 (of_fun 30 (ex_ev c 1)) ex_V (ex_ev c 1) ex_ng) as (lt & lv & t & pd & E1 & E2 & E3 & lm & L & T).
  1-8: clear - Hc.
  - lia.
  - intros i Hi. assert (i = 0 \/ i = 1) as [->| ->] by lia; (split; [eexists; split; reflexivity|repeat split]).
  - intros i Hi. assert (i = 0 \/ i = 1) as [->| ->] by lia; cbn; lia.
  - split; [cbn; lia|]. intros x Hx. cbn [asize of_fun] in Hx. unfold rd, inb. cbn [asize acell of_fun].
    replace ((0 <=? x) && (x <? 30)) with true by lia. reflexivity.
  - intros i p Hi Hp. cbn in Hp. assert (p = 0) as -> by lia. assert (i = 0 \/ i = 1) as [->| ->] by lia; unfold ex; cbn; lra.
  - intros i p Hi Hp. cbn in Hp. assert (p = 0) as -> by lia. exists 0. split; [cbn; lia|].
    assert (i = 0 \/ i = 1) as [->| ->] by lia; unfold cf; cbn; lra.
  - exists 0. cbn. lia.
  - vm_compute. discriminate.
  - exists ex_atm, ex_bas, 2, (of_fun 30 (ex_ev c 1)), ex_V, (ex_ev c 1), ex_ng, lm, lt, lv, t, pd.
    split; [|split; [|split; [|split; [exact E1|split; [exact E2|split; [exact L|split; [|congruence]]]]]]].
    + intros i Hi. assert (i = 0 \/ i = 1) as [->| ->] by lia; (split; [eexists; split; reflexivity|repeat split]).
    + intros i Hi. assert (i = 0 \/ i = 1) as [->| ->] by lia; cbn; lia.
    + split; [cbn; lia|]. intros x Hx. cbn [asize of_fun] in Hx. unfold rd, inb. cbn [asize acell of_fun].
      replace ((0 <=? x) && (x <? 30)) with true by lia. reflexivity.
    + intros ip jp Hi Hj. cbn in Hi, Hj. assert (ip = 0) as -> by lia. assert (jp = 0) as -> by lia.
      assert (EL : lm 0 0 = (- (100))%R).
      { rewrite (ex_log c (cf ex_V (ex_ev c 1) 0 0) _ Hc eq_refl (L 0 0 ltac:(lia) ltac:(cbn; lia))). apply ln_exp. }
      rewrite EL. unfold cutoff. destruct Req_EM_T as [_|N]; [|exfalso; apply N; reflexivity].
      unfold estimate, size_of, log_size, last_ex, ex, dist_sq, ctr. cbn -[IZR].
      replace (/ 2 + / 2)%R with 1%R by lra. rewrite ln_1. lra.
Qed.
Print Assumptions C37_first_pair_refuted.

(** ** C38: tables *)
(** Every index table kept by an optimizer is the one a call without optimizer
    computes, for any contraction counts, if omega has the sign it had when the optimizer was made. *)
Theorem C38_index {F} (O : fops F) k ng (B : basis F) ev :
  good_basis B -> env_is (b_env B) ev -> ng_ok ng ->
  exists t b, gen_idx O k ng (b_atm B) (b_bas B) (b_nbas B) (b_env B) = Some (t, b) /\
  exists m, 0 <= m /\ (forall i l, 0 <= i < b_nbas B -> rd (b_bas B) (8 * i + 1) = Some l -> l <= m) /\
  (forall l1 l2 l3 l4 c1 c2 c3 c4 (om : bool) f0,
    0 <= l1 <= Z.min m (l_kept k) -> 0 <= l2 <= Z.min m (l_kept k) ->
    (if n_centres k <? 3 then l3 = 0 else 0 <= l3 <= Z.min m (l_kept k)) ->
    (if n_centres k <? 4 then l4 = 0 else 0 <= l4 <= Z.min m (l_kept k)) ->
    om = flt O (ev 8) (OptModel.f0 O) -> 3 * n_cart k l1 l2 l3 l4 <= asize f0 ->
    exists o f, rd t (table_pos k l1 l2 l3 l4) = Some (Off o) /\
      fresh_index k om ng l1 l2 l3 l4 c1 c2 c3 c4 f0 = Some f /\
      forall x, 0 <= x < 3 * n_cart k l1 l2 l3 l4 -> exists v, rd f x = Some v /\ rd b (o + x) = Some v).
Proof. exact (index_cached O k ng B ev). Qed.
Print Assumptions C38_index.

(** With a different sign of omega the kept table is wrong: a 2-centre integral of two p shells, optimizer made
    with omega = 0, call with omega < 0. *)
Theorem C38_index_sign_refuted : exists (B : basis Z) ng t b o f x,
  good_basis B /\ ng_ok ng /\ rd (b_env B) 8 = Some 0 /\
  gen_idx Zops K2c2e ng (b_atm B) (b_bas B) (b_nbas B) (b_env B) = Some (t, b) /\
  rd t (table_pos K2c2e 1 1 0 0) = Some (Off o) /\
  fresh_index K2c2e true ng 1 1 0 0 1 1 0 0 (uninit 27) = Some f /\
  0 <= x < 3 * n_cart K2c2e 1 1 0 0 /\ rd f x <> rd b (o + x).
Proof.
  exists (ex_basis 0), ex_ng.
  destruct (C38_index Zops K2c2e ex_ng (ex_basis 0) (fun i => if i =? 8 then 0 else i) (ex_good 0)) as (t & b & E & m & _ & Hm & H).
  { split; [cbn; lia|]. intros x Hx. cbn [ex_basis b_env asize of_fun] in *. unfold rd, inb. cbn [asize acell of_fun].
    replace ((0 <=? x) && (x <? 29)) with true by lia. reflexivity. }
  { unfold ng_ok; cbn; lia. }
  assert (1 <= m) by (apply (Hm 1 1); [cbn; lia|reflexivity]).
  destruct (H 1 1 0 0 1 1 0 0 false (uninit 27)) as (o & f & H1 & H2 & H3); [cbn; lia|cbn; lia|reflexivity|reflexivity|reflexivity|cbn; lia|].
  exists t, b, o. eexists. exists 0. split; [apply ex_good|]. split; [unfold ng_ok; cbn; lia|]. split; [reflexivity|].
  split; [exact E|]. split; [exact H1|]. split; [vm_compute; reflexivity|]. split; [cbn; lia|].
  destruct (H3 0 ltac:(cbn; lia)) as (v & Hv & ->). intros Hb. vm_compute in H2. injection H2 as <-. vm_compute in Hv, Hb. congruence.
Qed.
Print Assumptions C38_index_sign_refuted.

(** The sparse lists of every shell are those a call without optimizer computes. *)
Theorem C38_lists {F} (O : fops F) (B : basis F) V ev :
  0 <= b_nbas B -> has_shells (b_atm B) (b_bas B) (b_nbas B) V -> shells_ok (b_nbas B) V (asize (b_env B)) ->
  env_is (b_env B) ev -> (exists i, 0 <= i < b_nbas B /\ 0 < v_np V i) ->
  exists tn pn ts ps, set_non0coeff O (b_bas B) (b_nbas B) (b_env B) = Some (Some ((tn, pn), (ts, ps))) /\
  forall i, 0 <= i < b_nbas B -> exists on os r,
    rd tn i = Some (Off on) /\ rd ts i = Some (Off os) /\
    CINTOpt_non0coeff_byshell (fun c => feq O c (OptModel.f0 O)) (uninit (v_np V i * v_nc V i)) (uninit (v_np V i))
      (sub (b_env B) (v_coef V i)) (v_np V i) (v_nc V i) = Some r /\
    (forall p, 0 <= p < v_np V i -> exists n, rd (snd r) p = Some n /\ rd pn (on + p) = Some n) /\
    (forall x, 0 <= x < v_np V i * v_nc V i -> exists c, rd (fst r) x = Some c /\ rd ps (os + x) = Some c).
Proof. exact (lists_cached O B V ev). Qed.
Print Assumptions C38_lists.
