(** IntgRun.v — symbolic execution is sound: the blocks hold what the words say. *)
From Coq Require Import Reals Lra QArith Qreals FunctionalExtensionality.
From Verif Require Import Base EnvModel RecLay OpProof OpSpec OpReal IntgModel IntgSpec IntgTab IntgStmt IntgCheck IntgStep IntgSem.
Local Open Scope Z_scope.

Lemma order_used fam om ng l ctr (x : gin R) c : x_env x = fam_env fam om ng l ctr -> used fam c = true -> order_of x c = l c.
Proof. intros E H. unfold order_of. rewrite E. destruct fam, c; try discriminate H; reflexivity. Qed.
Lemma order_unused fam om ng l ctr (x : gin R) c : x_env x = fam_env fam om ng l ctr -> used fam c = false ->
  match fam, c with F2c2e, CJ => true | _, _ => false end = false -> order_of x c = 0.
Proof. intros E H H'. unfold order_of. rewrite E. destruct fam, c; try discriminate H; try discriminate H'; reflexivity. Qed.

Lemma rd_full (m : arr R) q : 0 <= q < asize m -> acell m q <> None -> exists v, rd m q = Some v.
Proof.
  intros Hq Hc. unfold rd, inb. replace ((0 <=? q) && (q <? asize m)) with true by lia.
  destruct (acell m q) as [v|]; [eauto|congruence].
Qed.
Lemma got_rd m q v : rd m q = Some v -> got m q = v. Proof. unfold got. intros ->. reflexivity. Qed.
Lemma rd_got (m : arr R) q : 0 <= q < asize m -> acell m q <> None -> rd m q = Some (got m q).
Proof. intros Hq Hc. destruct (rd_full m q Hq Hc) as [v Hv]. unfold got. rewrite Hv. reflexivity. Qed.

Lemma bind_some {A B} (m : option A) (k : A -> option B) y : (x <- m ;; k x) = Some y -> exists x, m = Some x /\ k x = Some y.
Proof. destruct m as [x|]; cbn; [eauto|discriminate]. Qed.
Lemma chk_some b u : chk b = Some u -> b = true. Proof. destruct b; [reflexivity|discriminate]. Qed.

Lemma vg_map2 f v w c : vg (vmap2 f v w) c = f (vg v c) (vg w c).
Proof. destruct v as [[[? ?] ?] ?], w as [[[? ?] ?] ?], c; reflexivity. Qed.
Lemma vg_unit c c' : vg (unit c) c' = more c c'. Proof. destruct c, c'; reflexivity. Qed.
Lemma all4 (P : centre -> bool) : forallb P cs4 = true -> forall c, P c = true.
Proof. intros H c. cbn in H. destruct c; repeat (apply andb_true_iff in H; destruct H as [? H]); assumption. Qed.
Lemma unshifted v : shifted v = false -> forall c, vg v c = 0.
Proof. unfold shifted. intros H c. apply Bool.negb_false_iff in H. pose proof (all4 _ H c). cbn in *. lia. Qed.

Lemma sum_loop (m : arr R) (t s n : Z) : 0 <= n -> 0 <= t -> t + n <= asize m -> 0 <= s -> s + n <= asize m -> apart t s n ->
  (forall q, 0 <= q < asize m -> acell m q <> None) ->
  wp (for_ 0 n (fun ix m => v <- rd m (t + ix) ;; w <- rd m (s + ix) ;; wr m (t + ix) (v + w)%R) m) (fun m' =>
    Frame (fun p => t <= p < t + n) m m' /\ forall ix, 0 <= ix < n -> rd m' (t + ix) = Some (got m (t + ix) + got m (s + ix))%R).
Proof.
  intros Hn Ht Htn Hs Hsn Hap Hfull.
  apply wp_for with (I := fun k (m' : arr R) => Frame (fun p => t <= p < t + k) m m' /\
    forall ix, 0 <= ix < k -> rd m' (t + ix) = Some (got m (t + ix) + got m (s + ix))%R).
  - lia.
  - split; [split; [reflexivity|reflexivity]|lia].
  - intros k m' Hk [Fr Hv].
    assert (R1 : rd m' (t + k) = Some (got m (t + k))).
    { rewrite (Frame_rd _ _ _ _ Fr) by lia. apply rd_got; [lia|apply Hfull; lia]. }
    assert (R2 : rd m' (s + k) = Some (got m (s + k))).
    { rewrite (Frame_rd _ _ _ _ Fr) by (unfold apart in Hap; lia). apply rd_got; [lia|apply Hfull; lia]. }
    rewrite R1. cbn [bind]. rewrite R2. cbn [bind]. destruct Fr as [F1 F2].
    unfold wr, inb. replace ((0 <=? t + k) && (t + k <? asize m')) with true by lia.
    cbn. split.
    + split; [exact F1|]. cbn. intros i Hi. destruct (i =? t + k) eqn:E; [exfalso; apply Hi; lia|]. apply F2. lia.
    + intros ix Hix. unfold rd, inb. cbn.
      replace ((0 <=? t + ix) && (t + ix <? asize m')) with true by lia.
      destruct (t + ix =? t + k) eqn:E.
      * assert (ix = k) as -> by lia. reflexivity.
      * specialize (Hv ix ltac:(lia)). unfold rd, inb in Hv.
        replace ((0 <=? t + ix) && (t + ix <? asize m')) with true in Hv by lia. exact Hv.
  - intros m' Hm. exact Hm.
Qed.


Lemma zero_ofs fam om ng l ctr bg K : lhyp fam ng l bg K -> ofs K (fam_env fam om ng l ctr) GRID_BLKSIZE 0.
Proof.
  intros (Hl & Hi & _ & HK). pose proof (Hi CI). pose proof (Hi CJ). pose proof (Hi CK). pose proof (Hi CL). cbn [incr own] in *.
  destruct fam, K; cbn in HK; try contradiction; cbn [ofs]; try reflexivity;
    pose proof (Hl CI eq_refl); try pose proof (Hl CJ eq_refl); try pose proof (Hl CK eq_refl); try pose proof (Hl CL eq_refl).
  all: unfold fam_env, init_int1e, init_int2e, init_int2e_yp, init_4c, init_int2c2e, init_int3c2e, init_int1e_grids; cbn [nrys_roots];
    cbv zeta; cbn [nrys_roots].
  all: try (exists 0, 0; split; [unfold GRID_BLKSIZE; lia|]; split; [|reflexivity]).
  all: try (unfold init_int1e; cbv zeta; cbn [nrys_roots]).
  all: repeat match goal with |- context [Z.quot ?u 2] =>
    let q := fresh "q" in pose proof (Z.quot_pos u 2 ltac:(lia) ltac:(lia)); pose proof (Z.quot_rem' u 2);
      pose proof (Z.rem_bound_pos u 2 ltac:(lia) ltac:(lia)); set (q := Z.quot u 2) in *; clearbody q end.
  all: unfold sr_roots; repeat match goal with |- context [if ?b then _ else _] => destruct b eqn:? end; try lia.
Qed.

Section Run.
  Variables (fam : gfam) (om : bool) (ng : ngT) (l ctr : centre -> Z) (x : gin R) (K : gkind) (nblk : nat).
  Variable I : Z -> Z -> funs -> R.
  Hypothesis (H : lhyp fam ng l (x_bg x) K) (He : x_env x = fam_env fam om ng l ctr).
  Hypothesis Hlin : forall c, used fam c = true -> linear_in (x_a x) (x_R x) I c.
  Local Notation e := (x_env x).
  Local Notation gs := (g_size (x_env x)).
  Local Notation BV := (bv (x_a x) (x_R x) (x_C x) I).

  Definition okn (v n : centre -> Z) : Prop :=
    forall c, 0 <= n c /\ (if used fam c then n c <= l c + v c else n c = 0).
  Definition dot4 (sh : centre -> Z) : Z :=
    g_stride_i e * sh CI + g_stride_k e * sh CK + g_stride_l e * sh CL + g_stride_j e * sh CJ.
  Lemma cell_addv o n sh : cell e o (addv n sh) = cell e o n + dot4 sh.
  Proof. unfold cell, dot4, addv. ring. Qed.
  Lemma cell_addc o n c k : cell e o (addc n c k) = cell e o n + k * stride x c.
  Proof. unfold cell, addc, stride. destruct c; cbn [more own]; ring. Qed.
  Lemma dot4_unit sh c : dot4 (vg (vmap2 Z.add sh (unit c))) = dot4 (vg sh) + stride x c.
  Proof. unfold dot4. rewrite !vg_map2, !vg_unit. unfold stride. destruct c; cbn [more own]; ring. Qed.

  Definition okp (p : nat -> Z) (k b : nat) (sh : v4) : Prop :=
    (b < nblk)%nat /\ p k = 3 * gs * Z.of_nat b + dot4 (vg sh) /\
    forall c, 0 <= vg sh c /\ (used fam c = false -> vg sh c = 0).
  Definition okb (m : arr R) (b : nat) (v : v4) (ws : list (list word)) : Prop :=
    Forall four ws /\ (forall c, used fam c = true -> vg v c <= incr ng c) /\
    forall ax o n, 0 <= ax < 3 -> ofs K e (x_bg x) o -> okn (vg v) n ->
      rd m (ax * gs + (3 * gs * Z.of_nat b + cell e o n)) = Some (BV ax o ws n).
  Definition full (m : arr R) : Prop := forall q, 0 <= q < asize m -> acell m q <> None.
  Definition Inv (st : sst) (p : nat -> Z) (m : arr R) : Prop :=
    length (fst st) = nblk /\ length (snd st) = nblk /\ 3 * gs * Z.of_nat nblk <= asize m /\ full m /\
    (forall k b sh, nth_error (fst st) k = Some (b, sh) -> okp p k b sh) /\
    (forall b v ws, nth_error (snd st) b = Some (Some (v, ws)) -> okb m b v ws).

  Lemma full_grow m m' : full m -> grow m m' -> full m'.
  Proof. intros F [G1 G2] q Hq. apply G2, F. lia. Qed.

  Lemma okn_top v n : (forall c, used fam c = true -> v c <= incr ng c) -> okn v n -> forall c, 0 <= n c <= top fam ng l c.
  Proof.
    intros Hv Hn c. specialize (Hn c). specialize (Hv c). unfold top. destruct (used fam c); [specialize (Hv eq_refl)|]; lia.
  Qed.
  Lemma cb o n : ofs K e (x_bg x) o -> (forall c, 0 <= n c <= top fam ng l c) -> 0 <= cell e o n < gs.
  Proof. intros Ho Hn. rewrite He in *. exact (cell_bound fam om ng l ctr _ K H o n Ho Hn). Qed.

  Lemma gs_nonneg : (exists o, ofs K e (x_bg x) o) -> 0 <= gs.
  Proof.
    intros [o Ho]. destruct H as (Hl & Hi & _).
    pose proof (cb o (fun _ => 0) Ho) as B. assert (0 <= cell e o (fun _ => 0) < gs); [|lia]. apply B.
    intros c. pose proof (Hi c). unfold top. destruct (used fam c) eqn:E; [pose proof (Hl c E)|]; lia.
  Qed.

  (** ** derivative and position operators *)
  Section Apply.
    Hypothesis (Hf : fam <> F4c1e) (Hgs : 0 <= gs).
    Variables (c : centre) (t s : nat) (a : gargs) (st : sst) (p : nat -> Z) (m : arr R).
    Variables (b : nat) (sh v d : v4) (ws : list (list word)) (sh' : v4).
    Hypothesis (HI : Inv st p m) (Hps : nth_error (fst st) s = Some (b, sh)) (Hbs : nth_error (snd st) b = Some (Some (v, ws))).
    Hypothesis (Hd : argsv fam a = Some d) (Hc : used fam c = true).
    Hypothesis (Hfit : fits fam ng (vmap2 Z.add (vmap2 Z.add d (unit c)) sh) = true) (Hap : apartb t b sh = true).
    Hypothesis (Hpt : nth_error (fst st) t = Some (t, sh')) (Hsh' : shifted sh' = false).
    Let v' := vmap2 Z.min d (vmap2 Z.sub v (vmap2 Z.add (unit c) sh)).

    Lemma d_args c' : 0 <= vg d c' /\ argz x a c' = (if used fam c' then l c' else 0) + vg d c' /\ (used fam c' = false -> vg d c' = 0).
    Proof.
      pose proof Hd as Hd'. unfold argsv in Hd'.
      apply bind_some in Hd'. destruct Hd' as (d1 & D1 & Hd'). apply bind_some in Hd'. destruct Hd' as (d2 & D2 & Hd').
      apply bind_some in Hd'. destruct Hd' as (d3 & D3 & Hd'). apply bind_some in Hd'. destruct Hd' as (d4 & D4 & Hd').
      injection Hd' as Ed.
      assert (G : argv fam c' (own c' (a_i a) (a_j a) (a_k a) (a_l a)) = Some (vg d c')).
      { rewrite <- Ed. destruct c'; assumption. }
      clear D1 D2 D3 D4 Ed. unfold argz. set (g := own c' _ _ _ _) in *. clearbody g.
      unfold argv in G. destruct (used fam c') eqn:U.
      - destruct g as [k|]; [|discriminate]. destruct (0 <=? k) eqn:E; [|discriminate]. injection G as <-.
        unfold arg. rewrite (order_used fam om ng l ctr x c' He U). split; [lia|]. split; [reflexivity|discriminate].
      - destruct g as [k|].
        + destruct ((k =? 0) && negb (match fam, c' with F2c2e, CJ => true | _, _ => false end)) eqn:E; [|discriminate].
          injection G as <-. apply andb_true_iff in E. destruct E as [E1 E2]. apply Bool.negb_true_iff in E2.
          unfold arg. rewrite (order_unused fam om ng l ctr x c' He U E2). split; [lia|]. split; [lia|auto].
        + injection G as <-. cbn. split; [lia|]. split; [lia|auto].
    Qed.
    Lemma fit c' : if used fam c' then vg d c' + more c c' + vg sh c' <= incr ng c' else vg d c' + more c c' + vg sh c' = 0.
    Proof.
      pose proof (all4 _ Hfit c') as F. cbn beta in F. rewrite !vg_map2, vg_unit in F. destruct (used fam c'); lia.
    Qed.
    Lemma ps_ok : okp p s b sh. Proof. destruct HI as (_ & _ & _ & _ & P & _). apply P. exact Hps. Qed.
    Lemma pt_ok : p t = 3 * gs * Z.of_nat t /\ (t < nblk)%nat.
    Proof.
      destruct HI as (_ & _ & _ & _ & P & _). destruct (P _ _ _ Hpt) as (P1 & P2 & P3). split; [|assumption].
      rewrite P2. unfold dot4. pose proof (unshifted _ Hsh' CI) as U1. pose proof (unshifted _ Hsh' CJ) as U2.
      pose proof (unshifted _ Hsh' CK) as U3. pose proof (unshifted _ Hsh' CL) as U4. rewrite U1, U2, U3, U4. ring.
    Qed.
    Lemma Ha c' : 0 <= argz x a c' /\ argz x a c' + more c c' <= top fam ng l c'.
    Proof.
      destruct (d_args c') as (D1 & D2 & D3). pose proof (fit c') as F. destruct ps_ok as (_ & _ & S). specialize (S c').
      destruct H as (Hl & _). specialize (Hl c'). pose proof (more_nn c c').
      rewrite D2. unfold top. destruct (used fam c'); [specialize (Hl eq_refl)|]; lia.
    Qed.
    Lemma sh_dot : 0 <= dot4 (vg sh) < gs.
    Proof.
      assert (B : 0 <= cell e 0 (vg sh) < gs).
      { rewrite He. apply (cell_bound fam om ng l ctr GRID_BLKSIZE K).
        - destruct H as (H1 & H2 & H3 & H4). repeat split; auto; unfold GRID_BLKSIZE; lia.
        - apply (zero_ofs _ _ _ _ _ _ _ H).
        - intros c'. destruct (d_args c') as (D1 & D2 & D3). pose proof (fit c') as F. destruct ps_ok as (_ & _ & S). specialize (S c').
          destruct H as (Hl & _). specialize (Hl c'). pose proof (more_nn c c').
          unfold top. destruct (used fam c'); [specialize (Hl eq_refl)|]; lia. }
      unfold cell in B. unfold dot4. lia.
    Qed.
    Lemma gs3 k k' : (k <= k')%nat -> 3 * gs * Z.of_nat k <= 3 * gs * Z.of_nat k'.
    Proof. intros Hk. pose proof sh_dot. apply Z.mul_le_mono_nonneg_l; lia. Qed.
    Lemma gsS k : 3 * gs * Z.of_nat (S k) = 3 * gs * Z.of_nat k + 3 * gs.
    Proof. lia. Qed.
    Lemma Hfo : 0 <= p t. Proof. destruct pt_ok as [-> _]. pose proof sh_dot. pose proof (gs3 0 t ltac:(lia)). lia. Qed.
    Lemma Hsz : p t + 3 * gs <= asize m.
    Proof.
      destruct pt_ok as [-> Ht]. destruct HI as (_ & _ & Sz & _). rewrite <- gsS. pose proof (gs3 (S t) nblk ltac:(lia)). lia.
    Qed.
    Lemma Hapt : apart (p t) (p s) (3 * gs).
    Proof.
      destruct pt_ok as [-> Ht]. destruct ps_ok as (P1 & -> & P3). pose proof sh_dot.
      pose proof Hap as Hq. unfold apartb in Hq. apply Bool.orb_true_iff in Hq. destruct Hq as [Q|Q]; unfold apart.
      - left. apply Nat.ltb_lt in Q. pose proof (gs3 (S t) b ltac:(lia)). rewrite gsS in *. lia.
      - right. apply Nat.leb_le in Q. destruct (shifted sh) eqn:E.
        + pose proof (gs3 (S (S b)) t ltac:(lia)). rewrite !gsS in *. lia.
        + assert (dot4 (vg sh) = 0) as ->.
          { pose proof (unshifted _ E CI) as U1. pose proof (unshifted _ E CJ) as U2.
            pose proof (unshifted _ E CK) as U3. pose proof (unshifted _ E CL) as U4. unfold dot4. rewrite U1, U2, U3, U4. ring. }
          pose proof (gs3 (S b) t ltac:(lia)). rewrite !gsS in *. lia.
    Qed.
    Lemma src o n : p s + cell e o n = 3 * gs * Z.of_nat b + cell e o (addv n (vg sh)).
    Proof. destruct ps_ok as (_ & -> & _). rewrite cell_addv. ring. Qed.
    Lemma axb ax q : 0 <= ax < 3 -> 0 <= q < gs -> 0 <= ax * gs + q < 3 * gs.
    Proof. intros Hax Hq. pose proof (axis_bound gs ax q Hq Hax). lia. Qed.
    Lemma blk_in k ax q : (k < nblk)%nat -> 0 <= ax < 3 -> 0 <= q < gs ->
      3 * gs * Z.of_nat k <= ax * gs + (3 * gs * Z.of_nat k + q) < 3 * gs * Z.of_nat (S k) /\ 0 <= ax * gs + (3 * gs * Z.of_nat k + q) < asize m.
    Proof.
      intros Hk Hax Hq. pose proof (axb ax q Hax Hq). destruct HI as (_ & _ & Sz & _).
      pose proof (gs3 0 k ltac:(lia)). pose proof (gs3 (Datatypes.S k) nblk ltac:(lia)). rewrite gsS in *. lia.
    Qed.
    Lemma Hrd : readable x K c a (p s) m.
    Proof.
      intros ax o n Hax Ho Hn. rewrite src.
      destruct (blk_in b ax (cell e o (addv n (vg sh))) (proj1 ps_ok) Hax) as [_ B].
      - apply cb; [exact Ho|]. intros c'. specialize (Hn c'). destruct (d_args c') as (D1 & D2 & D3). pose proof (fit c') as F.
        destruct ps_ok as (_ & _ & S). specialize (S c'). destruct H as (Hl & _). specialize (Hl c').
        unfold addv, top. rewrite D2 in Hn. destruct (used fam c'); [specialize (Hl eq_refl)|]; lia.
      - destruct HI as (_ & _ & _ & Fu & _). apply rd_full; [exact B|apply Fu, B].
    Qed.

    (** values through the source pointer *)
    Lemma src_val ax o n : 0 <= ax < 3 -> ofs K e (x_bg x) o -> okn (vg v) (addv n (vg sh)) ->
      got m (ax * gs + (p s + cell e o n)) = BV ax o ws (addv n (vg sh)).
    Proof.
      intros Hax Ho Hn. rewrite src. apply got_rd. destruct HI as (_ & _ & _ & _ & _ & B).
      destruct (B _ _ _ Hbs) as (_ & _ & V). apply V; assumption.
    Qed.
    Lemma ok_v' n : okn (vg v') n -> (forall c', 0 <= n c' <= argz x a c') /\ okn (vg v) (addv n (vg sh)) /\ okn (vg v) (addv (addc n c 1) (vg sh)) /\ (0 < n c -> okn (vg v) (addv (addc n c (-1)) (vg sh))).
    Proof.
      intros Hn. destruct ps_ok as (_ & _ & S).
      assert (Q : forall c', vg v' c' <= vg d c' /\ vg v' c' + more c c' + vg sh c' <= vg v c').
      { intros c'. unfold v'. rewrite !vg_map2, vg_unit. lia. }
      assert (M : forall c', 0 <= more c c' <= 1 /\ (used fam c' = false -> more c c' = 0)).
      { intros c'. split; [destruct c, c'; cbn; lia|]. intros U. destruct (c_cases c) as [Ec|[Ec|[Ec|Ec]]]; rewrite Ec in *; destruct c'; cbn; congruence. }
      assert (Mc : forall c', 0 < n c -> more c c' <= n c').
      { intros c' Hp. destruct (c_cases c) as [Ec|[Ec|[Ec|Ec]]]; rewrite Ec in *; pose proof (Hn c'); destruct c'; cbn; lia. }
      repeat split; intros; specialize (Hn c0) || specialize (Hn c'); 
        try (specialize (Q c0); specialize (M c0); specialize (S c0); try specialize (Mc c0 H0)); unfold addv, addc;
        try (destruct (d_args c') as (D1 & D2 & D3); specialize (Q c'); rewrite D2); 
        try (destruct (used fam c0)); try (destruct (used fam c')); lia.
    Qed.
    Lemma ws4 : Forall four (map (shift_words sh) ws).
    Proof.
      destruct HI as (_ & _ & _ & _ & _ & B). destruct (B _ _ _ Hbs) as (Q & _).
      apply Forall_forall. intros w Hw. apply in_map_iff in Hw. destruct Hw as (u & <- & Hu).
      apply shift_four. exact (proj1 (Forall_forall _ _) Q u Hu).
    Qed.

    Lemma apply_inv pr V m' : grow m m' ->
      stepped x K a (p t) m V m' ->
      (forall ax o n, 0 <= ax < 3 -> ofs K e (x_bg x) o -> okn (vg v') n ->
         V ax o n = BV ax o (map (app_word c [pr]) (map (shift_words sh) ws)) n) ->
      Inv (fst st, upd_nth t (fun _ => Some (v', map (fun w => app_word c [pr] (shift_words sh w)) ws)) (snd st)) p m'.
    Proof.
      intros G [Fr HV] HB. pose proof HI as (L1 & L2 & S & Fu & P & B).
      split; [exact L1|]. split; [cbn; rewrite upd_length; exact L2|].
      split; [destruct G as [-> _]; exact S|]. split; [exact (full_grow _ _ Fu G)|]. split; [exact P|].
      cbn [snd]. intros b' v1 ws1 E. rewrite nth_error_upd in E. destruct (Nat.eqb b' t) eqn:Et.
      - apply Nat.eqb_eq in Et. subst b'. destruct (nth_error (snd st) t) as [ob|]; [|discriminate]. cbn in E. injection E as <- <-.
        split; [|split].
        + pose proof ws4 as W. rewrite <- map_map. apply Forall_forall. intros w Hw. apply in_map_iff in Hw. destruct Hw as (u & <- & Hu).
          apply app_four. exact (proj1 (Forall_forall _ _) W u Hu).
        + intros c' U. unfold v'. rewrite !vg_map2, vg_unit. pose proof (fit c') as F. rewrite U in F.
          destruct ps_ok as (_ & _ & Q). specialize (Q c'). pose proof (more_nn c c'). lia.
        + intros ax o n Hax Ho Hn. destruct pt_ok as [Ept _]. rewrite <- Ept. rewrite HV; [|assumption|assumption|apply ok_v', Hn].
          rewrite HB by assumption. rewrite map_map. reflexivity.
      - apply Nat.eqb_neq in Et. destruct (B _ _ _ E) as (B1 & B2 & B3). split; [exact B1|]. split; [exact B2|].
        intros ax o n Hax Ho Hn. rewrite (Frame_rd _ _ _ _ Fr).
        + apply B3; assumption.
        + destruct pt_ok as [-> Ht].
          assert (Hb' : (b' < nblk)%nat). { rewrite <- L2. apply nth_error_Some. rewrite E. discriminate. }
          destruct (blk_in b' ax (cell e o n) Hb' Hax) as [Q _].
          { apply cb; [exact Ho|]. apply (okn_top (vg v1)); assumption. }
          destruct (Nat.lt_ge_cases b' t) as [Q1|Q1].
          * pose proof (gs3 (Datatypes.S b') t ltac:(lia)). lia.
          * pose proof (gs3 (Datatypes.S t) b' ltac:(lia)). rewrite (gsS t) in *. lia.
    Qed.

    Lemma at_1 ax o n : at_ x (p s) ax o n + stride x c = ax * gs + (p s + cell e o (addc n c 1)).
    Proof. unfold at_. rewrite cell_addc. ring. Qed.
    Lemma at_m1 ax o n : at_ x (p s) ax o n - stride x c = ax * gs + (p s + cell e o (addc n c (-1))).
    Proof. unfold at_. rewrite cell_addc. ring. Qed.

    Lemma D_ok : exists m', op_D Rplus Rmult IZR x K c (p t) (p s) a m = Some m' /\ Inv (fst st, upd_nth t (fun _ => Some (v', map (fun w => app_word c [D] (shift_words sh w)) ws)) (snd st)) p m'.
    Proof.
      pose proof (step_D fam om ng l ctr x K H He Hf c a (p t) (p s) m Ha Hc Hfo Hsz Hapt Hrd) as W.
      apply wp_exists in W. destruct W as (m' & Em & W). exists m'. split; [exact Em|].
      apply (apply_inv D _ _ (keeps_op_D _ _ _ _ _ _ _ _ _ _ _ Em) W).
      intros ax o n Hax Ho Hn. destruct (ok_v' n Hn) as (N1 & N2 & N3 & N4).
      assert (Nn : forall c', 0 <= n c') by (intros c'; apply Hn).
      assert (Sn : forall c', 0 <= vg sh c') by (intros c'; apply (proj2 (proj2 ps_ok))).
      rewrite (bv_D fam) by (try exact Hlin; try exact ws4; auto).
      assert (N1' : forall c', 0 <= addc n c 1 c') by (intros c'; unfold addc; pose proof (more_nn c c'); pose proof (Nn c'); lia).
      destruct ps_ok as (_ & _ & PS).
      destruct HI as (_ & _ & _ & _ & _ & B). destruct (B _ _ _ Hbs) as (Q & _).
      rewrite (bv_shift _ _ _ _ _ _ _ (addc n c 1)) by assumption.
      unfold VD. rewrite at_1, (src_val ax o (addc n c 1)) by assumption.
      destruct (n c =? 0) eqn:E0.
      - apply Z.eqb_eq in E0. rewrite E0. ring.
      - apply Z.eqb_neq in E0. pose proof (Nn c). assert (Hp : 0 < n c) by lia. specialize (N4 Hp).
        rewrite at_m1, (src_val ax o (addc n c (-1))) by assumption.
        rewrite (bv_shift _ _ _ _ _ _ _ (addc n c (-1))); [reflexivity|assumption| |assumption].
        intros c'. destruct (N4 c') as [Z0 _]. unfold addc. specialize (Nn c'). specialize (PS c').
        destruct (c_cases c) as [Ec|[Ec|[Ec|Ec]]]; rewrite Ec in *; destruct c'; cbn [more]; lia.
    Qed.
    Lemma X_ok com : exists m', op_X Rplus Rmult Rminus x K c com (p t) (p s) a m = Some m' /\ Inv (fst st, upd_nth t (fun _ => Some (v', map (fun w => app_word c [X (if com then Com else Zero)] (shift_words sh w)) ws)) (snd st)) p m'.
    Proof.
      pose proof (step_X fam om ng l ctr x K H He Hf c a (p t) (p s) m Ha Hc Hfo Hsz Hapt Hrd com) as W.
      apply wp_exists in W. destruct W as (m' & Em & W). exists m'. split; [exact Em|].
      apply (apply_inv (X (if com then Com else Zero)) _ _ (keeps_op_X _ _ _ _ _ _ _ _ _ _ _ _ Em) W).
      intros ax o n Hax Ho Hn. destruct (ok_v' n Hn) as (N1 & N2 & N3 & N4).
      assert (Nn : forall c', 0 <= n c') by (intros c'; apply Hn).
      assert (Sn : forall c', 0 <= vg sh c') by (intros c'; apply (proj2 (proj2 ps_ok))).
      rewrite (bv_X fam) by (try exact Hlin; try exact ws4; auto).
      assert (N1' : forall c', 0 <= addc n c 1 c') by (intros c'; unfold addc; pose proof (more_nn c c'); pose proof (Nn c'); lia).
      destruct HI as (_ & _ & _ & _ & _ & B). destruct (B _ _ _ Hbs) as (Q & _).
      rewrite (bv_shift _ _ _ _ _ _ _ (addc n c 1)) by assumption.
      rewrite (bv_shift _ _ _ _ _ _ _ n) by assumption.
      unfold VX. rewrite at_1, (src_val ax o (addc n c 1)) by assumption.
      unfold at_. rewrite (src_val ax o n) by assumption.
      destruct com; cbn [origin]; ring.
    Qed.
  End Apply.
End Run.
