(** WholeOptSim.v — the optimized four-centre loops with the real computation inside do to the
    contraction buffers what the loops with abstract batches do. *)
From Coq Require Import Reals Lra.
From Verif Require Import Base FblasModel CtrModel Loop2eModel Loop3Model IntgStep IntgReal WholeModel WholeSim Whole2Model Whole2Sim WholeOptModel.
Local Open Scope Z_scope.

Section Step.
  Variables (sz : nat -> Z) (len gsz : Z).
  Hypothesis Hlen : 0 <= len.
  Notation sim := (sim (sized sz) (holds gsz)).
  Lemma gout_sim b B fac run s (emp : mem R -> bool) next : sz s >= len -> adds_at len gsz b B fac run ->
    (forall m m', sized sz m -> next m = Some m' -> sized sz m') ->
    sim (fun m => if b then m <- f_gout Rplus m s (emp m) len (fun n => fac * B n)%R ;; next m else Some m)
        (fun st => let '(m, g) := st in gout_step run s (emp m) next fac m g).
  Proof.
    intros Hd Hr Hnx m g m' Hm Hg E. destruct (Hm s) as [Hf Hs].
    destruct (Hr (emp m) g (buf m s) Hg ltac:(lia) Hf) as (g' & go & Er & Hg' & Hb).
    unfold gout_step. rewrite Er. cbn [bind]. destruct b.
    2:{ injection E as <-. split; [exact Hm|]. exists g'. split; [reflexivity|exact Hg']. }
    destruct (Hb eq_refl) as (Fg & Vg).
    destruct (f_gout Rplus m s (emp m) len _) as [m1|] eqn:E1; cbn [bind] in E; [|discriminate].
    destruct (f_gout_cells sz len gsz Hlen m s (emp m) _ m1 ltac:(lia) E1) as (a & -> & Fa & Va).
    assert (Ea : go = a).
    { apply arr_ext; [rewrite (proj1 Fg), (proj1 Fa); reflexivity|]. intros q.
      destruct (Z_lt_dec q 0) as [H|H]; [rewrite (proj2 Fg), (proj2 Fa) by lia; reflexivity|].
      destruct (Z_lt_dec q len) as [H'|H']; [|rewrite (proj2 Fg), (proj2 Fa) by lia; reflexivity].
      destruct (Va q ltac:(lia)) as (o1 & R1 & O1). destruct (Vg q ltac:(lia)) as (o2 & R2 & O2).
      assert (o1 = o2) as -> by (destruct (emp m); congruence).
      apply rd_spec in R1. apply rd_spec in R2. rewrite (proj2 R1), (proj2 R2). reflexivity. }
    subst go. rewrite E. cbn [bind]. split; [|exists g'; split; [reflexivity|exact Hg']].
    refine (Hnx _ _ _ E). apply sized_set; [exact Hm| |rewrite (proj1 Fa); exact Hs].
    intros q Hq. destruct (Z_lt_dec q len) as [H'|H'].
    - destruct (Va q ltac:(lia)) as (o & R1 & _). eauto.
    - rewrite (proj1 Fa) in Hq. destruct (Hf q Hq) as (v & Hv). exists v. apply rd_spec in Hv. apply rd_spec. rewrite (proj1 Fa), (proj2 Fa) by lia. exact Hv.
  Qed.
  Lemma sim_opt {T} (o : option T) fa fb : (forall c, sim (fa c) (fb c)) -> sim (fun m => c <- o ;; fa c m) (fun st => c <- o ;; fb c st).
  Proof. intros H m g m' Hm Hg E. destruct o as [c|]; cbn [bind] in *; [exact (H c m g m' Hm Hg E)|discriminate]. Qed.
  Lemma sim_skip (b : bool) fa fb : (b = false -> sim fa fb) -> sim (fun m => if b then Some m else fa m) (fun st => if b then Some st else fb st).
  Proof.
    intros H m g m' Hm Hg E. destruct b; [|exact (H eq_refl m g m' Hm Hg E)]. injection E as <-. split; [exact Hm|]. exists g. split; [reflexivity|exact Hg].
  Qed.
  (** a loop that uses the flag [fl] for buffer 0 and contracts it when something was added *)
  Lemma flag_sim n fl s p dst ngp fa fb : (forall x, 0 <= x < n -> sim (fa x) (fb x)) ->
    sim (fun m => let m := set_flg m fl true in m <- for_ 0 n fa m ;; if negb (flg m fl) then PRIM2CTR Rplus Rmult s p dst dst 0%nat ngp m else Some m)
        (fun st => let '(m, g) := st in st <- for_ 0 n fb (set_flg m fl true, g) ;; let '(m, g) := st in
                   m <- (if negb (flg m fl) then PRIM2CTR Rplus Rmult s p dst dst 0%nat ngp m else Some m) ;; Some (m, g)).
  Proof.
    intros H m g m' Hm Hg E. cbv zeta in E. destruct (for_ 0 n fa (set_flg m fl true)) as [m1|] eqn:Ef; cbn [bind] in E; [|discriminate].
    destruct (sim_for _ _ 0 n fa fb H _ g m1 (sized_flg sz m fl true Hm) Hg Ef) as (Hm1 & g1 & Eg & Hg1). rewrite Eg. cbn [bind]. rewrite E. cbn [bind].
    split; [|exists g1; split; [reflexivity|exact Hg1]].
    destruct (negb (flg m1 fl)); [exact (sized_p2c sz _ _ _ _ _ _ _ _ Hm1 E)|injection E as <-; exact Hm1].
  Qed.
  Lemma set_next s : forall m m', sized sz m -> Some (set_flg m s false) = Some m' -> sized sz m'.
  Proof. intros m m' Hm E. injection E as <-. apply sized_flg, Hm. Qed.
  (** the last step *)
  Lemma finish n fa fb go rows nc m g m' hv : sim (for_ 0 n fa) (for_ 0 n fb) -> sized sz m -> holds gsz g ->
    (m <- for_ 0 n fa m ;; m <- (if (1 <? nc) && negb (flg m go) then TRANSPOSE Rplus go rows nc m else Some m) ;; Some (m, negb (flg m 5%nat))) = Some (m', hv) ->
    (st <- for_ 0 n fb (m, g) ;; let '(m, g) := st in
     m <- (if (1 <? nc) && negb (flg m go) then TRANSPOSE Rplus go rows nc m else Some m) ;; Some (m, negb (flg m 5%nat))) = Some (m', hv).
  Proof.
    intros S Hm Hg E. destruct (for_ 0 n fa m) as [m1|] eqn:Ef; cbn [bind] in E; [|discriminate].
    destruct (S m g m1 Hm Hg Ef) as (_ & g1 & Eg & _). rewrite Eg. exact E.
  Qed.
End Step.

Section Loops.
  Variables (sz : nat -> Z) (gsz n_comp nf : Z) (si sj sk sl : shl R) (common : R).
  Notation len := (nf * n_comp).
  Hypothesis Hlen : 0 <= len.
  Variables (run : Z -> Z -> Z -> Z -> qrun) (b : Z -> Z -> Z -> Z -> bool) (B : Z -> Z -> Z -> Z -> Z -> R) (empty : bool)
    (skipkl : Z -> Z -> bool) (skipij : Z -> Z -> Z -> Z -> bool) (eij ekl : Z -> Z -> R).
  Hypothesis Hr : forall ip jp kp lp c, 0 <= ip < s_np si -> 0 <= jp < s_np sj -> 0 <= kp < s_np sk -> 0 <= lp < s_np sl ->
    adds_at len gsz (b ip jp kp lp) (B ip jp kp lp) (c * eij ip jp * ekl kp lp)%R (run ip jp kp lp).
  Variables (m m' : mem R) (g : arr R) (hv : bool).
  Hypothesis Hm : sized sz m.
  Hypothesis Hg : holds gsz g.
  Notation q := (mkq empty skipkl skipij b eij ekl B).

  Lemma opt_sim :
    (let gl := alias n_comp 5 4 in let gk := alias (s_ctr sl) gl 3 in let gj := alias (s_ctr sk) gk 2 in let gi := alias (s_ctr sj) gj 1 in sz (alias (s_ctr si) gi 0) >= len) ->
    CINT2e_loop Rplus Rmult n_comp nf si sj sk sl common q m = Some (m', hv) ->
    CINT2e_loop_run n_comp nf si sj sk sl common run empty skipkl skipij eij ekl m g = Some (m', hv).
  Proof.
    intros Hd E. unfold CINT2e_loop, CINT2e_loop_run in *. cbn [pair_empty skip_kl skip_ij g0 e_ij e_kl base] in E. destruct empty; [exact E|].
    cbv zeta in E, Hd |- *. set (gl := alias n_comp 5 4) in *. set (gk := alias (s_ctr sl) gl 3) in *. set (gj := alias (s_ctr sk) gk 2) in *. set (gi := alias (s_ctr sj) gj 1) in *. set (gg := alias (s_ctr si) gi 0) in *.
    refine (finish sz gsz _ _ _ _ _ _ _ _ _ _ _ (sized_reset sz m Hm) Hg E). clear E.
    apply sim_for. intros lp Hlp. shell_loop fac1l. intros kp Hkp.
    intros mA gA mB HmA HgA EA. destruct (skipkl kp lp) eqn:Hskl.
    { injection EA as <-. split; [exact HmA|]. exists gA. split; [reflexivity|exact HgA]. }
    revert mA gA mB HmA HgA EA. shell_loop fac1k. intros jp Hjp. shell_loop fac1j. intros ip Hip mA gA mB HmA HgA EA. destruct (skipij ip jp kp lp) eqn:Hsk.
    { injection EA as <-. split; [exact HmA|]. exists gA. split; [reflexivity|exact HgA]. }
    destruct (if s_ctr si =? 1 then _ else _) as [fac1i|] eqn:Ef; cbn [bind] in EA |- *; [|discriminate].
    assert (Hc : exists c, fac1i = (c * eij ip jp * ekl kp lp)%R).
    { destruct (s_ctr si =? 1); [destruct (rd (s_c si) ip); cbn in Ef; [|discriminate]|]; injection Ef as <-; eauto. }
    destruct Hc as (c & ->).
    exact (prim_sim sz len gsz Hlen _ _ _ _ si ip gi gg Hd (Hr ip jp kp lp c Hip Hjp Hkp Hlp) mA gA mB HmA HgA EA).
  Qed.

  Ltac start E lem := unfold lem in E; cbn [pair_empty skip_kl skip_ij g0 e_ij e_kl base] in E; destruct empty; [exact E|].

  Lemma sim_1111 : sz (if n_comp =? 1 then 5%nat else 0%nat) >= len ->
    CINT2e_1111_loop Rplus Rmult n_comp nf si sj sk sl common q m = Some (m', hv) ->
    CINT2e_1111_loop_run n_comp nf si sj sk sl common run empty skipkl skipij eij ekl m g = Some (m', hv).
  Proof.
    intros Hd E. unfold CINT2e_1111_loop_run. start E (@CINT2e_1111_loop). cbv zeta in E |- *.
    refine (finish sz gsz _ _ _ _ _ _ _ _ _ _ _ (sized_reset sz m Hm) Hg E). clear E.
    apply sim_for. intros lp Hlp. apply sim_opt. intros cl. apply sim_for. intros kp Hkp. apply sim_skip. intros _. apply sim_opt. intros ck.
    apply sim_for. intros jp Hjp. apply sim_opt. intros cj. apply sim_for. intros ip Hip. apply sim_skip. intros _. apply sim_opt. intros ci.
    exact (gout_sim sz len gsz Hlen _ _ _ _ _ (fun m => flg m _) _ Hd (Hr ip jp kp lp _ Hip Hjp Hkp Hlp) (set_next sz _)).
  Qed.
  Lemma sim_n111 : sz 0%nat >= len ->
    CINT2e_n111_loop Rplus Rmult n_comp nf si sj sk sl common q m = Some (m', hv) ->
    CINT2e_n111_loop_run n_comp nf si sj sk sl common run empty skipkl skipij eij ekl m g = Some (m', hv).
  Proof.
    intros Hd E. unfold CINT2e_n111_loop_run. start E (@CINT2e_n111_loop). cbv zeta in E |- *.
    refine (finish sz gsz _ _ _ _ _ _ _ _ _ _ _ (sized_reset sz m Hm) Hg E). clear E.
    apply sim_for. intros lp Hlp. apply sim_opt. intros cl. apply sim_for. intros kp Hkp. apply sim_skip. intros _. apply sim_opt. intros ck.
    apply sim_for. intros jp Hjp. apply sim_opt. intros cj. apply sim_for. intros ip Hip. apply sim_skip. intros _.
    exact (gout_sim sz len gsz Hlen _ _ _ _ _ (fun _ => true) _ Hd (Hr ip jp kp lp _ Hip Hjp Hkp Hlp) (fun m0 m1 H0 E0 => sized_p2c sz _ _ _ _ _ _ _ _ H0 E0)).
  Qed.
  Lemma sim_1n11 : sz 0%nat >= len ->
    CINT2e_1n11_loop Rplus Rmult n_comp nf si sj sk sl common q m = Some (m', hv) ->
    CINT2e_1n11_loop_run n_comp nf si sj sk sl common run empty skipkl skipij eij ekl m g = Some (m', hv).
  Proof.
    intros Hd E. unfold CINT2e_1n11_loop_run. start E (@CINT2e_1n11_loop). cbv zeta in E |- *.
    refine (finish sz gsz _ _ _ _ _ _ _ _ _ _ _ (sized_reset sz m Hm) Hg E). clear E.
    apply sim_for. intros lp Hlp. apply sim_opt. intros cl. apply sim_for. intros kp Hkp. apply sim_skip. intros _. apply sim_opt. intros ck.
    apply sim_for. intros jp Hjp. apply (flag_sim sz gsz). intros ip Hip. apply sim_skip. intros _. apply sim_opt. intros ci.
    exact (gout_sim sz len gsz Hlen _ _ _ _ _ (fun m => flg m _) _ Hd (Hr ip jp kp lp _ Hip Hjp Hkp Hlp) (set_next sz _)).
  Qed.
  Lemma sim_11n1 : sz 0%nat >= len ->
    CINT2e_11n1_loop Rplus Rmult n_comp nf si sj sk sl common q m = Some (m', hv) ->
    CINT2e_11n1_loop_run n_comp nf si sj sk sl common run empty skipkl skipij eij ekl m g = Some (m', hv).
  Proof.
    intros Hd E. unfold CINT2e_11n1_loop_run. start E (@CINT2e_11n1_loop). cbv zeta in E |- *.
    refine (finish sz gsz _ _ _ _ _ _ _ _ _ _ _ (sized_reset sz m Hm) Hg E). clear E.
    apply sim_for. intros lp Hlp. apply sim_opt. intros cl. apply sim_for. intros kp Hkp. apply sim_skip. intros _. apply (flag_sim sz gsz).
    intros jp Hjp. apply sim_opt. intros cj. apply sim_for. intros ip Hip. apply sim_skip. intros _. apply sim_opt. intros ci.
    exact (gout_sim sz len gsz Hlen _ _ _ _ _ (fun m => flg m _) _ Hd (Hr ip jp kp lp _ Hip Hjp Hkp Hlp) (set_next sz _)).
  Qed.
  Lemma sim_111n : sz 0%nat >= len ->
    CINT2e_111n_loop Rplus Rmult n_comp nf si sj sk sl common q m = Some (m', hv) ->
    CINT2e_111n_loop_run n_comp nf si sj sk sl common run empty skipkl skipij eij ekl m g = Some (m', hv).
  Proof.
    intros Hd E. unfold CINT2e_111n_loop_run. start E (@CINT2e_111n_loop). cbv zeta in E |- *.
    refine (finish sz gsz _ _ _ _ _ _ _ _ _ _ _ (sized_reset sz m Hm) Hg E). clear E.
    apply sim_for. intros lp Hlp. apply (flag_sim sz gsz). intros kp Hkp. apply sim_skip. intros _. apply sim_opt. intros ck.
    apply sim_for. intros jp Hjp. apply sim_opt. intros cj. apply sim_for. intros ip Hip. apply sim_skip. intros _. apply sim_opt. intros ci.
    exact (gout_sim sz len gsz Hlen _ _ _ _ _ (fun m => flg m _) _ Hd (Hr ip jp kp lp _ Hip Hjp Hkp Hlp) (set_next sz _)).
  Qed.
End Loops.

Section Loops3.
  Variables (sz : nat -> Z) (gsz n_comp nf : Z) (si sj sk : shl R) (common : R).
  Notation len := (nf * n_comp).
  Hypothesis Hlen : 0 <= len.
  Variables (run : Z -> Z -> Z -> qrun) (b : Z -> Z -> Z -> bool) (B : Z -> Z -> Z -> Z -> R) (empty : bool) (skip : Z -> Z -> bool) (ee : Z -> Z -> R).
  Hypothesis Hr : forall ip jp kp c, 0 <= ip < s_np si -> 0 <= jp < s_np sj -> 0 <= kp < s_np sk ->
    adds_at len gsz (b ip jp kp) (B ip jp kp) (c * ee ip jp)%R (run ip jp kp).
  Variables (m m' : mem R) (g : arr R) (hv : bool).
  Hypothesis Hm : sized sz m.
  Hypothesis Hg : holds gsz g.
  Notation q := (mkt empty skip b ee B).
  Ltac start E lem := unfold lem in E; cbn [t_empty t_skip t_g0 t_e t_base] in E; destruct empty; [exact E|].

  Lemma sim_111 : sz (if n_comp =? 1 then 5%nat else 0%nat) >= len ->
    CINT3c2e_111_loop Rplus Rmult n_comp nf si sj sk common q m = Some (m', hv) ->
    CINT3c2e_111_loop_run n_comp nf si sj sk common run empty skip ee m g = Some (m', hv).
  Proof.
    intros Hd E. unfold CINT3c2e_111_loop_run. start E (@CINT3c2e_111_loop). cbv zeta in E |- *.
    refine (finish sz gsz _ _ _ _ _ _ _ _ _ _ _ (sized_reset sz m Hm) Hg E). clear E.
    apply sim_for. intros kp Hkp. apply sim_opt. intros ck.
    apply sim_for. intros jp Hjp. apply sim_opt. intros cj. apply sim_for. intros ip Hip. apply sim_skip. intros _. apply sim_opt. intros ci.
    exact (gout_sim sz len gsz Hlen _ _ _ _ _ (fun m => flg m _) _ Hd (Hr ip jp kp _ Hip Hjp Hkp) (set_next sz _)).
  Qed.
  Lemma sim_n11 : sz 0%nat >= len ->
    CINT3c2e_n11_loop Rplus Rmult n_comp nf si sj sk common q m = Some (m', hv) ->
    CINT3c2e_n11_loop_run n_comp nf si sj sk common run empty skip ee m g = Some (m', hv).
  Proof.
    intros Hd E. unfold CINT3c2e_n11_loop_run. start E (@CINT3c2e_n11_loop). cbv zeta in E |- *.
    refine (finish sz gsz _ _ _ _ _ _ _ _ _ _ _ (sized_reset sz m Hm) Hg E). clear E.
    apply sim_for. intros kp Hkp. apply sim_opt. intros ck.
    apply sim_for. intros jp Hjp. apply sim_opt. intros cj. apply sim_for. intros ip Hip. apply sim_skip. intros _.
    exact (gout_sim sz len gsz Hlen _ _ _ _ _ (fun _ => true) _ Hd (Hr ip jp kp _ Hip Hjp Hkp) (fun m0 m1 H0 E0 => sized_p2c sz _ _ _ _ _ _ _ _ H0 E0)).
  Qed.
  Lemma sim_1n1 : sz 0%nat >= len ->
    CINT3c2e_1n1_loop Rplus Rmult n_comp nf si sj sk common q m = Some (m', hv) ->
    CINT3c2e_1n1_loop_run n_comp nf si sj sk common run empty skip ee m g = Some (m', hv).
  Proof.
    intros Hd E. unfold CINT3c2e_1n1_loop_run. start E (@CINT3c2e_1n1_loop). cbv zeta in E |- *.
    refine (finish sz gsz _ _ _ _ _ _ _ _ _ _ _ (sized_reset sz m Hm) Hg E). clear E.
    apply sim_for. intros kp Hkp. apply sim_opt. intros ck.
    apply sim_for. intros jp Hjp. apply (flag_sim sz gsz). intros ip Hip. apply sim_skip. intros _. apply sim_opt. intros ci.
    exact (gout_sim sz len gsz Hlen _ _ _ _ _ (fun m => flg m _) _ Hd (Hr ip jp kp _ Hip Hjp Hkp) (set_next sz _)).
  Qed.
End Loops3.
