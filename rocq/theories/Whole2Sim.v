(** Whole2Sim.v — the two-electron primitive loops with the real computation inside do to the
    contraction buffers what the loops with abstract batches do. *)
From Coq Require Import Reals Lra.
From Verif Require Import Base FblasModel CtrModel Loop2eModel Loop3Model IntgStep IntgReal WholeModel WholeSim Whole2Model.
Local Open Scope Z_scope.

(** [adds_at len gsz b B fac run]: run with envs->fac[0] = fac returns b and, if b, adds fac * B to gout *)
Definition adds_at (len gsz : Z) (b : bool) (B : Z -> R) (fac : R) (run : qrun) : Prop :=
  forall empty g gout, holds gsz g -> len <= asize gout -> filled gout ->
  exists g' gout', run fac empty g gout = Some (b, (g', gout')) /\ holds gsz g' /\
    (b = true -> Frame (fun q => 0 <= q < len) gout gout' /\
     forall n, 0 <= n < len -> exists old, rd gout' n = Some (old + fac * B n)%R /\ (if empty then old = 0%R else rd gout n = Some old)).

Section Step.
  Variables (sz : nat -> Z) (len gsz : Z).
  Hypothesis Hlen : 0 <= len.
  Lemma prim_sim b B fac run si ip gi gg : sz gg >= len -> adds_at len gsz b B fac run ->
    sim (sized sz) (holds gsz)
      (fun m => if b then m <- f_gout Rplus m gg (flg m gg) len (fun n => fac * B n)%R ;; PRIM2CTR Rplus Rmult si ip gi gi gg len m else Some m)
      (fun s => let '(m, g) := s in prim_step run si ip gi gg len fac m g).
  Proof.
    intros Hd Hr m g m' Hm Hg E. destruct (Hm gg) as [Hf Hs].
    destruct (Hr (flg m gg) g (buf m gg) Hg ltac:(lia) Hf) as (g' & go & Er & Hg' & Hb).
    unfold prim_step. rewrite Er. cbn [bind]. destruct b.
    2:{ injection E as <-. split; [exact Hm|]. exists g'. split; [reflexivity|exact Hg']. }
    destruct (Hb eq_refl) as (Fg & Vg).
    destruct (f_gout Rplus m gg (flg m gg) len _) as [m1|] eqn:E1; cbn [bind] in E; [|discriminate].
    destruct (f_gout_cells sz len gsz Hlen m gg (flg m gg) _ m1 ltac:(lia) E1) as (a & -> & Fa & Va).
    assert (Ea : go = a).
    { apply arr_ext; [rewrite (proj1 Fg), (proj1 Fa); reflexivity|]. intros q.
      destruct (Z_lt_dec q 0) as [H|H]; [rewrite (proj2 Fg), (proj2 Fa) by lia; reflexivity|].
      destruct (Z_lt_dec q len) as [H'|H']; [|rewrite (proj2 Fg), (proj2 Fa) by lia; reflexivity].
      destruct (Va q ltac:(lia)) as (o1 & R1 & O1). destruct (Vg q ltac:(lia)) as (o2 & R2 & O2).
      assert (o1 = o2) as -> by (destruct (flg m gg); congruence).
      apply rd_spec in R1. apply rd_spec in R2. rewrite (proj2 R1), (proj2 R2). reflexivity. }
    subst go. rewrite E. cbn [bind]. split; [|exists g'; split; [reflexivity|exact Hg']].
    refine (sized_p2c sz _ _ _ _ _ _ _ _ _ E). apply sized_set; [exact Hm| |rewrite (proj1 Fa); exact Hs].
    intros q Hq. destruct (Z_lt_dec q len) as [H'|H'].
    - destruct (Va q ltac:(lia)) as (o & R1 & _). eauto.
    - rewrite (proj1 Fa) in Hq. destruct (Hf q Hq) as (v & Hv). exists v. apply rd_spec in Hv. apply rd_spec. rewrite (proj1 Fa), (proj2 Fa) by lia. exact Hv.
  Qed.
End Step.

(** the bodies of the shell loops *)
Lemma close_sim sz gsz n s p dst src ngp fa fb m g m' :
  (forall ip, 0 <= ip < n -> sim (sized sz) (holds gsz) (fa ip) (fb ip)) -> sized sz m -> holds gsz g ->
  (m <- for_ 0 n fa m ;; if negb (flg m src) then PRIM2CTR Rplus Rmult s p dst dst src ngp m else Some m) = Some m' ->
  sized sz m' /\ exists g', (st <- for_ 0 n fb (m, g) ;; let '(m, g) := st in
               m <- (if negb (flg m src) then PRIM2CTR Rplus Rmult s p dst dst src ngp m else Some m) ;; Some (m, g)) = Some (m', g') /\ holds gsz g'.
Proof.
  intros H Hm Hg E. destruct (for_ 0 n fa m) as [m1|] eqn:Ef; cbn [bind] in E; [|discriminate].
  destruct (sim_for _ _ 0 n fa fb H m g m1 Hm Hg Ef) as (Hm1 & g1 & Eg & Hg1). rewrite Eg. cbn [bind]. rewrite E. cbn [bind].
  split; [|exists g1; split; [reflexivity|exact Hg1]].
  destruct (negb (flg m1 src)); [exact (sized_p2c sz _ _ _ _ _ _ _ _ Hm1 E)|injection E as <-; exact Hm1].
Qed.
Ltac shell_loop fac :=
  let m := fresh "m" in let g := fresh "g" in let m' := fresh "m" in let Hm := fresh "Hm" in let Hg := fresh "Hg" in let E := fresh "E" in
  let m3 := fresh "m" in let En := fresh "En" in let H3 := fresh "Hm" in
  intros m g m' Hm Hg E;
  match type of E with (bind ?e _ = _) => destruct e as [[fac m3]|] eqn:En; cbn [bind] in E |- *; [|discriminate E] end;
  pose proof (sized_enter _ _ _ _ _ _ _ Hm En) as H3; cbn [snd] in H3;
  refine (close_sim _ _ _ _ _ _ _ _ _ _ _ _ _ _ H3 Hg E).

Section Loops.
  Variables (sz : nat -> Z) (gsz n_comp nf : Z) (si sj sk sl : shl R) (common : R).
  Notation len := (nf * n_comp).
  Hypothesis Hlen : 0 <= len.

  Lemma loop2c_sim (run : Z -> Z -> qrun) b B m g m' hv :
    (let gk := alias n_comp 5 2 in let gi := alias (s_ctr sk) gk 1 in sz (alias (s_ctr si) gi 0) >= len) ->
    (forall ip kp fac, 0 <= ip < s_np si -> 0 <= kp < s_np sk -> adds_at len gsz (b ip kp) (B ip kp) fac (run ip kp)) ->
    sized sz m -> holds gsz g ->
    CINT2c2e_loop Rplus Rmult n_comp nf si sk common (mkp2 b B) m = Some (m', hv) ->
    CINT2c2e_loop_run n_comp nf si sk common run m g = Some (m', hv).
  Proof.
    intros Hd Hr Hm Hg E. unfold CINT2c2e_loop, CINT2c2e_loop_run in *. cbn [p2_g0 p2_base] in E.
    cbv zeta in E, Hd |- *. set (gk := alias n_comp 5 2) in *. set (gi := alias (s_ctr sk) gk 1) in *. set (gg := alias (s_ctr si) gi 0) in *.
    match type of E with (bind (for_ 0 (s_np sk) ?fa ?m0) _ = _) => set (FA := fa) in *; set (M0 := m0) in * end.
    match goal with |- (bind (for_ 0 (s_np sk) ?fb _) _ = _) => set (FB := fb) end.
    assert (S : sim (sized sz) (holds gsz) (for_ 0 (s_np sk) FA) (for_ 0 (s_np sk) FB)).
    { apply sim_for. intros kp Hkp. unfold FA, FB. shell_loop fac1k.
      intros ip Hip mA gA mB HmA HgA EA. destruct (if s_ctr si =? 1 then _ else _) as [fac1i|]; cbn [bind] in EA |- *; [|discriminate].
      exact (prim_sim sz len gsz Hlen _ _ _ _ si ip gi gg Hd (Hr ip kp fac1i Hip Hkp) mA gA mB HmA HgA EA). }
    destruct (for_ 0 (s_np sk) FA M0) as [m1|] eqn:Ej; cbn [bind] in E; [|discriminate].
    destruct (S M0 g m1 (sized_reset sz m Hm) Hg Ej) as (Hm1 & g1 & Eg & Hg1). fold M0. rewrite Eg. cbn [bind]. exact E.
  Qed.

  Lemma loop3c_sim (run : Z -> Z -> Z -> qrun) b B empty skip ee m g m' hv :
    (let gk := alias n_comp 5 3 in let gj := alias (s_ctr sk) gk 2 in let gi := alias (s_ctr sj) gj 1 in sz (alias (s_ctr si) gi 0) >= len) ->
    (forall ip jp kp c, 0 <= ip < s_np si -> 0 <= jp < s_np sj -> 0 <= kp < s_np sk -> empty = false -> skip ip jp = false ->
       adds_at len gsz (b ip jp kp) (B ip jp kp) (c * ee ip jp)%R (run ip jp kp)) ->
    sized sz m -> holds gsz g ->
    CINT3c2e_loop Rplus Rmult n_comp nf si sj sk common (mkt empty skip b ee B) m = Some (m', hv) ->
    CINT3c2e_loop_run n_comp nf si sj sk common run empty skip ee m g = Some (m', hv).
  Proof.
    intros Hd Hr Hm Hg E. unfold CINT3c2e_loop, CINT3c2e_loop_run in *. cbn [t_empty t_skip t_g0 t_e t_base] in E.
    case_eq empty; intros Hemp; rewrite Hemp in E; [exact E|].
    cbv zeta in E, Hd |- *. set (gk := alias n_comp 5 3) in *. set (gj := alias (s_ctr sk) gk 2) in *. set (gi := alias (s_ctr sj) gj 1) in *. set (gg := alias (s_ctr si) gi 0) in *.
    match type of E with (bind (for_ 0 (s_np sk) ?fa ?m0) _ = _) => set (FA := fa) in *; set (M0 := m0) in * end.
    match goal with |- (bind (for_ 0 (s_np sk) ?fb _) _ = _) => set (FB := fb) end.
    assert (S : sim (sized sz) (holds gsz) (for_ 0 (s_np sk) FA) (for_ 0 (s_np sk) FB)).
    { apply sim_for. intros kp Hkp. unfold FA, FB. shell_loop fac1k. intros jp Hjp.
      shell_loop fac1j.
      intros ip Hip mA gA mB HmA HgA EA. destruct (skip ip jp) eqn:Hsk.
      { injection EA as <-. split; [exact HmA|]. exists gA. split; [reflexivity|exact HgA]. }
      destruct (if s_ctr si =? 1 then _ else _) as [fac1i|] eqn:Ef; cbn [bind] in EA |- *; [|discriminate].
      assert (Hc : exists c, fac1i = (c * ee ip jp)%R).
      { destruct (s_ctr si =? 1); [destruct (rd (s_c si) ip); cbn in Ef; [|discriminate]|]; injection Ef as <-; eauto. }
      destruct Hc as (c & ->).
      exact (prim_sim sz len gsz Hlen _ _ _ _ si ip gi gg Hd (Hr ip jp kp c Hip Hjp Hkp Hemp Hsk) mA gA mB HmA HgA EA). }
    destruct (for_ 0 (s_np sk) FA M0) as [m1|] eqn:Ej; cbn [bind] in E; [|discriminate].
    destruct (S M0 g m1 (sized_reset sz m Hm) Hg Ej) as (Hm1 & g1 & Eg & Hg1). fold M0. rewrite Eg. cbn [bind]. exact E.
  Qed.

  Lemma loop4c_sim (run : Z -> Z -> Z -> Z -> qrun) b B empty skipkl skipij eij ekl m g m' hv :
    (let gl := alias n_comp 5 4 in let gk := alias (s_ctr sl) gl 3 in let gj := alias (s_ctr sk) gk 2 in let gi := alias (s_ctr sj) gj 1 in
     sz (alias (s_ctr si) gi 0) >= len) ->
    (forall ip jp kp lp c, 0 <= ip < s_np si -> 0 <= jp < s_np sj -> 0 <= kp < s_np sk -> 0 <= lp < s_np sl ->
       empty = false -> skipkl kp lp = false -> skipij ip jp kp lp = false ->
       adds_at len gsz (b ip jp kp lp) (B ip jp kp lp) (c * (eij ip jp * ekl kp lp))%R (run ip jp kp lp)) ->
    sized sz m -> holds gsz g ->
    CINT2e_loop_nopt Rplus Rmult n_comp nf si sj sk sl common (mkq empty skipkl skipij b eij ekl B) m = Some (m', hv) ->
    CINT2e_loop_nopt_run n_comp nf si sj sk sl common run empty skipkl skipij eij ekl m g = Some (m', hv).
  Proof.
    intros Hd Hr Hm Hg E. unfold CINT2e_loop_nopt, CINT2e_loop_nopt_run in *. cbn [pair_empty skip_kl skip_ij g0 e_ij e_kl base] in E.
    case_eq empty; intros Hemp; rewrite Hemp in E; [exact E|].
    cbv zeta in E, Hd |- *. set (gl := alias n_comp 5 4) in *. set (gk := alias (s_ctr sl) gl 3) in *. set (gj := alias (s_ctr sk) gk 2) in *.
    set (gi := alias (s_ctr sj) gj 1) in *. set (gg := alias (s_ctr si) gi 0) in *.
    match type of E with (bind (for_ 0 (s_np sl) ?fa ?m0) _ = _) => set (FA := fa) in *; set (M0 := m0) in * end.
    match goal with |- (bind (for_ 0 (s_np sl) ?fb _) _ = _) => set (FB := fb) end.
    assert (S : sim (sized sz) (holds gsz) (for_ 0 (s_np sl) FA) (for_ 0 (s_np sl) FB)).
    { apply sim_for. intros lp Hlp. unfold FA, FB. shell_loop fac1l. intros kp Hkp.
      destruct (skipkl kp lp) eqn:Hskl.
      { intros mA gA mB HmA HgA EA. injection EA as <-. split; [exact HmA|]. exists gA. split; [reflexivity|exact HgA]. }
      shell_loop fac1k. intros jp Hjp.
      shell_loop fac1j.
      intros ip Hip mA gA mB HmA HgA EA. destruct (skipij ip jp kp lp) eqn:Hsk.
      { injection EA as <-. split; [exact HmA|]. exists gA. split; [reflexivity|exact HgA]. }
      destruct (if s_ctr si =? 1 then _ else _) as [fac1i|] eqn:Ef; cbn [bind] in EA |- *; [|discriminate].
      assert (Hc : exists c, fac1i = (c * (eij ip jp * ekl kp lp))%R).
      { destruct (s_ctr si =? 1); [destruct (rd (s_c si) ip); cbn in Ef; [|discriminate]|]; injection Ef as <-; eauto. }
      destruct Hc as (c & ->).
      exact (prim_sim sz len gsz Hlen _ _ _ _ si ip gi gg Hd (Hr ip jp kp lp c Hip Hjp Hkp Hlp Hemp Hskl Hsk) mA gA mB HmA HgA EA). }
    destruct (for_ 0 (s_np sl) FA M0) as [m1|] eqn:Ej; cbn [bind] in E; [|discriminate].
    destruct (S M0 g m1 (sized_reset sz m Hm) Hg Ej) as (Hm1 & g1 & Eg & Hg1). fold M0. rewrite Eg. cbn [bind]. exact E.
  Qed.
End Loops.
