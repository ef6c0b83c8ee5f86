(** ScreenModel.v — which primitives the loops discard: the exponent cutoff of every
    integral class and the tests made with it.

    Shells are seen through the tables ([view] and values [ev] of env, OptSpec.v);
    [entry], [ent] are the pair data CINTset_pairdata computes (OptModel.v, OptProof.v
    proves that the routine stores exactly them).  Scalars are law-free.  Index tables
    and g arrays stay inside the abstract kernel [kern]. *)
From Coq Require Import ZArith List Bool.
From Verif Require Import Base BasSpec EnvModel CtrModel Loop2eModel Loop3Model OptModel OptSpec OptProof.

Inductive klass := C1e | Cgrids | C2c2e | C3c2e | C3c1e | C4c1e | C2e | Cf12.

Section Screen.
  Context {F : Type} (O : fops F) (V : view) (ev : Z -> F).
  Notation lt := (flt O).

  (** [envs->expcutoff] set by the init routine of a class: g1e.c:36-40 (used by the grids class as
      well, g1e_grids.c:21), g2c2e.c:46-50, g3c2e.c:55-59, g3c1e.c:58-62, g4c1e.c:54-58, g2e_f12.c:57-61;
      g2e.c:57-62 adds 1 to the user's value *)
  Definition init_expcutoff (c : klass) : F :=
    if feq O (ev 0) (f0 O) then fofZ O 60
    else match c with
         | C2e => fadd O (fmax O (fofZ O 40) (ev 0)) (f1 O)
         | _ => fmax O (fofZ O 40) (ev 0)
         end.

  (** CINTset_pairdata returned 1 (optimizer.c:304-349): no pair below the cutoff *)
  Definition set_pairdata_empty (i j lic ljc : Z) (cut : F) : bool :=
    negb (existsb (fun jp => existsb (fun ip => keeps O V ev i j lic ljc cut ip jp) (zseq (v_np V i))) (zseq (v_np V j))).

  (** *** One-electron integrals: cint1e.c:56-69,133 and cint1e_grids.c:56-69,154.
      [true]: the pair reaches the integrals (with prefactor eij) *)
  Definition reaches_1e (c : klass) (i j lic ljc ip jp : Z) : bool :=
    let cut := init_expcutoff c in
    negb (set_pairdata_empty i j lic ljc cut) && negb (lt cut (cceij (entry O V ev i j lic ljc cut ip jp))).
  Definition factor_1e (c : klass) (i j lic ljc ip jp : Z) : F :=
    eij (entry O V ev i j lic ljc (init_expcutoff c) ip jp).

  (** *** Three- and four-centre one-electron integrals: the constant EXPCUTOFF *)
  Definition ex_ (i p : Z) : F := ev (v_exp V i + p).
  (** cint3c1e.c:157-166 and 307-314 *)
  Definition reaches_3c1e (i j k ip jp kp : Z) : bool :=
    let aijk := fadd O (fadd O (ex_ i ip) (ex_ j jp)) (ex_ k kp) in
    let ajakrr := fmul O (fmul O (ex_ j jp) (ex_ k kp)) (rr_of O V ev j k) in
    let aiakrr := fmul O (fmul O (ex_ i ip) (ex_ k kp)) (rr_of O V ev i k) in
    let aiajrr := fmul O (fmul O (ex_ i ip) (ex_ j jp)) (rr_of O V ev i j) in
    let eijk := fdiv O (fadd O (fadd O aiajrr aiakrr) ajakrr) aijk in
    negb (lt (fofZ O 60) eijk).

  (** centre of a pair *)
  Definition centre (i j ip jp : Z) (c : Z) : F :=
    fdiv O (fadd O (fmul O (ex_ i ip) (ev (v_xyz V i + c))) (fmul O (ex_ j jp) (ev (v_xyz V j + c))))
         (fadd O (ex_ i ip) (ex_ j jp)).
  (** cint4c1e.c:168-216 *)
  Definition reaches_4c1e (i j k l ip jp kp lp : Z) : bool :=
    let akl := fadd O (ex_ k kp) (ex_ l lp) in
    let ekl := fdiv O (fmul O (fmul O (rr_of O V ev k l) (ex_ k kp)) (ex_ l lp)) akl in
    if lt (fofZ O 60) ekl then false else
    let aij := fadd O (ex_ i ip) (ex_ j jp) in
    let eij := fdiv O (fmul O (fmul O (rr_of O V ev i j) (ex_ i ip)) (ex_ j jp)) aij in
    if lt (fofZ O 60) (fadd O eij ekl) then false else
    let d c := fsub O (centre i j ip jp c) (centre k l kp lp c) in
    let a0 := fdiv O (fmul O aij akl) (fadd O aij akl) in
    let rr := fadd O (fadd O (fmul O (d 0) (d 0)) (fmul O (d 1) (d 1))) (fmul O (d 2) (d 2)) in
    negb (lt (fofZ O 60) (fadd O (fmul O a0 rr) (fadd O eij ekl))).

  (** *** Return value of CINTg0_2e (g2e.c:4425-4461) for centres [rij], [rkl]; the F12
      kernels (g2e_f12.c) always return 1 *)
  Definition point : Type := (F * F * F)%type.
  Definition pd_centre (p : pdata F) : point := (rij0 p, rij1 p, rij2 p).
  Definition g0_2e_ret (f12 : bool) (aij akl : F) (rij rkl : point) (cutoff : F) : bool :=
    if f12 then true else
    let om := ev 8 in
    if feq O om (f0 O) then true else
    if lt om (f0 O) then
      let '(x0, x1, x2) := rij in let '(y0, y1, y2) := rkl in
      let d0 := fsub O x0 y0 in let d1 := fsub O x1 y1 in let d2 := fsub O x2 y2 in
      let rr := fadd O (fadd O (fmul O d0 d0) (fmul O d1 d1)) (fmul O d2 d2) in
      let a1 := fmul O aij akl in
      let a0 := fdiv O a1 (fadd O aij akl) in
      let x := fmul O a0 rr in
      let theta := fdiv O (fmul O om om) (fadd O (fmul O om om) a0) in
      negb (lt cutoff (fmul O theta x) || lt (fofZ O 40) (fmul O theta x))
    else true.

  (** *** Two-centre two-electron integrals: cint2c2e.c:73,134,165,222; the cutoff goes
      to the kernel only.  rij = ri, rkl = rk (g2c2e.c:85-104); aij = ai, akl = ak. *)
  Definition reaches_2c2e (i k ip kp : Z) : bool :=
    g0_2e_ret false (ex_ i ip) (ex_ k kp)
      (ev (v_xyz V i + 0), ev (v_xyz V i + 1), ev (v_xyz V i + 2))
      (ev (v_xyz V k + 0), ev (v_xyz V k + 1), ev (v_xyz V k + 2)) (init_expcutoff C2c2e).

  (** the part a pair contributes to the adjustment of the cutoff for short-range
      operators: cint2e.c:137-142, 362-368 *)
  Definition sr_extra (i j lij : Z) : F :=
    let om2 := fmul O (ev 8) (ev 8) in
    let dist := fsqrt O (rr_of O V ev i j) in
    let aij := fadd O (ex_ i (v_np V i - 1)) (ex_ j (v_np V j - 1)) in
    let theta := fdiv O om2 (fadd O om2 aij) in
    fmul O (fofZ O lij) (flog O (fdiv O (fadd O (fadd O dist (fmul O theta (fofZ O 8))) (f1 O)) (fadd O dist (f1 O)))).

  Section Call.
    (** shells, li_ceil .. ll_ceil, rys_order and expcutoff of the call; [ng] of the optimizer; [kern]: value
        of entry [n] of the batch of a quartet for given centres and unit prefactor *)
    Variables (f12 : bool) (i j k l lic ljc lkc llc order : Z) (cut : F) (ng : ngT).
    Variable kern : Z -> Z -> Z -> Z -> point -> point -> Z -> F.

    Definition expcut_nopt : F :=
      if lt (ev 8) (f0 O) && (1 <? order) && (0 <? lic + ljc) then fadd O cut (sr_extra i j (lic + ljc)) else cut.

    (** cint2e.c:120-152 *)
    Definition log_rr_kl : F :=
      let akl := fadd O (ex_ k (v_np V k - 1)) (ex_ l (v_np V l - 1)) in
      let l0 := fsub O (f1_7 O) (fmul O (f1_5 O) (flog O akl)) in
      let lkl := lkc + llc in
      let dist := fsqrt O (rr_of O V ev k l) in
      if lt (ev 8) (f0 O) then
        if (1 <? order) && (0 <? lkl) then
          let om2 := fmul O (ev 8) (ev 8) in
          fadd O l0 (fmul O (fofZ O lkl)
            (flog O (fadd O (fadd O dist (fmul O (fdiv O om2 (fadd O om2 akl)) (fofZ O 8))) (f1 O))))
        else l0
      else if 0 <? lkl then fadd O l0 (fmul O (fofZ O lkl) (flog O (fadd O dist (f1 O)))) else l0.
    (** cint2e.c:202-205 *)
    Definition ekl_of (kp lp : Z) : F :=
      fdiv O (fmul O (fmul O (rr_of O V ev k l) (ex_ k kp)) (ex_ l lp)) (fadd O (ex_ k kp) (ex_ l lp)).
    Definition ccekl_of (kp lp : Z) : F :=
      fsub O (fsub O (fsub O (ekl_of kp lp) log_rr_kl) (lmv O V ev k kp)) (lmv O V ev l lp).

    (** CINT2e_loop_nopt (cint2e.c:57-270) *)
    Definition q_nopt : quartets F :=
      let pd := entry O V ev i j lic ljc cut in
      let rkl kp lp : point := (centre k l kp lp 0, centre k l kp lp 1, centre k l kp lp 2) in
      let eijcut kp lp := fsub O expcut_nopt (ccekl_of kp lp) in
      mkq (set_pairdata_empty i j lic ljc cut)
        (fun kp lp => lt expcut_nopt (ccekl_of kp lp))
        (fun ip jp kp lp => lt (eijcut kp lp) (cceij (pd ip jp)))
        (fun ip jp kp lp => g0_2e_ret f12 (fadd O (ex_ i ip) (ex_ j jp)) (fadd O (ex_ k kp) (ex_ l lp))
           (pd_centre (pd ip jp)) (rkl kp lp) (fsub O (eijcut kp lp) (cceij (pd ip jp))))
        (fun ip jp => eij (pd ip jp))
        (fun kp lp => fexp O (fneg O (ekl_of kp lp)))
        (fun ip jp kp lp n => kern ip jp kp lp (pd_centre (pd ip jp)) (rkl kp lp) n).

    (** the pair data an optimizer holds for the shells [i], [j] (optimizer.c:351-425) *)
    Definition stored_pair (i j ip jp : Z) : pdata F :=
      if j <=? i then ent O V ev ng i j ip jp else ent O V ev ng j i jp ip.
    Definition stored_novalue (i j : Z) : bool :=
      negb ((i =? 0) && (j =? 0)) &&
      (let a := Z.max i j in let b := Z.min i j in
       negb (existsb (fun jp => existsb (fun ip => kept O V ev ng a b ip jp) (zseq (v_np V a))) (zseq (v_np V b)))).

    (** The loops with optimizer (cint2e.c:272-388): [stored] = [opt->pairdata != NULL].
        eklcutoff is copied from expcutoff before ADJUST_CUTOFF changes the latter, which is not read afterwards. *)
    Definition q_opt (stored : bool) : quartets F :=
      let pij ip jp := if stored then stored_pair i j ip jp else entry O V ev i j lic ljc cut ip jp in
      let pkl kp lp := if stored then stored_pair k l kp lp else entry O V ev k l lkc llc cut kp lp in
      let eijcut kp lp := fsub O cut (cceij (pkl kp lp)) in
      mkq (if stored then stored_novalue i j || stored_novalue k l
           else set_pairdata_empty i j lic ljc cut || set_pairdata_empty k l lkc llc cut)
        (fun kp lp => lt cut (cceij (pkl kp lp)))
        (fun ip jp kp lp => lt (eijcut kp lp) (cceij (pij ip jp)))
        (fun ip jp kp lp => g0_2e_ret f12 (fadd O (ex_ i ip) (ex_ j jp)) (fadd O (ex_ k kp) (ex_ l lp))
           (pd_centre (pij ip jp)) (pd_centre (pkl kp lp)) (fsub O (eijcut kp lp) (cceij (pij ip jp))))
        (fun ip jp => eij (pij ip jp))
        (fun kp lp => eij (pkl kp lp))
        (fun ip jp kp lp n => kern ip jp kp lp (pd_centre (pij ip jp)) (pd_centre (pkl kp lp)) n).

    (** *** Three-centre two-electron integrals; [kern3]: as [kern], rkl = rk *)
    Variable kern3 : Z -> Z -> Z -> point -> Z -> F.
    Definition rk_point : point := (ev (v_xyz V k + 0), ev (v_xyz V k + 1), ev (v_xyz V k + 2)).
    (** cint3c2e.c:107-126, 279-297: [lkc] is 0 in every call (g3c2e.c:65) *)
    Definition expcut_3c2e : F :=
      if lt (ev 8) (f0 O) && (1 <? order) then
        let c := if 0 <? lic + ljc then fadd O cut (sr_extra i j (lic + ljc)) else cut in
        if 0 <? lkc then
          let om2 := fmul O (ev 8) (ev 8) in
          fadd O c (fmul O (fofZ O lkc) (flog O (fadd O (fmul O (fdiv O om2 (fadd O om2 (ex_ k (v_np V k - 1)))) (fofZ O 8)) (f1 O))))
        else c
      else cut.
    Definition t_of (empty : bool) (pd : Z -> Z -> pdata F) : triples F :=
      mkt empty
        (fun ip jp => lt expcut_3c2e (cceij (pd ip jp)))
        (fun ip jp kp => g0_2e_ret f12 (fadd O (ex_ i ip) (ex_ j jp)) (ex_ k kp)
           (pd_centre (pd ip jp)) rk_point (fsub O expcut_3c2e (cceij (pd ip jp))))
        (fun ip jp => eij (pd ip jp))
        (fun ip jp kp n => kern3 ip jp kp (pd_centre (pd ip jp)) n).
    (** CINT3c2e_loop_nopt (cint3c2e.c:57-208) *)
    Definition t_nopt : triples F :=
      t_of (set_pairdata_empty i j lic ljc cut) (entry O V ev i j lic ljc cut).
    (** the loops with optimizer (cint3c2e.c:214-303) *)
    Definition t_opt (stored : bool) : triples F :=
      if stored then t_of (stored_novalue i j) (stored_pair i j)
      else t_of (set_pairdata_empty i j lic ljc cut) (entry O V ev i j lic ljc cut).
  End Call.

  (** the call of an int2e / int2e F12 / int3c2e integral with the operator's [ng]
      (g2e.c:57-90, g2e_f12.c:25-75, g3c2e.c:55-75): rys_order as in EnvModel.v *)
  Definition int2e_nopt (f12 : bool) (ng : ngT) (i j k l order : Z) kern : quartets F :=
    q_nopt f12 i j k l (v_l V i + IINC ng) (v_l V j + JINC ng) (v_l V k + KINC ng) (v_l V l + LINC ng) order
      (init_expcutoff (if f12 then Cf12 else C2e)) kern.
  Definition int2e_opt (stored f12 : bool) (ng : ngT) (i j k l : Z) kern : quartets F :=
    q_opt f12 i j k l (v_l V i + IINC ng) (v_l V j + JINC ng) (v_l V k + KINC ng) (v_l V l + LINC ng)
      (init_expcutoff (if f12 then Cf12 else C2e)) ng kern stored.
  Definition int3c2e_nopt (ng : ngT) (i j k order : Z) kern : triples F :=
    t_nopt false i j k (v_l V i + IINC ng) (v_l V j + JINC ng) 0 order (init_expcutoff C3c2e) kern.
  Definition int3c2e_opt (stored : bool) (ng : ngT) (i j k order : Z) kern : triples F :=
    t_opt false i j k (v_l V i + IINC ng) (v_l V j + JINC ng) 0 order (init_expcutoff C3c2e) ng kern stored.
End Screen.
