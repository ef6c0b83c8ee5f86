(** Whole2Model.v — the drivers of the two-electron integrals over two, three and four shells (no
    optimizer) from shells to the caller's array, with the real primitive computation inside.

    As in WholeModel.v the pieces are the models of the other files, called in the order and with the
    arguments of cint2e.c, cint3c2e.c, cint2c2e.c.  Shells are seen through the tables ([view],
    values [ev] of env).  Real numbers instead of doubles; the root finders are parameters.  Work
    arrays are separate buffers. *)
From Coq Require Import Reals QArith Qreals.
From Verif Require Import Base EnvModel IdxModel CtrModel Loop2eModel Loop3Model OptModel OptSpec OptProof OptPair ScreenModel
  RecModel RecRModel Rec2RModel OutModel TabModel OpSpec IntgModel IntgTab OperModel WholeModel.
Local Open Scope Z_scope.

(** what one primitive does: return value of f_g0_2e, g and gout *)
Definition qrun := R -> bool -> arr R -> arr R -> option (bool * (arr R * arr R)).

Definition pt (p : R * R * R) (ax : Z) : R :=
  let '(x, y, z) := p in if ax =? 0 then x else if ax =? 1 then y else z.

Section Prim.
  Variables (rys : Z -> R -> nodes) (srys : Z -> R -> R -> nodes) (ev : Z -> R) (t : ent) (ng : ngT) (l ctrs : centre -> Z).
  (** g2e.c, g3c2e.c, g2c2e.c; the number of roots depends on the sign of env[PTR_RANGE_OMEGA] *)
  Definition env_2e : envs := fam_env (en_fam (t_e t)) (Rltb (ev 8%Z) 0%R) ng l ctrs.
  (** if (( *envs->f_g0_2e)(g, rij, rkl, cutoff, envs)) ( *envs->f_gout)(gout, g, idx, envs, empty):
      cint2e.c:245-247, cint3c2e.c:192-194, cint2c2e.c:132-136 *)
  Definition eri_run (a : centre -> R) (A : centre -> Z -> R) (rij rkl : Z -> R) (cutoff : R) (idx : arr Z) : qrun := fun fac empty g gout =>
    let fam := en_fam (t_e t) in
    r <- R_g0_2e rys srys (kernel fam ng l env_2e A) env_2e (ev 8%Z) cutoff fac (a CI) (a CJ) (a CK) (a CL) rij rkl (rx_ij fam ng l A) (rx_kl fam ng l A) g ;;
    let '(b, g) := r in
    if b then s <- f_gout_run (mkgin env_2e 0 a A (common_orig ev)) (t_f t) idx empty g gout ;; Some (true, s)
    else Some (false, (g, gout)).
End Prim.

(** one primitive and, if it was not discarded, its contraction over shell i *)
Definition prim_step (run : qrun) (si : shl R) (ip : Z) (gi gg : nat) (len0 : Z) (fac : R) (m : mem R) (g : arr R) : option (mem R * arr R) :=
  r <- run fac (flg m gg) g (buf m gg) ;;
  let '(b, (g, go)) := r in
  if b then m <- PRIM2CTR Rplus Rmult si ip gi gi gg len0 (set_buf m gg go) ;; Some (m, g)
  else Some (m, g).

(** the texts of the loops (Loop2eModel.v, Loop3Model.v) with the array g as part of the state *)
Section Loops.
  Variables (n_comp nf : Z) (si sj sk sl : shl R) (common : R).

  (** cint2c2e.c:57-145 *)
  Definition CINT2c2e_loop_run (run : Z -> Z -> qrun) (m : mem R) (g : arr R) : option (mem R * bool) :=
    let m := reset_flags m in
    let nc := s_ctr si * s_ctr sk in
    let leni := nf * s_ctr si * n_comp in
    let len0 := nf * n_comp in
    let gk := alias n_comp 5 2 in
    let gi := alias (s_ctr sk) gk 1 in
    let gg := alias (s_ctr si) gi 0 in
    s <- for_ 0 (s_np sk) (fun kp s =>
      let '(m, g) := s in
      r <- enter Rmult sk kp common gi m ;;
      let '(fac1k, m) := r in
      s <- for_ 0 (s_np si) (fun ip s =>
        let '(m, g) := s in
        fac1i <- (if s_ctr si =? 1 then c <- rd (s_c si) ip ;; Some (fac1k * c)%R else Some fac1k) ;;
        prim_step (run ip kp) si ip gi gg len0 fac1i m g) (m, g) ;;
      let '(m, g) := s in
      m <- (if negb (flg m gi) then PRIM2CTR Rplus Rmult sk kp gk gk gi leni m else Some m) ;;
      Some (m, g)) (m, g) ;;
    let '(m, g) := s in
    m <- (if (1 <? n_comp) && negb (flg m gk) then TRANSPOSE Rplus gk (nf * nc) n_comp m else Some m) ;;
    Some (m, negb (flg m 5%nat)).

  (** cint3c2e.c:57-208 *)
  Definition CINT3c2e_loop_run (run : Z -> Z -> Z -> qrun) (empty : bool) (skip : Z -> Z -> bool) (ee : Z -> Z -> R) (m : mem R) (g : arr R) : option (mem R * bool) :=
    if empty then Some (m, false) else
    let m := reset_flags m in
    let nc := s_ctr si * s_ctr sj * s_ctr sk in
    let lenj := nf * s_ctr si * s_ctr sj * n_comp in
    let leni := nf * s_ctr si * n_comp in
    let len0 := nf * n_comp in
    let gk := alias n_comp 5 3 in
    let gj := alias (s_ctr sk) gk 2 in
    let gi := alias (s_ctr sj) gj 1 in
    let gg := alias (s_ctr si) gi 0 in
    s <- for_ 0 (s_np sk) (fun kp s =>
      let '(m, g) := s in
      r <- enter Rmult sk kp common gj m ;;
      let '(fac1k, m) := r in
      s <- for_ 0 (s_np sj) (fun jp s =>
        let '(m, g) := s in
        r <- enter Rmult sj jp fac1k gi m ;;
        let '(fac1j, m) := r in
        s <- for_ 0 (s_np si) (fun ip s =>
          let '(m, g) := s in
          if skip ip jp then Some s else
          fac1i <- (if s_ctr si =? 1 then c <- rd (s_c si) ip ;; Some (fac1j * c * ee ip jp)%R else Some (fac1j * ee ip jp)%R) ;;
          prim_step (run ip jp kp) si ip gi gg len0 fac1i m g) (m, g) ;;
        let '(m, g) := s in
        m <- (if negb (flg m gi) then PRIM2CTR Rplus Rmult sj jp gj gj gi leni m else Some m) ;;
        Some (m, g)) (m, g) ;;
      let '(m, g) := s in
      m <- (if negb (flg m gj) then PRIM2CTR Rplus Rmult sk kp gk gk gj lenj m else Some m) ;;
      Some (m, g)) (m, g) ;;
    let '(m, g) := s in
    m <- (if (1 <? n_comp) && negb (flg m gk) then TRANSPOSE Rplus gk (nf * nc) n_comp m else Some m) ;;
    Some (m, negb (flg m 5%nat)).

  (** cint2e.c:57-270 *)
  Definition CINT2e_loop_nopt_run (run : Z -> Z -> Z -> Z -> qrun) (empty : bool) (skipkl : Z -> Z -> bool) (skipij : Z -> Z -> Z -> Z -> bool)
      (eij ekl : Z -> Z -> R) (m : mem R) (g : arr R) : option (mem R * bool) :=
    if empty then Some (m, false) else
    let m := reset_flags m in
    let nc := s_ctr si * s_ctr sj * s_ctr sk * s_ctr sl in
    let lenk := nf * s_ctr si * s_ctr sj * s_ctr sk * n_comp in
    let lenj := nf * s_ctr si * s_ctr sj * n_comp in
    let leni := nf * s_ctr si * n_comp in
    let len0 := nf * n_comp in
    let gl := alias n_comp 5 4 in
    let gk := alias (s_ctr sl) gl 3 in
    let gj := alias (s_ctr sk) gk 2 in
    let gi := alias (s_ctr sj) gj 1 in
    let gg := alias (s_ctr si) gi 0 in
    s <- for_ 0 (s_np sl) (fun lp s =>
      let '(m, g) := s in
      r <- enter Rmult sl lp common gk m ;;
      let '(fac1l, m) := r in
      s <- for_ 0 (s_np sk) (fun kp s =>
        let '(m, g) := s in
        if skipkl kp lp then Some s else
        r <- enter Rmult sk kp fac1l gj m ;;
        let '(fac1k, m) := r in
        s <- for_ 0 (s_np sj) (fun jp s =>
          let '(m, g) := s in
          r <- enter Rmult sj jp fac1k gi m ;;
          let '(fac1j, m) := r in
          s <- for_ 0 (s_np si) (fun ip s =>
            let '(m, g) := s in
            if skipij ip jp kp lp then Some s else
            fac1i <- (if s_ctr si =? 1 then c <- rd (s_c si) ip ;; Some (fac1j * c * (eij ip jp * ekl kp lp))%R
                      else Some (fac1j * (eij ip jp * ekl kp lp))%R) ;;
            prim_step (run ip jp kp lp) si ip gi gg len0 fac1i m g) (m, g) ;;
          let '(m, g) := s in
          m <- (if negb (flg m gi) then PRIM2CTR Rplus Rmult sj jp gj gj gi leni m else Some m) ;;
          Some (m, g)) (m, g) ;;
        let '(m, g) := s in
        m <- (if negb (flg m gj) then PRIM2CTR Rplus Rmult sk kp gk gk gj lenj m else Some m) ;;
        Some (m, g)) (m, g) ;;
      let '(m, g) := s in
      m <- (if negb (flg m gk) then PRIM2CTR Rplus Rmult sl lp gl gl gk lenk m else Some m) ;;
      Some (m, g)) (m, g) ;;
    let '(m, g) := s in
    m <- (if (1 <? n_comp) && negb (flg m gl) then TRANSPOSE Rplus gl (nf * nc) n_comp m else Some m) ;;
    Some (m, negb (flg m 5%nat)).
End Loops.

(** the constant factor of the init routines: g2e.c:54, g3c2e.c:52, g2c2e.c:44 *)
Definition eri_const : R := (PI * PI * PI * 2 / sqrt PI)%R.

Section Drv.
  Variables (V : view) (ev : Z -> R) (rys : Z -> R -> nodes) (srys : Z -> R -> R -> nodes) (t : ent) (ng : ngT).

  (** *** Two centres.  al = aj = 0 (g2c2e.c:77-78); rj and rl are not set and not read: the model repeats ri and rk. *)
  Section C2.
    Variables (i k : Z).
    Definition l2 (c : centre) : Z := match c with CI => v_l V i | CK => v_l V k | _ => 0 end.
    Definition c2 (c : centre) : Z := match c with CI => v_nc V i | CK => v_nc V k | _ => 1 end.
    Definition a2 (ip kp : Z) (c : centre) : R := match c with CI => ex V ev i ip | CK => ex V ev k kp | _ => 0%R end.
    Definition A2 (c : centre) : Z -> R := match c with CI | CJ => ctr V ev i | CK | CL => ctr V ev k end.
    Definition env_2c : envs := env_2e ev t ng l2 c2.
    Definition run_2c (idx : arr Z) (ip kp : Z) : qrun :=
      eri_run rys srys ev t ng l2 c2 (a2 ip kp) A2 (ctr V ev i) (ctr V ev k) (init_expcutoff Rops ev C2c2e) idx.
    (** cint2c2e.c:238-300 CINT2c2e_drv without optimizer, for the entry's Cartesian or spherical function *)
    Definition int2c2e_drv (kd : kind) (dims : option (arr Z)) (idx : arr Z) (g : arr R) (m : mem R) (out : arr R) : option (arr R * bool) :=
      fac <- entry_factor kd (t_e t) ;;
      let e := env_2c in
      idx <- index_fun (en_fam (t_e t)) e idx ;;
      si <- mk_shell Risz (v_np V i) (v_nc V i) (coef_arr V ev i) ;;
      sk <- mk_shell Risz (v_np V k) (v_nc V k) (coef_arr V ev k) ;;
      r <- CINT2c2e_loop_run (ncomp_e1 e * ncomp_e2 e * ncomp_tensor e) (nf e) si sk
             (eri_const * CINTcommon_fac_sp (v_l V i) * CINTcommon_fac_sp (v_l V k) * fac)%R
             (run_2c idx) (set_flg m 5%nat true) g ;;
      let '(m, _) := r in
      let has_value := negb (flg m 5%nat) in
      out <- CINT2c2e_drv_tail 0%R Rplus Rmult sph_coef kd has_value dims out (buf m 5%nat) e ;;
      Some (out, has_value).
  End C2.

  (** *** Three centres.  al = 0 (g3c2e.c:96); rl is not read: the model repeats rk. *)
  Section C3.
    Variables (i j k : Z).
    Definition l3 (c : centre) : Z := match c with CI => v_l V i | CJ => v_l V j | CK => v_l V k | _ => 0 end.
    Definition c3 (c : centre) : Z := match c with CI => v_nc V i | CJ => v_nc V j | CK => v_nc V k | _ => 1 end.
    Definition a3 (ip jp kp : Z) (c : centre) : R := match c with CI => ex V ev i ip | CJ => ex V ev j jp | CK => ex V ev k kp | _ => 0%R end.
    Definition A3 (c : centre) : Z -> R := match c with CI => ctr V ev i | CJ => ctr V ev j | CK | CL => ctr V ev k end.
    Definition env_3c : envs := env_2e ev t ng l3 c3.
    (** pair data, test and remaining cutoff of cint3c2e.c:86-92, 179-192 *)
    Definition pd_3c : Z -> Z -> pdata R := entry Rops V ev i j (v_l V i + IINC ng) (v_l V j + JINC ng) (init_expcutoff Rops ev C3c2e).
    Definition q_3c : triples R := int3c2e_nopt Rops V ev ng i j k (rys_order env_3c) (fun _ _ _ _ _ => 0%R).
    Definition cut_3c : R := expcut_3c2e Rops V ev i j k (v_l V i + IINC ng) (v_l V j + JINC ng) 0 (rys_order env_3c) (init_expcutoff Rops ev C3c2e).
    Definition run_3c (idx : arr Z) (ip jp kp : Z) : qrun :=
      eri_run rys srys ev t ng l3 c3 (a3 ip jp kp) A3 (pt (pd_centre (pd_3c ip jp))) (ctr V ev k) (cut_3c - cceij (pd_3c ip jp))%R idx.
    (** cint3c2e.c:556-630 CINT3c2e_drv without optimizer *)
    Definition int3c2e_drv (kd : kind) (dims : option (arr Z)) (idx : arr Z) (g : arr R) (m : mem R) (out : arr R) : option (arr R * bool) :=
      fac <- entry_factor kd (t_e t) ;;
      let e := env_3c in
      idx <- index_fun (en_fam (t_e t)) e idx ;;
      si <- mk_shell Risz (v_np V i) (v_nc V i) (coef_arr V ev i) ;;
      sj <- mk_shell Risz (v_np V j) (v_nc V j) (coef_arr V ev j) ;;
      sk <- mk_shell Risz (v_np V k) (v_nc V k) (coef_arr V ev k) ;;
      r <- CINT3c2e_loop_run (ncomp_e1 e * ncomp_tensor e) (nf e) si sj sk
             (eri_const * CINTcommon_fac_sp (v_l V i) * CINTcommon_fac_sp (v_l V j) * CINTcommon_fac_sp (v_l V k) * fac)%R
             (run_3c idx) (t_empty q_3c) (t_skip q_3c) (Loop3Model.t_e q_3c) (set_flg m 5%nat true) g ;;
      let '(m, _) := r in
      let has_value := negb (flg m 5%nat) in
      out <- CINT3c2e_drv_tail 0%R Rplus Rmult sph_coef kd false has_value dims out (buf m 5%nat) e ;;
      Some (out, has_value).
  End C3.

  (** *** Four centres *)
  Section C4.
    Variables (i j k l : Z).
    Definition l4 (c : centre) : Z := match c with CI => v_l V i | CJ => v_l V j | CK => v_l V k | CL => v_l V l end.
    Definition c4 (c : centre) : Z := match c with CI => v_nc V i | CJ => v_nc V j | CK => v_nc V k | CL => v_nc V l end.
    Definition a4 (ip jp kp lp : Z) (c : centre) : R := match c with CI => ex V ev i ip | CJ => ex V ev j jp | CK => ex V ev k kp | CL => ex V ev l lp end.
    Definition A4 (c : centre) : Z -> R := match c with CI => ctr V ev i | CJ => ctr V ev j | CK => ctr V ev k | CL => ctr V ev l end.
    Definition env_4c : envs := env_2e ev t ng l4 c4.
    (** pair data, tests and remaining cutoff of cint2e.c:100-152, 200-244 *)
    Definition pd_4c : Z -> Z -> pdata R := entry Rops V ev i j (v_l V i + IINC ng) (v_l V j + JINC ng) (init_expcutoff Rops ev C2e).
    Definition q_4c : quartets R := int2e_nopt Rops V ev false ng i j k l (rys_order env_4c) (fun _ _ _ _ _ _ _ => 0%R).
    Definition cut_4c (ip jp kp lp : Z) : R :=
      (expcut_nopt Rops V ev i j (v_l V i + IINC ng) (v_l V j + JINC ng) (rys_order env_4c) (init_expcutoff Rops ev C2e)
       - ccekl_of Rops V ev k l (v_l V k + KINC ng) (v_l V l + LINC ng) (rys_order env_4c) kp lp - cceij (pd_4c ip jp))%R.
    Definition run_4c (idx : arr Z) (ip jp kp lp : Z) : qrun :=
      eri_run rys srys ev t ng l4 c4 (a4 ip jp kp lp) A4 (pt (pd_centre (pd_4c ip jp))) (ScreenModel.centre Rops V ev k l kp lp) (cut_4c ip jp kp lp) idx.
    (** cint2e.c:794-867 CINT2e_drv without optimizer *)
    Definition int2e_drv (kd : kind) (dims : option (arr Z)) (idx : arr Z) (g : arr R) (m : mem R) (out : arr R) : option (arr R * bool) :=
      fac <- entry_factor kd (t_e t) ;;
      let e := env_4c in
      idx <- index_fun (en_fam (t_e t)) e idx ;;
      si <- mk_shell Risz (v_np V i) (v_nc V i) (coef_arr V ev i) ;;
      sj <- mk_shell Risz (v_np V j) (v_nc V j) (coef_arr V ev j) ;;
      sk <- mk_shell Risz (v_np V k) (v_nc V k) (coef_arr V ev k) ;;
      sl <- mk_shell Risz (v_np V l) (v_nc V l) (coef_arr V ev l) ;;
      r <- CINT2e_loop_nopt_run (ncomp_e1 e * ncomp_e2 e * ncomp_tensor e) (nf e) si sj sk sl
             (eri_const * CINTcommon_fac_sp (v_l V i) * CINTcommon_fac_sp (v_l V j) * CINTcommon_fac_sp (v_l V k) * CINTcommon_fac_sp (v_l V l) * fac)%R
             (run_4c idx) (pair_empty q_4c) (skip_kl q_4c) (skip_ij q_4c) (e_ij q_4c) (e_kl q_4c) (set_flg m 5%nat true) g ;;
      let '(m, _) := r in
      let has_value := negb (flg m 5%nat) in
      out <- CINT2e_drv_tail 0%R Rplus Rmult sph_coef kd has_value dims out (buf m 5%nat) e ;;
      Some (out, has_value).
  End C4.
End Drv.
