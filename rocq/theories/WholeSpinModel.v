(** WholeSpinModel.v — the spinor drivers of one- and two-electron integrals, from shells to the caller's array of
    complex numbers, with the real primitive computation inside.

    Same conventions as WholeModel.v, Whole2Model.v and WholeOptModel.v; up to the contraction loops the drivers are
    those of these files with the factor of the entry's spinor function.  The transforms are those of
    SpinorModel.v, chosen by the c2s routines in the table of entry points ([en_c2s1], [en_c2s2]); [tR], [tI] are the
    coefficient tables g_trans_cart2jR, g_trans_cart2jI of cart2sph.c, and [ki kj kk kl] the kappas of the shells.  A complex
    array is twice as many real numbers, as in C26. *)
From Coq Require Import Reals QArith Qreals.
From Verif Require Import Base EnvModel IdxModel CtrModel Loop2eModel Loop3Model OptModel OptSpec OptProof OptPair ScreenModel
  RecModel RecRModel Rec2RModel OutModel TabModel OpSpec IntgModel IntgTab OperModel SpinorModel WholeModel Whole2Model WholeOptModel.
Local Open Scope Z_scope.

(** common_factor of the spinor entry point *)
Definition spinor_factor (t : gentry) : option R :=
  match en_spinor t with Some f => Some (Q2R (Qmake (fst f) (snd f))) | None => None end.

Section Drv1.
  Variables (V : view) (ev : Z -> R) (at_ : Z -> Z -> Z) (natm : Z) (rys : Z -> R -> nodes).
  Variables (t : ent) (ng : ngT) (i j : Z).
  Notation env_1e := (env_1e V ng i j).
  Notation run_1e := (run_1e V ev at_ rys t ng i j).
  (** cint1e.c:239-282 CINT1e_spinor_drv (with a non-NULL out) *)
  Definition int1e_spinor_drv (tR tI : Z -> R) (ki kj : Z) (dims : option (arr Z)) (idx : arr Z) (g : arr R) (m : mem R) (out : arr R) : option (arr R * bool) :=
    fac <- spinor_factor (t_e t) ;;
    u1 <- en_c2s1 (t_e t) ;;
    ty <- int1e_type (en_fam (t_e t)) ;;
    let e := env_1e in
    let cut := init_expcutoff Rops ev C1e in
    let pd := entry Rops V ev i j (li_ceil e) (lj_ceil e) cut in
    idx <- CINTg1e_index_xyz e idx ;;
    si <- mk_shell Risz (v_np V i) (v_nc V i) (coef_arr V ev i) ;;
    sj <- mk_shell Risz (v_np V j) (v_nc V j) (coef_arr V ev j) ;;
    r <- CINT1e_loop_run (run_1e ty idx) ty natm (ncomp_e1 e * ncomp_tensor e) (nf e) si sj
    (fac * CINTcommon_fac_sp (i_l e) * CINTcommon_fac_sp (j_l e))%R
    (set_pairdata_empty Rops V ev i j (li_ceil e) (lj_ceil e) cut)
    (fun ip jp => Rltb cut (cceij (pd ip jp)))
    (fun ip jp => eij (pd ip jp)) m g ;;
    let '(m, has_value) := r in
    out <- CINT1e_spinor_drv_tail 0%R Rplus Rmult Rminus Ropp Risz tR tI (c_si u1) (c_im u1) ki kj has_value dims out (buf m 5%nat) e ;;
    Some (out, has_value).
End Drv1.

Section Drv2.
  Variables (V : view) (ev : Z -> R) (rys : Z -> R -> nodes) (srys : Z -> R -> R -> nodes).
  Variables (t : ent) (ng : ngT).
  Section D_int2c2e_spinor_drv.
    Variables (i k : Z).
    Notation env_2c := (env_2c V ev t ng i k).
    Notation run_2c := (run_2c V ev rys srys t ng i k).
    (** cint2c2e.c:294-350 CINT2c2e_spinor_drv without optimizer *)
    Definition int2c2e_spinor_drv (tR tI : Z -> R) (ki kk : Z) (dims : option (arr Z)) (idx : arr Z) (g : arr R) (m : mem R) (out : arr R) : option (arr R * bool) :=
      fac <- spinor_factor (t_e t) ;;
      u1 <- en_c2s1 (t_e t) ;;
      let e := env_2c in
      idx <- index_fun (en_fam (t_e t)) e idx ;;
      si <- mk_shell Risz (v_np V i) (v_nc V i) (coef_arr V ev i) ;;
      sk <- mk_shell Risz (v_np V k) (v_nc V k) (coef_arr V ev k) ;;
      r <- CINT2c2e_loop_run (ncomp_e1 e * ncomp_e2 e * ncomp_tensor e) (nf e) si sk
      (eri_const * CINTcommon_fac_sp (v_l V i) * CINTcommon_fac_sp (v_l V k) * fac)%R
      (run_2c idx) (set_flg m 5%nat true) g ;;
      let '(m, _) := r in
      let has_value := negb (flg m 5%nat) in
      out <- CINT2c2e_spinor_drv_tail 0%R Rplus Rmult Rminus Ropp Risz tR tI (c_si u1) (c_im u1) ki kk has_value dims out (buf m 5%nat) e ;;
      Some (out, has_value).
  End D_int2c2e_spinor_drv.

  Section D_int3c2e_spinor_drv.
    Variables (i j k : Z).
    Notation env_3c := (env_3c V ev t ng i j k).
    Notation q_3c := (q_3c V ev t ng i j k).
    Notation run_3c := (run_3c V ev rys srys t ng i j k).
    (** cint3c2e.c:626-690 CINT3c2e_spinor_drv without optimizer, is_ssc = 0 *)
    Definition int3c2e_spinor_drv (tR tI : Z -> R) (ki kj : Z) (dims : option (arr Z)) (idx : arr Z) (g : arr R) (m : mem R) (out : arr R) : option (arr R * bool) :=
      fac <- spinor_factor (t_e t) ;;
      u1 <- en_c2s1 (t_e t) ;;
      let e := env_3c in
      idx <- index_fun (en_fam (t_e t)) e idx ;;
      si <- mk_shell Risz (v_np V i) (v_nc V i) (coef_arr V ev i) ;;
      sj <- mk_shell Risz (v_np V j) (v_nc V j) (coef_arr V ev j) ;;
      sk <- mk_shell Risz (v_np V k) (v_nc V k) (coef_arr V ev k) ;;
      r <- CINT3c2e_loop_run (ncomp_e1 e * ncomp_tensor e) (nf e) si sj sk
      (eri_const * CINTcommon_fac_sp (v_l V i) * CINTcommon_fac_sp (v_l V j) * CINTcommon_fac_sp (v_l V k) * fac)%R
      (run_3c idx) (t_empty q_3c) (t_skip q_3c) (Loop3Model.t_e q_3c) (set_flg m 5%nat true) g ;;
      let '(m, _) := r in
      let has_value := negb (flg m 5%nat) in
      out <- CINT3c2e_spinor_drv_tail 0%R Rplus Rmult Rminus Ropp Risz tR tI sph_coef false (c_si u1) (c_im u1) ki kj has_value dims out (buf m 5%nat) e ;;
      Some (out, has_value).
  End D_int3c2e_spinor_drv.

  Section D_int2e_spinor_drv.
    Variables (i j k l : Z).
    Notation env_4c := (env_4c V ev t ng i j k l).
    Notation q_4c := (q_4c V ev t ng i j k l).
    Notation run_4c := (run_4c V ev rys srys t ng i j k l).
    (** cint2e.c:871-950 CINT2e_spinor_drv without optimizer *)
    Definition int2e_spinor_drv (tR tI : Z -> R) (ki kj kk kl : Z) (dims : option (arr Z)) (idx : arr Z) (g : arr R) (m : mem R) (out : arr R) : option (arr R * bool) :=
      fac <- spinor_factor (t_e t) ;;
      u1 <- en_c2s1 (t_e t) ;;
      u2 <- en_c2s2 (t_e t) ;;
      let e := env_4c in
      idx <- index_fun (en_fam (t_e t)) e idx ;;
      si <- mk_shell Risz (v_np V i) (v_nc V i) (coef_arr V ev i) ;;
      sj <- mk_shell Risz (v_np V j) (v_nc V j) (coef_arr V ev j) ;;
      sk <- mk_shell Risz (v_np V k) (v_nc V k) (coef_arr V ev k) ;;
      sl <- mk_shell Risz (v_np V l) (v_nc V l) (coef_arr V ev l) ;;
      r <- CINT2e_loop_nopt_run (ncomp_e1 e * ncomp_e2 e * ncomp_tensor e) (nf e) si sj sk sl
      (eri_const * CINTcommon_fac_sp (v_l V i) * CINTcommon_fac_sp (v_l V j) * CINTcommon_fac_sp (v_l V k) * CINTcommon_fac_sp (v_l V l) * fac)%R
      (run_4c idx) (pair_empty q_4c) (skip_kl q_4c) (skip_ij q_4c) (e_ij q_4c) (e_kl q_4c) (set_flg m 5%nat true) g ;;
      let '(m, _) := r in
      let has_value := negb (flg m 5%nat) in
      out <- CINT2e_spinor_drv_tail 0%R Rplus Rmult Rminus Ropp Risz tR tI (c_si u1) (c_im u1) (c_si u2) (c_im u2) ki kj kk kl has_value dims out (buf m 5%nat) e ;;
      Some (out, has_value).
  End D_int2e_spinor_drv.

  Variable stored : bool.
  Section D_int3c2e_spinor_drv_opt.
    Variables (i j k : Z).
    Notation env_o3 := (env_o3 V ev t ng i j k).
    Notation q_o3 := (q_o3 V ev t ng stored i j k).
    Notation run_o3 := (run_o3 V ev rys srys t ng stored i j k).
    (** cint3c2e.c:626-690 CINT3c2e_spinor_drv with optimizer, is_ssc = 0 *)
    Definition int3c2e_spinor_drv_opt (tR tI : Z -> R) (ki kj : Z) (dims : option (arr Z)) (idx : arr Z) (g : arr R) (m : mem R) (out : arr R) : option (arr R * bool) :=
      fac <- spinor_factor (t_e t) ;;
      u1 <- en_c2s1 (t_e t) ;;
      let e := env_o3 in
      idx <- index_fun (en_fam (t_e t)) e idx ;;
      si <- mk_shell Risz (v_np V i) (v_nc V i) (coef_arr V ev i) ;;
      sj <- mk_shell Risz (v_np V j) (v_nc V j) (coef_arr V ev j) ;;
      sk <- mk_shell Risz (v_np V k) (v_nc V k) (coef_arr V ev k) ;;
      r <- CINT3c2e_opt_run (ncomp_e1 e * ncomp_tensor e) (nf e) si sj sk
      (eri_const * CINTcommon_fac_sp (v_l V i) * CINTcommon_fac_sp (v_l V j) * CINTcommon_fac_sp (v_l V k) * fac)%R
      (run_o3 idx) (t_empty q_o3) (t_skip q_o3) (Loop3Model.t_e q_o3) (set_flg m 5%nat true) g ;;
      let '(m, _) := r in
      let has_value := negb (flg m 5%nat) in
      out <- CINT3c2e_spinor_drv_tail 0%R Rplus Rmult Rminus Ropp Risz tR tI sph_coef false (c_si u1) (c_im u1) ki kj has_value dims out (buf m 5%nat) e ;;
      Some (out, has_value).
  End D_int3c2e_spinor_drv_opt.

  Section D_int2e_spinor_drv_opt.
    Variables (i j k l : Z).
    Notation env_o4 := (env_o4 V ev t ng i j k l).
    Notation q_o4 := (q_o4 V ev ng stored i j k l).
    Notation run_o4 := (run_o4 V ev rys srys t ng stored i j k l).
    (** cint2e.c:871-950 CINT2e_spinor_drv with optimizer *)
    Definition int2e_spinor_drv_opt (tR tI : Z -> R) (ki kj kk kl : Z) (dims : option (arr Z)) (idx : arr Z) (g : arr R) (m : mem R) (out : arr R) : option (arr R * bool) :=
      fac <- spinor_factor (t_e t) ;;
      u1 <- en_c2s1 (t_e t) ;;
      u2 <- en_c2s2 (t_e t) ;;
      let e := env_o4 in
      idx <- index_fun (en_fam (t_e t)) e idx ;;
      si <- mk_shell Risz (v_np V i) (v_nc V i) (coef_arr V ev i) ;;
      sj <- mk_shell Risz (v_np V j) (v_nc V j) (coef_arr V ev j) ;;
      sk <- mk_shell Risz (v_np V k) (v_nc V k) (coef_arr V ev k) ;;
      sl <- mk_shell Risz (v_np V l) (v_nc V l) (coef_arr V ev l) ;;
      r <- CINT2e_opt_run (ncomp_e1 e * ncomp_e2 e * ncomp_tensor e) (nf e) si sj sk sl
      (eri_const * CINTcommon_fac_sp (v_l V i) * CINTcommon_fac_sp (v_l V j) * CINTcommon_fac_sp (v_l V k) * CINTcommon_fac_sp (v_l V l) * fac)%R
      (run_o4 idx) (pair_empty q_o4) (skip_kl q_o4) (skip_ij q_o4) (e_ij q_o4) (e_kl q_o4) (set_flg m 5%nat true) g ;;
      let '(m, _) := r in
      let has_value := negb (flg m 5%nat) in
      out <- CINT2e_spinor_drv_tail 0%R Rplus Rmult Rminus Ropp Risz tR tI (c_si u1) (c_im u1) (c_si u2) (c_im u2) ki kj kk kl has_value dims out (buf m 5%nat) e ;;
      Some (out, has_value).
  End D_int2e_spinor_drv_opt.

End Drv2.
