(** WholeOptModel.v — the drivers of the two-electron integrals over three and four shells with an optimizer, from shells to
    the caller's array, with the real primitive computation inside.

    Same conventions as Whole2Model.v.  What the loops take from the optimizer is given by the functions that
    the other files show the optimizer to hold: the pair data [stored_pair] / [stored_novalue] (C37, or the pair data built by
    the loop when opt->pairdata is NULL: [stored] = false), the sorted coefficient lists of [mk_shell] (C38) and
    the index table of [index_fun] (C38; the loop builds the same table when the optimizer has none), made from the
    tables and env that the call sees. *)
From Coq Require Import Reals QArith Qreals.
From Verif Require Import Base EnvModel IdxModel CtrModel Loop2eModel Loop3Model OptModel OptSpec OptProof OptPair ScreenModel
  RecModel RecRModel Rec2RModel OutModel TabModel OpSpec IntgModel IntgTab OperModel WholeModel Whole2Model.
Local Open Scope Z_scope.

(** one primitive into buffer [s]; if it was not discarded, [next] *)
Definition gout_step (run : qrun) (s : nat) (empty : bool) (next : mem R -> option (mem R)) (fac : R) (m : mem R) (g : arr R) : option (mem R * arr R) :=
  r <- run fac empty g (buf m s) ;;
  let '(b, (g, go)) := r in
  if b then m <- next (set_buf m s go) ;; Some (m, g) else Some (m, g).

(** the texts of the loops of Loop2eModel.v with the array g as part of the state *)
Section Loops4.
  Variables (n_comp nf : Z) (si sj sk sl : shl R) (common : R).
  Variables (run : Z -> Z -> Z -> Z -> qrun) (empty : bool) (skipkl : Z -> Z -> bool) (skipij : Z -> Z -> Z -> Z -> bool) (eij ekl : Z -> Z -> R).

  (** cint2e.c:660-758 *)
  Definition CINT2e_loop_run (m : mem R) (g : arr R) : option (mem R * bool) :=
    if empty then Some (m, false) else
    let m := reset_flags m in
    let nc := s_ctr si * s_ctr sj * s_ctr sk * s_ctr sl in
    let lenk := nf * s_ctr si * s_ctr sj * s_ctr sk * n_comp in
    let lenj := nf * s_ctr si * s_ctr sj * n_comp in
    let leni := nf * s_ctr si * n_comp in
    let len0 := nf * n_comp in
    let gl := alias n_comp 5 4 in
    let gk := alias (s_ctr sl) gl 3 in
    let gj := alias (s_ctr sk) gk 2 in
    let gi := alias (s_ctr sj) gj 1 in
    let gg := alias (s_ctr si) gi 0 in
    s <- for_ 0 (s_np sl) (fun lp s =>
      let '(m, g) := s in
      r <- enter Rmult sl lp common gk m ;;
      let '(fac1l, m) := r in
      s <- for_ 0 (s_np sk) (fun kp s =>
        let '(m, g) := s in
        if skipkl kp lp then Some s else
        r <- enter Rmult sk kp fac1l gj m ;;
        let '(fac1k, m) := r in
        s <- for_ 0 (s_np sj) (fun jp s =>
          let '(m, g) := s in
          r <- enter Rmult sj jp fac1k gi m ;;
          let '(fac1j, m) := r in
          s <- for_ 0 (s_np si) (fun ip s =>
            let '(m, g) := s in
            if skipij ip jp kp lp then Some s else
            fac1i <- (if s_ctr si =? 1 then c <- rd (s_c si) ip ;; Some (fac1j * c * eij ip jp * ekl kp lp)%R
                      else Some (fac1j * eij ip jp * ekl kp lp)%R) ;;
            prim_step (run ip jp kp lp) si ip gi gg len0 fac1i m g) (m, g) ;;
          let '(m, g) := s in
          m <- (if negb (flg m gi) then PRIM2CTR Rplus Rmult sj jp gj gj gi leni m else Some m) ;;
          Some (m, g)) (m, g) ;;
        let '(m, g) := s in
        m <- (if negb (flg m gj) then PRIM2CTR Rplus Rmult sk kp gk gk gj lenj m else Some m) ;;
        Some (m, g)) (m, g) ;;
      let '(m, g) := s in
      m <- (if negb (flg m gk) then PRIM2CTR Rplus Rmult sl lp gl gl gk lenk m else Some m) ;;
      Some (m, g)) (m, g) ;;
    let '(m, g) := s in
    m <- (if (1 <? n_comp) && negb (flg m gl) then TRANSPOSE Rplus gl (nf * nc) n_comp m else Some m) ;;
    Some (m, negb (flg m 5%nat)).

  (** cint2e.c:387-438 *)
  Definition CINT2e_1111_loop_run (m : mem R) (g : arr R) : option (mem R * bool) :=
    if empty then Some (m, false) else
    let m := reset_flags m in
    let nc := 1 in
    let go := (if n_comp =? 1 then 5%nat else 0%nat) in
    s <- for_ 0 (s_np sl) (fun lp s =>
      c <- rd (s_c sl) lp ;;
      let fac1l := (common * c)%R in
      for_ 0 (s_np sk) (fun kp s =>
        if skipkl kp lp then Some s else
        c <- rd (s_c sk) kp ;;
        let fac1k := (fac1l * c)%R in
        for_ 0 (s_np sj) (fun jp s =>
          c <- rd (s_c sj) jp ;;
          let fac1j := (fac1k * c)%R in
          for_ 0 (s_np si) (fun ip s =>
            if skipij ip jp kp lp then Some s else
            c <- rd (s_c si) ip ;;
            let fac1i := (fac1j * c * eij ip jp * ekl kp lp)%R in
            let '(m, g) := s in
            gout_step (run ip jp kp lp) go (flg m go) (fun m => Some (set_flg m go false)) fac1i m g) s) s) s) (m, g) ;;
    let '(m, g) := s in
    m <- (if (1 <? n_comp) && negb (flg m go) then TRANSPOSE Rplus go (nf * nc) n_comp m else Some m) ;;
    Some (m, negb (flg m 5%nat)).

  (** cint2e.c:440-492 *)
  Definition CINT2e_n111_loop_run (m : mem R) (g : arr R) : option (mem R * bool) :=
    if empty then Some (m, false) else
    let m := reset_flags m in
    let nc := s_ctr si in
    let len0 := nf * n_comp in
    let go := (alias n_comp 5 1) in
    s <- for_ 0 (s_np sl) (fun lp s =>
      c <- rd (s_c sl) lp ;;
      let fac1l := (common * c)%R in
      for_ 0 (s_np sk) (fun kp s =>
        if skipkl kp lp then Some s else
        c <- rd (s_c sk) kp ;;
        let fac1k := (fac1l * c)%R in
        for_ 0 (s_np sj) (fun jp s =>
          c <- rd (s_c sj) jp ;;
          let fac1j := (fac1k * c)%R in
          for_ 0 (s_np si) (fun ip s =>
            if skipij ip jp kp lp then Some s else
            let fac1i := (fac1j * eij ip jp * ekl kp lp)%R in
            let '(m, g) := s in
            gout_step (run ip jp kp lp) 0%nat true (PRIM2CTR Rplus Rmult si ip go go 0%nat len0) fac1i m g) s) s) s) (m, g) ;;
    let '(m, g) := s in
    m <- (if (1 <? n_comp) && negb (flg m go) then TRANSPOSE Rplus go (nf * nc) n_comp m else Some m) ;;
    Some (m, negb (flg m 5%nat)).

  (** cint2e.c:494-547 *)
  Definition CINT2e_1n11_loop_run (m : mem R) (g : arr R) : option (mem R * bool) :=
    if empty then Some (m, false) else
    let m := reset_flags m in
    let nc := s_ctr sj in
    let len0 := nf * n_comp in
    let go := (alias n_comp 5 2) in
    s <- for_ 0 (s_np sl) (fun lp s =>
      c <- rd (s_c sl) lp ;;
      let fac1l := (common * c)%R in
      for_ 0 (s_np sk) (fun kp s =>
        if skipkl kp lp then Some s else
        c <- rd (s_c sk) kp ;;
        let fac1k := (fac1l * c)%R in
        for_ 0 (s_np sj) (fun jp s =>
          let fac1j := fac1k in
          let '(m, g) := s in
          s <- for_ 0 (s_np si) (fun ip s =>
            if skipij ip jp kp lp then Some s else
            c <- rd (s_c si) ip ;;
            let fac1i := (fac1j * c * eij ip jp * ekl kp lp)%R in
            let '(m, g) := s in
            gout_step (run ip jp kp lp) 0%nat (flg m 1%nat) (fun m => Some (set_flg m 1%nat false)) fac1i m g) (set_flg m 1%nat true, g) ;;
          let '(m, g) := s in
          m <- (if negb (flg m 1%nat) then PRIM2CTR Rplus Rmult sj jp go go 0%nat len0 m else Some m) ;;
          Some (m, g)) s) s) (m, g) ;;
    let '(m, g) := s in
    m <- (if (1 <? n_comp) && negb (flg m go) then TRANSPOSE Rplus go (nf * nc) n_comp m else Some m) ;;
    Some (m, negb (flg m 5%nat)).

  (** cint2e.c:549-602 *)
  Definition CINT2e_11n1_loop_run (m : mem R) (g : arr R) : option (mem R * bool) :=
    if empty then Some (m, false) else
    let m := reset_flags m in
    let nc := s_ctr sk in
    let len0 := nf * n_comp in
    let go := (alias n_comp 5 3) in
    s <- for_ 0 (s_np sl) (fun lp s =>
      c <- rd (s_c sl) lp ;;
      let fac1l := (common * c)%R in
      for_ 0 (s_np sk) (fun kp s =>
        if skipkl kp lp then Some s else
        let fac1k := fac1l in
        let '(m, g) := s in
        s <- for_ 0 (s_np sj) (fun jp s =>
          c <- rd (s_c sj) jp ;;
          let fac1j := (fac1k * c)%R in
          for_ 0 (s_np si) (fun ip s =>
            if skipij ip jp kp lp then Some s else
            c <- rd (s_c si) ip ;;
            let fac1i := (fac1j * c * eij ip jp * ekl kp lp)%R in
            let '(m, g) := s in
            gout_step (run ip jp kp lp) 0%nat (flg m 2%nat) (fun m => Some (set_flg m 2%nat false)) fac1i m g) s) (set_flg m 2%nat true, g) ;;
        let '(m, g) := s in
        m <- (if negb (flg m 2%nat) then PRIM2CTR Rplus Rmult sk kp go go 0%nat len0 m else Some m) ;;
        Some (m, g)) s) (m, g) ;;
    let '(m, g) := s in
    m <- (if (1 <? n_comp) && negb (flg m go) then TRANSPOSE Rplus go (nf * nc) n_comp m else Some m) ;;
    Some (m, negb (flg m 5%nat)).

  (** cint2e.c:604-657 *)
  Definition CINT2e_111n_loop_run (m : mem R) (g : arr R) : option (mem R * bool) :=
    if empty then Some (m, false) else
    let m := reset_flags m in
    let nc := s_ctr sl in
    let len0 := nf * n_comp in
    let go := (alias n_comp 5 4) in
    s <- for_ 0 (s_np sl) (fun lp s =>
      let fac1l := common in
      let '(m, g) := s in
      s <- for_ 0 (s_np sk) (fun kp s =>
        if skipkl kp lp then Some s else
        c <- rd (s_c sk) kp ;;
        let fac1k := (fac1l * c)%R in
        for_ 0 (s_np sj) (fun jp s =>
          c <- rd (s_c sj) jp ;;
          let fac1j := (fac1k * c)%R in
          for_ 0 (s_np si) (fun ip s =>
            if skipij ip jp kp lp then Some s else
            c <- rd (s_c si) ip ;;
            let fac1i := (fac1j * c * eij ip jp * ekl kp lp)%R in
            let '(m, g) := s in
            gout_step (run ip jp kp lp) 0%nat (flg m 3%nat) (fun m => Some (set_flg m 3%nat false)) fac1i m g) s) s) (set_flg m 3%nat true, g) ;;
      let '(m, g) := s in
      m <- (if negb (flg m 3%nat) then PRIM2CTR Rplus Rmult sl lp go go 0%nat len0 m else Some m) ;;
      Some (m, g)) (m, g) ;;
    let '(m, g) := s in
    m <- (if (1 <? n_comp) && negb (flg m go) then TRANSPOSE Rplus go (nf * nc) n_comp m else Some m) ;;
    Some (m, negb (flg m 5%nat)).

  (** cint2e.c:761-778 and 832-836 *)
  Definition CINTf_2e_loop_run (n : Z) : mem R -> arr R -> option (mem R * bool) :=
    match n with
    | 7 => CINT2e_n111_loop_run
    | 11 => CINT2e_1n11_loop_run
    | 13 => CINT2e_11n1_loop_run
    | 14 => CINT2e_111n_loop_run
    | 15 => CINT2e_1111_loop_run
    | _ => CINT2e_loop_run
    end.
  Definition CINT2e_opt_run : mem R -> arr R -> option (mem R * bool) :=
    CINTf_2e_loop_run (Z.shiftl (b2z (s_ctr si =? 1)) 3 + Z.shiftl (b2z (s_ctr sj =? 1)) 2 + Z.shiftl (b2z (s_ctr sk =? 1)) 1 + b2z (s_ctr sl =? 1)).
End Loops4.

Section Loops3.
  Variables (n_comp nf : Z) (si sj sk : shl R) (common : R).
  Variables (run : Z -> Z -> Z -> qrun) (empty : bool) (skip : Z -> Z -> bool) (ee : Z -> Z -> R).

  (** cint3c2e.c:323-365 *)
  Definition CINT3c2e_111_loop_run (m : mem R) (g : arr R) : option (mem R * bool) :=
    if empty then Some (m, false) else
    let m := reset_flags m in
    let nc := 1 in
    let go := (if n_comp =? 1 then 5%nat else 0%nat) in
    s <- for_ 0 (s_np sk) (fun kp s =>
      c <- rd (s_c sk) kp ;;
      let fac1k := (common * c)%R in
      for_ 0 (s_np sj) (fun jp s =>
        c <- rd (s_c sj) jp ;;
        let fac1j := (fac1k * c)%R in
        for_ 0 (s_np si) (fun ip s =>
          if skip ip jp then Some s else
          c <- rd (s_c si) ip ;;
          let fac1i := (fac1j * c * ee ip jp)%R in
          let '(m, g) := s in
          gout_step (run ip jp kp) go (flg m go) (fun m => Some (set_flg m go false)) fac1i m g) s) s) (m, g) ;;
    let '(m, g) := s in
    m <- (if (1 <? n_comp) && negb (flg m go) then TRANSPOSE Rplus go (nf * nc) n_comp m else Some m) ;;
    Some (m, negb (flg m 5%nat)).

  (** cint3c2e.c:367-410 *)
  Definition CINT3c2e_n11_loop_run (m : mem R) (g : arr R) : option (mem R * bool) :=
    if empty then Some (m, false) else
    let m := reset_flags m in
    let nc := s_ctr si in
    let len0 := nf * n_comp in
    let go := alias n_comp 5 1 in
    s <- for_ 0 (s_np sk) (fun kp s =>
      c <- rd (s_c sk) kp ;;
      let fac1k := (common * c)%R in
      for_ 0 (s_np sj) (fun jp s =>
        c <- rd (s_c sj) jp ;;
        let fac1j := (fac1k * c)%R in
        for_ 0 (s_np si) (fun ip s =>
          if skip ip jp then Some s else
          let fac1i := (fac1j * ee ip jp)%R in
          let '(m, g) := s in
          gout_step (run ip jp kp) 0%nat true (PRIM2CTR Rplus Rmult si ip go go 0%nat len0) fac1i m g) s) s) (m, g) ;;
    let '(m, g) := s in
    m <- (if (1 <? n_comp) && negb (flg m go) then TRANSPOSE Rplus go (nf * nc) n_comp m else Some m) ;;
    Some (m, negb (flg m 5%nat)).

  (** cint3c2e.c:412-460 *)
  Definition CINT3c2e_1n1_loop_run (m : mem R) (g : arr R) : option (mem R * bool) :=
    if empty then Some (m, false) else
    let m := reset_flags m in
    let nc := s_ctr sj in
    let len0 := nf * n_comp in
    let go := alias n_comp 5 2 in
    s <- for_ 0 (s_np sk) (fun kp s =>
      c <- rd (s_c sk) kp ;;
      let fac1k := (common * c)%R in
      for_ 0 (s_np sj) (fun jp s =>
        let fac1j := fac1k in
        let '(m, g) := s in
        s <- for_ 0 (s_np si) (fun ip s =>
          if skip ip jp then Some s else
          c <- rd (s_c si) ip ;;
          let fac1i := (fac1j * c * ee ip jp)%R in
          let '(m, g) := s in
          gout_step (run ip jp kp) 0%nat (flg m 1%nat) (fun m => Some (set_flg m 1%nat false)) fac1i m g) (set_flg m 1%nat true, g) ;;
        let '(m, g) := s in
        m <- (if negb (flg m 1%nat) then PRIM2CTR Rplus Rmult sj jp go go 0%nat len0 m else Some m) ;;
        Some (m, g)) s) (m, g) ;;
    let '(m, g) := s in
    m <- (if (1 <? n_comp) && negb (flg m go) then TRANSPOSE Rplus go (nf * nc) n_comp m else Some m) ;;
    Some (m, negb (flg m 5%nat)).

  (** cint3c2e.c:537-546 and 590-592; the general loop (cint3c2e.c:463-535) has the text of CINT3c2e_loop_nopt *)
  Definition CINTf_3c2e_loop_run (n : Z) : mem R -> arr R -> option (mem R * bool) :=
    match n with
    | 3 => CINT3c2e_n11_loop_run
    | 5 => CINT3c2e_1n1_loop_run
    | 7 => CINT3c2e_111_loop_run
    | _ => CINT3c2e_loop_run n_comp nf si sj sk common run empty skip ee
    end.
  Definition CINT3c2e_opt_run : mem R -> arr R -> option (mem R * bool) :=
    CINTf_3c2e_loop_run (Z.shiftl (b2z (s_ctr si =? 1)) 2 + Z.shiftl (b2z (s_ctr sj =? 1)) 1 + b2z (s_ctr sk =? 1)).
End Loops3.

Section Drv.
  Variables (V : view) (ev : Z -> R) (rys : Z -> R -> nodes) (srys : Z -> R -> R -> nodes) (t : ent) (ng : ngT) (stored : bool).
  (** pair data of cint2e.c:296-325: from the optimizer, or from CINTset_pairdata *)
  Definition pair_opt (i j lic ljc : Z) (cut : R) (ip jp : Z) : pdata R :=
    if stored then stored_pair Rops V ev ng i j ip jp else entry Rops V ev i j lic ljc cut ip jp.
  Section C4.
    Variables (i j k l : Z).
    Definition env_o4 : envs := env_2e ev t ng (l4 V i j k l) (c4 V i j k l).
    Definition pij_o4 : Z -> Z -> pdata R := pair_opt i j (v_l V i + IINC ng) (v_l V j + JINC ng) (init_expcutoff Rops ev C2e).
    Definition pkl_o4 : Z -> Z -> pdata R := pair_opt k l (v_l V k + KINC ng) (v_l V l + LINC ng) (init_expcutoff Rops ev C2e).
    Definition q_o4 : quartets R := int2e_opt Rops V ev stored false ng i j k l (fun _ _ _ _ _ _ _ => 0%R).
    (** eijcutoff - pdata_ij->cceij, e.g. cint2e.c:413-426 *)
    Definition cut_o4 (ip jp kp lp : Z) : R := (init_expcutoff Rops ev C2e - cceij (pkl_o4 kp lp) - cceij (pij_o4 ip jp))%R.
    Definition run_o4 (idx : arr Z) (ip jp kp lp : Z) : qrun :=
      eri_run rys srys ev t ng (l4 V i j k l) (c4 V i j k l) (a4 V ev i j k l ip jp kp lp) (A4 V ev i j k l)
        (pt (pd_centre (pij_o4 ip jp))) (pt (pd_centre (pkl_o4 kp lp))) (cut_o4 ip jp kp lp) idx.
    (** cint2e.c:794-867 CINT2e_drv with optimizer *)
    Definition int2e_drv_opt (kd : kind) (dims : option (arr Z)) (idx : arr Z) (g : arr R) (m : mem R) (out : arr R) : option (arr R * bool) :=
      fac <- entry_factor kd (t_e t) ;;
      let e := env_o4 in
      idx <- index_fun (en_fam (t_e t)) e idx ;;
      si <- mk_shell Risz (v_np V i) (v_nc V i) (coef_arr V ev i) ;;
      sj <- mk_shell Risz (v_np V j) (v_nc V j) (coef_arr V ev j) ;;
      sk <- mk_shell Risz (v_np V k) (v_nc V k) (coef_arr V ev k) ;;
      sl <- mk_shell Risz (v_np V l) (v_nc V l) (coef_arr V ev l) ;;
      r <- CINT2e_opt_run (ncomp_e1 e * ncomp_e2 e * ncomp_tensor e) (nf e) si sj sk sl
             (eri_const * CINTcommon_fac_sp (v_l V i) * CINTcommon_fac_sp (v_l V j) * CINTcommon_fac_sp (v_l V k) * CINTcommon_fac_sp (v_l V l) * fac)%R
             (run_o4 idx) (pair_empty q_o4) (skip_kl q_o4) (skip_ij q_o4) (e_ij q_o4) (e_kl q_o4) (set_flg m 5%nat true) g ;;
      let '(m, _) := r in
      let has_value := negb (flg m 5%nat) in
      out <- CINT2e_drv_tail 0%R Rplus Rmult sph_coef kd has_value dims out (buf m 5%nat) e ;;
      Some (out, has_value).
  End C4.

  Section C3.
    Variables (i j k : Z).
    Definition env_o3 : envs := env_2e ev t ng (l3 V i j k) (c3 V i j k).
    (** cint3c2e.c:229-250 *)
    Definition pij_o3 : Z -> Z -> pdata R := pair_opt i j (v_l V i + IINC ng) (v_l V j + JINC ng) (init_expcutoff Rops ev C3c2e).
    Definition q_o3 : triples R := int3c2e_opt Rops V ev stored ng i j k (rys_order env_o3) (fun _ _ _ _ _ => 0%R).
    Definition cut_o3 : R := expcut_3c2e Rops V ev i j k (v_l V i + IINC ng) (v_l V j + JINC ng) 0 (rys_order env_o3) (init_expcutoff Rops ev C3c2e).
    Definition run_o3 (idx : arr Z) (ip jp kp : Z) : qrun :=
      eri_run rys srys ev t ng (l3 V i j k) (c3 V i j k) (a3 V ev i j k ip jp kp) (A3 V ev i j k)
        (pt (pd_centre (pij_o3 ip jp))) (ctr V ev k) (cut_o3 - cceij (pij_o3 ip jp))%R idx.
    (** cint3c2e.c:556-630 CINT3c2e_drv with optimizer *)
    Definition int3c2e_drv_opt (kd : kind) (dims : option (arr Z)) (idx : arr Z) (g : arr R) (m : mem R) (out : arr R) : option (arr R * bool) :=
      fac <- entry_factor kd (t_e t) ;;
      let e := env_o3 in
      idx <- index_fun (en_fam (t_e t)) e idx ;;
      si <- mk_shell Risz (v_np V i) (v_nc V i) (coef_arr V ev i) ;;
      sj <- mk_shell Risz (v_np V j) (v_nc V j) (coef_arr V ev j) ;;
      sk <- mk_shell Risz (v_np V k) (v_nc V k) (coef_arr V ev k) ;;
      r <- CINT3c2e_opt_run (ncomp_e1 e * ncomp_tensor e) (nf e) si sj sk
             (eri_const * CINTcommon_fac_sp (v_l V i) * CINTcommon_fac_sp (v_l V j) * CINTcommon_fac_sp (v_l V k) * fac)%R
             (run_o3 idx) (t_empty q_o3) (t_skip q_o3) (Loop3Model.t_e q_o3) (set_flg m 5%nat true) g ;;
      let '(m, _) := r in
      let has_value := negb (flg m 5%nat) in
      out <- CINT3c2e_drv_tail 0%R Rplus Rmult sph_coef kd false has_value dims out (buf m 5%nat) e ;;
      Some (out, has_value).
  End C3.
End Drv.
