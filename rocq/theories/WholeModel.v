(** WholeModel.v — the one-electron driver from shells to the caller's array, with the real
    primitive computation inside the loop instead of an abstract batch.

    The pieces (environment, index table, coefficient lists, pair data, recurrences, integrand
    functions, contraction, transformation, output) are the models of the other files; here they are
    called in the order and with the arguments of cint1e.c.  Shells are seen through the tables
    ([view], values [ev] of env).  Real numbers instead of doubles; the root finder is a parameter.
    Work arrays are separate buffers (CacheModel.v: that they fit the cache and do not overlap). *)
From Coq Require Import Reals QArith Qreals.
From Verif Require Import Base EnvModel IdxModel CtrModel Loop2eModel Loop3Model OptModel OptSpec OptProof OptPair ScreenModel
  RecModel RecRModel Rec2RModel OutModel TabModel OpSpec IntgModel IntgTab.
Local Open Scope Z_scope.

(** env[bas(PTR_COEFF, i)...] as the array the loops read *)
Definition coef_arr (V : view) (ev : Z -> R) (i : Z) : arr R :=
  of_fun (v_np V i * v_nc V i) (fun x => ev (v_coef V i + x)).
Definition Risz (x : R) : bool := Reqb x 0%R.

(** the call ( *envs->f_gout)(gout, g, idx, envs, empty): gout and what the operator routines leave in g *)
Definition f_gout_run (x : gin R) (f : gfun) (idx : arr Z) (empty : bool) (g gout : arr R) : option (arr R * arr R) :=
  gout <- run_gout 0%R 1%R Rplus Rmult Rminus IZR x f empty idx g gout ;;
  st <- run_ops Rplus Rmult Rminus IZR x (g_kind f) (g_ops f) (ptr0 x, g) ;;
  Some (snd st, gout).

(** ** The potential of one nucleus: g1e.c:189-240 *)
Record nucleus := mknuc { n_chg : R; n_zeta : R; n_xyz : Z -> R }.
(** [at_ k ia] is atm(k, ia): slots 0 charge, 1 coordinates, 2 model, 3 zeta, 4 fractional charge; models 2
    Gaussian, 3 fractional charge.  ia < 0: the 1/r operator at env[PTR_RINV_ORIG]. *)
Definition nucleus_of (at_ : Z -> Z -> Z) (ev : Z -> R) (ia : Z) : nucleus :=
  if ia <? 0 then mknuc 1 (ev 7) (fun ax => ev (4 + ax))
  else mknuc (if at_ 2 ia =? 3 then (- ev (at_ 4%Z ia))%R else (- Rabs (IZR (at_ 0%Z ia)))%R)
             (if at_ 2 ia =? 2 then ev (at_ 3 ia) else 0%R)
             (fun ax => ev (at_ 1 ia + ax)).
(** g1e.c:207-319 CINTg1e_nuc with the call of CINTrys_roots (line 244), which leaves the weights in gz.
    The local array u has MXRYSROOTS = 32 entries.
    Simplification: rij is recomputed from the exponents; the loop takes it from the pair data, which holds
    the same numbers unless the estimate equals the cutoff exactly, where the prefactor eij is 0. *)
Definition g1e_nuc_run (rys : Z -> R -> nodes) (e : envs) (n : nucleus) (fac ai aj : R) (ri rj : Z -> R) (g : arr R) : option (arr R) :=
  if 32 <? nrys_roots e then None else
  let aij := (ai + aj)%R in
  let tau := nuc_mod aij (n_zeta n) in
  let x := (aij * tau * tau * square3 (fun ax => n_xyz n ax - pair_rij ai aj ri rj ax))%R in
  let '(u, w) := rys (nrys_roots e) x in
  g <- put_w (g_size e) 0 (nrys_roots e) w g ;;
  R_nuc e (n_chg n) (n_zeta n) fac ai aj u (n_xyz n) ri rj g.

(** one evaluation of a primitive pair: into g, then into gout *)
Definition prun := Z -> Z -> Z -> R -> bool -> arr R -> arr R -> option (arr R * arr R).

Section Loop.
  Variable run : prun.     (* ip jp ia fac empty g gout *)
  Definition gout_step (ip jp ia : Z) (fac : R) (dst : nat) (empty : bool) (s : mem R * arr R) : option (mem R * arr R) :=
    let '(m, g) := s in
    r <- run ip jp ia fac empty g (buf m dst) ;;
    Some (set_buf m dst (snd r), fst r).
  (** cint1e.c:284-305; [natm] = envs->natm *)
  Definition make_g1e_gout_run (ty natm : Z) (ip jp : Z) (fac : R) (dst : nat) (empty : bool) (s : mem R * arr R) : option (mem R * arr R) :=
    match ty with
    | 0 => gout_step ip jp 0 fac dst empty s
    | 1 => gout_step ip jp (-1) fac dst empty s
    | 2 => for_ 0 natm (fun ia s => gout_step ip jp ia fac dst (empty && (ia =? 0)) s) s
    | _ => Some s
    end.
  (** the text of CINT1e_loop (cint1e.c:39-160; Loop3Model.v) with the array g as part of the state *)
  Definition CINT1e_loop_run (ty natm n_comp nf : Z) (si sj : shl R) (common : R) (empty : bool) (skip : Z -> Z -> bool) (ee : Z -> Z -> R)
      (m : mem R) (g : arr R) : option (mem R * bool) :=
    if empty then Some (m, false) else
    let m := set_flags m in
    let nc := s_ctr si * s_ctr sj in
    let leni := nf * s_ctr si * n_comp in
    let len0 := nf * n_comp in
    let gj := alias n_comp 5 2 in
    let gi := alias (s_ctr sj) gj 1 in
    let gg := alias (s_ctr si) gi 0 in
    s <- for_ 0 (s_np sj) (fun jp s =>
      let '(m, g) := s in
      r <- enter Rmult sj jp common gi m ;;
      let '(fac1j, m) := r in
      s <- for_ 0 (s_np si) (fun ip s =>
        let '(m, g) := s in
        if skip ip jp then Some s else
        fac1i <- (if s_ctr si =? 1 then c <- rd (s_c si) ip ;; Some (fac1j * c * ee ip jp)%R
                  else Some (fac1j * ee ip jp)%R) ;;
        s <- make_g1e_gout_run ty natm ip jp fac1i gg (flg m gg) (m, g) ;;
        let '(m, g) := s in
        m <- PRIM2CTR Rplus Rmult si ip gi gi gg len0 m ;;
        Some (m, g)) (m, g) ;;
      let '(m, g) := s in
      m <- (if negb (flg m gi) then PRIM2CTR Rplus Rmult sj jp gj gj gi leni m else Some m) ;;
      Some (m, g)) (m, g) ;;
    let '(m, g) := s in
    m <- (if (1 <? n_comp) && negb (flg m gj) then DMAT gj (nf * nc) n_comp m else Some m) ;;
    Some (m, negb (flg m gj)).
End Loop.

(** the factor the entry point multiplies common_factor with, initially 1 (g1e.c:37) *)
Definition entry_factor (k : kind) (t : gentry) : option R :=
  match (match k with SphK => en_sph t | _ => en_cart t end) with
  | Some f => Some (Q2R (Qmake (fst f) (snd f)))
  | None => None
  end.
(** INT1E_TYPE_OVLP, _RINV, _NUC *)
Definition int1e_type (fam : gfam) : option Z :=
  match fam with F1e => Some 0 | F1rinv => Some 1 | F1nuc => Some 2 | _ => None end.

Section Drv.
  Variables (V : view) (ev : Z -> R) (at_ : Z -> Z -> Z) (natm : Z) (rys : Z -> R -> nodes).
  Variables (t : ent) (ng : ngT) (i j : Z).

  Definition prim_exps (ip jp : Z) (c : centre) : R :=
    match c with CI => ex V ev i ip | CJ => ex V ev j jp | _ => 0%R end.
  Definition prim_centres (c : centre) (ax : Z) : R :=
    match c with CI => ctr V ev i ax | CJ => ctr V ev j ax | _ => 0%R end.
  (** env[PTR_COMMON_ORIG] *)
  Definition common_orig (ax : Z) : R := ev (1 + ax).
  Definition env_1e : envs := init_int1e ng (v_l V i) (v_l V j) (v_nc V i) (v_nc V j).
  Definition gin_1e (ip jp : Z) : gin R := mkgin env_1e 0 (prim_exps ip jp) prim_centres common_orig.

  Definition run_1e (ty : Z) (idx : arr Z) : prun := fun ip jp ia fac empty g gout =>
    g <- (if ty =? 0 then R_ovlp env_1e fac (ex V ev i ip) (ex V ev j jp) (ctr V ev i) (ctr V ev j) g
          else g1e_nuc_run rys env_1e (nucleus_of at_ ev ia) fac (ex V ev i ip) (ex V ev j jp) (ctr V ev i) (ctr V ev j) g) ;;
    f_gout_run (gin_1e ip jp) (t_f t) idx empty g gout.

  (** cint1e.c:188-238 CINT1e_drv (with a non-NULL out) for the entry's Cartesian or spherical function, after the
      entry's init (intor1.c and the generated files): returns out and has_value. *)
  Definition int1e_drv (k : kind) (dims : option (arr Z)) (idx : arr Z) (g : arr R) (m : mem R) (out : arr R) : option (arr R * bool) :=
    fac <- entry_factor k (t_e t) ;;
    ty <- int1e_type (en_fam (t_e t)) ;;
    let e := env_1e in
    let cut := init_expcutoff Rops ev C1e in
    let pd := entry Rops V ev i j (li_ceil e) (lj_ceil e) cut in
    idx <- CINTg1e_index_xyz e idx ;;
    si <- mk_shell Risz (v_np V i) (v_nc V i) (coef_arr V ev i) ;;
    sj <- mk_shell Risz (v_np V j) (v_nc V j) (coef_arr V ev j) ;;
    r <- CINT1e_loop_run (run_1e ty idx) ty natm (ncomp_e1 e * ncomp_tensor e) (nf e) si sj
           (fac * CINTcommon_fac_sp (i_l e) * CINTcommon_fac_sp (j_l e))%R
           (set_pairdata_empty Rops V ev i j (li_ceil e) (lj_ceil e) cut)
           (fun ip jp => Rltb cut (cceij (pd ip jp)))
           (fun ip jp => eij (pd ip jp)) m g ;;
    let '(m, has_value) := r in
    out <- CINT1e_drv_tail 0%R Rplus Rmult sph_coef k has_value dims out (buf m 5%nat) e ;;
    Some (out, has_value).
End Drv.
