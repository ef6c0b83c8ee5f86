(** CacheModel.v — how each driver lays out its scratch buffer ("cache").

    Every driver reserves blocks inside one array of doubles with the macros
    MALLOC_INSTACK / MALLOC_ALIGN8_INSTACK (misc.h:26-32), which round the current
    address up and advance it; the caller (or the driver itself) provides as many
    doubles as the size query reports.  The model computes byte addresses.

    A block is described by a tag, its address and its length in bytes.  Tags 0-4 are
    the contraction buffers of CtrModel.v (gout, gctri, gctrj, gctrk, gctrl), 5 the
    batch gctr, 10 log_maxc, 11 pair data, 12 idx, 13 non0ctr/non0idx, 14 the
    intermediate g, 15 the grid coordinates, 16-18 buffers of the g0 routines, 20-24
    the work buffers of the transformations, 25 the half-transformed spinor batch.

    In the contraction loops the block "g" is followed by the contraction buffers; the
    macro ALIAS_ADDR_IF_EQUAL(x, y) (cint2e.c:24-33) either makes a buffer coincide with
    the next level's buffer or carves it off.  The block is reserved with the total
    length of all levels, aliased or not; only carved buffers are accessed, so the
    layout lists those.  Where something is reserved after that block (2c2e without
    optimizer, 4c1e, grids), the full length counts.

    [fsz] is sizeof(FINT): 4, or 8 in an I8 build.  sizeof(PairData) = 40
    (optimizer.h: five doubles); sizeof(double complex) = 16.  Machine overflow of the
    size computations is not modelled here. *)
From Verif Require Import Base BasModel EnvModel.

Record block := mkblk { b_tag : nat; b_at : Z; b_len : Z }.

(** misc.h:26-32: [(cache + 7) & -8] and [(cache + 63) & -64] *)
Definition align (al cache : Z) : Z := Z.land (cache + (al - 1)) (- al).

(** A sequence of MALLOC_INSTACK (al = 8) or MALLOC_ALIGN8_INSTACK (al = 64) requests
    (tag, bytes); returns the blocks and the new value of [cache]. *)
Fixpoint instack (al cache : Z) (ns : list (nat * Z)) : list block * Z :=
  match ns with
  | [] => ([], cache)
  | (t, n) :: ns =>
      let var := align al cache in
      let '(bs, c) := instack al (var + n) ns in
      (mkblk t var n :: bs, c)
  end.

(** A sequence of ALIAS_ADDR_IF_EQUAL: (aliased?, tag, length in doubles), starting at
    the pointer g1; lists the buffers that get memory of their own.
    cint2e.c:24-33, cint3c2e.c:22-31, cint2c2e.c:24-33, cint3c1e.c:26-35; written out in
    cint1e.c and cint4c1e.c:114-146. *)
Fixpoint carve (g1 : Z) (ls : list (bool * nat * Z)) : list block :=
  match ls with
  | [] => []
  | (true, _, _) :: ls => carve g1 ls
  | (false, t, n) :: ls => mkblk t g1 (8 * n) :: carve (g1 + 8 * n) ls
  end.

Definition sum_len (ls : list (bool * nat * Z)) : Z :=
  fold_right (fun x s => snd x + s) 0 ls.

(** g_size * 3 * ((1<<gbits)+1) *)
Definition leng (e : envs) : Z := g_size e * 3 * (Z.shiftl 1 (gbits e) + 1).

(** _len_spinor, cart2sph.c:3537-3546 *)
Definition len_spinor (kappa l : Z) : Z :=
  if 0 =? kappa then 4 * l + 2 else if kappa <? 0 then 2 * l + 2 else 2 * l.

Definition blocks (r : list block * Z) : list block := fst r.

(** Driver: gctr is reserved first, then [phase] runs with the remaining cache.  The
    contraction loop and the transformation both receive that same cache pointer. *)
Definition after_gctr (al base n : Z) (phase : Z -> list block) : list block :=
  let '(bs, cache) := instack al base [(5%nat, 8 * n)] in
  bs ++ phase cache.

(** ---------------- one-electron integrals, cint1e.c ---------------- *)

Definition ncomp1 (e : envs) : Z := ncomp_e1 e * ncomp_tensor e.

(** int1e_cache_size, cint1e.c:162-186 *)
Definition int1e_cache_size (e : envs) (ip jp : Z) : Z :=
  let nc := nf e * i_ctr e * j_ctr e in
  let n_comp := ncomp1 e in
  let lenj := nf e * nc * n_comp in
  let leni := nf e * i_ctr e * n_comp in
  let len0 := nf e * n_comp in
  let pdata_size := ip * jp * 5 + ip * i_ctr e + jp * j_ctr e + (ip + jp) * 2 + nf e * 3 in
  Z.max (nc * n_comp + leng e + lenj + leni + len0 + pdata_size) (nc * n_comp + nf e * 8 * 2).

(** CINT1e_loop, cint1e.c:30-112 *)
Definition loop_1e (fsz : Z) (e : envs) (ip jp cache : Z) : list block :=
  let n_comp := ncomp1 e in
  let nc := i_ctr e * j_ctr e in
  let '(bs, cache) := instack 8 cache
        [(10%nat, 8 * (ip + jp)); (11%nat, 40 * (ip * jp)); (12%nat, fsz * (nf e * 3));
         (13%nat, fsz * (ip + jp + ip * i_ctr e + jp * j_ctr e))] in
  let g := align 8 cache in
  bs ++ mkblk 14 g (8 * leng e) ::
  carve (g + 8 * leng e)
    [(n_comp =? 1, 2%nat, nf e * nc * n_comp); (j_ctr e =? 1, 1%nat, nf e * i_ctr e * n_comp);
     (i_ctr e =? 1, 0%nat, nf e * n_comp)].

(** c2s_sph_1e, cart2sph.c:4840-4851 *)
Definition c2s_sph_1e (e : envs) (cache : Z) : list block :=
  let buflen := nfi e * (j_l e * 2 + 1) in
  blocks (instack 8 cache [(20%nat, 8 * buflen); (21%nat, 8 * buflen)]).

(** c2s_sf_1e, c2s_sf_1ei, c2s_si_1e, c2s_si_1ei, cart2sph.c:4882-4895, 4919-4932,
    4960-4979, 5006-5025; [ik], [jk] are the shells' kappas *)
Definition c2s_spinor_1e (e : envs) (ik jk cache : Z) : list block :=
  let di := len_spinor ik (i_l e) in
  let dj := len_spinor jk (j_l e) in
  let nf2j := nfj e + nfj e in
  blocks (instack 8 cache [(20%nat, 8 * (di * nf2j)); (21%nat, 8 * (di * nf2j));
                           (22%nat, 8 * (di * dj)); (23%nat, 8 * (di * dj))]).

(** CINT1e_drv, cint1e.c:190-237: the batch, then the loop or the transformation *)
Definition drv_1e (e : envs) (base : Z) (phase : Z -> list block) : list block :=
  after_gctr 8 base (nf e * i_ctr e * j_ctr e * ncomp1 e) phase.

(** CINT1e_spinor_drv, cint1e.c:239-281 *)
Definition drv_1e_spinor (e : envs) (base : Z) (phase : Z -> list block) : list block :=
  after_gctr 8 base (nf e * i_ctr e * j_ctr e * ncomp_e1 e * ncomp_tensor e) phase.

(** ---------------- two-centre two-electron integrals, cint2c2e.c ---------------- *)

(** The second shell (index k) is stored as number 1 in x_ctr: [j_ctr].  The loops use
    n_comp = ncomp_tensor (cint2c2e.c:63), the drivers e1*e2*tensor (cint2c2e.c:239). *)
Definition levels_2c2e (e : envs) : list (bool * nat * Z) :=
  let n_comp := ncomp_tensor e in
  let nc := i_ctr e * j_ctr e in
  [(n_comp =? 1, 2%nat, nf e * nc * n_comp); (j_ctr e =? 1, 1%nat, nf e * i_ctr e * n_comp);
   (i_ctr e =? 1, 0%nat, nf e * n_comp)].

(** CINT2c2e_loop_nopt, cint2c2e.c:80-112: g first, then idx and non0ctr behind the full
    length of all levels *)
Definition loop_2c2e_nopt (fsz : Z) (e : envs) (ip kp cache : Z) : list block :=
  let len := leng e + sum_len (levels_2c2e e) in
  let g := align 8 cache in
  mkblk 14 g (8 * leng e) :: carve (g + 8 * leng e) (levels_2c2e e) ++
  blocks (instack 8 (g + 8 * len)
        [(12%nat, fsz * (nf e * 3)); (13%nat, fsz * (ip + kp + ip * i_ctr e + kp * j_ctr e))]).

(** CINT2c2e_loop, cint2c2e.c:170-206: the index table comes from the optimizer *)
Definition loop_2c2e (fsz : Z) (e : envs) (ip kp cache : Z) : list block :=
  let '(bs, cache) := instack 8 cache [(13%nat, fsz * (ip + kp + ip * i_ctr e + kp * j_ctr e))] in
  let g := align 8 cache in
  bs ++ mkblk 14 g (8 * leng e) :: carve (g + 8 * leng e) (levels_2c2e e).

(** CINT2c2e_drv and CINT2c2e_spinor_drv, cint2c2e.c:234-290, 294-345 *)
Definition drv_2c2e (e : envs) (base : Z) (phase : Z -> list block) : list block :=
  after_gctr 8 base (nf e * i_ctr e * j_ctr e * (ncomp_e1 e * ncomp_e2 e * ncomp_tensor e)) phase.

(** ---------------- two-electron integrals, cint2e.c ---------------- *)

Definition ncomp2 (e : envs) : Z := ncomp_e1 e * ncomp_e2 e * ncomp_tensor e.
Definition nc4 (e : envs) : Z := nf e * i_ctr e * j_ctr e * k_ctr e * l_ctr e.

(** PAIRDATA_NON0IDX_SIZE, cint2e.c:780-792 *)
Definition pdata_size_2e (e : envs) (ip jp kp lp : Z) : Z :=
  (ip * jp + kp * lp) * 5 + ip * i_ctr e + jp * j_ctr e + kp * k_ctr e + lp * l_ctr e
  + (ip + jp + kp + lp) * 2 + nf e * 3.

(** CINT2e_drv, cint2e.c:800-828 (the query answers 0 from 2^31-1 on, lines 807-814,
    which is the caller's signal that no buffer can be used; not modelled) *)
Definition int2e_cache_size (e : envs) (ip jp kp lp : Z) : Z :=
  Z.max (leng e + nf e * ncomp2 e + nc4 e * ncomp2 e * 3 + pdata_size_2e e ip jp kp lp)
        (nc4 e * ncomp2 e + nf e * 4).

(** CINT2e_spinor_drv, cint2e.c:871-916; [ni], [nj] = counts[0], counts[1] *)
Definition n1_2e (e : envs) (ik jk : Z) : Z :=
  len_spinor ik (i_l e) * i_ctr e * nfk e * k_ctr e * nfl e * l_ctr e * (len_spinor jk (j_l e) * j_ctr e).
Definition int2e_spinor_cache_size (e : envs) (ik jk ip jp kp lp : Z) : Z :=
  Z.max (leng e + nf e * ncomp2 e + nc4 e * ncomp2 e * 3 + pdata_size_2e e ip jp kp lp)
        (nc4 e * ncomp2 e + n1_2e e ik jk * ncomp_e2 e * 2 + nf e * 32 * 2).

Definition levels_2e (n_comp : Z) (e : envs) : list (bool * nat * Z) :=
  [(n_comp =? 1, 4%nat, nf e * (i_ctr e * j_ctr e * k_ctr e * l_ctr e) * n_comp);
   (l_ctr e =? 1, 3%nat, nf e * i_ctr e * j_ctr e * k_ctr e * n_comp);
   (k_ctr e =? 1, 2%nat, nf e * i_ctr e * j_ctr e * n_comp);
   (j_ctr e =? 1, 1%nat, nf e * i_ctr e * n_comp);
   (i_ctr e =? 1, 0%nat, nf e * n_comp)].

(** CINT2e_loop_nopt, cint2e.c:92-93, 155-191 *)
Definition loop_2e_nopt (fsz : Z) (e : envs) (ip jp kp lp cache : Z) : list block :=
  let '(bs, cache) := instack 8 cache
        [(10%nat, 8 * (ip + jp + kp + lp)); (11%nat, 40 * (ip * jp)); (12%nat, fsz * (nf e * 3));
         (13%nat, fsz * (ip + jp + kp + lp + ip * i_ctr e + jp * j_ctr e + kp * k_ctr e + lp * l_ctr e))] in
  let g := align 8 cache in
  bs ++ mkblk 14 g (8 * leng e) :: carve (g + 8 * leng e) (levels_2e (ncomp2 e) e).

(** COMMON_ENVS_AND_DECLARE, cint2e.c:290-358, with an optimizer: pair data only if the
    optimizer has none, the index table only if the optimizer has none for these
    angular momenta *)
Definition opt_blocks_2e (fsz : Z) (no_pd no_idx : bool) (e : envs) (ip jp kp lp : Z) : list (nat * Z) :=
  (if no_pd then [(11%nat, 40 * (ip * jp + kp * lp))] else []) ++
  (if no_idx then [(12%nat, fsz * (nf e * 3))] else []).

(** CINT2e_loop (652-757) and the specialised loops (385-650), selected by
    CINTf_2e_loop (761-778); [sel] = the levels carved by the selected loop *)
Definition loop_2e_opt_with (sel : list (bool * nat * Z)) (fsz : Z) (no_pd no_idx : bool) (e : envs)
    (ip jp kp lp cache : Z) : list block :=
  let '(bs, cache) := instack 8 cache (opt_blocks_2e fsz no_pd no_idx e ip jp kp lp) in
  let g := align 8 cache in
  bs ++ mkblk 14 g (8 * leng e) :: carve (g + 8 * leng e) sel.

Definition levels_1111 (n_comp : Z) (e : envs) : list (bool * nat * Z) :=
  [(n_comp =? 1, 0%nat, nf e * n_comp)].
Definition levels_n111 (n_comp : Z) (e : envs) : list (bool * nat * Z) :=
  [(n_comp =? 1, 1%nat, nf e * i_ctr e * n_comp); (false, 0%nat, nf e * n_comp)].
Definition levels_1n11 (n_comp : Z) (e : envs) : list (bool * nat * Z) :=
  [(n_comp =? 1, 2%nat, nf e * j_ctr e * n_comp); (false, 0%nat, nf e * n_comp)].
Definition levels_11n1 (n_comp : Z) (e : envs) : list (bool * nat * Z) :=
  [(n_comp =? 1, 3%nat, nf e * k_ctr e * n_comp); (false, 0%nat, nf e * n_comp)].
Definition levels_111n (n_comp : Z) (e : envs) : list (bool * nat * Z) :=
  [(n_comp =? 1, 4%nat, nf e * l_ctr e * n_comp); (false, 0%nat, nf e * n_comp)].

(** cint2e.c:761-778, 833-838: index (i==1)*8 + (j==1)*4 + (k==1)*2 + (l==1) *)
Definition levels_2e_selected (e : envs) : list (bool * nat * Z) :=
  let n_comp := ncomp2 e in
  match Z.shiftl (Z.b2z (i_ctr e =? 1)) 3 + Z.shiftl (Z.b2z (j_ctr e =? 1)) 2
        + Z.shiftl (Z.b2z (k_ctr e =? 1)) 1 + Z.b2z (l_ctr e =? 1) with
  | 7 => levels_n111 n_comp e
  | 11 => levels_1n11 n_comp e
  | 13 => levels_11n1 n_comp e
  | 14 => levels_111n n_comp e
  | 15 => levels_1111 n_comp e
  | _ => levels_2e n_comp e
  end.

Definition drv_2e (e : envs) (base : Z) (phase : Z -> list block) : list block :=
  after_gctr 8 base (nc4 e * ncomp2 e) phase.

(** c2s_sph_2e1, cart2sph.c:5335-5359: one block of 4*buflen, used as four buffers *)
Definition c2s_sph_2e1 (e : envs) (cache : Z) : list block :=
  let buflen := nfi e * nfk e * nfl e * (j_l e * 2 + 1) in
  let buf1 := align 8 cache in
  [mkblk 20 buf1 (8 * buflen); mkblk 21 (buf1 + 8 * buflen) (8 * buflen);
   mkblk 22 (buf1 + 8 * buflen * 2) (8 * buflen); mkblk 23 (buf1 + 8 * buflen * 3) (8 * buflen)].

(** spinors: opij, then electron 1 (c2s_sf_2e1, sf_2e1i, si_2e1, si_2e1i; 5411-5414,
    5450-5453, 5624-5627, 5671-5674) or electron 2 (sf_2e2, sf_2e2i, 5507-5513,
    5565-5571) or (si_2e2, si_2e2i, 5730-5735, 5795-5800) *)
Definition with_opij (e : envs) (ik jk : Z) (c2s : Z -> list block) (cache : Z) : list block :=
  let '(bs, cache) := instack 8 cache [(25%nat, 16 * (n1_2e e ik jk * ncomp_e2 e))] in
  bs ++ c2s cache.
Definition c2s_spinor_2e1 (e : envs) (ik : Z) (cache : Z) : list block :=
  let len1 := len_spinor ik (i_l e) * nfk e * nfl e * (nfj e + nfj e) in
  blocks (instack 8 cache [(20%nat, 8 * len1); (21%nat, 8 * len1)]).
Definition c2s_sf_2e2 (e : envs) (ik jk kk lk cache : Z) : list block :=
  let di := len_spinor ik (i_l e) in let dj := len_spinor jk (j_l e) in
  let dk := len_spinor kk (k_l e) in let dl := len_spinor lk (l_l e) in
  let len1 := di * dk * (nfl e + nfl e) * dj in
  let len2 := di * dk * dl * dj in
  blocks (instack 8 cache [(20%nat, 8 * len1); (21%nat, 8 * len1); (22%nat, 8 * len2); (23%nat, 8 * len2)]).
Definition c2s_si_2e2 (e : envs) (ik jk kk lk cache : Z) : list block :=
  let di := len_spinor ik (i_l e) in let dj := len_spinor jk (j_l e) in
  let dk := len_spinor kk (k_l e) in
  let buflen := di * dk * (nfl e + nfl e) * dj in
  blocks (instack 8 cache [(20%nat, 8 * buflen); (21%nat, 8 * buflen); (22%nat, 8 * buflen); (23%nat, 8 * buflen)]).

(** ---------------- three-centre two-electron integrals, cint3c2e.c ---------------- *)

Definition nc3 (e : envs) : Z := nf e * i_ctr e * j_ctr e * k_ctr e.

(** cint3c2e.c:544-555, 565-572 *)
Definition pdata_size_3c2e (e : envs) (ip jp kp : Z) : Z :=
  ip * jp * 5 + ip * i_ctr e + jp * j_ctr e + kp * k_ctr e + (ip + jp) * 2 + kp + nf e * 3 + 16.
Definition int3c2e_cache_size (e : envs) (ip jp kp : Z) : Z :=
  Z.max (leng e + nf e * ncomp1 e + nc3 e * ncomp1 e * 3 + pdata_size_3c2e e ip jp kp)
        (nc3 e * ncomp1 e + nf e * 3).
(** cint3c2e.c:640-650; the spinor driver's n_comp includes ncomp_e2, the loops' does not *)
Definition int3c2e_spinor_cache_size (e : envs) (ip jp kp : Z) : Z :=
  Z.max (leng e + nf e * ncomp2 e + nc3 e * ncomp2 e * 3 + pdata_size_3c2e e ip jp kp)
        (nc3 e * ncomp2 e + nf e * 14 * 2).

Definition levels_3c (n_comp : Z) (e : envs) : list (bool * nat * Z) :=
  [(n_comp =? 1, 3%nat, nf e * (i_ctr e * j_ctr e * k_ctr e) * n_comp);
   (k_ctr e =? 1, 2%nat, nf e * i_ctr e * j_ctr e * n_comp);
   (j_ctr e =? 1, 1%nat, nf e * i_ctr e * n_comp);
   (i_ctr e =? 1, 0%nat, nf e * n_comp)].

(** CINT3c2e_loop_nopt, cint3c2e.c:82-84, 126-158 *)
Definition loop_3c2e_nopt (fsz : Z) (e : envs) (ip jp kp cache : Z) : list block :=
  let '(bs, cache) := instack 8 cache
        [(10%nat, 8 * (ip + jp)); (11%nat, 40 * (ip * jp)); (12%nat, fsz * (nf e * 3));
         (13%nat, fsz * (ip + jp + kp + ip * i_ctr e + jp * j_ctr e + kp * k_ctr e))] in
  let g := align 8 cache in
  bs ++ mkblk 14 g (8 * leng e) :: carve (g + 8 * leng e) (levels_3c (ncomp1 e) e).

(** COMMON_ENVS_AND_DECLARE, cint3c2e.c:218-279, then the loops 323-535 *)
Definition opt_blocks_3c2e (fsz : Z) (no_pd no_idx : bool) (e : envs) (ip jp kp : Z) : list (nat * Z) :=
  (if no_pd then [(11%nat, 40 * (ip * jp))] else []) ++
  [(13%nat, fsz * (kp + kp * k_ctr e))] ++
  (if no_idx then [(12%nat, fsz * (nf e * 3))] else []).
(** cint3c2e.c:537-546: CINT3c2e_111_loop, n11, 1n1 or the general loop; index
    (i==1)*4 + (j==1)*2 + (k==1) *)
Definition levels_3c2e_selected (e : envs) : list (bool * nat * Z) :=
  let n_comp := ncomp1 e in
  match Z.shiftl (Z.b2z (i_ctr e =? 1)) 2 + Z.shiftl (Z.b2z (j_ctr e =? 1)) 1 + Z.b2z (k_ctr e =? 1) with
  | 3 => levels_n111 n_comp e
  | 5 => levels_1n11 n_comp e
  | 7 => levels_1111 n_comp e
  | _ => levels_3c n_comp e
  end.
Definition loop_3c2e_opt (fsz : Z) (no_pd no_idx : bool) (e : envs) (ip jp kp cache : Z) : list block :=
  let '(bs, cache) := instack 8 cache (opt_blocks_3c2e fsz no_pd no_idx e ip jp kp) in
  let g := align 8 cache in
  bs ++ mkblk 14 g (8 * leng e) :: carve (g + 8 * leng e) (levels_3c2e_selected e).

Definition drv_3c2e (e : envs) (base : Z) (phase : Z -> list block) : list block :=
  after_gctr 8 base (nc3 e * ncomp1 e) phase.
Definition drv_3c2e_spinor (e : envs) (base : Z) (phase : Z -> list block) : list block :=
  after_gctr 8 base (nc3 e * ncomp2 e) phase.

(** c2s_sph_3c2e1, cart2sph.c:5906-5910; c2s_sph_3c2e1_ssc, 5976-5979 *)
Definition c2s_sph_3c2e1 (e : envs) (cache : Z) : list block :=
  let buflen := nfi e * nfk e * (j_l e * 2 + 1) in
  let buf1 := align 8 cache in
  [mkblk 20 buf1 (8 * buflen); mkblk 21 (buf1 + 8 * buflen) (8 * buflen);
   mkblk 22 (buf1 + 8 * buflen * 2) (8 * buflen)].
Definition c2s_sph_3c2e1_ssc (e : envs) (cache : Z) : list block :=
  let buflen := nfi e * nfk e * (j_l e * 2 + 1) in
  blocks (instack 8 cache [(20%nat, 8 * buflen); (21%nat, 8 * buflen)]).
(** spinors, [nbuf] blocks nfi*dk*nfj for the transformed auxiliary index: 1 (sf, 6027-6036,
    6082-6091), 4 (si, 6146-6159, 6217-6229), 0 with the auxiliary function left Cartesian
    (_ssc, 6276-6282, 6322-6328, 6374-6380, 6429-6435; there the third length is nfk) *)
Definition c2s_spinor_3c2e1 (nbuf : nat) (e : envs) (ik jk cache : Z) : list block :=
  let di := len_spinor ik (i_l e) in let dj := len_spinor jk (j_l e) in
  let dk := match nbuf with O => nfk e | _ => k_l e * 2 + 1 end in
  let buflen := nfi e * dk * nfj e in
  let len1 := di * dk * (nfj e + nfj e) in
  let len2 := di * dk * dj in
  blocks (instack 8 cache (repeat (24%nat, 8 * buflen) nbuf ++
     [(20%nat, 8 * len1); (21%nat, 8 * len1); (22%nat, 8 * len2); (23%nat, 8 * len2)])).

(** ---------------- three-centre one-electron integrals, cint3c1e.c ---------------- *)

(** cint3c1e.c:354-376 *)
Definition int3c1e_cache_size (e : envs) (ip jp kp : Z) : Z :=
  Z.max (leng e + nf e * ncomp1 e + nc3 e * ncomp1 e * 4
         + (ip * i_ctr e + jp * j_ctr e + kp * k_ctr e + nf e * 3))
        (nc3 e * ncomp1 e + nf e * 3).
(** CINT3c1e_loop_nopt 93-124, CINT3c1e_nuc_loop_nopt 231-264 *)
Definition loop_3c1e (fsz : Z) (e : envs) (ip jp kp cache : Z) : list block :=
  let '(bs, cache) := instack 8 cache
        [(12%nat, fsz * (nf e * 3));
         (13%nat, fsz * (ip + jp + kp + ip * i_ctr e + jp * j_ctr e + kp * k_ctr e))] in
  let g := align 8 cache in
  bs ++ mkblk 14 g (8 * leng e) :: carve (g + 8 * leng e) (levels_3c (ncomp1 e) e).
(** nuclear attraction: a second batch behind gctr, cint3c1e.c:400-413 (tag 19) *)
Definition with_buf (e : envs) (loop : Z -> list block) (cache : Z) : list block :=
  let '(bs, cache) := instack 8 cache [(19%nat, 8 * (nc3 e * ncomp1 e))] in
  bs ++ loop cache.

(** ---------------- four-centre overlap, cint4c1e.c ---------------- *)

(** cint4c1e.c:250-286 *)
Definition int4c1e_cache_size (e : envs) (ip jp kp lp : Z) : Z :=
  Z.max (leng e + nf e * ncomp2 e + nc4 e * ncomp2 e * 3
         + (ip * i_ctr e + jp * j_ctr e + kp * k_ctr e + lp * l_ctr e + nf e * 3))
        (nc4 e * ncomp2 e + nf e * 32 * 2).
(** CINT4c1e_loop_nopt, cint4c1e.c:81-146, with the three buffers of CINTg4c1e_ovlp
    (g4c1e.c:145-155) directly behind the full block *)
Definition loop_4c1e (fsz : Z) (e : envs) (ip jp kp lp cache : Z) : list block :=
  let '(bs, cache) := instack 8 cache
        [(12%nat, fsz * (nf e * 3));
         (13%nat, fsz * (ip + jp + kp + lp + ip * i_ctr e + jp * j_ctr e + kp * k_ctr e + lp * l_ctr e))] in
  let g := align 8 cache in
  let bufx := g + 8 * (leng e + sum_len (levels_2e (ncomp2 e) e)) in
  let nmax := li_ceil e + lj_ceil e in
  let mmax := lk_ceil e + ll_ceil e in
  let b_size := (nmax + mmax + 1) * (Z.max nmax mmax + 1) in
  bs ++ mkblk 14 g (8 * leng e) :: carve (g + 8 * leng e) (levels_2e (ncomp2 e) e) ++
  [mkblk 16 bufx (8 * b_size); mkblk 17 (bufx + 8 * b_size) (8 * b_size);
   mkblk 18 (bufx + 8 * b_size * 2) (8 * b_size)].

(** ---------------- integrals on grids, cint1e_grids.c ---------------- *)

(** int1e_grids_cache_size, cint1e_grids.c:203-228 *)
Definition int1e_grids_cache_size (e : envs) (ngrids ip jp : Z) : Z :=
  let nc := ngrids * nf e * i_ctr e * j_ctr e in
  let n_comp := ncomp1 e in
  let pdata_size := ip * jp * 5 + ip * i_ctr e + jp * j_ctr e + (ip + jp) * 2 + nf e * 3 in
  let len0 := GRID_BLKSIZE * nf e * n_comp in
  let leni := len0 * i_ctr e in
  let lenj := leni * j_ctr e in
  Z.max (nc * n_comp + leng e + len0 + leni + lenj + pdata_size
         + GRID_BLKSIZE * Z.max n_comp (nrys_roots e + 10))
        (nc * n_comp + GRID_BLKSIZE * nf e * 8 * 2) + 32.

(** CINT1e_grids_loop, cint1e_grids.c:58-122 with the buffers u, rijrg, t2 of
    CINTg0_1e_grids, g1e_grids.c:77-80, 221-225, behind the full block.  With one
    component the batch of a grid block lives in gctr. *)
Definition loop_grids (fsz : Z) (e : envs) (ip jp cache : Z) : list block :=
  let n_comp := ncomp1 e in
  let nc := i_ctr e * j_ctr e in
  let '(bs, cache) := instack 8 cache
        [(10%nat, 8 * (ip + jp)); (11%nat, 40 * (ip * jp)); (12%nat, fsz * (nf e * 3));
         (13%nat, fsz * (ip + jp + ip * i_ctr e + jp * j_ctr e))] in
  let levels := [(n_comp =? 1, 2%nat, GRID_BLKSIZE * nf e * nc * n_comp);
                 (j_ctr e =? 1, 1%nat, GRID_BLKSIZE * nf e * i_ctr e * n_comp);
                 (i_ctr e =? 1, 0%nat, GRID_BLKSIZE * nf e * n_comp)] in
  let gridsT := align 64 cache in
  let g := gridsT + 8 * (GRID_BLKSIZE * 3) in
  bs ++ mkblk 15 gridsT (8 * (GRID_BLKSIZE * 3)) :: mkblk 14 g (8 * leng e) ::
  carve (g + 8 * leng e) levels ++
  blocks (instack 64 (gridsT + 8 * (leng e + sum_len levels + GRID_BLKSIZE * 3))
     [(16%nat, 8 * (GRID_BLKSIZE * nrys_roots e)); (17%nat, 8 * (GRID_BLKSIZE * 3));
      (18%nat, 8 * (GRID_BLKSIZE * 4))]).

(** CINT1e_grids_drv, cint1e_grids.c:233-283 (the spinor driver, 286-330, reserves the
    same batch) *)
Definition drv_grids (e : envs) (ngrids base : Z) (phase : Z -> list block) : list block :=
  after_gctr 64 base (ngrids * nf e * i_ctr e * j_ctr e * ncomp1 e) phase.

(** c2s_sph_1e_grids, cart2sph.c:5058-5061; spinors 5137-5142, 5184-5189, 5236-5241,
    5292-5297 *)
Definition c2s_sph_1e_grids (e : envs) (cache : Z) : list block :=
  let buflen := GRID_BLKSIZE * nfi e * (j_l e * 2 + 1) in
  blocks (instack 64 cache [(20%nat, 8 * buflen); (21%nat, 8 * buflen)]).
Definition c2s_spinor_1e_grids (e : envs) (ik cache : Z) : list block :=
  let buflen := GRID_BLKSIZE * len_spinor ik (i_l e) * (nfj e + nfj e) in
  blocks (instack 64 cache [(20%nat, 8 * buflen); (21%nat, 8 * buflen); (22%nat, 8 * buflen); (23%nat, 8 * buflen)]).
