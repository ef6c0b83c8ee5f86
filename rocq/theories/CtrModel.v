(** CtrModel.v — sparse coefficient lists, primitive-to-contracted accumulation
    and the macros shared by the primitive loops of all integral classes.

    Scalars are an abstract type [F].  Scratch memory is a family of disjoint
    buffers (their disjointness inside the bump-allocated cache is the subject
    of CacheModel.v) together with one "empty" flag per level. *)
From Verif Require Import Base FblasModel.

Section Ctr.
  Context {F : Type} (zero : F) (add mul : F -> F -> F) (isz : F -> bool).

  (** optimizer.c:436-458.  [sortedidx += ictr] is the offset [ip*ictr];
      [zeroidx] is a VLA of [ictr] entries. *)
  Definition CINTOpt_non0coeff_byshell (sortedidx non0ctr : arr Z) (ci : arr F) (iprim ictr : Z)
    : option (arr Z * arr Z) :=
    for_ 0 iprim (fun ip '(sidx, non0) =>
      s <- for_ 0 ictr (fun j '(sidx, zi, k, kp) =>
             c <- rd ci (iprim * j + ip) ;;
             if negb (isz c)
             then sidx <- wr sidx (ip * ictr + k) j ;; Some (sidx, zi, k + 1, kp)
             else zi <- wr zi kp j ;; Some (sidx, zi, k, kp + 1))
           (sidx, uninit ictr, 0, 0) ;;
      let '(sidx, zi, k, kp) := s in
      sidx <- for_ 0 kp (fun j sidx => z <- rd zi j ;; wr sidx (ip * ictr + (k + j)) z) sidx ;;
      non0 <- wr non0 ip k ;;
      Some (sidx, non0)) (sortedidx, non0ctr).

  (** g1e.c:530-543; [coeff] is the pointer c+p, i.e. [c] with offset [p]. *)
  Definition CINTprim_to_ctr_0 (gc gp : arr F) (c : arr F) (p nf nprim nctr : Z) : option (arr F) :=
    for_ 0 nctr (fun i gc =>
      c0 <- rd c (p + nprim * i) ;;
      for_ 0 nf (fun n gc => x <- rd gp n ;; wr gc (nf * i + n) (mul c0 x)) gc) gc.

  (** g1e.c:545-559 *)
  Definition CINTprim_to_ctr_1 (gc gp : arr F) (c : arr F) (p nf nprim non0ctr : Z)
      (sortedidx : arr Z) (so : Z) : option (arr F) :=
    for_ 0 non0ctr (fun i gc =>
      j <- rd sortedidx (so + i) ;;
      c0 <- rd c (p + nprim * j) ;;
      for_ 0 nf (fun n gc =>
        x <- rd gp n ;; old <- rd gc (nf * j + n) ;;
        wr gc (nf * j + n) (add old (mul c0 x))) gc) gc.

  (** *** Scratch buffers and flags.
      Buffer / flag numbers: 0 gout, 1 gctri, 2 gctrj, 3 gctrk, 4 gctrl, 5 the
      caller's gctr and its [*empty] flag. *)
  Record mem := mkmem { buf : nat -> arr F; flg : nat -> bool }.
  Definition set_buf (m : mem) (s : nat) (a : arr F) : mem :=
    mkmem (fun t => if Nat.eqb t s then a else buf m t) (flg m).
  Definition set_flg (m : mem) (s : nat) (b : bool) : mem :=
    mkmem (buf m) (fun t => if Nat.eqb t s then b else flg m t).

  (** A shell as the loops see it: primitive and contraction counts, the
      coefficient matrix (column [ic] of length [np] at [np*ic]) and the sparse lists. *)
  Record shl := mkshl { s_np : Z; s_ctr : Z; s_c : arr F; s_non0 : arr Z; s_sidx : arr Z }.

  (** The lists are computed at the start of every loop (or, with an optimizer,
      once per shell by CINTOpt_set_non0coeff with the same routine). *)
  Definition mk_shell (np nctr : Z) (c : arr F) : option shl :=
    r <- CINTOpt_non0coeff_byshell (uninit (np * nctr)) (uninit np) c np nctr ;;
    Some (mkshl np nctr c (snd r) (fst r)).

  (** [PRIM2CTR(x, gp, ngp)]: cint2e.c:33-47 (same text in the other files).
      [dst]/[dfl] are the buffer and flag of gctrx, xempty; [src] is the buffer gp. *)
  Definition PRIM2CTR (s : shl) (p : Z) (dst dfl src : nat) (ngp : Z) (m : mem) : option mem :=
    m <- (if 1 <? s_ctr s then
            if flg m dfl
            then a <- CINTprim_to_ctr_0 (buf m dst) (buf m src) (s_c s) p ngp (s_np s) (s_ctr s) ;;
                 Some (set_buf m dst a)
            else k <- rd (s_non0 s) p ;;
                 a <- CINTprim_to_ctr_1 (buf m dst) (buf m src) (s_c s) p ngp (s_np s) k (s_sidx s) (p * s_ctr s) ;;
                 Some (set_buf m dst a)
          else Some m) ;;
    Some (set_flg m dfl false).

  (** Abstraction of [( *envs->f_gout)(gout, g, idx, envs, empty)]: every entry
      n < len of gout is assigned (empty) or incremented by the primitive batch.
      (C52 proves this shape for CINTgout1e / CINTgout1e_nuc / CINTgout2e.) *)
  Definition f_gout (m : mem) (dst : nat) (empty : bool) (len : Z) (v : Z -> F) : option mem :=
    a <- for_ 0 len (fun n a =>
           if empty then wr a n (v n)
           else old <- rd a n ;; wr a n (add old (v n))) (buf m dst) ;;
    Some (set_buf m dst a).

  (** [TRANSPOSE(a)]: cint2e.c:49-55 *)
  Definition TRANSPOSE (src : nat) (nfnc n_comp : Z) (m : mem) : option mem :=
    a <- (if flg m 5%nat then CINTdmat_transpose (buf m 5%nat) (buf m src) nfnc n_comp
          else CINTdplus_transpose add (buf m 5%nat) (buf m src) nfnc n_comp) ;;
    Some (set_flg (set_buf m 5%nat a) 5%nat false).

  (** [_empty[5] = {1,1,1,1,1}]; flag 5 belongs to the caller. *)
  Definition reset_flags (m : mem) : mem :=
    mkmem (buf m) (fun t => if Nat.eqb t 5 then flg m t else true).

  (** [ALIAS_ADDR_IF_EQUAL(x, y)]: cint2e.c:24-31; [up] is the buffer of y, [own]
      the fresh buffer of x; the flag pointers are aliased in the same way. *)
  Definition alias (ctr : Z) (up own : nat) : nat := if ctr =? 1 then up else own.

  (** Head of the loop over the primitives of shell x (e.g. cint2e.c:190-196):
      if (x_ctr == 1) fac1x = fac * cx[xp]; else { fac1x = fac; *yempty = 1; } *)
  Definition enter (s : shl) (p : Z) (fac : F) (yfl : nat) (m : mem) : option (F * mem) :=
    if s_ctr s =? 1 then c <- rd (s_c s) p ;; Some (mul fac c, m)
    else Some (fac, set_flg m yfl true).
End Ctr.
Arguments mem : clear implicits.
Arguments shl : clear implicits.
