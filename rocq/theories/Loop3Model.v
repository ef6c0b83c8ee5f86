(** Loop3Model.v — the primitive loops of the two- and three-centre two-electron integrals
    (cint2c2e.c, cint3c2e.c), the three- and four-centre one-electron integrals
    (cint3c1e.c, cint4c1e.c) and the one-electron integrals (cint1e.c).
    Conventions as in Loop2eModel.v: the batch of a primitive tuple is linear in
    envs->fac[0]; screening outcomes, exponentials and batches are arbitrary functions of
    the primitive indices.  Buffers: 0 gout, 1 gctri, 2 gctrj, 3 gctrk, 4 gctrl, 5 gctr. *)
From Verif Require Import Base FblasModel CtrModel Loop2eModel.

Section Loop3.
  Context {F : Type} (zero : F) (add mul : F -> F -> F).

  (** *** Two-centre two-electron integrals (shells i and k) *)
  Record pairs2 := mkp2 {
    p2_g0 : Z -> Z -> bool;               (* f_g0_2e returned non-zero: ip kp *)
    p2_base : Z -> Z -> Z -> F }.
  (** cint2c2e.c:57-145 and, up to where the index table comes from, 147-235.
      CINTOpt_non0coeff_byshell is called there only for shells with several contractions;
      the lists of the others are never read. *)
  Definition CINT2c2e_loop (n_comp nf : Z) (si sk : shl F) (common_factor : F) (q : pairs2)
      (m : mem F) : option (mem F * bool) :=
    let m := reset_flags m in
    let nc := s_ctr si * s_ctr sk in
    let leni := nf * s_ctr si * n_comp in
    let len0 := nf * n_comp in
    let gk := alias n_comp 5 2 in
    let gi := alias (s_ctr sk) gk 1 in
    let gg := alias (s_ctr si) gi 0 in
    m <- for_ 0 (s_np sk) (fun kp m =>
      r <- enter mul sk kp common_factor gi m ;;
      let '(fac1k, m) := r in
      m <- for_ 0 (s_np si) (fun ip m =>
        fac1i <- (if s_ctr si =? 1 then c <- rd (s_c si) ip ;; Some (mul fac1k c) else Some fac1k) ;;
        if p2_g0 q ip kp then
          m <- f_gout add m gg (flg m gg) len0 (fun n => mul fac1i (p2_base q ip kp n)) ;;
          PRIM2CTR add mul si ip gi gi gg len0 m
        else Some m) m ;;
      if negb (flg m gi) then PRIM2CTR add mul sk kp gk gk gi leni m else Some m) m ;;
    m <- (if (1 <? n_comp) && negb (flg m gk) then TRANSPOSE add gk (nf * nc) n_comp m else Some m) ;;
    Some (m, negb (flg m 5%nat)).

  (** *** Three-centre two-electron integrals *)
  Record triples := mkt {
    t_empty : bool;                        (* early return: CINTset_pairdata / NOVALUE *)
    t_skip : Z -> Z -> bool;               (* ip jp: cceij > expcutoff *)
    t_g0 : Z -> Z -> Z -> bool;            (* ip jp kp: f_g0_2e returned non-zero *)
    t_e : Z -> Z -> F;                     (* expij *)
    t_base : Z -> Z -> Z -> Z -> F }.
  (** cint3c2e.c:57-208 (no optimizer) and 463-535 (optimizer): the two differ only in where
      pair data, sparse lists and the index table come from. *)
  Definition CINT3c2e_loop (n_comp nf : Z) (si sj sk : shl F) (common_factor : F) (q : triples)
      (m : mem F) : option (mem F * bool) :=
    if t_empty q then Some (m, false) else
    let m := reset_flags m in
    let nc := s_ctr si * s_ctr sj * s_ctr sk in
    let lenj := nf * s_ctr si * s_ctr sj * n_comp in
    let leni := nf * s_ctr si * n_comp in
    let len0 := nf * n_comp in
    let gk := alias n_comp 5 3 in
    let gj := alias (s_ctr sk) gk 2 in
    let gi := alias (s_ctr sj) gj 1 in
    let gg := alias (s_ctr si) gi 0 in
    m <- for_ 0 (s_np sk) (fun kp m =>
      r <- enter mul sk kp common_factor gj m ;;
      let '(fac1k, m) := r in
      m <- for_ 0 (s_np sj) (fun jp m =>
        r <- enter mul sj jp fac1k gi m ;;
        let '(fac1j, m) := r in
        m <- for_ 0 (s_np si) (fun ip m =>
          if t_skip q ip jp then Some m else
          fac1i <- (if s_ctr si =? 1 then c <- rd (s_c si) ip ;; Some (mul (mul fac1j c) (t_e q ip jp))
                    else Some (mul fac1j (t_e q ip jp))) ;;
          if t_g0 q ip jp kp then
            m <- f_gout add m gg (flg m gg) len0 (fun n => mul fac1i (t_base q ip jp kp n)) ;;
            PRIM2CTR add mul si ip gi gi gg len0 m
          else Some m) m ;;
        if negb (flg m gi) then PRIM2CTR add mul sj jp gj gj gi leni m else Some m) m ;;
      if negb (flg m gj) then PRIM2CTR add mul sk kp gk gk gj lenj m else Some m) m ;;
    m <- (if (1 <? n_comp) && negb (flg m gk) then TRANSPOSE add gk (nf * nc) n_comp m else Some m) ;;
    Some (m, negb (flg m 5%nat)).

  (** cint3c2e.c:323-365 *)
  Definition CINT3c2e_111_loop (n_comp nf : Z) (si sj sk : shl F) (common_factor : F) (q : triples)
      (m : mem F) : option (mem F * bool) :=
    if t_empty q then Some (m, false) else
    let m := reset_flags m in
    let nc := 1 in
    let len0 := nf * n_comp in
    let go := (if n_comp =? 1 then 5%nat else 0%nat) in
    m <- for_ 0 (s_np sk) (fun kp m =>
      c <- rd (s_c sk) kp ;;
      let fac1k := mul common_factor c in
      for_ 0 (s_np sj) (fun jp m =>
        c <- rd (s_c sj) jp ;;
        let fac1j := mul fac1k c in
        for_ 0 (s_np si) (fun ip m =>
          if t_skip q ip jp then Some m else
          c <- rd (s_c si) ip ;;
          let fac1i := mul (mul fac1j c) (t_e q ip jp) in
          if t_g0 q ip jp kp then
            m <- f_gout add m go (flg m go) len0 (fun n => mul fac1i (t_base q ip jp kp n)) ;;
            Some (set_flg m go false)
          else Some m) m) m) m ;;
    m <- (if (1 <? n_comp) && negb (flg m go) then TRANSPOSE add go (nf * nc) n_comp m else Some m) ;;
    Some (m, negb (flg m 5%nat)).

  (** cint3c2e.c:367-410; f_gout always overwrites gout *)
  Definition CINT3c2e_n11_loop (n_comp nf : Z) (si sj sk : shl F) (common_factor : F) (q : triples)
      (m : mem F) : option (mem F * bool) :=
    if t_empty q then Some (m, false) else
    let m := reset_flags m in
    let nc := s_ctr si in
    let len0 := nf * n_comp in
    let go := alias n_comp 5 1 in
    m <- for_ 0 (s_np sk) (fun kp m =>
      c <- rd (s_c sk) kp ;;
      let fac1k := mul common_factor c in
      for_ 0 (s_np sj) (fun jp m =>
        c <- rd (s_c sj) jp ;;
        let fac1j := mul fac1k c in
        for_ 0 (s_np si) (fun ip m =>
          if t_skip q ip jp then Some m else
          let fac1i := mul fac1j (t_e q ip jp) in
          if t_g0 q ip jp kp then
            m <- f_gout add m 0%nat true len0 (fun n => mul fac1i (t_base q ip jp kp n)) ;;
            PRIM2CTR add mul si ip go go 0%nat len0 m
          else Some m) m) m) m ;;
    m <- (if (1 <? n_comp) && negb (flg m go) then TRANSPOSE add go (nf * nc) n_comp m else Some m) ;;
    Some (m, negb (flg m 5%nat)).

  (** cint3c2e.c:412-460; gout is guarded by the flag iempty (number 1) *)
  Definition CINT3c2e_1n1_loop (n_comp nf : Z) (si sj sk : shl F) (common_factor : F) (q : triples)
      (m : mem F) : option (mem F * bool) :=
    if t_empty q then Some (m, false) else
    let m := reset_flags m in
    let nc := s_ctr sj in
    let len0 := nf * n_comp in
    let go := alias n_comp 5 2 in
    m <- for_ 0 (s_np sk) (fun kp m =>
      c <- rd (s_c sk) kp ;;
      let fac1k := mul common_factor c in
      for_ 0 (s_np sj) (fun jp m =>
        let fac1j := fac1k in
        let m := set_flg m 1%nat true in
        m <- for_ 0 (s_np si) (fun ip m =>
          if t_skip q ip jp then Some m else
          c <- rd (s_c si) ip ;;
          let fac1i := mul (mul fac1j c) (t_e q ip jp) in
          if t_g0 q ip jp kp then
            m <- f_gout add m 0%nat (flg m 1%nat) len0 (fun n => mul fac1i (t_base q ip jp kp n)) ;;
            Some (set_flg m 1%nat false)
          else Some m) m ;;
        if negb (flg m 1%nat) then PRIM2CTR add mul sj jp go go 0%nat len0 m else Some m) m) m ;;
    m <- (if (1 <? n_comp) && negb (flg m go) then TRANSPOSE add go (nf * nc) n_comp m else Some m) ;;
    Some (m, negb (flg m 5%nat)).

  (** cint3c2e.c:537-546 (table) and its use in CINT3c2e_drv:
      n = ((i_ctr==1)<<2) + ((j_ctr==1)<<1) + (k_ctr==1) *)
  Definition CINTf_3c2e_loop (n : Z) :=
    match n with
    | 3 => CINT3c2e_n11_loop
    | 5 => CINT3c2e_1n1_loop
    | 7 => CINT3c2e_111_loop
    | _ => CINT3c2e_loop
    end.
  Definition CINT3c2e_opt_dispatch (n_comp nf : Z) (si sj sk : shl F) :=
    CINTf_3c2e_loop (Z.shiftl (b2z (s_ctr si =? 1)) 2 + Z.shiftl (b2z (s_ctr sj =? 1)) 1
                     + b2z (s_ctr sk =? 1)) n_comp nf si sj sk.

  (** *** Three-centre one-electron integrals *)
  Record triples1 := mkt1 {
    u_skip : Z -> Z -> Z -> bool;          (* ip jp kp: eijk > EXPCUTOFF *)
    u_e : Z -> Z -> Z -> F;                (* exp(-eijk) *)
    u_d : Z -> Z -> Z -> F;                (* 1/(aijk*sqrt(aijk)), for the nuclear loop 1/aijk *)
    u_roots : Z;                           (* nrys_roots (nuclear loop) *)
    u_w : Z -> Z -> Z -> Z -> F;           (* ip jp kp i: w[i]*tau (nuclear loop) *)
    u_base : Z -> Z -> Z -> Z -> Z -> F }. (* ip jp kp i n; i = 0 for the overlap loop *)

  (** the calls of f_gout: cint3c1e.c:170-173 (overlap) *)
  Definition gout_ovlp (q : triples1) (len0 : Z) (ip jp kp : Z) (m : mem F) (dst : nat) (empty : bool)
      (fac1i : F) : option (mem F) :=
    let dijk := mul fac1i (u_d q ip jp kp) in
    f_gout add m dst empty len0 (fun n => mul dijk (u_base q ip jp kp 0 n)).
  (** cint3c1e.c:322-329 (nuclear): rys_empty = *gempty; cleared after the first root *)
  Definition gout_nuc (q : triples1) (len0 : Z) (ip jp kp : Z) (m : mem F) (dst : nat) (empty : bool)
      (fac1i : F) : option (mem F) :=
    let dijk := mul fac1i (u_d q ip jp kp) in
    r <- for_ 0 (u_roots q) (fun i (st : mem F * bool) =>
           let '(m, rys_empty) := st in
           let fac0 := mul dijk (u_w q ip jp kp i) in
           m <- f_gout add m dst rys_empty len0 (fun n => mul fac0 (u_base q ip jp kp i n)) ;;
           Some (m, false)) (m, empty) ;;
    Some (fst r).

  (** cint3c1e.c:60-190 with [gout] = [gout_ovlp]; 192-345 with [gout_nuc] (there the
      incoming factor is fac*common_factor).  No test on f_g0. *)
  Definition CINT3c1e_loop_with (gout : triples1 -> Z -> Z -> Z -> Z -> mem F -> nat -> bool -> F -> option (mem F))
      (n_comp nf : Z) (si sj sk : shl F) (common_factor : F) (q : triples1)
      (m : mem F) : option (mem F * bool) :=
    let m := reset_flags m in
    let nc := s_ctr si * s_ctr sj * s_ctr sk in
    let lenj := nf * s_ctr si * s_ctr sj * n_comp in
    let leni := nf * s_ctr si * n_comp in
    let len0 := nf * n_comp in
    let gk := alias n_comp 5 3 in
    let gj := alias (s_ctr sk) gk 2 in
    let gi := alias (s_ctr sj) gj 1 in
    let gg := alias (s_ctr si) gi 0 in
    m <- for_ 0 (s_np sk) (fun kp m =>
      r <- enter mul sk kp common_factor gj m ;;
      let '(fac1k, m) := r in
      m <- for_ 0 (s_np sj) (fun jp m =>
        r <- enter mul sj jp fac1k gi m ;;
        let '(fac1j, m) := r in
        m <- for_ 0 (s_np si) (fun ip m =>
          if u_skip q ip jp kp then Some m else
          fac1i <- (if s_ctr si =? 1 then c <- rd (s_c si) ip ;; Some (mul (mul fac1j c) (u_e q ip jp kp))
                    else Some (mul fac1j (u_e q ip jp kp))) ;;
          m <- gout q len0 ip jp kp m gg (flg m gg) fac1i ;;
          PRIM2CTR add mul si ip gi gi gg len0 m) m ;;
        if negb (flg m gi) then PRIM2CTR add mul sj jp gj gj gi leni m else Some m) m ;;
      if negb (flg m gj) then PRIM2CTR add mul sk kp gk gk gj lenj m else Some m) m ;;
    m <- (if (1 <? n_comp) && negb (flg m gk) then TRANSPOSE add gk (nf * nc) n_comp m else Some m) ;;
    Some (m, negb (flg m 5%nat)).
  Definition CINT3c1e_loop_nopt := CINT3c1e_loop_with gout_ovlp.
  Definition CINT3c1e_nuc_loop_nopt := CINT3c1e_loop_with gout_nuc.

  (** *** Loops with local flags only: the flag of the last level is always set on entry.
      When the last level is aliased to the caller's buffer (n_comp = 1) its flag is
      number 5, which these loops reset on entry as well. *)
  Definition set_flags (m : mem F) : mem F := mkmem (buf m) (fun _ => true).
  Definition DMAT (src : nat) (nfnc n_comp : Z) (m : mem F) : option (mem F) :=
    a <- CINTdmat_transpose (buf m 5%nat) (buf m src) nfnc n_comp ;; Some (set_buf m 5%nat a).

  (** *** Four-centre one-electron overlap *)
  Record quartets1 := mkq1 {
    v_skip_kl : Z -> Z -> bool;            (* kp lp: ekl > EXPCUTOFF *)
    v_skip : Z -> Z -> Z -> Z -> bool;     (* ip jp kp lp: eij+ekl or eijkl > EXPCUTOFF *)
    v_e : Z -> Z -> Z -> Z -> F;           (* expijkl *)
    v_base : Z -> Z -> Z -> Z -> Z -> F }.
  (** cint4c1e.c:41-248 *)
  Definition CINT4c1e_loop_nopt (n_comp nf : Z) (si sj sk sl : shl F) (common_fac : F) (q : quartets1)
      (m : mem F) : option (mem F * bool) :=
    let m := set_flags m in
    let nc := s_ctr si * s_ctr sj * s_ctr sk * s_ctr sl in
    let lenk := nf * s_ctr si * s_ctr sj * s_ctr sk * n_comp in
    let lenj := nf * s_ctr si * s_ctr sj * n_comp in
    let leni := nf * s_ctr si * n_comp in
    let len0 := nf * n_comp in
    let gl := alias n_comp 5 4 in
    let gk := alias (s_ctr sl) gl 3 in
    let gj := alias (s_ctr sk) gk 2 in
    let gi := alias (s_ctr sj) gj 1 in
    let gg := alias (s_ctr si) gi 0 in
    m <- for_ 0 (s_np sl) (fun lp m =>
      r <- enter mul sl lp common_fac gk m ;;
      let '(fac1l, m) := r in
      m <- for_ 0 (s_np sk) (fun kp m =>
        if v_skip_kl q kp lp then Some m else
        r <- enter mul sk kp fac1l gj m ;;
        let '(fac1k, m) := r in
        m <- for_ 0 (s_np sj) (fun jp m =>
          r <- enter mul sj jp fac1k gi m ;;
          let '(fac1j, m) := r in
          m <- for_ 0 (s_np si) (fun ip m =>
            if v_skip q ip jp kp lp then Some m else
            fac1i <- (if s_ctr si =? 1
                      then c <- rd (s_c si) ip ;; Some (mul (mul fac1j c) (v_e q ip jp kp lp))
                      else Some (mul fac1j (v_e q ip jp kp lp))) ;;
            m <- f_gout add m gg (flg m gg) len0 (fun n => mul fac1i (v_base q ip jp kp lp n)) ;;
            PRIM2CTR add mul si ip gi gi gg len0 m) m ;;
          if negb (flg m gi) then PRIM2CTR add mul sj jp gj gj gi leni m else Some m) m ;;
        if negb (flg m gj) then PRIM2CTR add mul sk kp gk gk gj lenj m else Some m) m ;;
      if negb (flg m gk) then PRIM2CTR add mul sl lp gl gl gk lenk m else Some m) m ;;
    m <- (if (1 <? n_comp) && negb (flg m gl) then DMAT gl (nf * nc) n_comp m else Some m) ;;
    Some (m, negb (flg m gl)).

  (** *** One-electron integrals *)
  Record pairs1 := mkp1 {
    w_empty : bool;                        (* CINTset_pairdata reported an empty list *)
    w_skip : Z -> Z -> bool;               (* ip jp: cceij > expcutoff *)
    w_e : Z -> Z -> F;                     (* expij *)
    w_natm : Z;                            (* natm *)
    w_ovlp : Z -> Z -> Z -> F;             (* ip jp n: batch of CINTg1e_ovlp *)
    w_nuc : Z -> Z -> Z -> Z -> F }.       (* ip jp ia n: batch of CINTg1e_nuc; ia = -1: rinv *)
  (** cint1e.c:284-305 *)
  Definition make_g1e_gout (q : pairs1) (int1e_type len0 : Z) (ip jp : Z) (m : mem F) (dst : nat) (empty : bool)
      (fac1i : F) : option (mem F) :=
    match int1e_type with
    | 0 => f_gout add m dst empty len0 (fun n => mul fac1i (w_ovlp q ip jp n))
    | 1 => f_gout add m dst empty len0 (fun n => mul fac1i (w_nuc q ip jp (-1) n))
    | 2 => for_ 0 (w_natm q) (fun ia m =>
             f_gout add m dst (empty && (ia =? 0)) len0 (fun n => mul fac1i (w_nuc q ip jp ia n))) m
    | _ => Some m
    end.
  (** cint1e.c:39-160; [common_factor] already contains the CINTcommon_fac_sp factors *)
  Definition CINT1e_loop (int1e_type n_comp nf : Z) (si sj : shl F) (common_factor : F) (q : pairs1)
      (m : mem F) : option (mem F * bool) :=
    if w_empty q then Some (m, false) else
    let m := set_flags m in
    let nc := s_ctr si * s_ctr sj in
    let leni := nf * s_ctr si * n_comp in
    let len0 := nf * n_comp in
    let gj := alias n_comp 5 2 in
    let gi := alias (s_ctr sj) gj 1 in
    let gg := alias (s_ctr si) gi 0 in
    m <- for_ 0 (s_np sj) (fun jp m =>
      r <- enter mul sj jp common_factor gi m ;;
      let '(fac1j, m) := r in
      m <- for_ 0 (s_np si) (fun ip m =>
        if w_skip q ip jp then Some m else
        fac1i <- (if s_ctr si =? 1 then c <- rd (s_c si) ip ;; Some (mul (mul fac1j c) (w_e q ip jp))
                  else Some (mul fac1j (w_e q ip jp))) ;;
        m <- make_g1e_gout q int1e_type len0 ip jp m gg (flg m gg) fac1i ;;
        PRIM2CTR add mul si ip gi gi gg len0 m) m ;;
      if negb (flg m gi) then PRIM2CTR add mul sj jp gj gj gi leni m else Some m) m ;;
    m <- (if (1 <? n_comp) && negb (flg m gj) then DMAT gj (nf * nc) n_comp m else Some m) ;;
    Some (m, negb (flg m gj)).
End Loop3.
Arguments pairs2 : clear implicits.
Arguments triples : clear implicits.
Arguments triples1 : clear implicits.
Arguments quartets1 : clear implicits.
Arguments pairs1 : clear implicits.
