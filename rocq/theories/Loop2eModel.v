(** Loop2eModel.v — the primitive loops of the two-electron integrals (cint2e.c):
    the loop without optimizer, the general optimized loop, the five specialised
    loops for uncontracted shells and the dispatch table. *)
From Verif Require Import Base FblasModel CtrModel.

Section Loop2e.
  Context {F : Type} (zero : F) (add mul : F -> F -> F).

  (** What the loops see of the primitive quartets.  The batch of one quartet is
      [fac * base]: in exact arithmetic envs->fac[0] enters the integrals linearly.
      The index table, envs->ai.. and the g array are part of [base]. *)
  Record quartets := mkq {
    pair_empty : bool;                      (* early return: CINTset_pairdata / NOVALUE *)
    skip_kl : Z -> Z -> bool;               (* kp lp: ket pair above the cutoff *)
    skip_ij : Z -> Z -> Z -> Z -> bool;     (* ip jp kp lp: bra pair above the remaining cutoff *)
    g0 : Z -> Z -> Z -> Z -> bool;          (* f_g0_2e returned non-zero *)
    e_ij : Z -> Z -> F;                     (* expij *)
    e_kl : Z -> Z -> F;                     (* expkl *)
    base : Z -> Z -> Z -> Z -> Z -> F }.    (* ip jp kp lp n *)

  (** cint2e.c:57-270; [expijkl = eij*ekl] is formed first *)
  Definition CINT2e_loop_nopt (n_comp nf : Z) (si sj sk sl : shl F) (common_factor : F) (q : quartets)
      (m : mem F) : option (mem F * bool) :=
    if pair_empty q then Some (m, false) else
    let m := reset_flags m in
    let nc := s_ctr si * s_ctr sj * s_ctr sk * s_ctr sl in
    let lenk := nf * s_ctr si * s_ctr sj * s_ctr sk * n_comp in
    let lenj := nf * s_ctr si * s_ctr sj * n_comp in
    let leni := nf * s_ctr si * n_comp in
    let len0 := nf * n_comp in
    let gl := alias n_comp 5 4 in
    let gk := alias (s_ctr sl) gl 3 in
    let gj := alias (s_ctr sk) gk 2 in
    let gi := alias (s_ctr sj) gj 1 in
    let gg := alias (s_ctr si) gi 0 in
    m <- for_ 0 (s_np sl) (fun lp m =>
      r <- enter mul sl lp common_factor gk m ;;
      let '(fac1l, m) := r in
      m <- for_ 0 (s_np sk) (fun kp m =>
        if skip_kl q kp lp then Some m else
        r <- enter mul sk kp fac1l gj m ;;
        let '(fac1k, m) := r in
        m <- for_ 0 (s_np sj) (fun jp m =>
          r <- enter mul sj jp fac1k gi m ;;
          let '(fac1j, m) := r in
          m <- for_ 0 (s_np si) (fun ip m =>
            if skip_ij q ip jp kp lp then Some m else
            fac1i <- (if s_ctr si =? 1
                      then c <- rd (s_c si) ip ;; Some (mul (mul fac1j c) (mul (e_ij q ip jp) (e_kl q kp lp)))
                      else Some (mul fac1j (mul (e_ij q ip jp) (e_kl q kp lp)))) ;;
            if g0 q ip jp kp lp then
              m <- f_gout add m gg (flg m gg) len0 (fun n => mul fac1i (base q ip jp kp lp n)) ;;
              PRIM2CTR add mul si ip gi gi gg len0 m
            else Some m) m ;;
          if negb (flg m gi) then PRIM2CTR add mul sj jp gj gj gi leni m else Some m) m ;;
        if negb (flg m gj) then PRIM2CTR add mul sk kp gk gk gj lenj m else Some m) m ;;
      if negb (flg m gk) then PRIM2CTR add mul sl lp gl gl gk lenk m else Some m) m ;;
    m <- (if (1 <? n_comp) && negb (flg m gl) then TRANSPOSE add gl (nf * nc) n_comp m else Some m) ;;
    Some (m, negb (flg m 5%nat)).

  (** cint2e.c:660-758 *)
  Definition CINT2e_loop (n_comp nf : Z) (si sj sk sl : shl F) (common_factor : F) (q : quartets)
      (m : mem F) : option (mem F * bool) :=
    if pair_empty q then Some (m, false) else
    let m := reset_flags m in
    let nc := s_ctr si * s_ctr sj * s_ctr sk * s_ctr sl in
    let lenk := nf * s_ctr si * s_ctr sj * s_ctr sk * n_comp in
    let lenj := nf * s_ctr si * s_ctr sj * n_comp in
    let leni := nf * s_ctr si * n_comp in
    let len0 := nf * n_comp in
    let gl := alias n_comp 5 4 in
    let gk := alias (s_ctr sl) gl 3 in
    let gj := alias (s_ctr sk) gk 2 in
    let gi := alias (s_ctr sj) gj 1 in
    let gg := alias (s_ctr si) gi 0 in
    m <- for_ 0 (s_np sl) (fun lp m =>
      r <- enter mul sl lp common_factor gk m ;;
      let '(fac1l, m) := r in
      m <- for_ 0 (s_np sk) (fun kp m =>
        if skip_kl q kp lp then Some m else
        r <- enter mul sk kp fac1l gj m ;;
        let '(fac1k, m) := r in
        m <- for_ 0 (s_np sj) (fun jp m =>
          r <- enter mul sj jp fac1k gi m ;;
          let '(fac1j, m) := r in
          m <- for_ 0 (s_np si) (fun ip m =>
            if skip_ij q ip jp kp lp then Some m else
            fac1i <- (if s_ctr si =? 1
                      then c <- rd (s_c si) ip ;; Some (mul (mul (mul fac1j c) (e_ij q ip jp)) (e_kl q kp lp))
                      else Some (mul (mul fac1j (e_ij q ip jp)) (e_kl q kp lp))) ;;
            if g0 q ip jp kp lp then
              m <- f_gout add m gg (flg m gg) len0 (fun n => mul fac1i (base q ip jp kp lp n)) ;;
              PRIM2CTR add mul si ip gi gi gg len0 m
            else Some m) m ;;
          if negb (flg m gi) then PRIM2CTR add mul sj jp gj gj gi leni m else Some m) m ;;
        if negb (flg m gj) then PRIM2CTR add mul sk kp gk gk gj lenj m else Some m) m ;;
      if negb (flg m gk) then PRIM2CTR add mul sl lp gl gl gk lenk m else Some m) m ;;
    m <- (if (1 <? n_comp) && negb (flg m gl) then TRANSPOSE add gl (nf * nc) n_comp m else Some m) ;;
    Some (m, negb (flg m 5%nat)).

  (** cint2e.c:387-438; gout is gctr (flag empty) if n_comp = 1, else buffer 0 with flag gempty *)
  Definition CINT2e_1111_loop (n_comp nf : Z) (si sj sk sl : shl F) (common_factor : F) (q : quartets)
      (m : mem F) : option (mem F * bool) :=
    if pair_empty q then Some (m, false) else
    let m := reset_flags m in
    let nc := 1 in
    let len0 := nf * n_comp in
    let go := (if n_comp =? 1 then 5%nat else 0%nat) in
    m <- for_ 0 (s_np sl) (fun lp m =>
      c <- rd (s_c sl) lp ;;
      let fac1l := mul common_factor c in
      for_ 0 (s_np sk) (fun kp m =>
        if skip_kl q kp lp then Some m else
        c <- rd (s_c sk) kp ;;
        let fac1k := mul fac1l c in
        for_ 0 (s_np sj) (fun jp m =>
          c <- rd (s_c sj) jp ;;
          let fac1j := mul fac1k c in
          for_ 0 (s_np si) (fun ip m =>
            if skip_ij q ip jp kp lp then Some m else
            c <- rd (s_c si) ip ;;
            let fac1i := mul (mul (mul fac1j c) (e_ij q ip jp)) (e_kl q kp lp) in
            if g0 q ip jp kp lp then
              m <- f_gout add m go (flg m go) len0 (fun n => mul fac1i (base q ip jp kp lp n)) ;;
              Some (set_flg m go false)
            else Some m) m) m) m) m ;;
    m <- (if (1 <? n_comp) && negb (flg m go) then TRANSPOSE add go (nf * nc) n_comp m else Some m) ;;
    Some (m, negb (flg m 5%nat)).

  (** cint2e.c:440-492; f_gout always overwrites gout *)
  Definition CINT2e_n111_loop (n_comp nf : Z) (si sj sk sl : shl F) (common_factor : F) (q : quartets)
      (m : mem F) : option (mem F * bool) :=
    if pair_empty q then Some (m, false) else
    let m := reset_flags m in
    let nc := s_ctr si in
    let len0 := nf * n_comp in
    let go := (alias n_comp 5 1) in
    m <- for_ 0 (s_np sl) (fun lp m =>
      c <- rd (s_c sl) lp ;;
      let fac1l := mul common_factor c in
      for_ 0 (s_np sk) (fun kp m =>
        if skip_kl q kp lp then Some m else
        c <- rd (s_c sk) kp ;;
        let fac1k := mul fac1l c in
        for_ 0 (s_np sj) (fun jp m =>
          c <- rd (s_c sj) jp ;;
          let fac1j := mul fac1k c in
          for_ 0 (s_np si) (fun ip m =>
            if skip_ij q ip jp kp lp then Some m else
            let fac1i := mul (mul fac1j (e_ij q ip jp)) (e_kl q kp lp) in
            if g0 q ip jp kp lp then
              m <- f_gout add m 0%nat true len0 (fun n => mul fac1i (base q ip jp kp lp n)) ;;
              PRIM2CTR add mul si ip go go 0%nat len0 m
            else Some m) m) m) m) m ;;
    m <- (if (1 <? n_comp) && negb (flg m go) then TRANSPOSE add go (nf * nc) n_comp m else Some m) ;;
    Some (m, negb (flg m 5%nat)).

  (** cint2e.c:494-547; gout (buffer 0) is guarded by the flag iempty (number 1) *)
  Definition CINT2e_1n11_loop (n_comp nf : Z) (si sj sk sl : shl F) (common_factor : F) (q : quartets)
      (m : mem F) : option (mem F * bool) :=
    if pair_empty q then Some (m, false) else
    let m := reset_flags m in
    let nc := s_ctr sj in
    let len0 := nf * n_comp in
    let go := (alias n_comp 5 2) in
    m <- for_ 0 (s_np sl) (fun lp m =>
      c <- rd (s_c sl) lp ;;
      let fac1l := mul common_factor c in
      for_ 0 (s_np sk) (fun kp m =>
        if skip_kl q kp lp then Some m else
        c <- rd (s_c sk) kp ;;
        let fac1k := mul fac1l c in
        for_ 0 (s_np sj) (fun jp m =>
          let fac1j := fac1k in
          let m := set_flg m 1%nat true in
          m <- for_ 0 (s_np si) (fun ip m =>
            if skip_ij q ip jp kp lp then Some m else
            c <- rd (s_c si) ip ;;
            let fac1i := mul (mul (mul fac1j c) (e_ij q ip jp)) (e_kl q kp lp) in
            if g0 q ip jp kp lp then
              m <- f_gout add m 0%nat (flg m 1%nat) len0 (fun n => mul fac1i (base q ip jp kp lp n)) ;;
              Some (set_flg m 1%nat false)
            else Some m) m ;;
          if negb (flg m 1%nat) then PRIM2CTR add mul sj jp go go 0%nat len0 m else Some m) m) m) m ;;
    m <- (if (1 <? n_comp) && negb (flg m go) then TRANSPOSE add go (nf * nc) n_comp m else Some m) ;;
    Some (m, negb (flg m 5%nat)).

  (** cint2e.c:549-602; gout is guarded by the flag jempty (number 2) *)
  Definition CINT2e_11n1_loop (n_comp nf : Z) (si sj sk sl : shl F) (common_factor : F) (q : quartets)
      (m : mem F) : option (mem F * bool) :=
    if pair_empty q then Some (m, false) else
    let m := reset_flags m in
    let nc := s_ctr sk in
    let len0 := nf * n_comp in
    let go := (alias n_comp 5 3) in
    m <- for_ 0 (s_np sl) (fun lp m =>
      c <- rd (s_c sl) lp ;;
      let fac1l := mul common_factor c in
      for_ 0 (s_np sk) (fun kp m =>
        if skip_kl q kp lp then Some m else
        let fac1k := fac1l in
        let m := set_flg m 2%nat true in
        m <- for_ 0 (s_np sj) (fun jp m =>
          c <- rd (s_c sj) jp ;;
          let fac1j := mul fac1k c in
          for_ 0 (s_np si) (fun ip m =>
            if skip_ij q ip jp kp lp then Some m else
            c <- rd (s_c si) ip ;;
            let fac1i := mul (mul (mul fac1j c) (e_ij q ip jp)) (e_kl q kp lp) in
            if g0 q ip jp kp lp then
              m <- f_gout add m 0%nat (flg m 2%nat) len0 (fun n => mul fac1i (base q ip jp kp lp n)) ;;
              Some (set_flg m 2%nat false)
            else Some m) m) m ;;
        if negb (flg m 2%nat) then PRIM2CTR add mul sk kp go go 0%nat len0 m else Some m) m) m ;;
    m <- (if (1 <? n_comp) && negb (flg m go) then TRANSPOSE add go (nf * nc) n_comp m else Some m) ;;
    Some (m, negb (flg m 5%nat)).

  (** cint2e.c:604-657; gout is guarded by the flag kempty (number 3) *)
  Definition CINT2e_111n_loop (n_comp nf : Z) (si sj sk sl : shl F) (common_factor : F) (q : quartets)
      (m : mem F) : option (mem F * bool) :=
    if pair_empty q then Some (m, false) else
    let m := reset_flags m in
    let nc := s_ctr sl in
    let len0 := nf * n_comp in
    let go := (alias n_comp 5 4) in
    m <- for_ 0 (s_np sl) (fun lp m =>
      let fac1l := common_factor in
      let m := set_flg m 3%nat true in
      m <- for_ 0 (s_np sk) (fun kp m =>
        if skip_kl q kp lp then Some m else
        c <- rd (s_c sk) kp ;;
        let fac1k := mul fac1l c in
        for_ 0 (s_np sj) (fun jp m =>
          c <- rd (s_c sj) jp ;;
          let fac1j := mul fac1k c in
          for_ 0 (s_np si) (fun ip m =>
            if skip_ij q ip jp kp lp then Some m else
            c <- rd (s_c si) ip ;;
            let fac1i := mul (mul (mul fac1j c) (e_ij q ip jp)) (e_kl q kp lp) in
            if g0 q ip jp kp lp then
              m <- f_gout add m 0%nat (flg m 3%nat) len0 (fun n => mul fac1i (base q ip jp kp lp n)) ;;
              Some (set_flg m 3%nat false)
            else Some m) m) m) m ;;
      if negb (flg m 3%nat) then PRIM2CTR add mul sl lp go go 0%nat len0 m else Some m) m ;;
    m <- (if (1 <? n_comp) && negb (flg m go) then TRANSPOSE add go (nf * nc) n_comp m else Some m) ;;
    Some (m, negb (flg m 5%nat)).

  (** cint2e.c:761-778 and 832-836: dispatch of the optimized path *)
  Definition b2z (b : bool) : Z := if b then 1 else 0.
  Definition CINTf_2e_loop (n : Z) :=
    match n with
    | 7 => CINT2e_n111_loop
    | 11 => CINT2e_1n11_loop
    | 13 => CINT2e_11n1_loop
    | 14 => CINT2e_111n_loop
    | 15 => CINT2e_1111_loop
    | _ => CINT2e_loop
    end.
  Definition CINT2e_opt_dispatch (n_comp nf : Z) (si sj sk sl : shl F) :=
    CINTf_2e_loop (Z.shiftl (b2z (s_ctr si =? 1)) 3 + Z.shiftl (b2z (s_ctr sj =? 1)) 2
                   + Z.shiftl (b2z (s_ctr sk =? 1)) 1 + b2z (s_ctr sl =? 1))
                  n_comp nf si sj sk sl.
End Loop2e.
Arguments quartets : clear implicits.
