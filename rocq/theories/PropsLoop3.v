(** PropsLoop3.v — properties C18 and C35 (two- and three-centre two-electron loops, one-electron
    loops of one, three and four centres).  Statements only.
    Shape of every C18 statement: the loop runs without undefined behaviour and ADDS to (or, for
    the 1e and 4c1e loops, STORES into) the caller's batch the sum over the primitives that pass
    the screening of coefficient products times primitive batches ([batch2/3/4] of LoopSpec.v);
    the flag / return value says whether some primitive passed ([some2/3/4]). *)
From Coq Require Import Ring.
From Verif Require Import Base BasSpec CtrModel LoopSpec Loop2eModel Loop2eSpec Loop3Model Loop3Spec Loop3Final.

Section Props.
  Context {F : Type} (zero one : F) (add mul sub : F -> F -> F) (opp : F -> F).
  Hypothesis Rth : ring_theory zero one add mul sub opp (@eq F).
  Variable isz : F -> bool.
  Hypothesis isz_zero : forall c, isz c = true -> c = zero.
  Variables (n_comp nf : Z) (si sj sk sl : shl F) (cfi cfj cfk cfl : Z -> Z -> F).
  Hypothesis Hi : shell_of isz si cfi.
  Hypothesis Hj : shell_of isz sj cfj.
  Hypothesis Hk : shell_of isz sk cfk.
  Hypothesis Hl : shell_of isz sl cfl.
  Hypothesis Hnf : 0 <= nf.
  Hypothesis Hnc : 1 <= n_comp.
  Variables (common : F) (m : mem F) (T : Z -> Z -> F).

  Section T3c2e.
  Variable q : triples F.
  (** Three-centre two-electron loop (with and without optimizer). *)
  Theorem C18_3c2e : caller_holds m (rows3 nf si sj sk) n_comp T -> fits m (scratch3 n_comp nf si sj sk) ->
    adds add m (rows3 nf si sj sk) n_comp (t_empty q) (some3 (s_np si) (s_np sj) (s_np sk) (kept_3c2e q)) T
      (batch3 zero add mul (s_np si) (s_np sj) (s_np sk) (kept_3c2e q) cfi cfj cfk (prim_3c2e mul q) common nf n_comp (s_ctr si) (s_ctr sj))
      (CINT3c2e_loop add mul n_comp nf si sj sk common q m).
  Proof. exact (loop_3c2e zero one add mul sub opp Rth isz isz_zero n_comp nf si sj sk cfi cfj cfk Hi Hj Hk Hnf Hnc common q m T). Qed.

  (** ... whatever specialised loop the table selects. *)
  Theorem C18_3c2e_dispatch : caller_holds m (rows3 nf si sj sk) n_comp T -> fits m (scratch3_any n_comp nf si sj sk) ->
    adds add m (rows3 nf si sj sk) n_comp (t_empty q) (some3 (s_np si) (s_np sj) (s_np sk) (kept_3c2e q)) T
      (batch3 zero add mul (s_np si) (s_np sj) (s_np sk) (kept_3c2e q) cfi cfj cfk (prim_3c2e mul q) common nf n_comp (s_ctr si) (s_ctr sj))
      (CINT3c2e_opt_dispatch add mul n_comp nf si sj sk common q m).
  Proof. exact (dispatch_3c2e zero one add mul sub opp Rth isz isz_zero n_comp nf si sj sk cfi cfj cfk Hi Hj Hk Hnf Hnc common q m T). Qed.

  (** Each specialised loop is selected for exactly the pattern it is written for. *)
  Theorem C18_3c2e_selection :
    CINT3c2e_opt_dispatch add mul n_comp nf si sj sk =
      (match s_ctr si =? 1, s_ctr sj =? 1, s_ctr sk =? 1 with
       | true, true, true => CINT3c2e_111_loop add mul
       | false, true, true => CINT3c2e_n11_loop add mul
       | true, false, true => CINT3c2e_1n1_loop add mul
       | _, _, _ => CINT3c2e_loop add mul
       end) n_comp nf si sj sk.
  Proof. exact (select_3c2e add mul n_comp nf si sj sk). Qed.
  End T3c2e.

  Section T3c1e.
  Variable q : triples1 F.
  (** Three-centre one-electron overlap. *)
  Theorem C18_3c1e : caller_holds m (rows3 nf si sj sk) n_comp T -> fits m (scratch3 n_comp nf si sj sk) ->
    adds add m (rows3 nf si sj sk) n_comp (false) (some3 (s_np si) (s_np sj) (s_np sk) (kept_3c1e q)) T
      (batch3 zero add mul (s_np si) (s_np sj) (s_np sk) (kept_3c1e q) cfi cfj cfk (prim_3c1e mul q) common nf n_comp (s_ctr si) (s_ctr sj))
      (CINT3c1e_loop_nopt add mul n_comp nf si sj sk common q m).
  Proof. exact (loop_3c1e zero one add mul sub opp Rth isz isz_zero n_comp nf si sj sk cfi cfj cfk Hi Hj Hk Hnf Hnc common q m T). Qed.

  (** Three-centre one-electron nuclear attraction (one call per nucleus), at least one root. *)
  Theorem C18_3c1e_nuc : caller_holds m (rows3 nf si sj sk) n_comp T -> 1 <= u_roots q -> fits m (scratch3 n_comp nf si sj sk) ->
    adds add m (rows3 nf si sj sk) n_comp false (some3 (s_np si) (s_np sj) (s_np sk) (kept_3c1e q)) T
      (batch3 zero add mul (s_np si) (s_np sj) (s_np sk) (kept_3c1e q) cfi cfj cfk (prim_3c1e_nuc zero add mul q) common nf n_comp (s_ctr si) (s_ctr sj))
      (CINT3c1e_nuc_loop_nopt add mul n_comp nf si sj sk common q m).
  Proof. exact (loop_3c1e_nuc zero one add mul sub opp Rth isz isz_zero n_comp nf si sj sk cfi cfj cfk Hi Hj Hk Hnf Hnc common q m T). Qed.
  End T3c1e.

  (** Two-centre two-electron loop; the second shell is k of the code. *)
  Theorem C18_2c2e (q : pairs2 F) : caller_holds m (rows2 nf si sj) n_comp T -> fits m (scratch2 n_comp nf si sj) ->
    adds add m (rows2 nf si sj) n_comp false (some2 (s_np si) (s_np sj) (p2_g0 q)) T
      (batch2 zero add mul (s_np si) (s_np sj) (p2_g0 q) cfi cfj (p2_base q) common nf n_comp (s_ctr si))
      (CINT2c2e_loop add mul n_comp nf si sj common q m).
  Proof. exact (loop_2c2e zero one add mul sub opp Rth isz isz_zero n_comp nf si sj si cfi cfj Hi Hj Hnf Hnc common q m T). Qed.

  (** One-electron loop: overlap (0), 1/r (1), sum over at least one nucleus (2). *)
  Theorem C18_1e (ty : Z) (q : pairs1 F) : 0 <= ty <= 2 -> (ty = 2 -> 1 <= w_natm q) ->
    rows2 nf si sj * n_comp <= asize (buf m 5%nat) -> fits m (scratch2 n_comp nf si sj) ->
    makes m (rows2 nf si sj) n_comp (some2 (s_np si) (s_np sj) (kept_1e q))
      (batch2 zero add mul (s_np si) (s_np sj) (kept_1e q) cfi cfj (prim_1e zero add mul ty q) common nf n_comp (s_ctr si))
      (CINT1e_loop add mul ty n_comp nf si sj common q m).
  Proof. exact (loop_1e zero one add mul sub opp Rth isz isz_zero n_comp nf si sj si cfi cfj Hi Hj Hnf Hnc common ty q m). Qed.

  (** Four-centre one-electron loop. *)
  Theorem C18_4c1e (q : quartets1 F) :
    rows4 nf si sj sk sl * n_comp <= asize (buf m 5%nat) -> fits m (scratch4 n_comp nf si sj sk sl) ->
    makes m (rows4 nf si sj sk sl) n_comp (some4 (s_np si) (s_np sj) (s_np sk) (s_np sl) (kept_4c1e q))
      (batch4 zero add mul (s_np si) (s_np sj) (s_np sk) (s_np sl) (kept_4c1e q) cfi cfj cfk cfl (prim_4c1e mul q) common nf n_comp (s_ctr si) (s_ctr sj) (s_ctr sk))
      (CINT4c1e_loop_nopt add mul n_comp nf si sj sk sl common q m).
  Proof. exact (loop_4c1e zero one add mul sub opp Rth isz isz_zero n_comp nf si sj sk sl cfi cfj cfk cfl Hi Hj Hk Hl Hnf Hnc common q m). Qed.

  (** *** C35: [m2] has the same caller buffer and flag as [m] (for 1e and 4c1e not even
      that) and otherwise arbitrary contents, flags included; the caller sees the same batch, flag and return value. *)
  Variable m2 : mem F.
  (** 1e and 4c1e: the buffer of the contracted batch is scratch as well *)
  Theorem C35_1e_scratch (ty : Z) (q : pairs1 F) : 0 <= ty <= 2 -> (ty = 2 -> 1 <= w_natm q) ->
    rows2 nf si sj * n_comp <= asize (buf m 5%nat) -> rows2 nf si sj * n_comp <= asize (buf m2 5%nat) ->
    fits m (scratch2 n_comp nf si sj) -> fits m2 (scratch2 n_comp nf si sj) ->
    same_made (rows2 nf si sj) n_comp (CINT1e_loop add mul ty n_comp nf si sj common q m) (CINT1e_loop add mul ty n_comp nf si sj common q m2).
  Proof. exact (scratch_1e zero one add mul sub opp Rth isz isz_zero n_comp nf si sj si cfi cfj Hi Hj Hnf Hnc common m m2 ty q). Qed.

  Theorem C35_4c1e_scratch (q : quartets1 F) : rows4 nf si sj sk sl * n_comp <= asize (buf m 5%nat) -> rows4 nf si sj sk sl * n_comp <= asize (buf m2 5%nat) ->
    fits m (scratch4 n_comp nf si sj sk sl) -> fits m2 (scratch4 n_comp nf si sj sk sl) ->
    same_made (rows4 nf si sj sk sl) n_comp (CINT4c1e_loop_nopt add mul n_comp nf si sj sk sl common q m) (CINT4c1e_loop_nopt add mul n_comp nf si sj sk sl common q m2).
  Proof. exact (scratch_4c1e zero one add mul sub opp Rth isz isz_zero n_comp nf si sj sk sl cfi cfj cfk cfl Hi Hj Hk Hl Hnf Hnc common m m2 q). Qed.

  Hypothesis Hbuf : buf m2 5%nat = buf m 5%nat.
  Hypothesis Hflg : flg m2 5%nat = flg m 5%nat.

  Theorem C35_3c2e_scratch (q : triples F) : caller_holds m (rows3 nf si sj sk) n_comp T ->
    fits m (scratch3 n_comp nf si sj sk) -> fits m2 (scratch3 n_comp nf si sj sk) ->
    same_added (rows3 nf si sj sk) n_comp (CINT3c2e_loop add mul n_comp nf si sj sk common q m) (CINT3c2e_loop add mul n_comp nf si sj sk common q m2).
  Proof. exact (scratch_3c2e zero one add mul sub opp Rth isz isz_zero n_comp nf si sj sk cfi cfj cfk Hi Hj Hk Hnf Hnc common m T m2 Hbuf Hflg q). Qed.

  Theorem C35_3c2e_dispatch_scratch (q : triples F) : caller_holds m (rows3 nf si sj sk) n_comp T ->
    fits m (scratch3_any n_comp nf si sj sk) -> fits m2 (scratch3_any n_comp nf si sj sk) ->
    same_added (rows3 nf si sj sk) n_comp (CINT3c2e_opt_dispatch add mul n_comp nf si sj sk common q m) (CINT3c2e_opt_dispatch add mul n_comp nf si sj sk common q m2).
  Proof. exact (scratch_3c2e_dispatch zero one add mul sub opp Rth isz isz_zero n_comp nf si sj sk cfi cfj cfk Hi Hj Hk Hnf Hnc common m T m2 Hbuf Hflg q). Qed.

  Theorem C35_3c1e_scratch (q : triples1 F) : caller_holds m (rows3 nf si sj sk) n_comp T ->
    fits m (scratch3 n_comp nf si sj sk) -> fits m2 (scratch3 n_comp nf si sj sk) ->
    same_added (rows3 nf si sj sk) n_comp (CINT3c1e_loop_nopt add mul n_comp nf si sj sk common q m) (CINT3c1e_loop_nopt add mul n_comp nf si sj sk common q m2).
  Proof. exact (scratch_3c1e zero one add mul sub opp Rth isz isz_zero n_comp nf si sj sk cfi cfj cfk Hi Hj Hk Hnf Hnc common m T m2 Hbuf Hflg q). Qed.

  Theorem C35_3c1e_nuc_scratch (q : triples1 F) : caller_holds m (rows3 nf si sj sk) n_comp T -> 1 <= u_roots q ->
    fits m (scratch3 n_comp nf si sj sk) -> fits m2 (scratch3 n_comp nf si sj sk) ->
    same_added (rows3 nf si sj sk) n_comp (CINT3c1e_nuc_loop_nopt add mul n_comp nf si sj sk common q m) (CINT3c1e_nuc_loop_nopt add mul n_comp nf si sj sk common q m2).
  Proof. exact (scratch_3c1e_nuc zero one add mul sub opp Rth isz isz_zero n_comp nf si sj sk cfi cfj cfk Hi Hj Hk Hnf Hnc common m T m2 Hbuf Hflg q). Qed.

  Theorem C35_2c2e_scratch (q : pairs2 F) : caller_holds m (rows2 nf si sj) n_comp T ->
    fits m (scratch2 n_comp nf si sj) -> fits m2 (scratch2 n_comp nf si sj) ->
    same_added (rows2 nf si sj) n_comp (CINT2c2e_loop add mul n_comp nf si sj common q m) (CINT2c2e_loop add mul n_comp nf si sj common q m2).
  Proof. exact (scratch_2c2e zero one add mul sub opp Rth isz isz_zero n_comp nf si sj si cfi cfj Hi Hj Hnf Hnc common m T m2 Hbuf Hflg q). Qed.

End Props.
Print Assumptions C18_3c2e.
Print Assumptions C18_3c2e_dispatch.
Print Assumptions C18_3c2e_selection.
Print Assumptions C18_3c1e.
Print Assumptions C18_3c1e_nuc.
Print Assumptions C18_2c2e.
Print Assumptions C18_1e.
Print Assumptions C18_4c1e.
Print Assumptions C35_3c2e_scratch.
Print Assumptions C35_3c2e_dispatch_scratch.
Print Assumptions C35_3c1e_scratch.
Print Assumptions C35_3c1e_nuc_scratch.
Print Assumptions C35_2c2e_scratch.
Print Assumptions C35_1e_scratch.
Print Assumptions C35_4c1e_scratch.

(** Without the "at least one atom" hypothesis C35 fails: with natm = 0 the nuclear loop writes
    nothing into the batch but reports success, so the caller reads whatever was there
    before. *)
Theorem C35_no_atoms_refuted : exists (q : pairs1 Z) (s : shl Z) (m m2 : mem Z),
  w_natm q = 0 /\ shell_of (fun z => z =? 0) s (fun _ _ => 1) /\
  fits m (scratch2 1 1 s s) /\ fits m2 (scratch2 1 1 s s) /\ asize (buf m 5%nat) = 1 /\ asize (buf m2 5%nat) = 1 /\
  (exists m', CINT1e_loop Z.add Z.mul 2 1 1 s s 1 q m = Some (m', true) /\ rd (buf m' 5%nat) 0 = Some 7) /\
  (exists m', CINT1e_loop Z.add Z.mul 2 1 1 s s 1 q m2 = Some (m', true) /\ rd (buf m' 5%nat) 0 = Some 8).
Proof. exact no_atoms. Qed.
Print Assumptions C35_no_atoms_refuted.

(** Concrete runs over the integers (shells as in C16_ex): i has 2 primitives, 2 contractions,
    coefficients (2,0),(1,3); j has 2 primitives, 1 contraction, coefficients 1,2; the pair
    (ip=1, jp=0) is screened; two components, values 1 + jp + 10 comp. *)
Definition ex3_isz (z : Z) : bool := z =? 0.
Definition ex3_mem : mem Z :=
  mkmem (fun t => if Nat.eqb t 5 then of_fun 4 (fun i => 100 + i) else uninit 8) (fun t => negb (Nat.eqb t 5)).
Definition ex3_list (r : option (mem Z * bool)) : list (option Z) * option bool :=
  match r with
  | Some (m, b) => (map (fun i => rd (buf m 5%nat) i) [0;1;2;3], Some b)
  | None => ([], None)
  end.
Definition ex3_run (loop : shl Z -> shl Z -> shl Z -> option (mem Z * bool)) :=
  ex3_list (si <- mk_shell ex3_isz 2 2 (of_fun 4 (fun i => nth (Z.to_nat i) [2;0;1;3] 0)) ;;
            sj <- mk_shell ex3_isz 2 1 (of_fun 2 (fun i => 1 + i)) ;;
            s1 <- mk_shell ex3_isz 1 1 (of_fun 1 (fun i => 1)) ;;
            loop si sj s1).
Example C18_3c2e_ex : ex3_run (fun si sj sk => CINT3c2e_loop Z.add Z.mul 2 1 si sj sk 1
    (mkt false (fun ip jp => (ip =? 1) && (jp =? 0)) (fun _ _ _ => true) (fun ip jp => 1 + ip) (fun ip jp _ n => 1 + jp + 10 * n)) ex3_mem)
  = ([Some 110; Some 130; Some 172; Some 282], Some true).
Proof. vm_compute. reflexivity. Qed.
Example C18_3c2e_dispatch_ex : ex3_run (fun si sj sk => CINT3c2e_opt_dispatch Z.add Z.mul 2 1 si sj sk 1
    (mkt false (fun ip jp => (ip =? 1) && (jp =? 0)) (fun _ _ _ => true) (fun ip jp => 1 + ip) (fun ip jp _ n => 1 + jp + 10 * n)) ex3_mem)
  = ([Some 110; Some 130; Some 172; Some 282], Some true).
Proof. vm_compute. reflexivity. Qed.
(* everything screened: the caller's batch and flag are untouched *)
Example C18_2c2e_ex : ex3_run (fun si sj _ => CINT2c2e_loop Z.add Z.mul 2 1 si sj 1
    (mkp2 (fun _ _ => false) (fun ip jp n => 1)) ex3_mem)
  = ([Some 100; Some 101; Some 102; Some 103], Some true).
Proof. vm_compute. reflexivity. Qed.
Example C18_3c1e_nuc_ex : ex3_run (fun si sj sk => CINT3c1e_nuc_loop_nopt Z.add Z.mul 2 1 si sj sk 1
    (mkt1 (fun ip jp _ => (ip =? 1) && (jp =? 0)) (fun ip _ _ => 1 + ip) (fun _ _ _ => 1) 2 (fun _ _ _ i => 3 - 4 * i)
       (fun ip jp _ i n => (1 + jp + 10 * n) * (1 - 2 * (i * i)))) ex3_mem)
  = ([Some 140; Some 217; Some 382; Some 819], Some true).
Proof. vm_compute. reflexivity. Qed.
(* the 1e and 4c1e loops overwrite; two nuclei with charges -1 and -2 *)
Example C18_1e_ex : ex3_run (fun si sj _ => CINT1e_loop Z.add Z.mul 2 2 1 si sj 1
    (mkp1 false (fun ip jp => (ip =? 1) && (jp =? 0)) (fun ip _ => 1 + ip) 2 (fun _ _ _ => 0)
       (fun ip jp ia n => - (1 + ia) * (1 + jp + 10 * n))) ex3_mem)
  = ([Some (-30); Some (-87); Some (-210); Some (-537)], Some true).
Proof. vm_compute. reflexivity. Qed.
Example C18_4c1e_ex : ex3_run (fun si sj s1 => CINT4c1e_loop_nopt Z.add Z.mul 2 1 si sj s1 s1 1
    (mkq1 (fun _ _ => false) (fun ip jp _ _ => (ip =? 1) && (jp =? 0)) (fun ip _ _ _ => 1 + ip)
       (fun ip jp _ _ n => 1 + jp + 10 * n)) ex3_mem)
  = ([Some 10; Some 29; Some 70; Some 179], Some true).
Proof. vm_compute. reflexivity. Qed.
