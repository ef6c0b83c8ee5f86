(** PropsGrids.v — property C34 and the grid loop's part of C18 and C35.  Statements only. *)
From Coq Require Import Ring.
From Verif Require Import Base BasSpec CtrModel LoopSpec Loop2eModel Loop2eSpec Loop3Model Loop3Spec
  GridsModel GridsSpec GridsProof.

(** The sequence of blocks: the block bodies see the grid points 0, 1, ..., ngrids-1, each once
    and in this order, in blocks of 1 to 104 points. *)
Theorem C34_blocks (ngrids : Z) : 0 <= ngrids ->
  for_by 0 ngrids GRID_BLKSIZE (fun off visited =>
    let bgrids := Z.min (ngrids - off) GRID_BLKSIZE in
    if (1 <=? bgrids) && (bgrids <=? 104) then Some (visited ++ run_of off bgrids) else None) []
  = Some (run_of 0 ngrids).
Proof. exact (blocks_visit ngrids). Qed.
Print Assumptions C34_blocks.

Section Props.
  Context {F : Type} (zero one : F) (add mul sub : F -> F -> F) (opp : F -> F).
  Hypothesis Rth : ring_theory zero one add mul sub opp (@eq F).
  Variable isz : F -> bool.
  Hypothesis isz_zero : forall c, isz c = true -> c = zero.
  Variables (n_comp nf : Z) (si sj : shl F) (cfi cfj : Z -> Z -> F).
  Hypothesis Hi : shell_of isz si cfi.
  Hypothesis Hj : shell_of isz sj cfj.
  Hypothesis Hnf : 0 <= nf.
  Hypothesis Hnc : 1 <= n_comp.
  Variables (common : F) (q : gpairs F).
  Variables (ngrids : Z) (grids : arr F) (P : Z -> F * F * F).
  Hypothesis HP : grid_points grids ngrids P.
  Hypothesis Hng : 0 <= ngrids.
  Notation dij := (nf * (s_ctr si * s_ctr sj)).

  (** Every grid point's contracted value — the sum over the surviving primitive pairs, evaluated
      at that point's own coordinates — ends up at the point's own place [grid_pos] of the
      contracted batch, for every number of points. *)
  Theorem C34_grid_loop (gridsT : arr F) (m : mem F) : 312 <= asize gridsT ->
    dij * ngrids * n_comp <= asize (buf m 5%nat) -> fits m (scratch_grids n_comp nf si sj) ->
    makes_grids n_comp nf si sj m ngrids (some2 (s_np si) (s_np sj) (kept_grids q))
      (fun g n c => grid_value zero add mul nf si sj cfi cfj q common (P g) n c)
      (CINT1e_grids_loop add mul n_comp nf si sj common q ngrids grids gridsT m).
  Proof. exact (loop_grids zero one add mul sub opp Rth isz isz_zero n_comp nf si sj cfi cfj Hi Hj Hnf Hnc common q ngrids grids P HP Hng gridsT m). Qed.

  Theorem C35_grids_scratch (t t2 : arr F) (m m2 : mem F) : 312 <= asize t -> 312 <= asize t2 ->
    dij * ngrids * n_comp <= asize (buf m 5%nat) -> dij * ngrids * n_comp <= asize (buf m2 5%nat) ->
    fits m (scratch_grids n_comp nf si sj) -> fits m2 (scratch_grids n_comp nf si sj) ->
    same_grids n_comp dij ngrids (CINT1e_grids_loop add mul n_comp nf si sj common q ngrids grids t m)
      (CINT1e_grids_loop add mul n_comp nf si sj common q ngrids grids t2 m2).
  Proof. exact (scratch_grids_same zero one add mul sub opp Rth isz isz_zero n_comp nf si sj cfi cfj Hi Hj Hnf Hnc common q ngrids grids P HP Hng t t2 m m2). Qed.
End Props.
Print Assumptions C34_grid_loop.
Print Assumptions C35_grids_scratch.

(** Distinct (component, row, point) have distinct places inside the batch. *)
Theorem C34_places (ngrids dij n_comp : Z) :
  (forall c n g, 0 <= c < n_comp -> 0 <= n < dij -> 0 <= g < ngrids ->
     0 <= grid_pos ngrids dij c n g < dij * ngrids * n_comp) /\
  (forall c n g c' n' g', 0 <= c < n_comp -> 0 <= n < dij -> 0 <= g < ngrids ->
     0 <= c' < n_comp -> 0 <= n' < dij -> 0 <= g' < ngrids ->
     grid_pos ngrids dij c n g = grid_pos ngrids dij c' n' g' -> c = c' /\ n = n' /\ g = g').
Proof. exact (conj (grid_pos_bound ngrids dij n_comp) (grid_pos_inj ngrids dij n_comp)). Qed.
Print Assumptions C34_places.

(** 106 points: a full block of 104 and one of 2; one row of two contractions, two components.
    The value of point g is g for component 0 and 1000+g for component 1. *)
Definition exg_mem : mem Z := mkmem (fun t => if Nat.eqb t 5 then uninit 424 else uninit 500) (fun _ => false).
Example C34_ex :
  (si <- mk_shell (fun z => z =? 0) 1 2 (of_fun 2 (fun i => 1 + i)) ;;
   sj <- mk_shell (fun z => z =? 0) 1 1 (of_fun 1 (fun i => 1)) ;;
   r <- CINT1e_grids_loop Z.add Z.mul 2 1 si sj 1
     (mkgp false (fun _ _ => false) (fun _ _ => 1) (fun _ _ p f c => fst (fst p) + 1000 * c))
     106 (of_fun 318 (fun i => if i mod 3 =? 0 then i / 3 else 7)) (uninit 312) exg_mem ;;
   Some (snd r, map (rd (buf (fst r) 5%nat)) [3; 104 + 3; 208 + 1; 208 + 2; 212 + 3; 212 + 104 + 3; 212 + 208; 212 + 208 + 3]))
  = Some (true, map Some [3; 6; 105; 208; 1003; 2006; 1104; 2210]).
Proof. vm_compute. reflexivity. Qed.
