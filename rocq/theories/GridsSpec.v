(** GridsSpec.v — what the blocked grid loop has to compute. *)
From Verif Require Import Base BasSpec CtrModel LoopSpec Loop2eModel Loop2eSpec Loop3Model Loop3Spec GridsModel.

(** Blocks of 104 points: the block of point [g] starts at [blk_start g] and has
    [blk_len ngrids g] points. *)
Definition blk_start (g : Z) : Z := 104 * (g / 104).
Definition blk_len (ngrids g : Z) : Z := Z.min 104 (ngrids - blk_start g).

(** Place of component [c], row [n] (of dij = nf * contractions), point [g]: components are
    ngrids*dij apart, blocks follow one another, rows of a block are contiguous runs of points. *)
Definition grid_pos (ngrids dij c n g : Z) : Z :=
  c * (dij * ngrids) + (blk_start g * dij + (n * blk_len ngrids g + (g - blk_start g))).

Section GridsSpec.
  Context {F : Type} (zero : F) (add mul : F -> F -> F).
  Variables (n_comp nf : Z) (si sj : shl F).
  Notation ci := (s_ctr si). Notation cj := (s_ctr sj).

  Definition kept_grids (q : gpairs F) (ip jp : Z) : bool := negb (x_empty q) && negb (x_skip q ip jp).
  (** contracted value at grid point with coordinates [p], row [n], component [c] *)
  Definition grid_value (cfi cfj : Z -> Z -> F) (q : gpairs F) (common : F) (p : F * F * F) (n c : Z) : F :=
    mul common (lsum zero add (s_np sj) (fun jp => lsum zero add (s_np si) (fun ip =>
      if kept_grids q ip jp
      then mul (mul (cfj (n / (nf * ci)) jp) (cfi ((n / nf) mod ci) ip))
               (mul (x_e q ip jp) (x_base q ip jp p (n mod nf) c))
      else zero))).
  (** the array of coordinates *)
  Definition grid_points (grids : arr F) (ngrids : Z) (P : Z -> F * F * F) : Prop :=
    forall g, 0 <= g < ngrids ->
      rd grids (3 * g) = Some (fst (fst (P g))) /\ rd grids (3 * g + 1) = Some (snd (fst (P g))) /\
      rd grids (3 * g + 2) = Some (snd (P g)).
  (** scratch: blocks of up to 104 points *)
  Definition scratch_grids : list (nat * Z) :=
    needs (negb (ci =? 1)) 0 (104 * nf * n_comp) ++ needs (negb (cj =? 1)) 1 (104 * nf * n_comp * ci) ++
    needs (negb (n_comp =? 1)) 2 (104 * nf * n_comp * ci * cj).

  Definition makes_grids (m : mem F) (ngrids : Z) (any : Prop) (V : Z -> Z -> Z -> F)
      (res : option (mem F * bool)) : Prop :=
    exists m' ret, res = Some (m', ret) /\
      (ret = true <-> any /\ 0 < ngrids) /\
      asize (buf m' 5%nat) = asize (buf m 5%nat) /\
      (forall x, ~ (0 <= x < nf * (ci * cj) * ngrids * n_comp) ->
         acell (buf m' 5%nat) x = acell (buf m 5%nat) x) /\
      (ret = true -> forall c n g, 0 <= c < n_comp -> 0 <= n < nf * (ci * cj) -> 0 <= g < ngrids ->
         rd (buf m' 5%nat) (grid_pos ngrids (nf * (ci * cj)) c n g) = Some (V g n c)).
End GridsSpec.

(** The points lo, lo+1, ..., lo+n-1. *)
Definition run_of (lo n : Z) : list Z := map (fun i => lo + Z.of_nat i) (seq 0 (Z.to_nat n)).

Definition same_grids {F} (n_comp dij ngrids : Z) (r1 r2 : option (mem F * bool)) : Prop :=
  exists m1 m2 ret1 ret2, r1 = Some (m1, ret1) /\ r2 = Some (m2, ret2) /\ ret1 = ret2 /\
    (ret1 = true -> forall c n g, 0 <= c < n_comp -> 0 <= n < dij -> 0 <= g < ngrids ->
       rd (buf m1 5%nat) (grid_pos ngrids dij c n g) = rd (buf m2 5%nat) (grid_pos ngrids dij c n g)).
