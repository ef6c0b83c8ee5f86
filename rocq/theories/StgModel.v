(** StgModel.v — which block of the Slater-geminal tables is used: the head of
    CINTstg_roots (src/stg_roots.c:405-441).

    Doubles are real numbers.  The tables DATA_X and DATA_W (roots_xw.dat, not part of the
    repository) hold, for each root count n, starting at n(n-1)/2 * 19600, 10 x 10 blocks of
    n * 196 numbers.  The evaluation of a block (_clenshaw_dc, _matmul_14_14, _clenshaw_d1)
    is not modelled here. *)
From Coq Require Import Reals.
From Verif Require Import Base.
Local Open Scope R_scope.

(** C conversion of a double to int: truncation toward zero (no overflow considered) *)
Definition Rtrunc (x : R) : Z := if Rlt_dec x 0 then (- Int_part (- x))%Z else Int_part x.

Definition log10 (x : R) : R := ln x / ln 10.

(** stg_roots.c:417-435.  Result: block numbers, position of the block relative to the
    start of the table, and the two Chebyshev coordinates.  [None]: the program exits. *)
Record stg_sel := mksel { sel_it : Z; sel_iu : Z; sel_base : Z; sel_offset : Z; sel_t : R; sel_u : R }.
Definition stg_select (nroots : Z) (ta ua : R) : option stg_sel :=
  let base := ((nroots - 1) * nroots / 2 * 19600)%Z in
  let t := if Rlt_dec (1968299 / 100) ta then 1968299 / 100 else ta in
  let tt := if Rlt_dec 1 t then ln t * (9102392266268373 / 10 ^ 16) + 1 else sqrt t in
  let uu := log10 ua in
  let it := Rtrunc tt in
  let tt := 2 * (tt - IZR it) - 1 in
  let iu := Rtrunc (uu + 7) in
  if (iu <? 0)%Z || (iu >? 10)%Z then None
  else
    let uu := 2 * (uu - IZR (iu - 7)) - 1 in
    Some (mksel it iu base (nroots * 196 * (iu + it * 10)) tt uu).
