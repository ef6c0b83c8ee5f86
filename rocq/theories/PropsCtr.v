(** PropsCtr.v — properties C14, C15 (contraction step).  Statements only. *)
From Coq Require Import Ring Permutation ZArithRing.
From Verif Require Import Base BasSpec CtrModel CtrProof LoopSpec Loop2eModel Loop2eSpec CtrFinal.

(** For every coefficient matrix: row [p] of the index list is a permutation of all
    contractions, and its first [count] entries are exactly those with a non-zero
    coefficient.  [isz] is the code's test [c == 0]; [zseq n] is 0..n-1. *)
Theorem C14_sparse_lists {F} (isz : F -> bool) (c : arr F) (np nctr : Z) (cf : Z -> Z -> F) (s0 n0 : arr Z) :
  0 <= np -> 0 <= nctr -> np * nctr <= asize s0 -> np <= asize n0 ->
  (forall ic p, 0 <= ic < nctr -> 0 <= p < np -> rd c (np * ic + p) = Some (cf ic p)) ->
  exists s1 n1, CINTOpt_non0coeff_byshell isz s0 n0 c np nctr = Some (s1, n1) /\
    (forall p, 0 <= p < np -> exists l count,
       rd n1 p = Some (Z.of_nat count) /\
       (forall i, 0 <= i < nctr -> rd s1 (p * nctr + i) = nth_error l (Z.to_nat i)) /\
       Permutation l (zseq nctr) /\
       (forall j, In j (firstn count l) <-> 0 <= j < nctr /\ isz (cf j p) = false) /\
       (forall j, In j (skipn count l) <-> 0 <= j < nctr /\ isz (cf j p) = true)) /\
    (forall x, ~ (0 <= x < np * nctr) -> acell s1 x = acell s0 x) /\
    (forall x, ~ (0 <= x < np) -> acell n1 x = acell n0 x).
Proof. exact (non0coeff_exact isz c np nctr cf s0 n0). Qed.
Print Assumptions C14_sparse_lists.

(** 2 primitives, 3 contractions; contraction-major coefficients 5 0 | 0 0 | 7 2. *)
Example C14_ex :
  match CINTOpt_non0coeff_byshell (fun z => z =? 0) (uninit 6) (uninit 2)
          (of_fun 6 (fun i => nth (Z.to_nat i) [5;0;0;0;7;2] 0)) 2 3 with
  | Some (s, n) => (map (rd s) [0;1;2;3;4;5], map (rd n) [0;1])
  | None => ([], []) end
  = ([Some 0; Some 2; Some 1; Some 2; Some 0; Some 1], [Some 2; Some 1]).
Proof. vm_compute. reflexivity. Qed.

(** The first accumulation assigns every cell: previous contents (even uninitialised) are
    irrelevant. *)
Theorem C15_first {F} (mul : F -> F -> F) (gc gp c : arr F) (p nf nprim nctr : Z) (cf Sv : Z -> F) :
  0 <= nf -> 0 <= nctr -> nf * nctr <= asize gc ->
  (forall n, 0 <= n < nf -> rd gp n = Some (Sv n)) ->
  (forall i, 0 <= i < nctr -> rd c (p + nprim * i) = Some (cf i)) ->
  wp (CINTprim_to_ctr_0 mul gc gp c p nf nprim nctr) (fun gc' =>
    asize gc' = asize gc /\
    (forall i n, 0 <= i < nctr -> 0 <= n < nf -> acell gc' (nf * i + n) = Some (mul (cf i) (Sv n))) /\
    (forall x, ~ (0 <= x < nf * nctr) -> acell gc' x = acell gc x)).
Proof. exact (prim0_ok mul gc gp c p nf nprim nctr cf Sv). Qed.
Print Assumptions C15_first.

(** Later accumulations through the sparse list add coefficient * batch to every
    contraction. *)
Theorem C15_add {F} (zero one : F) (add mul sub : F -> F -> F) (opp : F -> F)
    (Rth : ring_theory zero one add mul sub opp (@eq F)) (isz : F -> bool)
    (isz_zero : forall c, isz c = true -> c = zero)
    (s : shl F) (cf : Z -> Z -> F) (p : Z) (gc gp : arr F) (nf : Z) (Sv : Z -> F) (b : Z -> Z -> F) :
  shell_of isz s cf -> 0 <= p < s_np s -> 0 <= nf -> nf * s_ctr s <= asize gc ->
  (forall n, 0 <= n < nf -> rd gp n = Some (Sv n)) ->
  (forall j n, 0 <= j < s_ctr s -> 0 <= n < nf -> rd gc (nf * j + n) = Some (b j n)) ->
  exists k gc', rd (s_non0 s) p = Some k /\
    CINTprim_to_ctr_1 add mul gc gp (s_c s) p nf (s_np s) k (s_sidx s) (p * s_ctr s) = Some gc' /\
    asize gc' = asize gc /\
    (forall j n, 0 <= j < s_ctr s -> 0 <= n < nf ->
       rd gc' (nf * j + n) = Some (add (b j n) (mul (cf j p) (Sv n)))) /\
    (forall x, ~ (0 <= x < nf * s_ctr s) -> acell gc' x = acell gc x).
Proof. exact (prim_add zero one add mul sub opp Rth isz isz_zero s cf p gc gp nf Sv b). Qed.
Print Assumptions C15_add.

Example C15_ex :
  match (s <- mk_shell (fun z => z =? 0) 2 3 (of_fun 6 (fun i => nth (Z.to_nat i) [5;0;0;0;7;2] 0)) ;;
         g <- CINTprim_to_ctr_0 Z.mul (uninit 6) (of_fun 2 (fun i => 10 + i)) (s_c s) 0 2 2 3 ;;
         CINTprim_to_ctr_1 Z.add Z.mul g (of_fun 2 (fun i => 1 + i)) (s_c s) 1 2 2 1 (s_sidx s) 3) with
  | Some g => map (rd g) [0;1;2;3;4;5] | None => [] end
  = [Some 50; Some 55; Some 0; Some 0; Some 72; Some 81].
Proof. vm_compute. reflexivity. Qed.
