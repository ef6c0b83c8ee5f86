(** PropsFblas.v — property C44 (dense kernels).  Statements only.
    Scalars and their operations are arbitrary: no law is assumed. *)
From Verif Require Import Base FblasModel FblasSpec FblasProof.

Theorem C44_dset0 {F} (zero : F) (n : Z) (x : arr F) : 0 <= n <= asize x ->
  exists x', CINTdset0 zero n x = Some x' /\ asize x' = asize x /\
    (forall i, 0 <= i < n -> rd x' i = Some zero) /\
    (forall i, ~ (0 <= i < n) -> acell x' i = acell x i).
Proof. exact (dset0_ok zero n x). Qed.
Print Assumptions C44_dset0.

Theorem C44_daxpy2v {F} (add mul : F -> F -> F) (n : Z) (al : F) (x y v : arr F) (xv yv : Z -> F) :
  0 <= n <= asize v ->
  (forall i, 0 <= i < n -> rd x i = Some (xv i)) ->
  (forall i, 0 <= i < n -> rd y i = Some (yv i)) ->
  exists v', CINTdaxpy2v add mul n al x y v = Some v' /\ asize v' = asize v /\
    (forall i, 0 <= i < n -> rd v' i = Some (add (mul al (xv i)) (yv i))) /\
    (forall i, ~ (0 <= i < n) -> acell v' i = acell v i).
Proof. exact (daxpy2v_ok add mul n al x y v xv yv). Qed.
Print Assumptions C44_daxpy2v.

(** Source matrices are row-major: element (i,j) of the m x n source is cell i*n+j;
    the result is element (i,j) at cell j*m+i. *)
Theorem C44_transpose {F} (m n : Z) (a t0 : arr F) (M : Z -> Z -> F) :
  0 <= m -> 0 <= n -> holds a n n m (fun j i => M i j) -> m * n <= asize t0 ->
  exists t', CINTdmat_transpose t0 a m n = Some t' /\ stored_exactly t0 t' m m n M.
Proof. exact (transpose_ok m n a t0 M). Qed.
Print Assumptions C44_transpose.

Theorem C44_plus_transpose {F} (add : F -> F -> F) (m n : Z) (a t0 : arr F) (M T : Z -> Z -> F) :
  0 <= m -> 0 <= n -> holds a n n m (fun j i => M i j) -> m * n <= asize t0 -> holds t0 m m n T ->
  exists t', CINTdplus_transpose add t0 a m n = Some t' /\
    stored_exactly t0 t' m m n (fun i j => add (T i j) (M i j)).
Proof. exact (plus_transpose_ok add m n a t0 M T). Qed.
Print Assumptions C44_plus_transpose.

Theorem C44_ztranspose {F} (m n : Z) (a t0 : arr F) (M : Z -> Z -> F) :
  0 <= m -> 0 <= n -> holds a n n m (fun j i => M i j) -> m * n <= asize t0 ->
  exists t', CINTzmat_transpose t0 a m n = Some t' /\ stored_exactly t0 t' m m n M.
Proof. exact (ztranspose_ok m n a t0 M). Qed.
Print Assumptions C44_ztranspose.

Theorem C44_dagger {F} (conj : F -> F) (m n : Z) (a t0 : arr F) (M : Z -> Z -> F) :
  0 <= m -> 0 <= n -> holds a n n m (fun j i => M i j) -> m * n <= asize t0 ->
  exists t', CINTzmat_dagger conj t0 a m n = Some t' /\
    stored_exactly t0 t' m m n (fun i j => conj (M i j)).
Proof. exact (dagger_ok conj m n a t0 M). Qed.
Print Assumptions C44_dagger.

Theorem C44_gemm_NN1 {F} (zero : F) (add mul : F -> F -> F) (m n k ldc : Z) (a b c0 : arr F)
    (A B : Z -> Z -> F) :
  0 <= m -> 0 <= n -> 0 <= k -> m <= ldc -> ldc * (n - 1) + m <= asize c0 \/ n = 0 \/ m = 0 ->
  holds a m m k A -> holds b k k n B ->
  exists c', CINTdgemm_NN1 zero add mul m n k a b c0 ldc = Some c' /\
    stored_exactly c0 c' ldc m n (prod zero add mul k A B).
Proof. exact (dgemm_NN1_ok zero add mul m n k ldc a b c0 A B). Qed.
Print Assumptions C44_gemm_NN1.

Theorem C44_gemm_NN {F} (zero : F) (add mul : F -> F -> F) (m n k : Z) (a b c0 : arr F)
    (A B : Z -> Z -> F) :
  0 <= m -> 0 <= n -> 0 <= k -> m * n <= asize c0 -> holds a m m k A -> holds b k k n B ->
  exists c', CINTdgemm_NN zero add mul m n k a b c0 = Some c' /\
    stored_exactly c0 c' m m n (prod zero add mul k A B).
Proof. exact (dgemm_NN_ok zero add mul m n k a b c0 A B). Qed.
Print Assumptions C44_gemm_NN.

Theorem C44_gemm_TN {F} (zero : F) (add mul : F -> F -> F) (m n k : Z) (a b c0 : arr F)
    (A B : Z -> Z -> F) :
  0 <= m -> 0 <= n -> 0 <= k -> m * n <= asize c0 ->
  holds a k k m (fun p i => A i p) -> holds b k k n B ->
  exists c', CINTdgemm_TN zero add mul m n k a b c0 = Some c' /\
    stored_exactly c0 c' m m n (prod zero add mul k A B).
Proof. exact (dgemm_TN_ok zero add mul m n k a b c0 A B). Qed.
Print Assumptions C44_gemm_TN.

Theorem C44_gemm_NT {F} (zero : F) (add mul : F -> F -> F) (m n k : Z) (a b c0 : arr F)
    (A B : Z -> Z -> F) :
  0 <= m -> 0 <= n -> 0 <= k -> m * n <= asize c0 ->
  holds a m m k A -> holds b n n k (fun j p => B p j) ->
  exists c', CINTdgemm_NT zero add mul m n k a b c0 = Some c' /\
    stored_exactly c0 c' m m n (prod zero add mul k A B).
Proof. exact (dgemm_NT_ok zero add mul m n k a b c0 A B). Qed.
Print Assumptions C44_gemm_NT.

(** Non-vacuity: a 2 x 5 source (one block of four columns plus a remainder of one)
    into an unwritten destination, and a product into a strided destination whose
    gap cell stays unwritten. *)
Example C44_nonvacuous_transpose : holds exA 5 5 2 (fun j i => 5 * i + j).
Proof. exact example_holds. Qed.
Example C44_nonvacuous_run : exists t', CINTdmat_transpose (uninit 10) exA 2 5 = Some t' /\
  map (rd t') [0;1;2;3;4;5;6;7;8;9] = map Some [0;5;1;6;2;7;3;8;4;9].
Proof. exact example_transpose. Qed.
Example C44_nonvacuous_gemm : exists c',
  CINTdgemm_NN1 0 Z.add Z.mul 2 2 5 exA exA (uninit 7) 3 = Some c' /\
  map (rd c') [0;1;2;3;4] = [Some 60; Some 70; None; Some 160; Some 195].
Proof. exact example_gemm. Qed.
