(** FblasModel.v — model of src/fblas.c.
    Scalars are an arbitrary type with law-free operations, so the results hold
    literally for IEEE doubles.  Source and destination arrays are distinct
    objects (the callers never alias them). *)
From Verif Require Import Base.

Section Fblas.
  Context {F : Type} (zero : F) (add mul : F -> F -> F) (conj : F -> F).

  (** fblas.c:13-19 *)
  Definition CINTdset0 (n : Z) (x : arr F) : option (arr F) :=
    for_ 0 n (fun i x => wr x i zero) x.

  (** fblas.c:25-33 *)
  Definition CINTdaxpy2v (n : Z) (a : F) (x y v : arr F) : option (arr F) :=
    for_ 0 n (fun i v => xi <- rd x i ;; yi <- rd y i ;; wr v i (add (mul a xi) yi)) v.

  (** one assignment [a_t[(j)*m+i] = a[i*n+j]] of fblas.c:45-48, 56, 62-63, 69-71 *)
  Definition tr1 (a : arr F) (m n i j : Z) (t : arr F) : option (arr F) :=
    v <- rd a (i * n + j) ;; wr t (j * m + i) v.

  (** fblas.c:38-75; the switch has no default: nothing happens for n-j = 0 *)
  Definition CINTdmat_transpose (t a : arr F) (m n : Z) : option (arr F) :=
    t <- for_by 0 (n - 3) 4 (fun j t =>
           for_ 0 m (fun i t =>
             t <- tr1 a m n i (j + 0) t ;;
             t <- tr1 a m n i (j + 1) t ;;
             t <- tr1 a m n i (j + 2) t ;;
             tr1 a m n i (j + 3) t) t) t ;;
    let j := for_by_end 0 (n - 3) 4 in
    match n - j with
    | 1 => for_ 0 m (fun i t => tr1 a m n i j t) t
    | 2 => for_ 0 m (fun i t => t <- tr1 a m n i (j + 0) t ;; tr1 a m n i (j + 1) t) t
    | 3 => for_ 0 m (fun i t => t <- tr1 a m n i (j + 0) t ;; t <- tr1 a m n i (j + 1) t ;;
                                tr1 a m n i (j + 2) t) t
    | _ => Some t
    end.

  (** one assignment [a_t[(j)*m+i] += a[i*n+j]] of fblas.c:87-114 *)
  Definition ptr1 (a : arr F) (m n i j : Z) (t : arr F) : option (arr F) :=
    v <- rd a (i * n + j) ;; o <- rd t (j * m + i) ;; wr t (j * m + i) (add o v).

  (** fblas.c:80-117 *)
  Definition CINTdplus_transpose (t a : arr F) (m n : Z) : option (arr F) :=
    t <- for_by 0 (n - 3) 4 (fun j t =>
           for_ 0 m (fun i t =>
             t <- ptr1 a m n i (j + 0) t ;;
             t <- ptr1 a m n i (j + 1) t ;;
             t <- ptr1 a m n i (j + 2) t ;;
             ptr1 a m n i (j + 3) t) t) t ;;
    let j := for_by_end 0 (n - 3) 4 in
    match n - j with
    | 1 => for_ 0 m (fun i t => ptr1 a m n i j t) t
    | 2 => for_ 0 m (fun i t => t <- ptr1 a m n i (j + 0) t ;; ptr1 a m n i (j + 1) t) t
    | 3 => for_ 0 m (fun i t => t <- ptr1 a m n i (j + 0) t ;; t <- ptr1 a m n i (j + 1) t ;;
                                ptr1 a m n i (j + 2) t) t
    | _ => Some t
    end.

  (** fblas.c:122-148 *)
  Definition CINTzmat_transpose (t a : arr F) (m n : Z) : option (arr F) :=
    if n =? 2 then
      for_ 0 m (fun i t =>
        v0 <- rd a (2 * i + 0) ;; t <- wr t i v0 ;;
        v1 <- rd a (2 * i + 1) ;; wr t (i + m) v1) t
    else if m =? 2 then
      for_ 0 n (fun i t =>
        v0 <- rd a i ;; t <- wr t (2 * i + 0) v0 ;;
        v1 <- rd a (i + n) ;; wr t (2 * i + 1) v1) t
    else
      for_ 0 n (fun i t => for_ 0 m (fun j t =>
        v <- rd a (j * n + i) ;; wr t (i * m + j) v) t) t.

  (** fblas.c:150-159 *)
  Definition CINTzmat_dagger (t a : arr F) (m n : Z) : option (arr F) :=
    for_ 0 n (fun i t => for_ 0 m (fun j t =>
      v <- rd a (j * n + i) ;; wr t (i * m + j) (conj v)) t) t.

  (** fblas.c:161-178 *)
  Definition CINTdgemm_NN1 (m n k : Z) (a b c : arr F) (ldc : Z) : option (arr F) :=
    for_ 0 n (fun j c =>
      c <- for_ 0 m (fun i c => wr c (i + ldc * j) zero) c ;;
      for_ 0 k (fun kp c =>
        bi <- rd b (kp + k * j) ;;
        for_ 0 m (fun i c =>
          ci <- rd c (i + ldc * j) ;; ai <- rd a (i + m * kp) ;;
          wr c (i + ldc * j) (add ci (mul ai bi))) c) c) c.

  (** fblas.c:180-184 *)
  Definition CINTdgemm_NN (m n k : Z) (a b c : arr F) : option (arr F) :=
    CINTdgemm_NN1 m n k a b c m.

  (** fblas.c:186-201 *)
  Definition CINTdgemm_TN (m n k : Z) (a b c : arr F) : option (arr F) :=
    for_ 0 n (fun j c => for_ 0 m (fun i c =>
      ci <- for_ 0 k (fun kp ci =>
              ai <- rd a (kp + k * i) ;; bi <- rd b (kp + k * j) ;;
              Some (add ci (mul ai bi))) zero ;;
      wr c (i + m * j) ci) c) c.

  (** fblas.c:203-220 *)
  Definition CINTdgemm_NT (m n k : Z) (a b c : arr F) : option (arr F) :=
    for_ 0 n (fun j c =>
      c <- for_ 0 m (fun i c => wr c (i + m * j) zero) c ;;
      for_ 0 k (fun kp c =>
        bi <- rd b (j + n * kp) ;;
        for_ 0 m (fun i c =>
          ci <- rd c (i + m * j) ;; ai <- rd a (i + m * kp) ;;
          wr c (i + m * j) (add ci (mul ai bi))) c) c) c.
End Fblas.
