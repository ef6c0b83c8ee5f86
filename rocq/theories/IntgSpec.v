(** IntgSpec.v — what an integrand is supposed to compute: the matrix element of the operator it is
    documented with, as a combination of products of one-dimensional integrals.

    Nothing here refers to the code.  The documentation of every integral is an expression of the
    little language of scripts/auto_intor.cl (README there; meaning of the symbols in
    scripts/parser.cl), e.g. ("int1e_spnucsp" (sigma dot p | nuc | sigma dot p)). *)
From Coq Require Import Reals QArith Qreals.
From Coquelicot Require Import Coquelicot.
From Verif Require Import Base OpSpec.
Local Open Scope nat_scope.

(** ** Functions of one variable, and operators on them *)

(** polynomial times Gaussian *)
Fixpoint peval (P : list R) (y : R) : R := match P with [] => 0%R | c :: P => (c + y * peval P y)%R end.
Definition gpoly (a A : R) (f : R -> R) : Prop :=
  exists P, forall x, f x = (peval P (x - A) * exp (- (a * ((x - A) * (x - A)))))%R.

(** origins a position may be measured from: the centre of a basis function, the common origin,
    the origin of the coordinate system *)
Inductive org := Own (c : centre) | Com | Zero.
(** differentiation, and multiplication with x - origin *)
Inductive prim := D | X (o : org).
(** the leftmost operator is applied last *)
Definition word := list prim.

(** functions on the four centres *)
Definition funs := centre -> R -> R.
Definition updf (F : funs) (c : centre) (f : R -> R) : funs := fun c' =>
  match c, c' with CI, CI => f | CJ, CJ => f | CK, CK => f | CL, CL => f | _, _ => F c' end.

(** ** Products of one-dimensional integrals

    A term of a matrix element: powers of the components of R_i - R_j (0-2) and R_k - R_l (3-5), and for every
    axis (3) and centre (4) a word. *)
Record mono := mkm { m_k : list nat; m_w : list word }.
Definition cnum (c : centre) : nat := match c with CI => 0 | CJ => 1 | CK => 2 | CL => 3 end.
Definition word_at (m : mono) (ax : Z) (c : centre) : word := nth (4 * Z.to_nat ax + cnum c) (m_w m) [].

(** complex rational coefficients *)
Definition cq : Type := Q * Q.
Definition poly : Type := list (cq * mono).

Section Value.
  (** exponents, centres (by axis), common origin *)
  Variables (a : centre -> R) (A : centre -> Z -> R) (O : Z -> R).
  (** the one-dimensional integral of four functions, by axis and quadrature root *)
  Variable I : Z -> Z -> funs -> R.

  Definition origin (o : org) (ax : Z) : R := match o with Own c => A c ax | Com => O ax | Zero => 0%R end.
  Definition prim_fun (ax : Z) (p : prim) (f : R -> R) : R -> R :=
    match p with D => Derive f | X o => fun x => ((x - origin o ax) * f x)%R end.
  Definition word_fun (ax : Z) (w : word) (f : R -> R) : R -> R := fold_right (prim_fun ax) f w.

  (** [I] is linear in the function on centre [c], for functions of the form polynomial times
      Gaussian *)
  Definition linear_in (c : centre) : Prop := forall ax o F f g s t,
    (forall c', gpoly (a c') (A c' ax) (F c')) -> gpoly (a c) (A c ax) f -> gpoly (a c) (A c ax) g ->
    I ax o (updf F c (fun x => s * f x + t * g x))%R = (s * I ax o (updf F c f) + t * I ax o (updf F c g))%R.

  (** [I] is an integral over one variable of the product of the functions on i and j (times
      something that commutes): derivatives and positions can be moved from one to the other *)
  Definition by_parts : Prop := forall ax o F, (forall c, gpoly (a c) (A c ax) (F c)) ->
    I ax o (updf F CI (Derive (F CI))) = (- I ax o (updf F CJ (Derive (F CJ))))%R /\
    forall x0, I ax o (updf F CI (fun x => (x - x0) * F CI x))%R =
               I ax o (updf F CJ (fun x => (x - x0) * F CJ x))%R.

  (** quadrature roots, and the powers of the Cartesian functions by axis and centre *)
  Variables (roots : list Z) (pw : Z -> centre -> Z).
  Definition rsum (l : list R) : R := fold_right Rplus 0%R l.
  Definition csum (l : list C) : C := fold_right Cplus (RtoC 0) l.
  Definition base (ax : Z) (c : centre) : R -> R := phi (a c) (A c ax) (Z.to_nat (pw ax c)).
  Definition term (m : mono) (o ax : Z) : R := I ax o (fun c => word_fun ax (word_at m ax c) (base ax c)).
  Definition kpow (m : mono) (q : centre * centre) (off : nat) (ax : Z) : R :=
    ((A (fst q) ax - A (snd q) ax) ^ nth (off + Z.to_nat ax) (m_k m) 0%nat)%R.
  Definition mval (m : mono) : R :=
    (kpow m (CI, CJ) 0 0 * kpow m (CI, CJ) 0 1 * kpow m (CI, CJ) 0 2 *
     (kpow m (CK, CL) 3 0 * kpow m (CK, CL) 3 1 * kpow m (CK, CL) 3 2) *
     rsum (map (fun o => term m o 0 * term m o 1 * term m o 2) roots))%R.
  Definition cval (q : cq) : C := (Q2R (fst q), Q2R (snd q)).
  Definition den (p : poly) : C := csum (map (fun t => cval (fst t) * RtoC (mval (snd t)))%C p).
End Value.

(** ** The operator language *)

Definition cq1 : cq := (1%Q, 0%Q).
Definition cqi : cq := (0%Q, 1%Q).
Definition cqmul (x y : cq) : cq :=
  (Qred (fst x * fst y - snd x * snd y), Qred (fst x * snd y + snd x * fst y))%Q.
Definition cqadd (x y : cq) : cq := (Qred (fst x + fst y), Qred (snd x + snd y))%Q.

Definition pscale (q : cq) (p : poly) : poly := map (fun t => (cqmul q (fst t), snd t)) p.
Definition pact (f : mono -> mono) (p : poly) : poly := map (fun t => (fst t, f (snd t))) p.

Fixpoint upd_nth {T} (k : nat) (f : T -> T) (l : list T) : list T :=
  match l, k with
  | [], _ => []
  | x :: l, 0 => f x :: l
  | x :: l, S k => x :: upd_nth k f l
  end.
(** An operator on a bra function (i or k) stands left of what is already there in the matrix
    element read from the inside of the bra outwards, so it is applied last; one on a ket function
    (j or l) is applied first. *)
Definition act (ax : nat) (c : centre) (p : prim) (m : mono) : mono :=
  mkm (m_k m) (upd_nth (4 * ax + cnum c)
    (fun w => match c with CI | CK => p :: w | CJ | CL => w ++ [p] end) (m_w m)).
Definition kact (second : bool) (ax : nat) (m : mono) : mono :=
  mkm (upd_nth ((if second then 3 else 0) + ax) S (m_k m)) (m_w m).
Definition mono1 : mono := mkm (repeat 0 6) (repeat [] 12).

(** A spin operator: coefficients of sigma_x, sigma_y, sigma_z and the unit matrix. *)
Inductive spin := SX | SY | SZ | S1.
Record quat := mkq { q_x : poly; q_y : poly; q_z : poly; q_1 : poly }.
Definition qsel (q : quat) (s : spin) : poly := match s with SX => q_x q | SY => q_y q | SZ => q_z q | S1 => q_1 q end.
Definition qone : quat := mkq [] [] [] [(cq1, mono1)].
Definition qmap (f : poly -> poly) (q : quat) : quat := mkq (f (q_x q)) (f (q_y q)) (f (q_z q)) (f (q_1 q)).
Definition qadd (q r : quat) : quat := mkq (q_x q ++ q_x r) (q_y q ++ q_y r) (q_z q ++ q_z r) (q_1 q ++ q_1 r).
Definition qscale (c : cq) (q : quat) : quat := qmap (pscale c) q.
Definition cneg (c : cq) : cq := cqmul ((-1)%Q, 0%Q) c.
(** q sigma_a, from sigma_x sigma_y = i sigma_z and cyclic, sigma_a sigma_a = 1 *)
Definition qsigma (q : quat) (ax : nat) : quat :=
  let i p := pscale cqi p in let mi p := pscale (cneg cqi) p in
  match ax with
  | 0 => mkq (q_1 q) (i (q_z q)) (mi (q_y q)) (q_x q)
  | 1 => mkq (mi (q_z q)) (q_1 q) (i (q_x q)) (q_y q)
  | _ => mkq (i (q_y q)) (mi (q_x q)) (q_1 q) (q_z q)
  end.

(** Vector operators, with the function they act on: spin, gradient, momentum (-i times the
    gradient on a ket; conjugated on a bra), position, the gauge-origin vector
    i/2 (R_m - R_n) x r (parser.cl), and minus the gradient of the Coulomb operator, which by
    partial integration is the gradient of the product of the two functions of the electron. *)
Inductive vec :=
| VSigma
| VNabla (c : centre)
| VP (c : centre)
| VPos (c : centre) (o : org)
| VGiao (c : centre) (second : bool)
| VGrad (c1 c2 : centre).

Definition bra (c : centre) : bool := match c with CI | CK => true | _ => false end.

Definition vapply (q : quat) (v : vec) (ax : nat) : quat :=
  match v with
  | VSigma => qsigma q ax
  | VNabla c => qmap (pact (act ax c D)) q
  | VP c => qscale (if bra c then cqi else cneg cqi) (qmap (pact (act ax c D)) q)
  | VPos c o => qmap (pact (act ax c (X o))) q
  | VGiao c s =>
      let b := Nat.modulo (ax + 1) 3 in let d := Nat.modulo (ax + 2) 3 in
      let h := (0%Q, (1 # 2)%Q) in
      qadd (qscale h (qmap (fun p => pact (act d c (X Zero)) (pact (kact s b) p)) q))
           (qscale (cneg h) (qmap (fun p => pact (act b c (X Zero)) (pact (kact s d) p)) q))
  | VGrad c1 c2 => qadd (qmap (pact (act ax c1 D)) q) (qmap (pact (act ax c2 D)) q)
  end.

(** A factor of an expression: a vector (its component becomes a tensor index), one fixed
    component of a vector, a scalar product, a vector product (negated if [neg]). *)
Inductive fac := FV (v : vec) | FS (v : vec) (ax : nat) | FDot (v w : vec) | FCross (neg : bool) (v w : vec).
Definition fapply (q : quat) (f : fac) (ax : nat) : quat :=
  match f with
  | FV v => vapply q v ax
  | FS v x => vapply q v x
  | FDot v w => qadd (vapply (vapply q v 0) w 0) (qadd (vapply (vapply q v 1) w 1) (vapply (vapply q v 2) w 2))
  | FCross neg v w =>
      let b := Nat.modulo (ax + 1) 3 in let d := Nat.modulo (ax + 2) 3 in
      let r := qadd (vapply (vapply q v b) w d) (qscale (cneg cq1) (vapply (vapply q v d) w b)) in
      if neg then qscale (cneg cq1) r else r
  end.

(** The words of the language; p* is p.  r is relative to the own centre, rc to the common origin,
    r0 to the origin; z and zc are the z components of r and rc; g is the gauge-origin vector;
    grad stands for nabla-rinv and nabla-r12.  The words naming the Coulomb operator itself (nuc, rinv,
    r12, grids, ovlp) contribute nothing to the algebra. *)
Inductive tok := sigma | nabla | p_ | r_ | rc | r0 | g_ | grad | z_ | zc | dot | cross.
(** place of a word: on the bra, in the operator or on the ket *)
Inductive place := PB | PO | PK.

Definition vec_of (second : bool) (t : tok) (pl : place) : vec :=
  let cb := if second then CK else CI in
  let ck := if second then CL else CJ in
  let c := match pl with PB => cb | _ => ck end in
  match t with
  | sigma => VSigma
  | nabla => VNabla c
  | p_ => VP c
  | r_ | z_ => VPos c (Own c)
  | rc | zc => VPos c Com
  | r0 => VPos c Zero
  | g_ => VGiao c second
  | _ => VGrad cb ck
  end.

(** Grouping into factors.  A vector product inside the bra is read backwards, hence with the
    opposite sign. *)
Fixpoint group (second : bool) (l : list (tok * place)) : list (fac * place) :=
  match l with
  | (z_, pl) :: l => (FS (vec_of second z_ pl) 2, pl) :: group second l
  | (zc, pl) :: l => (FS (vec_of second zc pl) 2, pl) :: group second l
  | (t, pl) :: (dot, _) :: (u, pu) :: l => (FDot (vec_of second t pl) (vec_of second u pu), pl) :: group second l
  | (t, pl) :: (cross, pc) :: (u, pu) :: l =>
      (FCross (match pc with PB => true | _ => false end) (vec_of second t pl) (vec_of second u pu), pl) :: group second l
  | (t, pl) :: l => (FV (vec_of second t pl), pl) :: group second l
  | [] => []
  end.

(** One electron: words on the bra (as written, outermost first), in the operator, on the ket.
    [mid] is inserted between bra and ket. *)
Definition chain (second : bool) (e : list tok * list tok * list tok) (mid : list fac) : list (fac * place) :=
  let '(b, o, k) := e in
  let tb := map (fun t => (t, PB)) (rev b) in
  let tk := map (fun t => (t, PO)) o ++ map (fun t => (t, PK)) k in
  match mid with
  | [] => group second (tb ++ tk)
  | _ => group second tb ++ map (fun f => (f, PO)) mid ++ group second tk
  end.

Definition is_index (f : fac) : bool := match f with FV _ | FCross _ _ _ => true | _ => false end.
Definition in_bra (f : fac * place) : bool := match snd f with PB => true | _ => false end.
Definition nindex (l : list (fac * place)) : nat := length (filter (fun f => is_index (fst f)) l).

(** Tensor indices are numbered in the order in which the expression is written: bra (which the
    chain has reversed), operator, ket. *)
Fixpoint slots (nb : nat) (kb : nat) (kr : nat) (l : list (fac * place)) : list (fac * nat) :=
  match l with
  | [] => []
  | (f, pl) :: l =>
      if is_index f then
        if in_bra (f, pl) then (f, nb - 1 - kb) :: slots nb (S kb) kr l
        else (f, nb + kr) :: slots nb kb (S kr) l
      else (f, 0) :: slots nb kb kr l
  end.

Definition eval_chain (l : list (fac * place)) (ix : list nat) : quat :=
  fold_left (fun q fs => fapply q (fst fs) (nth (snd fs) ix 0))
    (slots (nindex (filter in_bra l)) 0 0 l) qone.

(** all tuples of n components, the last one fastest *)
Fixpoint tuples (n : nat) : list (list nat) :=
  match n with 0 => [[]] | S n => flat_map (fun a => map (cons a) (tuples n)) [0; 1; 2] end.

(** A documented expression: a complex factor, the words of electron 1 and electron 2 (the third
    function of a three-centre integral is the bra of electron 2), and a list of pairs to sum over
    (Gaunt and Breit operators: see IntgTab.v). *)
Record doc := mkd {
  d_fac : cq;
  d_1 : list tok * list tok * list tok;
  d_2 : list tok * list tok * list tok;
  d_mid : list (list fac * list fac) }.

Definition wmul (l r : list word) : list word := map (fun x => fst x ++ snd x) (combine l r).
Definition kmul (l r : list nat) : list nat := map (fun x => fst x + snd x) (combine l r).
(** product of terms of different electrons *)
Definition mmul (x y : mono) : mono := mkm (kmul (m_k x) (m_k y)) (wmul (m_w x) (m_w y)).
Definition pmul (p q : poly) : poly :=
  flat_map (fun t => map (fun u => (cqmul (fst t) (fst u), mmul (snd t) (snd u))) q) p.

(** The components: electron 1 tensor index slowest, then electron 2. *)
Definition spec_pairs (d : doc) : list (list (quat * quat)) :=
  let n1 := match d_mid d with [] => nindex (chain false (d_1 d) []) | (m, _) :: _ => nindex (chain false (d_1 d) m) end in
  let n2 := match d_mid d with [] => nindex (chain true (d_2 d) []) | (_, m) :: _ => nindex (chain true (d_2 d) m) end in
  let mids := match d_mid d with [] => [([], [])] | l => l end in
  flat_map (fun i1 => map (fun i2 =>
    map (fun m => (eval_chain (chain false (d_1 d) (fst m)) i1,
                   eval_chain (chain true (d_2 d) (snd m)) i2)) mids) (tuples n2)) (tuples n1).

(** component [t] with spin operator [s1] on electron 1 and [s2] on electron 2 *)
Definition spec_of (d : doc) (qs : list (quat * quat)) (s1 s2 : spin) : poly :=
  pscale (d_fac d) (flat_map (fun q => pmul (qsel (fst q) s1) (qsel (snd q) s2)) qs).

(** ** Output convention

    A transform without spin stores component 1 only; one with spin stores x, y, z, 1, and reads
    the three spin components as coefficients of i sigma_x, i sigma_y, i sigma_z.  The components
    of electron 1 vary fastest, then those of electron 2, then the tensor. *)
Definition stored (si : bool) : list spin := if si then [SX; SY; SZ; S1] else [S1].
Definition cqpow (n : nat) : cq := Nat.iter n (cqmul cqi) cq1.
Definition spin_i (s : spin) : nat := match s with S1 => 0 | _ => 1 end.
Definition components (d : doc) (si1 si2 : bool) : list (spin * spin * poly) :=
  flat_map (fun qs => flat_map (fun s2 => map (fun s1 => (s1, s2, spec_of d qs s1 s2))
    (stored si1)) (stored si2)) (spec_pairs d).
