(** IntgStmt.v — what running an integrand requires and promises. *)
From Coq Require Import Reals QArith String.
From Coquelicot Require Import Coquelicot.
From Verif Require Import Base EnvModel OpSpec IntgModel IntgSpec IntgTab.
Local Open Scope Z_scope.

(** the slots ng of an entry point; C57 shows that all functions of one name use the same *)
Definition ent_ng (t : ent) : option ngT := hd_error (en_ng (t_e t)).

(** The factor common_factor is multiplied with (by the spinor function, or by the others if
    there is none), and the power of i supplied by the spinor transforms: one for every transform
    with an i in its name, one for every spin matrix. *)
Definition qfac (f : Z * positive) : cq := (Qmake (fst f) (snd f), 0%Q).
Definition factor (e : gentry) : option (Z * positive) :=
  match en_spinor e with Some f => Some f | None => en_sph e end.
Definition sis (c : option c2s) : bool := match c with Some c => c_si c | None => false end.
Definition ims (c : option c2s) : nat := match c with Some c => if c_im c then 1 else 0 | None => 0 end.
Definition phase (e : gentry) (s1 s2 : spin) : cq :=
  cqpow (ims (en_c2s1 e) + ims (en_c2s2 e) + spin_i s1 + spin_i s2).

(** ** Memory *)

(** the cell of root offset [o] and orders [n] within one axis *)
Definition cell (e : envs) (o : Z) (n : centre -> Z) : Z :=
  o + g_stride_i e * n CI + g_stride_k e * n CK + g_stride_l e * n CL + g_stride_j e * n CJ.
(** the offsets within a row of cells: the quadrature roots, for grids also the points *)
Definition ofs (K : gkind) (e : envs) (bg o : Z) : Prop :=
  match K with
  | K1 => o = 0
  | K2 => 0 <= o < nrys_roots e
  | KG => exists g n, 0 <= g < bg /\ 0 <= n < nrys_roots e /\ o = g + GRID_BLKSIZE * n
  end.
(** the roots summed over for point [ig] *)
Definition roots (K : gkind) (e : envs) (ig : Z) : list Z :=
  match K with
  | K1 => [0]
  | K2 => map Z.of_nat (seq 0 (Z.to_nat (nrys_roots e)))
  | KG => map (fun i => ig + GRID_BLKSIZE * Z.of_nat i) (seq 0 (Z.to_nat (nrys_roots e)))
  end.
Definition top (fam : gfam) (ng : ngT) (l : centre -> Z) (c : centre) : Z :=
  if used fam c then l c + incr ng c else 0.

(** The call CINTgoutXXX(gout, g, idx, envs, empty) for shells of angular momenta [l]:
    - the buffer has the size the drivers allocate, ((1 << GSHIFT) + 1) * 3 * g_size, and every cell
      holds some number (of which nothing is assumed beyond block 0);
    - block 0 holds, for every axis, root and all orders up to l + inc, the one-dimensional
      integral [I] of the Gaussians of these orders; [I] is linear in the function of every centre;
    - idx[3n+ax] is the cell of the powers of Cartesian function n;
    - gout is large enough, and is initialised if it is added to. *)
Record call (t : ent) (ng : ngT) (om : bool) (l ctr : centre -> Z) (x : gin R) (I : Z -> Z -> funs -> R)
    (pw : Z -> Z -> centre -> Z) (empty : bool) (idx : arr Z) (m gout : arr R) : Prop := mkcall {
  call_ng : ent_ng t = Some ng;
  call_env : x_env x = fam_env (en_fam (t_e t)) om ng l ctr;
  call_l : forall c, used (en_fam (t_e t)) c = true -> 0 <= l c;
  call_bg : g_kind (t_f t) = KG -> 0 <= x_bg x <= GRID_BLKSIZE;
  call_size : (2 ^ GSHIFT ng + 1) * (3 * g_size (x_env x)) <= asize m;
  call_full : forall q, 0 <= q < asize m -> exists v, rd m q = Some v;
  call_lin : forall c, used (en_fam (t_e t)) c = true -> linear_in (x_a x) (x_R x) I c;
  call_g0 : forall ax o n, 0 <= ax < 3 -> ofs (g_kind (t_f t)) (x_env x) (x_bg x) o ->
    (forall c, 0 <= n c <= top (en_fam (t_e t)) ng l c) ->
    rd m (ax * g_size (x_env x) + cell (x_env x) o n) =
    Some (I ax o (fun c => phi (x_a x c) (x_R x c ax) (Z.to_nat (n c))));
  call_idx : forall n ax, 0 <= n < nf (x_env x) -> 0 <= ax < 3 ->
    rd idx (n * 3 + ax) = Some (ax * g_size (x_env x) + cell (x_env x) 0 (pw n ax)) /\
    forall c, 0 <= pw n ax c /\ (if used (en_fam (t_e t)) c then pw n ax c <= l c else pw n ax c = 0);
  call_out : points x (g_kind (t_f t)) * (nf (x_env x) * Z.of_nat (length (g_rows (t_f t)))) <= asize gout;
  call_old : empty = false -> forall q, 0 <= q < asize gout -> exists v, rd gout q = Some v }.

(** position of component [k] of function [n] at point [ig] *)
Definition pos (x : gin R) (t : ent) (n ig k : Z) : Z :=
  ig + points x (g_kind (t_f t)) * (n * Z.of_nat (length (g_rows (t_f t))) + k).
Definition valid (x : gin R) (t : ent) (n ig k : Z) : Prop :=
  0 <= n < nf (x_env x) /\ 0 <= ig < points x (g_kind (t_f t)) /\ 0 <= k < Z.of_nat (length (g_rows (t_f t))).

(** The call succeeds, changes gout only at the positions of its results, and what it puts there
    (or adds), times [sc] * factor * phase, is the value of the expression of that component. *)
Definition computes (sc : cq) (comps : list (spin * spin * poly)) (t : ent) (x : gin R) (I : Z -> Z -> funs -> R)
    (pw : Z -> Z -> centre -> Z) (empty : bool) (idx : arr Z) (m gout : arr R) : Prop :=
  length comps = length (g_rows (t_f t)) /\
  exists f gout', factor (t_e t) = Some f /\
    run_gout 0%R 1%R Rplus Rmult Rminus IZR x (t_f t) empty idx m gout = Some gout' /\
    Frame (fun q => exists n ig k, valid x t n ig k /\ q = pos x t n ig k) gout gout' /\
    forall n ig k s1 s2 q, valid x t n ig k -> nth_error comps (Z.to_nat k) = Some (s1, s2, q) ->
      exists v old, rd gout' (pos x t n ig k) = Some (old + v)%R /\
        (if empty then old = 0%R else rd gout (pos x t n ig k) = Some old) /\
        (cval (cqmul sc (cqmul (qfac f) (phase (t_e t) s1 s2))) * RtoC v)%C =
        den (x_a x) (x_R x) (x_C x) I (roots (g_kind (t_f t)) (x_env x) ig) (pw n) q.
