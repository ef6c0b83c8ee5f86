(** OvfSpec.v — vocabulary of C56. *)
From Verif Require Import Base BasModel EnvModel CacheModel.
Local Open Scope Z_scope.

(** A field of type [int] holding a positive size. *)
Definition size32 (z : Z) : Prop := 1 <= z < 2 ^ 31.

(** The integer fields the size computations read: positive, and themselves in range. *)
Record good (e : envs) : Prop := {
  g_nf : size32 (nf e); g_ci : size32 (i_ctr e); g_cj : size32 (j_ctr e);
  g_ck : size32 (k_ctr e); g_cl : size32 (l_ctr e);
  g_nfk : size32 (nfk e); g_nfl : size32 (nfl e);
  g_e1 : size32 (ncomp_e1 e); g_e2 : size32 (ncomp_e2 e); g_t : size32 (ncomp_tensor e);
  g_g : size32 (g_size e); g_nr : size32 (nrys_roots e); g_b : 0 <= gbits e }.
(** The same without a second electron (ncomp_e2 is 0 there). *)
Record good1 (e : envs) : Prop := {
  h_nf : size32 (nf e); h_ci : size32 (i_ctr e); h_cj : size32 (j_ctr e); h_ck : size32 (k_ctr e);
  h_e1 : size32 (ncomp_e1 e); h_t : size32 (ncomp_tensor e);
  h_g : size32 (g_size e); h_nr : size32 (nrys_roots e); h_b : 0 <= gbits e }.

(** The part of the pair-data size computed in FINT, cint2e.c:785-791. *)
Definition prims_2e (e : envs) (ip jp kp lp : Z) : Z :=
  (ip * jp + kp * lp) * 5 + ip * i_ctr e + jp * j_ctr e + kp * k_ctr e + lp * l_ctr e
  + (ip + jp + kp + lp) * 2.

(** Shells within the documented limits (include/cint.h.in 123-129) for an operator [ng]
    whose raised angular momenta still fit the root tables. *)
Record limits4 (ng : ngT) (li lj lk ll ci cj ck cl ip jp kp lp : Z) : Prop := {
  l_l : 0 <= li <= 15 /\ 0 <= lj <= 15 /\ 0 <= lk <= 15 /\ 0 <= ll <= 15;
  l_c : 1 <= ci <= 64 /\ 1 <= cj <= 64 /\ 1 <= ck <= 64 /\ 1 <= cl <= 64;
  l_p : 1 <= ip <= 64 /\ 1 <= jp <= 64 /\ 1 <= kp <= 64 /\ 1 <= lp <= 64;
  l_inc : 0 <= IINC ng /\ 0 <= JINC ng /\ 0 <= KINC ng /\ 0 <= LINC ng;
  l_roots : li + IINC ng + (lj + JINC ng) + (lk + KINC ng) + (ll + LINC ng) <= 63;
  l_bits : 0 <= GSHIFT ng <= 6;
  l_comp : 1 <= POS_E1 ng /\ 1 <= POS_E2 ng /\ 1 <= TENSOR ng /\
           POS_E1 ng * POS_E2 ng * TENSOR ng <= 81 }.

(** Three shells, and the second electron's components absent. *)
Record limits3 (ng : ngT) (li lj lk ci cj ck ip jp kp : Z) : Prop := {
  m_l : 0 <= li <= 15 /\ 0 <= lj <= 15 /\ 0 <= lk <= 15;
  m_c : 1 <= ci <= 64 /\ 1 <= cj <= 64 /\ 1 <= ck <= 64;
  m_p : 1 <= ip <= 64 /\ 1 <= jp <= 64 /\ 1 <= kp <= 64;
  m_inc : 0 <= IINC ng /\ 0 <= JINC ng /\ 0 <= KINC ng;
  m_roots : li + IINC ng + (lj + JINC ng) + (lk + KINC ng) <= 63;
  m_bits : 0 <= GSHIFT ng <= 7;
  m_comp : 1 <= POS_E1 ng /\ 1 <= TENSOR ng /\ POS_E1 ng * TENSOR ng <= 81 }.

(** Two shells. *)
Record limits2 (ng : ngT) (li lj ci cj ip jp : Z) : Prop := {
  n_l : 0 <= li <= 15 /\ 0 <= lj <= 15;
  n_c : 1 <= ci <= 64 /\ 1 <= cj <= 64;
  n_p : 1 <= ip <= 64 /\ 1 <= jp <= 64;
  n_inc : 0 <= IINC ng /\ 0 <= JINC ng;
  n_roots : li + IINC ng + (lj + JINC ng) <= 63 /\ 0 <= POS_E2 ng <= 32;
  n_bits : 0 <= GSHIFT ng <= 6;
  n_comp : 1 <= POS_E1 ng /\ 1 <= TENSOR ng /\ POS_E1 ng * TENSOR ng <= 81 }.

(** What a query in a CACHE_SIZE_T of 32 bits hands back of a size. *)
Definition wrap32 (z : Z) : Z := (z + 2 ^ 31) mod 2 ^ 32 - 2 ^ 31.
