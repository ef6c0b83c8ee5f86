(** RysSpec.v — vocabulary of the claims about the root solvers. *)
From Coq Require Import Reals.
From Verif Require Import Base RysModel.

(** Cell [i] may be read. *)
Definition readable {A} (a : arr A) (i : Z) : Prop := exists v, rd a i = Some v.
Definition readable_upto {A} (a : arr A) (n : Z) : Prop := forall i, 0 <= i < n -> readable a i.

(** A static table of exactly [n] entries. *)
Definition table {A} (a : arr A) (n : Z) : Prop := asize a = n /\ readable_upto a n.

(** The sizes of the static tables: [rows] polynomials, [len] recursion coefficients for
    Flocke's recipe started [extra] orders above. *)
Definition has_tables (p : prec) (rows len extra : Z) : Prop :=
  table (pALPHA p) rows /\ table (pBETA p) rows /\ table (pRN p) len /\ table (pSN p) len /\
  table (pCOEF p) (rows * (rows + 1) / 2) /\ pEXTRA p = extra /\ (0 < pSML p < 1)%R.

(** rys_wheeler.c as compiled with and without quadmath.h *)
Definition quad_build (tabs : P3 -> prec) : Prop :=
  has_tables (tabs DP) 48 88 20 /\ has_tables (tabs LP) 48 88 24 /\ has_tables (tabs QP) 64 64 36.
Definition no_quad_build (tabs : P3 -> prec) : Prop :=
  has_tables (tabs DP) 48 88 20 /\ has_tables (tabs LP) 48 88 24 /\ tabs QP = tabs LP.

(** An order table with [rows] rows, row i being a rearrangement of 0..i. *)
Definition order_table (ord : arr Z) (rows : Z) : Prop :=
  asize ord = rows * (rows + 1) / 2 /\
  forall i, 0 <= i < rows -> exists l,
    (forall j, 0 <= j <= i -> rd ord (i * (i + 1) / 2 + j) = Some (nth (Z.to_nat j) l 0)) /\
    length l = Z.to_nat (i + 1) /\ NoDup l /\ (forall k, In k l <-> 0 <= k <= i).

(** A run that returns [Some] has written the two result arrays unless it reports an error. *)
Definition good_result (n : Z) (r : option (Z * dst)) : Prop :=
  exists e log u w, r = Some (e, (log, u, w)) /\
    (e = 0 -> readable_upto u n /\ readable_upto w n).

(** Every solver call recorded in the log failed. *)
Definition all_failed (log : list (solver * Z)) : Prop := Forall (fun c => snd c <> 0) log.

(** The range of lower limits for which CINTsr_rys_roots has a solver at all. *)
Definition sr_limit (n : Z) : option R :=
  if n <=? 6 then None
  else Some (if n <=? 14 then 1 else if n <=? 16 then 75 / 100 else if n <=? 18 then 65 / 100 else
             if n <=? 19 then 55 / 100 else if n <=? 21 then 45 / 100 else 35 / 100)%R.
Definition below_limit (n : Z) (l : R) : Prop := match sr_limit n with None => True | Some b => (l < b)%R end.

