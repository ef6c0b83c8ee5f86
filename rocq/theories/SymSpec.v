(** SymSpec.v — where a quadruple of components sits in the batch. *)
From Coq Require Import Reals.
From Verif Require Import Base BasSpec RecSpec Gauss2Int Rec2Spec.

(** i fastest, then k, l, j (g2e.c:174-266) *)
Definition pos4 (li lj lk ll : Z) (i j k l : nat) : Z :=
  ((Z.of_nat j * Z.of_nat (length (cart_list ll)) + Z.of_nat l)
     * Z.of_nat (length (cart_list lk)) + Z.of_nat k)
     * Z.of_nat (length (cart_list li)) + Z.of_nat i.
Definition comps (li lj lk ll : Z) (i j k l : nat) : Prop :=
  (i < length (cart_list li))%nat /\ (j < length (cart_list lj))%nat /\
  (k < length (cart_list lk))%nat /\ (l < length (cart_list ll))%nat.

Local Open Scope R_scope.
(** [v] is the axis' origin value (1, 1, W) times the normalised plane integral of
    (x-A)^i (x-B)^j (y-C)^k (y-D)^l under the Gaussian weight of the node u. *)
Definition axis_integral (ai aj ak al : R) (A B C D : Z -> R) (u w : R) (ax : Z) (i j k l : nat) (v : R) : Prop :=
  let r := (ai + aj) * (ak + al) / ((ai + aj) + (ak + al)) * u in
  let E := eri_weight ai aj ak al r (A ax) (B ax) (C ax) (D ax) in
  exists I0 I, RIntPlane E I0 /\ 0 < I0 /\
    RIntPlane (fun x y => (x - A ax) ^ i * (x - B ax) ^ j * ((y - C ax) ^ k * (y - D ax) ^ l) * E x y) I /\
    v = origin 1 w ax / I0 * I.
