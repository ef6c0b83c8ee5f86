(** RecSpec.v — what the recurrences are supposed to compute.

    A one-dimensional Gaussian weight over one or two electron coordinates is
    characterised on products of powers of (x - centre) by integration by parts:
    raising one power multiplies by the mean of (x - centre) and adds, for every
    power present, that power times the matching second moment.  A table of all
    such moments is a function satisfying all these identities at once; it is
    determined by its value at the origin and it always exists (theorems
    [moments_unique], [moments_exist] in RecProof).  The code uses only some of
    the identities (those of its base centres plus the transfer relations); the
    tables below mention none of the code's choices. *)
From Verif Require Import Base.

Section RecSpec.
  Context {F : Type}.
  Variables (zero one : F) (add mul : F -> F -> F) (inj : Z -> F).
  Local Notation "a + b" := (add a b).
  Local Notation "a * b" := (mul a b).

  (** One coordinate, two centres: mean [cA] (resp. [cB]) of x relative to the
      first (second) centre, second moment [b]. *)
  Record gauss1 (b cA cB : F) (S : Z -> Z -> F) : Prop := {
    g1_i : forall i j, (0 <= i)%Z -> (0 <= j)%Z ->
      S (i + 1)%Z j = cA * S i j + b * (inj i * S (i - 1)%Z j + inj j * S i (j - 1)%Z);
    g1_j : forall i j, (0 <= i)%Z -> (0 <= j)%Z ->
      S i (j + 1)%Z = cB * S i j + b * (inj i * S (i - 1)%Z j + inj j * S i (j - 1)%Z) }.

  (** One coordinate, three centres *)
  Record gauss3 (b cA cB cC : F) (S : Z -> Z -> Z -> F) : Prop := {
    g3_i : forall i j k, (0 <= i)%Z -> (0 <= j)%Z -> (0 <= k)%Z ->
      S (i + 1)%Z j k = cA * S i j k +
        b * (inj i * S (i - 1)%Z j k + inj j * S i (j - 1)%Z k + inj k * S i j (k - 1)%Z);
    g3_j : forall i j k, (0 <= i)%Z -> (0 <= j)%Z -> (0 <= k)%Z ->
      S i (j + 1)%Z k = cB * S i j k +
        b * (inj i * S (i - 1)%Z j k + inj j * S i (j - 1)%Z k + inj k * S i j (k - 1)%Z);
    g3_k : forall i j k, (0 <= i)%Z -> (0 <= j)%Z -> (0 <= k)%Z ->
      S i j (k + 1)%Z = cC * S i j k +
        b * (inj i * S (i - 1)%Z j k + inj j * S i (j - 1)%Z k + inj k * S i j (k - 1)%Z) }.

  (** Two coordinates, one centre each: means [c], [c'], second moments
      [b10] (first, first), [b01] (second, second), [b00] (mixed). *)
  Record moments2 (b10 b01 b00 c c' : F) (G : Z -> Z -> F) : Prop := {
    m2_bra : forall n m, (0 <= n)%Z -> (0 <= m)%Z ->
      G (n + 1)%Z m = c * G n m + b10 * (inj n * G (n - 1)%Z m) + b00 * (inj m * G n (m - 1)%Z);
    m2_ket : forall n m, (0 <= n)%Z -> (0 <= m)%Z ->
      G n (m + 1)%Z = c' * G n m + b01 * (inj m * G n (m - 1)%Z) + b00 * (inj n * G (n - 1)%Z m) }.

  (** Two coordinates, two centres each: S i j k l is the moment of
      (x1-A)^i (x1-B)^j (x2-C)^k (x2-D)^l. *)
  Record gauss2 (b10 b01 b00 cA cB cC cD : F) (S : Z -> Z -> Z -> Z -> F) : Prop := {
    g2_i : forall i j k l, (0 <= i)%Z -> (0 <= j)%Z -> (0 <= k)%Z -> (0 <= l)%Z ->
      S (i + 1)%Z j k l = cA * S i j k l
        + b10 * (inj i * S (i - 1)%Z j k l + inj j * S i (j - 1)%Z k l)
        + b00 * (inj k * S i j (k - 1)%Z l + inj l * S i j k (l - 1)%Z);
    g2_j : forall i j k l, (0 <= i)%Z -> (0 <= j)%Z -> (0 <= k)%Z -> (0 <= l)%Z ->
      S i (j + 1)%Z k l = cB * S i j k l
        + b10 * (inj i * S (i - 1)%Z j k l + inj j * S i (j - 1)%Z k l)
        + b00 * (inj k * S i j (k - 1)%Z l + inj l * S i j k (l - 1)%Z);
    g2_k : forall i j k l, (0 <= i)%Z -> (0 <= j)%Z -> (0 <= k)%Z -> (0 <= l)%Z ->
      S i j (k + 1)%Z l = cC * S i j k l
        + b01 * (inj k * S i j (k - 1)%Z l + inj l * S i j k (l - 1)%Z)
        + b00 * (inj i * S (i - 1)%Z j k l + inj j * S i (j - 1)%Z k l);
    g2_l : forall i j k l, (0 <= i)%Z -> (0 <= j)%Z -> (0 <= k)%Z -> (0 <= l)%Z ->
      S i j k (l + 1)%Z = cD * S i j k l
        + b01 * (inj k * S i j (k - 1)%Z l + inj l * S i j k (l - 1)%Z)
        + b00 * (inj i * S (i - 1)%Z j k l + inj j * S i (j - 1)%Z k l) }.

  (** value of axis [ax] at the origin: 1, 1 and the weight *)
  Definition origin (w : F) (ax : Z) : F :=
    if (ax =? 0)%Z then one else if (ax =? 1)%Z then one else w.
End RecSpec.
