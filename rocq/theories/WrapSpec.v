(** WrapSpec.v — what the wrappers should do, by names and argument lists only. *)
From Coq Require Import String.
From Verif Require Import Base WrapModel WrapTab.
Local Open Scope string_scope.
Local Open Scope Z_scope.

Inductive repr := Cart | Sph | Spinor.

(** The modern entry point of integral NAME in a representation. *)
Definition modern_name (NAME : string) (r : repr) : string :=
  NAME ++ match r with Cart => "_cart" | Sph => "_sph" | Spinor => "_spinor" end.
Definition modern_optimizer (NAME : string) : string := NAME ++ "_optimizer".

(** The legacy name: prefix c; the spinor version has no suffix. *)
Definition legacy_name (NAME : string) (r : repr) : string :=
  "c" ++ NAME ++ match r with Cart => "_cart" | Sph => "_sph" | Spinor => "" end.
Definition legacy_optimizer (NAME : string) (r : repr) : string :=
  "c" ++ NAME ++ match r with Cart => "_cart_optimizer" | Sph => "_sph_optimizer" | Spinor => "_optimizer" end.
(** Fortran symbols end in an underscore. *)
Definition fortran_name (NAME : string) (r : repr) : string :=
  "c" ++ NAME ++ match r with Cart => "_cart_" | Sph => "_sph_" | Spinor => "_" end.
Definition fortran_optimizer (NAME : string) (r : repr) : string :=
  "c" ++ NAME ++ match r with Cart => "_cart_optimizer_" | Sph => "_sph_optimizer_" | Spinor => "_optimizer_" end.

Definition is_ptr (v : val) : Prop := v = VNull \/ exists a, v = VAddr a.

(** The integer is representable in a [w]-bit FINT. *)
Definition fits (w z : Z) : Prop := - 2 ^ (w - 1) <= z < 2 ^ (w - 1).

(** The result of a call, seen through a function that returns FINT / nothing. *)
Definition seen_as (w : Z) (t : ty) (r : option (memory * option val)) : option (memory * option val) :=
  match r with
  | None => None
  | Some (m, v) => Some (m, match t, v with
                            | Tvoid, _ => None
                            | Tfint, Some (VInt z) => Some (VInt (to_fint w z))
                            | _, _ => v
                            end)
  end.

(** The documented order of the arguments of a modern integral. *)
Definition integral_args (out dims shls atm natm bas nbas env opt cache : val) : list val :=
  [out; dims; shls; atm; natm; bas; nbas; env; opt; cache].

(** The argument has the parameter's type, or is NULL for a pointer parameter. *)
Definition arg_fits (f : func) (e : aexpr) (t : ty) : Prop :=
  type_of f e = Some t \/ (e = Anull /\ exists t', t = Tptr t').

(** The declared return type and parameters of a called function. *)
Definition prototype (nm : string) (s : ty * list (ty * string)) : Prop :=
  (exists sh, In (nm, sh) modern /\ s = proto_of sh) \/ In (nm, s) c2f_callees.
