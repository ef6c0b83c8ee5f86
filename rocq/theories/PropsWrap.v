(** PropsWrap.v — C49: legacy and Fortran entry points are pass-through. *)
From Coq Require Import String.
From Verif Require Import Base WrapModel WrapTab WrapSpec WrapProof.
Local Open Scope string_scope.
Local Open Scope Z_scope.

(** Whatever the modern entry points do ([lib]), in any memory [m], for every use of the
    macro and all arguments: the legacy function is the modern one with dims and scratch
    NULL and everything else unchanged, its result converted to FINT. *)
Theorem C49_legacy : forall w lib fuel m N r out shls atm natm bas nbas env opt,
  In (MC, N) instances -> is_ptr out ->
  In (modern_name N r, match r with Spinor => Scplx | _ => Sreal end) modern /\
  call (S fuel) w program lib (legacy_name N r) [out; shls; atm; natm; bas; nbas; env; opt] m
  = seen_as w Tfint (lib (modern_name N r)
      (integral_args out VNull shls atm natm bas nbas env opt VNull) m).
Proof.
  intros. split.
  - apply (modern_exists MC); [assumption|discriminate|discriminate].
  - apply legacy_ok; assumption.
Qed.
Print Assumptions C49_legacy.

(** One-electron legacy functions have no optimizer argument: NULL is passed. *)
Theorem C49_legacy1e : forall w lib fuel m N r out shls atm natm bas nbas env,
  In (MC1E, N) instances -> is_ptr out ->
  In (modern_name N r, match r with Spinor => Scplx | _ => Sreal end) modern /\
  call (S fuel) w program lib (legacy_name N r) [out; shls; atm; natm; bas; nbas; env] m
  = seen_as w Tfint (lib (modern_name N r)
      (integral_args out VNull shls atm natm bas nbas env VNull VNull) m).
Proof.
  intros. split.
  - apply (modern_exists MC1E); [assumption|discriminate|discriminate].
  - apply legacy1e_ok; assumption.
Qed.
Print Assumptions C49_legacy1e.

(** The geminal integrals have a spherical legacy function only. *)
Theorem C49_f12 : forall w lib fuel m N out shls atm natm bas nbas env opt,
  In (MF12, N) instances ->
  In (modern_name N Sph, Sreal) modern /\
  call (S fuel) w program lib (legacy_name N Sph) [out; shls; atm; natm; bas; nbas; env; opt] m
  = seen_as w Tfint (lib (modern_name N Sph)
      (integral_args out VNull shls atm natm bas nbas env opt VNull) m).
Proof.
  intros. split.
  - exact (modern_exists MF12 N Sph H ltac:(discriminate) (fun _ => eq_refl)).
  - apply f12_ok; assumption.
Qed.
Print Assumptions C49_f12.

Theorem C49_breit : forall w lib fuel m X out shls atm natm bas nbas env opt,
  In (MBREIT, X) instances ->
  call (S fuel) w program lib ("cint2e_breit_" ++ X ++ "_spinor")
    [out; shls; atm; natm; bas; nbas; env; opt] m
  = seen_as w Tfint (lib ("int2e_breit_" ++ X ++ "_spinor")
      (integral_args out VNull shls atm natm bas nbas env opt VNull) m).
Proof. intros. apply breit_ok; assumption. Qed.
Print Assumptions C49_breit.

(** The three legacy optimizer constructors of an integral are its modern one. *)
Theorem C49_legacy_optimizer : forall w lib fuel m k N r opt atm natm bas nbas env,
  In (k, N) instances -> k = MC \/ (k = MF12 /\ r = Sph) ->
  In (modern_optimizer N, Sopt) modern /\
  call (S fuel) w program lib (legacy_optimizer N r) [opt; atm; natm; bas; nbas; env] m
  = seen_as w Tvoid (lib (modern_optimizer N) [opt; atm; natm; bas; nbas; env] m).
Proof.
  intros w lib fuel m k N r opt atm natm bas nbas env H Hk. split.
  - apply (optimizer_exists k); [assumption|]. destruct Hk as [->|[-> _]]; auto.
  - destruct Hk as [->|[-> ->]]; [apply legacy_optimizer_ok|apply f12_optimizer_ok]; assumption.
Qed.
Print Assumptions C49_legacy_optimizer.

(** Fortran: natm and nbas arrive by reference, the optimizer as the address of the integer
    that holds the handle; the values stored there are passed. *)
Theorem C49_fortran : forall w lib fuel m N r out shls atm pn bas pb env po natm nbas opt,
  In (MF, N) instances -> is_ptr out -> po <> 0 ->
  m pn = Some natm -> m pb = Some nbas -> m po = Some opt ->
  In (modern_name N r, match r with Spinor => Scplx | _ => Sreal end) modern /\
  call (S fuel) w program lib (fortran_name N r)
    [out; shls; atm; VAddr pn; bas; VAddr pb; env; VInt po] m
  = seen_as w Tfint (lib (modern_name N r)
      (integral_args out VNull shls atm natm bas nbas env opt VNull) m).
Proof.
  intros. split.
  - apply (modern_exists MF); [assumption|discriminate|discriminate].
  - apply fortran_ok; assumption.
Qed.
Print Assumptions C49_fortran.

Theorem C49_fortran1e : forall w lib fuel m N r out shls atm pn bas pb env natm nbas,
  In (MF1E, N) instances -> is_ptr out ->
  m pn = Some natm -> m pb = Some nbas ->
  In (modern_name N r, match r with Spinor => Scplx | _ => Sreal end) modern /\
  call (S fuel) w program lib (fortran_name N r) [out; shls; atm; VAddr pn; bas; VAddr pb; env] m
  = seen_as w Tfint (lib (modern_name N r)
      (integral_args out VNull shls atm natm bas nbas env VNull VNull) m).
Proof.
  intros. split.
  - apply (modern_exists MF1E); [assumption|discriminate|discriminate].
  - apply fortran1e_ok; assumption.
Qed.
Print Assumptions C49_fortran1e.

Theorem C49_fortran_optimizer : forall w lib fuel m N r atm pn bas pb env po natm nbas,
  In (MF, N) instances -> po <> 0 ->
  m pn = Some natm -> m pb = Some nbas ->
  In (modern_optimizer N, Sopt) modern /\
  call (S fuel) w program lib (fortran_optimizer N r)
    [match r with Cart => VAddr po | _ => VInt po end; atm; VAddr pn; bas; VAddr pb; env] m
  = seen_as w Tvoid (lib (modern_optimizer N) [VAddr po; atm; natm; bas; nbas; env] m).
Proof.
  intros. split.
  - apply (optimizer_exists MF); auto.
  - apply fortran_optimizer_ok; assumption.
Qed.
Print Assumptions C49_fortran_optimizer.

(** src/c2f.c: shell sizes, totals and offsets. *)
Theorem C49_c2f_sizes : forall w lib fuel m f c p id bas,
  In (f, c) [("cintlen_spinor_", "CINTlen_spinor");
             ("cintcgtos_cart_", "CINTcgto_cart"); ("cintcgto_cart_", "CINTcgto_cart");
             ("cintcgtos_spheric_", "CINTcgto_spheric"); ("cintcgto_spheric_", "CINTcgto_spheric");
             ("cintcgtos_spinor_", "CINTcgto_spinor"); ("cintcgto_spinor_", "CINTcgto_spinor")] ->
  m p = Some id ->
  call (S fuel) w program lib f [VAddr p; bas] m = seen_as w Tfint (lib c [id; bas] m).
Proof. intros. eapply c2f_sizes; eassumption. Qed.
Print Assumptions C49_c2f_sizes.

Theorem C49_c2f_totals : forall w lib fuel m f c p n bas,
  In (f, c) [("cinttot_pgto_spheric_", "CINTtot_pgto_spheric"); ("cinttot_pgto_spinor_", "CINTtot_pgto_spinor");
             ("cinttot_cgto_cart_", "CINTtot_cgto_cart"); ("cinttot_cgto_spheric_", "CINTtot_cgto_spheric");
             ("cinttot_cgto_spinor_", "CINTtot_cgto_spinor")] ->
  m p = Some n ->
  call (S fuel) w program lib f [bas; VAddr p] m = seen_as w Tfint (lib c [bas; n] m).
Proof. intros. eapply c2f_totals; eassumption. Qed.
Print Assumptions C49_c2f_totals.

Theorem C49_c2f_offsets : forall w lib fuel m f c p n loc bas,
  In (f, c) [("cintshells_cart_offset_", "CINTshells_cart_offset");
             ("cintshells_spheric_offset_", "CINTshells_spheric_offset");
             ("cintshells_spinor_offset_", "CINTshells_spinor_offset")] ->
  m p = Some n ->
  call (S fuel) w program lib f [loc; bas; VAddr p] m = seen_as w Tvoid (lib c [loc; bas; n] m).
Proof. intros. eapply c2f_offsets; eassumption. Qed.
Print Assumptions C49_c2f_offsets.

(** src/c2f.c: normalisation and optimizer life cycle (two names each; one wraps the other). *)
Theorem C49_c2f_others : forall w lib fuel m,
  (forall pn pa n a, m pn = Some n -> m pa = Some a ->
    call (S fuel) w program lib "cintgto_norm_" [VAddr pn; VAddr pa] m
    = seen_as w Tdouble (lib "CINTgto_norm" [n; a] m)) /\
  (forall f opt atm pn bas pb env natm nbas,
    f = "cintinit_2e_optimizer_" \/ f = "cintinit_optimizer_" ->
    m pn = Some natm -> m pb = Some nbas ->
    call (S (S fuel)) w program lib f [opt; atm; VAddr pn; bas; VAddr pb; env] m
    = seen_as w Tvoid (lib "CINTinit_2e_optimizer" [opt; atm; natm; bas; nbas; env] m)) /\
  (forall f opt, f = "cintdel_2e_optimizer_" \/ f = "cintdel_optimizer_" ->
    call (S (S fuel)) w program lib f [opt] m
    = seen_as w Tvoid (lib "CINTdel_2e_optimizer" [opt] m)).
Proof. intros. apply c2f_others. Qed.
Print Assumptions C49_c2f_others.

(** These are all the wrappers, no two share a name, and every call they make has the number
    and types of arguments of the called function's declaration. *)
Theorem C49_all : 
  (forall f, In f program ->
     (exists N, In (MC, N) instances /\ exists r, fname f = legacy_name N r \/ fname f = legacy_optimizer N r) \/
     (exists N, In (MC1E, N) instances /\ exists r, fname f = legacy_name N r) \/
     (exists N, In (MF12, N) instances /\ (fname f = legacy_name N Sph \/ fname f = legacy_optimizer N Sph)) \/
     (exists X, In (MBREIT, X) instances /\ fname f = "cint2e_breit_" ++ X ++ "_spinor") \/
     (exists N, In (MF, N) instances /\ exists r, fname f = fortran_name N r \/ fname f = fortran_optimizer N r) \/
     (exists N, In (MF1E, N) instances /\ exists r, fname f = fortran_name N r) \/
     In f c2f_functions) /\
  NoDup (map fname program) /\
  (forall f, In f program -> exists s, prototype (fcallee f) s /\
     Forall2 (fun e p => arg_fits f e (fst p)) (fargs f) (snd s)).
Proof. exact (conj program_families (conj names_distinct program_typed)). Qed.
Print Assumptions C49_all.

(** A result that fits FINT is returned as it is: every 0/1 value of a computing call. *)
Theorem C49_same_value : forall w m' z, 1 <= w -> fits w z ->
  seen_as w Tfint (Some (m', Some (VInt z))) = Some (m', Some (VInt z)).
Proof. intros w m' z Hw Hz. cbn. rewrite to_fint_id by assumption. reflexivity. Qed.
Print Assumptions C49_same_value.

(** Without CACHE_SIZE_I8 the modern result is a FINT itself, so nothing is lost.  With it,
    the size query (out NULL) of a legacy function loses a size of 2^31 doubles or more. *)
Theorem C49_query_refuted : exists z, 0 <= z < 2 ^ 63 /\
  forall m', seen_as 32 Tfint (Some (m', Some (VInt z))) <> Some (m', Some (VInt z)).
Proof.
  exists (2 ^ 31). split; [lia|]. intros m' H. vm_compute in H. discriminate H.
Qed.
Print Assumptions C49_query_refuted.

(** The Fortran int2e_sph, called with 2 atoms at address 100, 5 shells at 104 and an
    optimizer handle at 108. *)
Example C49_ex :
  let m := fun a => if a =? 100 then Some (VInt 2) else if a =? 104 then Some (VInt 5)
                    else if a =? 108 then Some (VAddr 4096) else None in
  let lib := fun (nm : string) vs (m : memory) => Some (m, Some (VInt (Z.of_nat (length vs)))) in
  In (MF, "int2e") instances /\
  call 1 32 program lib "cint2e_sph_"
    [VAddr 8; VAddr 16; VAddr 24; VAddr 100; VAddr 32; VAddr 104; VAddr 40; VInt 108] m
  = Some (m, Some (VInt 10)).
Proof.
  split; [|reflexivity].
  assert (H : existsb (fun kn => match kn with (MF, n) => String.eqb n "int2e" | _ => false end) instances = true)
    by reflexivity.
  apply existsb_exists in H. destruct H as [[k n] [H1 H2]].
  destruct k; try discriminate. apply String.eqb_eq in H2. subst. exact H1.
Qed.
