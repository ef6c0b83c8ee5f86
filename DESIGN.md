# Formal model of libcint: design

Source: `/repo` (sunqm/libcint at the pinned commit, read as text; never built or run).
Tool: Coq 8.16.1. All theories live in `rocq/theories` (logical prefix `Verif`).
The properties are in `properties.jsonl`; which theorems establish which property,
and with what restriction, is in `MANIFEST.json`; the wrong programs the theorems
were tried on are in `seeded/LOG.jsonl`.

## Conventions of the model

* **Values.** Doubles are an abstract type. Claims on layout, coverage,
  initialisation and data movement use a law-free scalar type (so they hold bit
  for bit for IEEE doubles). Claims that need algebra use a commutative
  ring/field or `R`; these are claims *in exact arithmetic* and say nothing about
  rounding. Tables of decimal literals are exact rationals.
* **Integers.** `FINT`, `int`, `size_t` are unbounded `Z`/`nat`, except in the
  `Ovf*` files (C56), where every operation of the size computations is carried
  out in the C type the code uses, with signed overflow as an outcome of its own,
  and in the `Wrap*` files (C49), which apply the C argument conversions.
* **Memory.** `arr A`: a size and a map from indices to optional cells (`None` =
  never written). Out-of-bounds accesses and reads of unwritten cells make the
  run fail (`None`), so "the run returns `Some`" is a memory-safety claim. No
  undefined behaviour is given a default value.
* **Loops.** `for_ lo hi body s` iterates a state transformer in the option
  monad; reasoning is by invariants (`wp_for`), with no bound on the counts.
* **Statements.** `*Spec.v` files hold the specifications, written without the
  model's helpers; `Props*.v` the theorems with `Print Assumptions` beneath each
  and examples beside them. `*Model.v` files hold the transcription, each
  definition with the file and lines it comes from and what it simplifies.

## Trusted base

* Coq's kernel (`coqc`, `coqchk`), including `vm_compute`.
* What `Print Assumptions` prints under each theorem. Only Coq standard library
  axioms occur: `ClassicalDedekindReals.sig_not_dec`,
  `ClassicalDedekindReals.sig_forall_dec`,
  `FunctionalExtensionality.functional_extensionality_dep` and
  `Classical_Prop.classic`, all of them through `R`. Theorems not about real
  numbers are closed under the global context.
* The transcription of C into Gallina. By hand for the code proper. By text
  conversion scripts, not kept, for the long regular parts: the 70 unrolled
  kernels (`UnrTab.v`, `UnrTabSr.v`), the coefficient tables (`TabSph.v`,
  `TabJR.v`, `TabJI.v`, `OrderTab.v`), the wrapper tables (`WrapTab.v`), the 218
  integrands with their entry points and doc comments (`IntgTab.v`).
* Assumptions that appear as hypotheses of theorems, not as axioms: root finders
  return non-negative nodes (C13, C51); `lgamma` is the logarithm of Euler's
  integral at half integers (C48; a function with that property is constructed);
  `malloc` does not fail and returns fresh blocks (C36); stores of one double are
  atomic and scratch is per thread (C45).

## What is modelled

| files | code | properties |
|-------|------|-----------|
| `Bas*` | `cint_bas.c` | C01, C02, C03 |
| `Env*`, `Idx*` | `CINTinit_int*_EnvVars`, `CINTg1e/2e/3c1e_index_xyz` | C04, C05, C06 |
| `Fblas*` | `fblas.c` | C44 |
| `Ctr*` | `CINTOpt_non0coeff_byshell`, `CINTprim_to_ctr_0/1` | C14, C15 |
| `Loop2e*` | `CINT2e_loop_nopt`, `CINT2e_loop`, the `_1111`-style variants and their dispatch | C16, C17 |
| `Loop3*` | primitive loops of 1e, 2c2e, 3c1e, 3c2e, 4c1e | C18, C35 |
| `Grids*` | block loop and contraction of the grids integrals | C34 |
| `Rec*`, `Gauss*`, `Hrr*`, `Fill*` | `CINTg1e_ovlp/nuc`, grids and 3c1e/4c1e overlap recurrences, `CINTg0_2e_2d`, four HRR routines, `CINTg0_2e*` coefficients | C07, C08, C09, C13, C53 |
| `Quad*` | the sums over the roots of the arrays above as Coulomb, erf, erfc and nuclear integrals | C59 |
| `Oper*` | init function, index table, recurrence, integrand and root sum of a primitive call put together | C60 |
| `Giao*` | early returns of the gauge-origin entry points (20 names, 3 forms) | C61 |
| `Whole*` | `CINT1e_drv` as one program, from the shell tables to the caller's array, for every one-electron entry; `CINT2e_drv`, `CINT3c2e_drv` and `CINT2c2e_drv` without optimizer for every four-, three- and two-centre entry; `CINT2e_drv` and `CINT3c2e_drv` with optimizer and its specialised loops; the spinor drivers of all these classes | C62, C63, C64, C65, C66, C67, C68, C69, C70, C71, C72, C73 |
| `Unr*` | the 70 unrolled `_g0_2d4d_*` kernels and their switch | C10 |
| `Op*` | `CINTnabla1*`, `CINTx1*`, `CINTprim`-free operators of 1e/2e/grids | C11, C12 |
| `Gout*`, `Sym*` | `CINTgout1e`, `CINTgout2e`, symmetry of batches | C51, C52 |
| `Out*`, `Sph*`, `Tab*` | `cart2sph.c` (scalar part), zero fills, drivers' output placement, hard-coded d/f/g transforms, coefficient table | C19–C25, C46, C54 |
| `Spinor*` | spinor part of `cart2sph.c` and spinor drivers | C26 |
| `Boys*`, `Rys*`, `Stg*`, `Order*` | `fmt.c`, dispatch and table access of `rys_roots.c`, `sr_rys_polyfits.c`, `stg_roots.c`, moment reordering tables | C40–C43, C55 |
| `Breit*` | `_int2e_breit_drv` and its combination | C50 |
| `Norm*` | `CINTgto_norm` | C48 |
| `Cache*` | scratch sizes against a bump allocator run of each driver | C27–C33 |
| `Ovf*` | the same size computations in C integers | C56 |
| `Thread*` | interleavings of drivers' stores | C45 |
| `Opt*` | optimizer heap, index cache, `CINTset_pairdata`, `CINTOpt_setij` | C36, C37 |
| `Screen*` | which primitive quartets each loop visits; kernels are parameters | C38, C39, C47 |
| `Wrap*` | legacy `c*` and Fortran wrappers, every macro instance | C49 |
| `Intg*` | 218 integrands `CINTgout*` with their `ng` tables, factors and spinor transforms | C57, C58 |

## What is not modelled

* Rounding. The accuracy of root finders, of the polynomial fits, of the
  `exp`/`erf` calls and of every floating-point sum.
* The numerical content of the Rys/Chebyshev tables; eigenvalue solver
  (`eigh.c`), polynomial root finder (`find_roots.c`), quadruple/long double
  root finders: parameters of the dispatch model (C41, C42).
* `gout2e_simd.c` (SSE3), OpenMP pragmas, `misc.c` timers, the Lisp generator
  (its output is modelled; its output's doc comments are the specification of C58).
* The numerical content of the spinor coefficient tables.
* Code inside `#if 0` (`a_ket_cart2spinor_si/_sf`).
* Whole-program linking: each theorem is about one stage with the neighbouring
  stages' contracts as hypotheses; end-to-end statements exist for primitive
  batches: overlap-type (C58_overlap), nuclear-type (C58_nuclear, C60_nuclear) and
  two-electron with 2, 3 and 4 centres (C60_coulomb), and for the whole Cartesian and
  spherical one-electron drivers (C62) and two-electron drivers without optimizer, for four,
  three and two centres and any omega (C63, C64), and with optimizer for four and three centres
  (C65; the optimizer was made from the tables the call sees, see C38_index_sign_refuted), and for the spinor drivers of the
  same classes with arbitrary coefficient tables (C67, C68).  In C62-C73 the work arrays are separate buffers holding
  arbitrary numbers (their places in the cache are C27-C30) and shells come as the table of
  slots that C01-C04 read.

## State of the properties

Proved as stated: C01–C30 except where noted, C33–C38, C40, C44, C45, C48–C55, C57, C59–C73.
Notes on the restrictions are in the MANIFEST.

Partial, i.e. true only under a restriction which the theorem's statement shows,
and refuted outside it:

| id | proved | false because |
|----|--------|---------------|
| C31 | 32-bit `FINT` | I8 builds: formula too small (`C31_i8_refuted`) |
| C32 | `C32_int4c1e_partial`: one contraction, ≤ 44 primitives in all | `C32_refuted`: four s shells of 14 primitives overrun the reported size |
| C39 | all classes but int2e | `C39_int2e_refuted`: cutoff is the user's plus one |
| C41 | ≤ 14 roots (19 without quadmath; 19 short-range) | `C41_quad_refuted`, `C41_32_refuted`, `C41_sr_refuted`: tables read out of bounds |
| C42 | all other counts | `C42_17_18_refuted`, `C42_no_solver_refuted` |
| C43 | 1e-7 ≤ u < 1e3 | `C43_u1000_refuted`, `C43_small_refuted` |
| C46 | packed, one contraction | `C46_dims/contractions/zero_fill_refuted` |
| C47 | int3c2e; int2e/F12 under conditions | `C47_user_cutoff/derivative/short_range_refuted` |
| C56 | int2e; exact overflow region of the others | seven `C56_*_refuted` |
| C58 | 216 of 218 integrands as shipped or with their defect characterised | see findings 32, 33, 36, 37 |

## Findings (disagreements between code and stated property)

Theorem names in parentheses; findings without one come from reading only.

1. With an optimizer, `eklcutoff` is set before the short-range adjustment of the
   cutoff (`C47_short_range_refuted`).
2. int2e uses cutoff user+1, `CINTOpt_setij` without +1, with `<` against `>` at
   the boundary, and with max(IINC+JINC, KINC+LINC) instead of the electron's own
   order (`C39_int2e_refuted`, `C47_user_cutoff_refuted`, `C47_derivative_refuted`).
3. The optimizer's index table depends on the sign of omega when it was built
   (`C38_index_sign_refuted`).
4. int1e_nuc with natm = 0 reads scratch memory nobody wrote (`C35_no_atoms_refuted`).
5. `pairdata[0]` is never marked NOVALUE (`C37_first_pair_refuted`).
6. The optimizer needs natm ≥ 1 (`C36_no_atoms_refuted`); filling a part twice or
   creating over a live handle leaks (`C36_refill_refuted`, `C36_recreate_refuted`).
   A shell without primitives makes the screening read `ai[-1]`.
7. int3c2e `ssc`: dims ignored, contraction stride of the wrong shell
   (`C46_dims_refuted`, `C46_contractions_refuted`).
8. int3c2e `ssc`: zero result zero-fills the Cartesian block (`C46_zero_fill_refuted`).
9. `CINT3c1e_loop` of nuclear type never writes `gctr` for some inputs (unreachable from the entry points).
10. int3c1e, int4c1e and int2c2e ignore the user's cutoff (`C39_*_ignores`).
11. Drivers read `dims[2]` of a two-index (`dims[3]` of a grids) call
    (`C19_two_entry_dims_refuted`, `C19_three_entry_dims_grids_refuted`).
12. Spinor shells with l = 13..15 dereference NULL (`C26_no_table_refuted`).
13. int4c1e reports too little scratch (`C32_refuted`).
14. `CINTsr_rys_roots` fails always for 17 and 18 roots (`C42_17_18_refuted`); for
    lower limits at or above a per-count bound it tries no solver (`C42_no_solver_refuted`).
15. Quadruple precision Flocke branch reads out of bounds from 15 roots (`C41_quad_refuted`).
16. `TURNOVER_POINT` has 40 entries and is read at 40 and above (`C40_order40_refuted`, `C41_sr_refuted`).
17. `stg_roots`: u = 1e3 selects block 10 of 10; u below 1e-7 truncates towards the
    wrong interval (`C43_u1000_refuted`, `C43_small_refuted`).
18. `sr_rys_polyfits`: a dead branch, and an out-of-bounds entry at equality of the bound.
19. `CINTshells_*_offset` writes `ao_loc[0]` of an empty basis (`C02_empty_basis_refuted`).
20. l = 16 overruns the arrays of CART_MAX entries (`C04_l16_refuted`).
21. int3c2e: the `lk_ceil > 0` cutoff adjustment is dead code.
22. `CINTg0_2e_2d` loads one cell past three blocks when nmax = 0; unused (`C08_three_blocks_refuted`).
23. nroots = 32 reads the POLY tables out of bounds (`C41_32_refuted`).
24. The Breit driver's cache query ignores the Gaunt part's size; `_copy_to_out`
    copies component 0 only (C50 states what it does).
25. int2c2e uses `int1e_cache_size`, which omits `ncomp_e2` (`C30_e2_refuted`).
26. The int3c1e cache formula is too small in I8 builds (`C31_i8_refuted`).
27. The int3c1e optimizer builds index tables in another component order; never read.
28. `a_ket_cart2spinor_si/_sf` are dead code.
29. None of the 70 unrolled kernels is wrong (C10); some leave unused cells unwritten.
30. Legacy wrappers return `FINT`: in CACHE_SIZE_I8 builds the size query is cut to
    32 bits (`C49_query_size_refuted`). `breit.c` declares `int2e_*_spinor` as
    `FINT`; `cint2e_f12.c` redefines `ALL_CINT`.
31. 32-bit overflow of size computations within the documented limits
    (`C56_int1e_refuted` — a superfluous factor nf —, `C56_int3c2e_refuted`,
    `C56_int4c1e_refuted`, `C56_int3c1e_refuted` — malloc of a negative size —,
    `C56_grids_refuted`, `C56_output_refuted`, `C56_int2e_spinor_refuted`);
    int2e itself is safe (`C56_int2e`).
32. int2e_ipvg1_xp1 and int2e_ipvg2_xp1 apply operators to orders their `ng` does not
    ask for (`intor2.c:694`, `875`).
33. int1e_ippnucpip and int1e_ipprinvpip store the tensor transposed
    (`C58_transposed`, `C58_transposed_refuted`).
34. The spinor functions of 12 Gaunt/gauge names carry the opposite factor of the
    Cartesian ones (`C57_factors`). int1e_a01gp's operators pass over unwritten cells
    that do not enter the result.
35. breit_r1p2 and breit_r2p2 share one doc comment; the generator's `dress-other`
    maps `px` to nabla z (unused).
36. int3c1e_ip1_r6_origk uses block g76, which is never computed: the result
    depends on old buffer contents (`C58_r6_refuted`; repaired: `C58_r6_repaired`).
37. Spinor int2e_breit_r1p2/r2p2 return minus the documented value (`C58_breit_sign`).
38. Without optimizer the screening of short-range integrals (omega < 0) is not symmetric in the two electrons: with a
    total degree of 0 or 1 the degree counts in the estimate of the first pair (optimizer.c:302-313) and not in that of the
    second (cint2e.c:132).  A (ps|ss) integral can be computed and (ss|ps) dropped (`C70_nopt_refuted`).
