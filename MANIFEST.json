{
 "claims": [
  {
   "property": "C01",
   "status": "proved",
   "theorems": [
    "C01_shell_sizes",
    "C01_totals",
    "C01_spinor_halves"
   ],
   "note": ""
  },
  {
   "property": "C02",
   "status": "proved",
   "theorems": [
    "C02_offsets",
    "C02_tiling",
    "C02_empty_basis_refuted"
   ],
   "note": "With nbas = 0 the offset routine writes ao_loc[0] of an empty array (refuted part)."
  },
  {
   "property": "C03",
   "status": "proved",
   "theorems": [
    "C03_component_arrays",
    "C03_components_complete"
   ],
   "note": ""
  },
  {
   "property": "C04",
   "status": "proved",
   "theorems": [
    "C04_index_int1e",
    "C04_index_int1e_grids",
    "C04_index_int2c2e",
    "C04_l16_refuted"
   ],
   "note": "l = 16 overruns the CART_MAX arrays (refuted part)."
  },
  {
   "property": "C05",
   "status": "proved",
   "theorems": [
    "C05_index_4c",
    "C05_index_int3c2e"
   ],
   "note": ""
  },
  {
   "property": "C06",
   "status": "proved",
   "theorems": [
    "C06_index_int3c1e_loop",
    "C06_index_int3c1e"
   ],
   "note": ""
  },
  {
   "property": "C44",
   "status": "proved",
   "theorems": [
    "C44_dset0",
    "C44_daxpy2v",
    "C44_transpose",
    "C44_plus_transpose",
    "C44_ztranspose",
    "C44_dagger",
    "C44_gemm_NN1",
    "C44_gemm_NN",
    "C44_gemm_TN",
    "C44_gemm_NT"
   ],
   "note": ""
  },
  {
   "property": "C14",
   "status": "proved",
   "theorems": [
    "C14_sparse_lists"
   ],
   "note": "CINTOpt_non0coeff_byshell for every coefficient matrix and every zero test."
  },
  {
   "property": "C15",
   "status": "proved",
   "theorems": [
    "C15_first",
    "C15_add"
   ],
   "note": "CINTprim_to_ctr_0/_1 over an arbitrary commutative ring (exact arithmetic) and arbitrary zero test sound for zero."
  },
  {
   "property": "C16",
   "status": "proved",
   "theorems": [
    "C16_loop_nopt",
    "C16_loop_opt",
    "C16_shell_exists"
   ],
   "note": "Exact arithmetic over an arbitrary commutative ring. Screening outcomes and primitive batches are arbitrary functions of the primitive indices; batches enter linearly in fac[0]."
  },
  {
   "property": "C17",
   "status": "proved",
   "theorems": [
    "C17_dispatch",
    "C17_same_as_general",
    "C17_selection"
   ],
   "note": "As C16."
  },
  {
   "property": "C18",
   "status": "proved",
   "theorems": [
    "C18_1e",
    "C18_2c2e",
    "C18_3c2e",
    "C18_3c2e_dispatch",
    "C18_3c2e_selection",
    "C18_3c1e",
    "C18_3c1e_nuc",
    "C18_4c1e"
   ],
   "note": "As C16."
  },
  {
   "property": "C35",
   "status": "proved",
   "theorems": [
    "C35_2e_scratch",
    "C35_3c2e_scratch",
    "C35_3c2e_dispatch_scratch",
    "C35_3c1e_scratch",
    "C35_3c1e_nuc_scratch",
    "C35_2c2e_scratch",
    "C35_1e_scratch",
    "C35_4c1e_scratch",
    "C35_grids_scratch",
    "C35_no_atoms_refuted"
   ],
   "note": "Without the at-least-one-atom hypothesis the claim is false (C35_no_atoms_refuted)."
  },
  {
   "property": "C34",
   "status": "proved",
   "theorems": [
    "C34_blocks",
    "C34_grid_loop",
    "C34_places"
   ],
   "note": "As C16; primitive values are arbitrary functions of the point's coordinates."
  },
  {
   "property": "C07",
   "status": "proved",
   "theorems": [
    "C07_overlap_integrals",
    "C07_overlap_product",
    "C07_nuclear_integrals",
    "C07_overlap_table",
    "C07_nuclear_table",
    "C07_grids_table",
    "C07_table_unique",
    "C07_table_exists"
   ],
   "note": "Exact arithmetic: the integral statements over the reals (improper Riemann integrals, the Gaussian integral itself is proved), the table statements over any commutative ring. Rys roots and weights are arbitrary inputs."
  },
  {
   "property": "C11",
   "status": "proved",
   "theorems": [
    "C11_nabla",
    "C11_position",
    "C11_grids_nabla",
    "C11_grids_position",
    "C11_overlap_gradient"
   ],
   "note": "Exact real arithmetic; the functions on the other centres are arbitrary."
  },
  {
   "property": "C12",
   "status": "proved",
   "theorems": [
    "C12_nabla",
    "C12_position"
   ],
   "note": "Exact real arithmetic; per root, everything else under the integral is arbitrary."
  },
  {
   "property": "C08",
   "status": "proved",
   "theorems": [
    "C08_recurrence",
    "C08_table_unique",
    "C08_table_exists",
    "C08_three_blocks_refuted"
   ],
   "note": "Any commutative ring. With an array of exactly three blocks the unused load at nmax = 0 is out of bounds (refuted part)."
  },
  {
   "property": "C09",
   "status": "proved",
   "theorems": [
    "C09_transfer",
    "C09_recurrence_and_transfer",
    "C09_table_exists",
    "C09_table_unique"
   ],
   "note": "Any commutative ring; all four routines, layouts of int2e, yp/stg, 4c1e and 3c2e."
  },
  {
   "property": "C13",
   "status": "proved",
   "theorems": [
    "C13_centre",
    "C13_half_inverse",
    "C13_coulomb_integrals",
    "C13_f12_integrals"
   ],
   "note": "Exact real arithmetic; the root finders are arbitrary functions returning non-negative nodes. The generic kernels; the unrolled ones are C10."
  },
  {
   "property": "C53",
   "status": "proved",
   "theorems": [
    "C53_three_centre_table",
    "C53_four_centre_table",
    "C53_three_centre_integrals",
    "C53_four_centre_integrals"
   ],
   "note": "Every cell of CINTg3c1e_ovlp / CINTg4c1e_ovlp (including the scratch table and the transfer) over any commutative ring; over R the cells are the line integrals of the product of three / four Gaussians and the axis constants multiply to the coefficient."
  },
  {
   "property": "C51",
   "status": "proved",
   "theorems": [
    "C51_swap_ij",
    "C51_swap_kl",
    "C51_swap_bra_ket"
   ],
   "note": "Exact real arithmetic, plain Coulomb batch (all three signs of omega) built by the generic kernel, one primitive per shell with the pair factors; root finders are arbitrary functions returning non-negative nodes."
  },
  {
   "property": "C52",
   "status": "proved",
   "theorems": [
    "C52_gout2e",
    "C52_gout1e_nuc",
    "C52_gout1e",
    "C52_gout1e_grids",
    "C52_eri_batch"
   ],
   "note": "All root counts incl. the eight written-out cases; only law used 0+x=x. gout2e_simd.c is not modelled."
  },
  {
   "property": "C19",
   "status": "proved",
   "theorems": [
    "C19_1e_cart",
    "C19_1e_sph",
    "C19_2c2e_cart",
    "C19_2c2e_sph",
    "C19_3c_cart",
    "C19_3c_sph",
    "C19_4c_cart",
    "C19_4c_sph",
    "C19_grids_cart",
    "C19_grids_sph",
    "C19_complex",
    "C19_two_entry_dims_refuted",
    "C19_three_entry_dims_grids_refuted"
   ],
   "note": "All real drivers and the complex zero fill. A caller's dims array must be readable at index 2 (3 for grids): with a shorter array the zero fill reads out of bounds, proved as *_refuted. The ssc variant is C46."
  },
  {
   "property": "C20",
   "status": "proved",
   "theorems": [
    "C20_1e_cart",
    "C20_2c2e_cart",
    "C23_1e",
    "C23_2c2e",
    "C20_pairs_disjoint"
   ],
   "note": ""
  },
  {
   "property": "C21",
   "status": "proved",
   "theorems": [
    "C21_3c_cart",
    "C21_4c_cart",
    "C21_grids_cart",
    "C23_3c",
    "C23_4c",
    "C23_grids"
   ],
   "note": ""
  },
  {
   "property": "C22",
   "status": "proved",
   "theorems": [
    "C22_component_range",
    "C22_disjoint",
    "C22_packed",
    "C20_1e_cart",
    "C21_4c_cart",
    "C21_3c_cart",
    "C23_1e",
    "C23_3c",
    "C23_4c"
   ],
   "note": "The driver theorems place component n with [place]; C22_* are the arithmetic of [place]."
  },
  {
   "property": "C23",
   "status": "proved",
   "theorems": [
    "C23_1e",
    "C23_2c2e",
    "C23_3c",
    "C23_4c",
    "C23_grids"
   ],
   "note": "Exact real arithmetic; table entries are the decimal literals."
  },
  {
   "property": "C24",
   "status": "proved",
   "theorems": [
    "C24_bra",
    "C24_ket",
    "C24_ket_strided",
    "C24_bra_dense",
    "C24_ket_dense"
   ],
   "note": ""
  },
  {
   "property": "C25",
   "status": "proved",
   "theorems": [
    "C25_tiles",
    "C25_onto",
    "C25_harmonic",
    "C25_orthonormal"
   ],
   "note": "Decimal literals as exact rationals; tolerance 2^-50 / 2^-48."
  },
  {
   "property": "C46",
   "status": "partial",
   "theorems": [
    "C46_packed_partial",
    "C46_dims_refuted",
    "C46_contractions_refuted",
    "C46_zero_fill_refuted"
   ],
   "note": "The property is false of the code: dims ignored, wrong contraction stride, zero fill of the Cartesian block. Proved for the packed single-contraction case."
  },
  {
   "property": "C54",
   "status": "proved",
   "theorems": [
    "C54_bra",
    "C54_ket"
   ],
   "note": ""
  },
  {
   "property": "C40",
   "status": "proved",
   "theorems": [
    "C40_gamma",
    "C40_gamma_exact",
    "C40_erfc",
    "C40_erfc_cutoff",
    "C40_order40_refuted"
   ],
   "note": "Exact real arithmetic; m < 40. Orders >= 40 read TURNOVER_POINT out of bounds (refuted)."
  },
  {
   "property": "C41",
   "status": "partial",
   "theorems": [
    "C41_roots_partial",
    "C41_sr_partial",
    "C41_quad_refuted",
    "C41_32_refuted",
    "C41_sr_refuted"
   ],
   "note": "Holds up to 14 roots (19 without quadmath.h; 19 short-range); false above (tables read out of bounds). Eigenvalue and polynomial-root routines are parameters."
  },
  {
   "property": "C42",
   "status": "partial",
   "theorems": [
    "C42_roots",
    "C42_sr_partial",
    "C42_17_18_refuted",
    "C42_no_solver_refuted"
   ],
   "note": "False for 17 and 18 roots and for lower limits at or above the per-count bound, where no solver is tried."
  },
  {
   "property": "C43",
   "status": "partial",
   "theorems": [
    "C43_select_partial",
    "C43_u1000_refuted",
    "C43_small_refuted"
   ],
   "note": "Holds for 1e-7 <= u < 1e3; u = 1e3 and 1e-8 < u < 1e-7 are accepted and select a wrong block or coordinate."
  },
  {
   "property": "C55",
   "status": "proved",
   "theorems": [
    "C55_rows",
    "C55_moments"
   ],
   "note": ""
  },
  {
   "property": "C50",
   "status": "proved",
   "theorems": [
    "C50_breit"
   ],
   "note": ""
  },
  {
   "property": "C48",
   "status": "proved",
   "theorems": [
    "C48_norm",
    "C48_closed",
    "C48_log_gamma_exists"
   ],
   "note": "lgamma is assumed to be the logarithm of Euler's integral at half integers; such a function is shown to exist."
  },
  {
   "property": "C27",
   "status": "proved",
   "theorems": [
    "C27_int1e",
    "C27_buffers"
   ],
   "note": ""
  },
  {
   "property": "C28",
   "status": "proved",
   "theorems": [
    "C28_int2e",
    "C28_buffers"
   ],
   "note": ""
  },
  {
   "property": "C29",
   "status": "proved",
   "theorems": [
    "C29_int3c2e",
    "C29_int3c2e_spinor",
    "C29_buffers"
   ],
   "note": ""
  },
  {
   "property": "C30",
   "status": "proved",
   "theorems": [
    "C30_int2c2e",
    "C30_buffers",
    "C30_e2_refuted"
   ],
   "note": "For operators with one component in the second electron, which covers every operator of this class in the library; false for several (witness)."
  },
  {
   "property": "C31",
   "status": "partial",
   "theorems": [
    "C31_int3c1e",
    "C31_buffers",
    "C31_i8_refuted"
   ],
   "note": "Holds with 32-bit integers; false in a build with 64-bit integers and many primitives (witness)."
  },
  {
   "property": "C32",
   "status": "partial",
   "theorems": [
    "C32_int4c1e_partial",
    "C32_sph",
    "C32_refuted"
   ],
   "note": "False in general (witness: four s shells of 14 primitives). Proved for uncontracted-column shells with at most 44 primitives in all, any angular momenta."
  },
  {
   "property": "C33",
   "status": "proved",
   "theorems": [
    "C33_grids",
    "C33_buffers"
   ],
   "note": ""
  },
  {
   "property": "C45",
   "status": "proved",
   "theorems": [
    "C45_write_only",
    "C45_interleave",
    "C45_matrix"
   ],
   "note": "Stores of a double are atomic; scratch per thread; env, atm, bas and the optimizer are read-only parameters. Spinor drivers not included."
  },
  {
   "property": "C36",
   "status": "proved",
   "theorems": [
    "C36_lifecycle",
    "C36_refill_refuted",
    "C36_recreate_refuted",
    "C36_no_atoms_refuted"
   ],
   "note": "all call sequences that create over a non-live variable and fill no part twice; both exclusions are necessary (leaks, proved), and natm = 0 is undefined behaviour (proved); malloc does not fail"
  },
  {
   "property": "C37",
   "status": "proved",
   "theorems": [
    "C37_pairdata",
    "C37_table",
    "C37_first_pair_refuted"
   ],
   "note": "exact arithmetic; positive exponents; in the table every primitive has a non-zero coefficient; the pair of shell 0 with itself is never marked empty (proved)"
  },
  {
   "property": "C38",
   "status": "proved",
   "theorems": [
    "C38_index",
    "C38_index_sign_refuted",
    "C38_lists",
    "C38_stored",
    "C38_batch_2e",
    "C38_batch_3c2e"
   ],
   "note": "Index tables and coefficient lists of an optimizer equal the fresh ones when omega has the same sign as at build time (and need not otherwise); if no primitive quartet/triple is screened in either path the loops with and without optimizer give the same batch, flags and return value (int2e, F12, int3c2e; with or without table of pair data). The loops of the other classes take only index tables and coefficient lists from an optimizer."
  },
  {
   "property": "C39",
   "status": "partial",
   "theorems": [
    "C39_init",
    "C39_1e",
    "C39_3c2e",
    "C39_2e",
    "C39_2e_notable",
    "C39_2e_table",
    "C39_2c2e_ignores",
    "C39_3c1e_ignores",
    "C39_4c1e_ignores",
    "C39_int2e_refuted"
   ],
   "note": "True for the one-electron, grids, three-centre two-electron and F12 classes; classes that ignore the user's value identified (2c2e, 3c1e, 4c1e). False for int2e: its cutoff is the user's value plus one (refuted with a witness; the exact set is given by C39_2e*). Short-range operators (omega < 0) enlarge the cutoff in int2e without optimizer and int3c2e; their exact sets are not stated."
  },
  {
   "property": "C47",
   "status": "partial",
   "theorems": [
    "C47_table_partial",
    "C47_notable_partial",
    "C47_3c2e",
    "C47_user_cutoff_refuted",
    "C47_derivative_refuted",
    "C47_short_range_refuted"
   ],
   "note": "False in general: three independent witnesses (user's cutoff, derivatives on one electron, short-range operator). Proved where true: int3c2e always (derivatives not exceeding those of the pair), int2e/F12 under the stated conditions."
  },
  {
   "property": "C26",
   "status": "proved",
   "theorems": [
    "C26_bra_si",
    "C26_bra_sf",
    "C26_bra1_si",
    "C26_bra1_sf",
    "C26_bra1_zi",
    "C26_bra1_zf",
    "C26_ket",
    "C26_iket",
    "C26_ket1",
    "C26_iket1",
    "C26_1e_driver",
    "C26_2c2e_driver",
    "C26_3c2e_ssc_driver",
    "C26_grids_driver",
    "C26_2e_driver",
    "C26_3c2e_driver",
    "C26_no_table_refuted"
   ],
   "note": "For l <= 12, every coefficient table and every commutative ring: the bra, ket and i-ket transforms, and the blocks that the spinor drivers of the 1e, grids, 2c2e, 3c2e (both auxiliary forms) and 2e classes leave in the caller's array. Shells with l = 13..15 are accepted but have NULL coefficient pointers (refuted separately). a_ket_cart2spinor_si/_sf are inside #if 0 and not modelled. The numerical content of the coefficient tables is not part of the claim."
  },
  {
   "property": "C10",
   "status": "proved",
   "theorems": [
    "C10_switch",
    "C10_selection",
    "C10_unrolled",
    "C10_same_as_generic",
    "C10_same_as_generic_2c",
    "C10_coulomb_integrals"
   ],
   "note": "All 70 kernels transcribed assignment by assignment from g2e.c by a script. 'Same array contents' means every cell the integrand reads (orders up to li_ceil, lj_ceil, lk_ceil, ll_ceil, every root and axis): the generic algorithm leaves intermediate orders in the remaining cells, which some unrolled kernels do not write."
  },
  {
   "property": "C49",
   "status": "proved",
   "theorems": [
    "C49_legacy",
    "C49_legacy1e",
    "C49_f12",
    "C49_breit",
    "C49_legacy_optimizer",
    "C49_fortran",
    "C49_fortran1e",
    "C49_fortran_optimizer",
    "C49_c2f_sizes",
    "C49_c2f_totals",
    "C49_c2f_offsets",
    "C49_c2f_others",
    "C49_all",
    "C49_same_value",
    "C49_query_refuted",
    "C49_query_size_refuted"
   ],
   "note": "Every macro instance and hand-written wrapper, expanded from the macro text; a call is executed with the C argument conversions. 'Returns the same value' holds for all results that fit FINT (integrals return 0/1); in CACHE_SIZE_I8 builds the size query of a legacy function is cut to 32 bits (refuted with an int2e witness)."
  },
  {
   "property": "C56",
   "status": "partial",
   "theorems": [
    "C56_int2e",
    "C56_int2e_region",
    "C56_int2e_spinor",
    "C56_int1e",
    "C56_int2c2e",
    "C56_int3c2e",
    "C56_int3c2e_spinor",
    "C56_int3c1e",
    "C56_int4c1e",
    "C56_grids",
    "C56_output",
    "C56_i8",
    "C56_int2e_spinor_refuted",
    "C56_int1e_refuted",
    "C56_int3c2e_refuted",
    "C56_int3c1e_refuted",
    "C56_int4c1e_refuted",
    "C56_grids_refuted",
    "C56_output_refuted"
   ],
   "note": "The overflow region of every size query is characterised exactly. 'No overflow or refusal' is true of int2e only; for the one-electron, two-, three-index, four-index one-electron, grids and spinor drivers there are shells within the limits for which the 32-bit computation overflows or is silently truncated (witnesses)."
  },
  {
   "property": "C57",
   "status": "proved",
   "theorems": [
    "C57_tables",
    "C57_factors"
   ],
   "note": "finite tables transcribed by script from the sources (IntgTab.v); checked for all 218 names"
  },
  {
   "property": "C58",
   "status": "partial",
   "theorems": [
    "C58_integrands",
    "C58_not_stored",
    "C58_transposed",
    "C58_transposed_refuted",
    "C58_breit_sign",
    "C58_ipvg1_more",
    "C58_r6_repaired",
    "C58_r6_refuted",
    "C58_overlap",
    "C58_nuclear"
   ],
   "note": "211 of 218 names; the seven exceptions have theorems of their own, except that nothing is shown of int2e_ipvg2_xp1 and of int2e_ipvg1_xp1 as shipped"
  },
  {
   "property": "C59",
   "status": "proved",
   "theorems": [
    "C59_coulomb",
    "C59_nuclear",
    "C59_kernel"
   ],
   "note": "Real arithmetic; the root finders' results are hypotheses. The operators enter through their Gaussian representation (integral over s outside those over space; no Fubini theorem is used to exchange them). One-electron functions with the default number of roots (RYS_ROOTS slot 0, all nuclear-type entries)."
  },
  {
   "property": "C60",
   "status": "proved",
   "theorems": [
    "C60_nuclear",
    "C60_coulomb",
    "C60_unique"
   ],
   "note": "Composition of one primitive call (not the primitive and contraction loops, C16-C18, nor the transformation, C19-C26). Real arithmetic; the root finders' results are hypotheses; Coulomb operators through their Gaussian representation as in C59. The seven entries of except_names are excluded (findings of C58). Yukawa/F12, grids, 3c1e and 4c1e families are not covered."
  },
  {
   "property": "C61",
   "status": "proved",
   "theorems": [
    "C61_zero",
    "C61_gout",
    "C61_fill",
    "C61_fill_3c",
    "C61_names"
   ],
   "note": "C61_gout excludes the entries of except_names (int2e_ipvg1_xp1 and int2e_ipvg2_xp1 among the 20); C61_zero covers all 20. Real arithmetic."
  },
  {
   "property": "C62",
   "status": "proved",
   "theorems": [
    "C62_1e_cart",
    "C62_1e_sph",
    "C62_unique"
   ],
   "note": "Whole Cartesian and spherical one-electron drivers (spinor driver: C67). Real arithmetic; the root finder is a parameter with the hypothesis finds_roots; work arrays are separate buffers (C27-C30 place them in the cache) holding arbitrary numbers; at an estimate exactly equal to the cutoff the pair is visited with prefactor 0. int1e_ippnucpip and int1e_ipprinvpip are excluded (findings of C58)."
  },
  {
   "property": "C63",
   "status": "proved",
   "theorems": [
    "C63_4c_cart",
    "C63_4c_sph",
    "C63_4c_unique"
   ],
   "note": "Whole Cartesian and spherical four-centre drivers without optimizer (spinor driver: C68; optimizer path: C65), any omega. Real arithmetic; the root finders are parameters with the hypothesis finds_roots_2e; work arrays are separate buffers holding arbitrary numbers. h is the factor the scalar function sets and f the factor of the documented operator; they agree except for the twelve names of other_factor (a finding of C58). Entries of except_names (C58) are excluded."
  },
  {
   "property": "C64",
   "status": "proved",
   "theorems": [
    "C64_3c_cart",
    "C64_3c_sph",
    "C64_3c_unique",
    "C64_2c_cart",
    "C64_2c_sph",
    "C64_2c_unique"
   ],
   "note": "Whole Cartesian and spherical three- and two-centre drivers without optimizer (spinor drivers: C68; optimizer path: C65), any omega. Real arithmetic; root finders are parameters with the hypothesis finds_roots_2e; work arrays are separate buffers holding arbitrary numbers; at an estimate exactly equal to the cutoff the pair is visited with prefactor 0. When no primitive is kept the two-centre driver reads dims[2] (a finding in DESIGN.md): the hypothesis asks for it then."
  },
  {
   "property": "C65",
   "status": "proved",
   "theorems": [
    "C65_4c_cart",
    "C65_4c_sph",
    "C65_3c_cart",
    "C65_3c_sph"
   ],
   "note": "Whole Cartesian and spherical four- and three-centre drivers with optimizer, any omega; the optimizer's pair data, coefficient lists and index tables are those of C37 and C38 for the tables the call sees. The two-centre loop with optimizer has the text of the one without (C64). Real arithmetic; root finders are parameters with the hypothesis finds_roots_2e; work arrays are separate buffers holding arbitrary numbers; at an estimate exactly equal to its limit the pair is visited with prefactor 0. Entries of except_names (C58) are excluded; spinor drivers: C68."
  },
  {
   "property": "C66",
   "status": "proved",
   "theorems": [
    "C66_4c_cart",
    "C66_4c_sph",
    "C66_3c_cart",
    "C66_3c_sph"
   ],
   "note": "Equality of the stored real numbers (exact arithmetic). The sets of kept primitives are those of C63-C65; they differ in general (C47), hence the hypothesis. Entries of except_names (C58) are excluded; spinor drivers are not included."
  },
  {
   "property": "C67",
   "status": "proved",
   "theorems": [
    "C67_1e_spinor"
   ],
   "note": "Whole one-electron spinor driver, l <= 12 (the coefficient tables end there: C26_no_table_refuted). The coefficient tables are arbitrary. Real arithmetic; the root finder is a parameter with the hypothesis finds_roots; work arrays are separate buffers holding arbitrary numbers; the caller's complex array is an array of twice as many real numbers. int1e_ippnucpip and int1e_ipprinvpip are excluded (findings of C58)."
  },
  {
   "property": "C68",
   "status": "proved",
   "theorems": [
    "C68_4c_spinor",
    "C68_4c_spinor_opt",
    "C68_3c_spinor",
    "C68_3c_spinor_opt",
    "C68_2c_spinor"
   ],
   "note": "Whole two-electron spinor drivers, with and without optimizer, any omega, l <= 12 for shells with spinor functions; among the two-centre entries only int2c2e has a spinor function. Hypotheses on root finders, work arrays and coefficient tables as in C63-C67. Entries of except_names (C58) are excluded."
  },
  {
   "property": "C69",
   "status": "proved",
   "theorems": [
    "C69_4c_cart",
    "C69_4c_sph",
    "C69_3c_cart",
    "C69_3c_sph",
    "C69_1e_cart",
    "C69_1e_sph"
   ],
   "note": "Real arithmetic and the hypotheses of C62-C65 for each of the two calls. Entry points without operators in front of the functions: int2e, int3c2e, int1e_ovlp, int1e_nuc, int1e_rinv. The exchange of the two electrons is C70."
  },
  {
   "property": "C70",
   "status": "proved",
   "theorems": [
    "C70_4c_cart",
    "C70_4c_sph",
    "C70_2c_cart",
    "C70_2c_sph",
    "C70_same_primitives",
    "C70_nopt_refuted"
   ],
   "note": "Real arithmetic and the hypotheses of C63-C65 for each of the two calls. With optimizer no further condition. Without optimizer the two calls must keep the same primitives: C70_same_primitives shows this for omega >= 0 unless an estimate equals the cutoff exactly, C70_nopt_refuted shows that it fails for erfc(|omega| r12)/r12 (finding 38). Entry points without operators in front of the functions: int2e, int2c2e."
  },
  {
   "property": "C71",
   "status": "proved",
   "theorems": [
    "C71_1e_cart",
    "C71_1e_sph"
   ],
   "note": "Real arithmetic and the hypotheses of C62 for each of the two calls; one-electron entry points whose operator is a product of positions relative to a fixed origin, or the kinetic energy (integration by parts)."
  },
  {
   "property": "C72",
   "status": "proved",
   "theorems": [
    "C72_same_primitives",
    "C72_4c_cart",
    "C72_4c_sph",
    "C72_op_cart",
    "C72_op_sph"
   ],
   "note": "Real arithmetic and the hypotheses of C63 and C65 for each of the two calls (so not the names in except_names). The 20 other four-centre entry points have gauge-including functions or gauge operators, whose integrals depend on the origin of space."
  },
  {
   "property": "C73",
   "status": "proved",
   "theorems": [
    "C73_1e_cart",
    "C73_1e_sph"
   ],
   "note": "Real arithmetic and the hypotheses of C62 for each of the two calls (so 95 of the 97 movable entry points: not int1e_ippnucpip and int1e_ipprinvpip, named in except_names). The 13 other one-electron entry points have gauge-including functions or gauge operators, whose integrals depend on the origin of space."
  }
 ]
}