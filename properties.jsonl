{"id": "C01", "title": "Shell sizes and basis totals", "statement": "For every basis table, the per-shell function counts returned for Cartesian, spherical and spinor shells are (l+1)(l+2)/2, 2l+1 and (kappa=0: 4l+2, kappa<0: 2l+2, kappa>0: 2l) times the number of contractions, and the totals returned for the whole basis are exactly the sums of the per-shell counts; for l>=0 a kappa=0 spinor shell has exactly as many functions as its kappa<0 and kappa>0 halves together.", "quantifier": "every basis table of every length, every l, kappa, contraction and primitive count", "why_tests_cant": "The set of basis tables is infinite; tests sample a few molecules.", "anchors": ["src/cint_bas.c:CINTlen_cart", "src/cint_bas.c:CINTlen_spinor", "src/cint_bas.c:CINTcgto_cart", "src/cint_bas.c:CINTcgto_spheric", "src/cint_bas.c:CINTcgto_spinor", "src/cint_bas.c:tot_cgto_accum", "src/cint_bas.c:CINTtot_pgto_spheric"]}
{"id": "C02", "title": "AO offset tables tile the basis", "statement": "For a non-empty basis the offset table written by CINTshells_{cart,spheric,spinor}_offset has, in its nbas entries, the prefix sums of the shell sizes (and nothing outside these entries is written), so that every global function index below the basis total belongs to exactly one shell's interval [offset, offset+size).", "quantifier": "every non-empty basis table and every function index", "why_tests_cant": "Needs all basis tables and all indices; a gap or overlap can appear only for unusual shell mixtures (empty spinor shells, zero contractions).", "anchors": ["src/cint_bas.c:shells_cgto_offset", "src/cint_bas.c:CINTshells_cart_offset", "src/cint_bas.c:CINTshells_spheric_offset", "src/cint_bas.c:CINTshells_spinor_offset"]}
{"id": "C03", "title": "Cartesian component order", "statement": "For every angular momentum l, the component enumeration yields each triple (nx,ny,nz) of non-negative exponents with nx+ny+nz=l exactly once, in decreasing lexicographic order, and the number of triples is the Cartesian shell size.", "quantifier": "every l >= 0", "why_tests_cant": "Tests can only enumerate small l; completeness/uniqueness is a statement about all l.", "anchors": ["src/cint_bas.c:CINTcart_comp", "src/cint_bas.c:CINTlen_cart"]}
{"id": "C04", "title": "One-electron index table addresses the right components", "statement": "For every pair of shells and every operator order, the one-electron index table lists, for the Cartesian pair (i,j) at position j*nfi+i, the offsets of its x, y and z factors in the intermediate array: each offset lies inside its own (x, y or z) third of the array and decodes to exactly the exponents of that component; different exponent pairs give different offsets.", "quantifier": "all angular momenta, all operator increments, all component pairs", "why_tests_cant": "An off-by-one in a stride is only visible for particular (l, increment) combinations; memory errors may be silent.", "anchors": ["src/g1e.c:CINTg1e_index_xyz", "src/g1e.c:CINTinit_int1e_EnvVars", "src/cint_bas.c:CINTcart_comp"]}
{"id": "C05", "title": "Four-index table addresses the right components, including the unrolled s/p/d cases", "statement": "For every quartet of shells the four-index table lists at position ((j*nfl+l)*nfk+k)*nfi+i the x/y/z offsets of that component; the hand-unrolled code for an s, p or d first shell yields exactly the same table as the generic loop, and all offsets are inside their third of the array for each of the four memory layouts chosen by the library.", "quantifier": "all four angular momenta, all operator increments, all component quadruples", "why_tests_cant": "Four layouts times unbounded angular momenta; tests only exercise low l.", "anchors": ["src/g2e.c:CINTg2e_index_xyz", "src/g2e.c:CINTinit_int2e_EnvVars", "src/g4c1e.c:CINTg4c1e_index_xyz"]}
{"id": "C06", "title": "Three-index table addresses the right components", "statement": "For every shell triple of a three-centre one-electron integral, the index table is in bounds and decodes to the exponents of the component, as for the two- and four-index tables.", "quantifier": "all angular momenta, operator increments and component triples", "why_tests_cant": "Same as above: unbounded family, silent memory errors.", "anchors": ["src/g3c1e.c:CINTg3c1e_index_xyz", "src/g3c1e.c:CINTinit_int3c1e_EnvVars"]}
{"id": "C07", "title": "One-electron overlap recurrence computes the Gaussian integrals", "statement": "In exact arithmetic, after the overlap recurrence every cell (i,j) of the x-array that is read later equals the integral over the real line of (x-Ax)^i (x-Bx)^j exp(-ai(x-Ax)^2-aj(x-Bx)^2), normalised by the pair prefactor; the recurrence never reads a cell it has not written and never leaves the array, whichever centre the library picks as the base of the recurrence.", "quantifier": "all angular momenta including operator increments, all exponents > 0, all centres, both base choices", "why_tests_cant": "Quadrature comparison at sample points bounds neither l nor the exponents; uninitialised reads are value dependent.", "anchors": ["src/g1e.c:CINTg1e_ovlp", "src/g1e.c:CINTinit_int1e_EnvVars"]}
{"id": "C08", "title": "Two-electron vertical recurrence computes the two-index Rys moments", "statement": "For every Rys root independently, the two-index recurrence fills G(n,m) for all n<=nmax, m<=mmax with the mixed moments of the Gaussian form with means c00,c0p and second moments b10,b01,b00 (the unique table satisfying both the bra and the ket recurrence); it uses only values of cells it has written, changes nothing outside its three blocks and stays inside the scratch the drivers allocate (at least four blocks). With exactly three blocks and nmax=0 one unused load falls outside the array.", "quantifier": "all nmax, mmax, root counts, recurrence coefficients", "why_tests_cant": "Rewriting order and pointer arithmetic must be right for every (nmax, mmax); tests cover few.", "anchors": ["src/g2e.c:CINTg0_2e_2d"]}
{"id": "C09", "title": "The four horizontal-transfer variants agree", "statement": "Each of the four transfer routines (chosen by which bra and which ket shell is larger) fills every cell (i,j,k,l) that the index table or a derivative operator may read with the same quantity: the moment with the exponents redistributed by the binomial transfer relation; reads are initialised and in bounds. Hence the value for a quartet does not depend on which variant the library selected.", "quantifier": "all four angular momenta with increments, all geometry", "why_tests_cant": "The variant is chosen by comparing angular momenta, each variant has its own memory layout; tests touch few combinations.", "anchors": ["src/g2e.c:CINTg0_lj2d_4d", "src/g2e.c:CINTg0_kj2d_4d", "src/g2e.c:CINTg0_il2d_4d", "src/g2e.c:CINTg0_ik2d_4d"]}
{"id": "C10", "title": "Hand-unrolled low-order kernels equal the generic algorithm", "statement": "Each of the 35 unrolled kernels and each of the 35 short-range (doubled roots) kernels writes, in exact arithmetic, the same array contents as the generic recurrence-plus-transfer algorithm for the same angular momenta, and the selection by angular momentum picks the kernel for exactly those momenta.", "quantifier": "all recurrence coefficients, geometry and weights, all 35 angular-momentum combinations", "why_tests_cant": "70 straight-line functions with hundreds of assignments; a single wrong coefficient in one branch is only visible numerically for one combination.", "anchors": ["src/g2e.c:_g0_2d4d_0000", "src/g2e.c:CINTg0_2e_2d4d_unrolled", "src/g2e.c:CINTsrg0_2e_2d4d_unrolled"]}
{"id": "C11", "title": "Derivative and position operators on one-electron intermediates", "statement": "Applying the library's nabla (resp. position) operator to an intermediate array that holds the 1D integrals of x_A^i x_B^j yields, on the requested (smaller) range, the 1D integrals of the differentiated (resp. multiplied by the coordinate) basis function on the chosen centre; it reads exactly one order more than it writes.", "quantifier": "all ranges, exponents and geometry; operators on the bra and ket", "why_tests_cant": "Composition of several operators needs the range claim for every l.", "anchors": ["src/g1e.c:CINTnabla1i_1e", "src/g1e.c:CINTnabla1j_1e", "src/g1e.c:CINTx1i_1e", "src/g1e.c:CINTx1j_1e"]}
{"id": "C12", "title": "Derivative and position operators on two-electron intermediates", "statement": "The same for the two-electron operators on each of the four centres, for every root, in the library's memory layout.", "quantifier": "all ranges, exponents, geometry, root counts, four centres", "why_tests_cant": "As above, with four indices and roots.", "anchors": ["src/g2e.c:CINTnabla1i_2e", "src/g2e.c:CINTnabla1j_2e", "src/g2e.c:CINTnabla1k_2e", "src/g2e.c:CINTnabla1l_2e", "src/g2e.c:CINTx1i_2e", "src/g2e.c:CINTx1j_2e", "src/g2e.c:CINTx1k_2e", "src/g2e.c:CINTx1l_2e"]}
{"id": "C13", "title": "Rys recurrence coefficients describe the right Gaussian", "statement": "For positive exponent sums and every root, the coefficients handed to the recurrences are the mean and half the inverse of the quadratic form aij(x1-P)^2+akl(x2-Q)^2+a0*u(x1-x2)^2, relative to the chosen base centres; hence after CINTg0_2e (Coulomb, long-range, short-range) and CINTg0_2e_yp/_stg every array cell is the correspondingly weighted Gaussian integral over the plane, with the range-separation damping of nodes and weights, and the routine reports 'skipped' exactly when the short-range argument exceeds the cutoff or 40.", "quantifier": "all positive exponent sums, all centres, all non-negative u", "why_tests_cant": "An algebraic identity over continuous parameters.", "anchors": ["src/g2e.c:CINTg0_2e", "src/g2e_f12.c:CINTg0_2e_yp", "src/g2e_f12.c:CINTg0_2e_stg"]}
{"id": "C14", "title": "Sparse contraction lists are exact", "statement": "For every coefficient matrix, the list built for each primitive is a permutation of all contraction indices whose first 'count' entries are exactly the contractions with non-zero coefficient.", "quantifier": "every coefficient matrix of every shape", "why_tests_cant": "Depends on the zero pattern of user-supplied coefficients.", "anchors": ["src/optimizer.c:CINTOpt_non0coeff_byshell"]}
{"id": "C15", "title": "Sparse accumulation equals dense contraction", "statement": "Accumulating one primitive batch into the contracted batch through the sparse lists adds coefficient*batch to every contraction (and only to that), and the first accumulation assigns every cell, so that earlier buffer contents are irrelevant.", "quantifier": "all batch lengths, all contraction counts, all coefficients, arbitrary previous buffer contents", "why_tests_cant": "All zero patterns and buffer histories cannot be enumerated.", "anchors": ["src/g1e.c:CINTprim_to_ctr_0", "src/g1e.c:CINTprim_to_ctr_1"]}
{"id": "C16", "title": "Two-electron primitive loop is the full contraction", "statement": "For every shell quartet the contracted batch returned by the primitive loop is, for every contraction combination, the sum over all primitive quartets that pass the screening of the product of the four contraction coefficients with the primitive batch; the loop reports 'non-zero' exactly if some primitive quartet passed. Screened quartets contribute nothing; no result depends on previous buffer contents.", "quantifier": "all primitive counts, contraction counts (including the aliased buffers used when a count is 1), all coefficients, all screening outcomes, arbitrary previous buffer contents", "why_tests_cant": "Sixteen buffer-aliasing patterns times arbitrary screening histories; the empty-flag protocol is history dependent.", "anchors": ["src/cint2e.c:CINT2e_loop_nopt", "src/cint2e.c:CINT2e_loop", "src/g1e.c:CINTprim_to_ctr_0"]}
{"id": "C17", "title": "Specialised contraction loops agree with the general one", "statement": "The loops specialised for shells with one contraction return the same batch and the same flag as the general loop on every input on which they are selected, and the selection picks them only when the required counts are one.", "quantifier": "all contraction patterns, primitive counts, coefficients and screening outcomes", "why_tests_cant": "Selection table and five hand-specialised loops; tests do not force all patterns with all screening histories.", "anchors": ["src/cint2e.c:CINT2e_1111_loop", "src/cint2e.c:CINT2e_n111_loop", "src/cint2e.c:CINT2e_1n11_loop", "src/cint2e.c:CINT2e_11n1_loop", "src/cint2e.c:CINT2e_111n_loop", "src/cint2e.c:CINTf_2e_loop"]}
{"id": "C18", "title": "One-, three- and four-centre loops are the full contraction", "statement": "The primitive loops of the one-electron, two- and three-centre two-electron, three-centre and four-centre one-electron integrals return the sum over surviving primitives of coefficient products times primitive batches, and report 'non-zero' iff one survived.", "quantifier": "all primitive and contraction counts, coefficients, screening outcomes, previous buffer contents", "why_tests_cant": "As for the four-centre loop.", "anchors": ["src/cint1e.c:CINT1e_loop", "src/cint3c2e.c:CINT3c2e_loop_nopt", "src/cint2c2e.c:CINT2c2e_loop_nopt", "src/cint3c1e.c:CINT3c1e_loop_nopt", "src/cint4c1e.c:CINT4c1e_loop_nopt"]}
{"id": "C19", "title": "Zero results are zero-filled exactly on the requested block", "statement": "When no primitive survives, the output block selected by dims (or the contiguous block if dims is NULL) is set to zero for every component, and no other element of the output is touched.", "quantifier": "all block sizes and all dims with dims >= block sizes, all component counts, all prior output contents", "why_tests_cant": "Strides and sizes are unbounded; an overrun or a missed element depends on their combination.", "anchors": ["src/cart2sph.c:c2s_dset0", "src/cart2sph.c:c2s_zset0", "src/cint2e.c:CINT2e_drv", "src/cint1e.c:CINT1e_drv"]}
{"id": "C20", "title": "Output footprint of a two-index integral", "statement": "Writing a Cartesian or spherical two-index result into an array with leading dimension dims[0] >= block rows writes each element (i,j) of the block exactly once at out[j*dims[0]+i] and touches nothing else, so blocks of different shell pairs written into one matrix do not interfere.", "quantifier": "all block sizes, contractions, leading dimensions, all prior contents", "why_tests_cant": "Unbounded strides; silent out-of-block writes.", "anchors": ["src/cart2sph.c:dcopy_ij", "src/cart2sph.c:c2s_cart_1e", "src/cart2sph.c:c2s_sph_1e"]}
{"id": "C21", "title": "Output footprint of a four-index integral", "statement": "The same for four-index results: element (i,j,k,l) of the contracted block lands at out[((l*dims[2]+k)*dims[1]+j)*dims[0]+i] for every row-length special case of the copy routine, and nothing else is touched.", "quantifier": "all block sizes (including the special-cased row lengths), contractions, dims", "why_tests_cant": "The copy routine has hand-unrolled cases for row lengths; strides are unbounded.", "anchors": ["src/cart2sph.c:dcopy_iklj", "src/cart2sph.c:c2s_cart_2e1", "src/cart2sph.c:c2s_sph_2e1"]}
{"id": "C22", "title": "Component blocks of a tensor operator do not overlap", "statement": "For an operator with several components, component n is written at offset n*prod(dims), component blocks are disjoint, and with dims NULL they are packed contiguously in component order.", "quantifier": "all component counts, all dims >= block sizes", "why_tests_cant": "Unbounded combinations; overlap is silent.", "anchors": ["src/cint2e.c:CINT2e_drv", "src/cint1e.c:CINT1e_drv", "src/cint3c2e.c:CINT3c2e_drv"]}
{"id": "C23", "title": "Spherical transformation is the tensor product of the per-shell transforms", "statement": "In exact arithmetic the spherical two- and four-index outputs equal, element by element, the contraction of the Cartesian batch with the per-shell transformation matrices on every index, for every contraction block.", "quantifier": "all angular momenta covered by the table, contractions and batches", "why_tests_cant": "A tensor identity over all inputs; order of the half-transforms and buffer swapping must be right for all l.", "anchors": ["src/cart2sph.c:c2s_sph_1e", "src/cart2sph.c:c2s_sph_2e1", "src/cart2sph.c:sph2e_inner"]}
{"id": "C24", "title": "Hard-coded d/f/g transforms equal the coefficient table", "statement": "The hand-written sparse bra and ket transforms for d, f and g shells compute exactly the dense product with the corresponding block of the library's coefficient table, and the entries they skip are zero in that table.", "quantifier": "all input batches and batch widths", "why_tests_cant": "Dozens of hand-written formulas over all inputs.", "anchors": ["src/cart2sph.c:d_bra_cart2sph", "src/cart2sph.c:f_bra_cart2sph", "src/cart2sph.c:g_bra_cart2sph", "src/cart2sph.c:d_ket_cart2sph", "src/cart2sph.c:f_ket_cart2sph", "src/cart2sph.c:g_ket_cart2sph", "src/cart2sph.c:g_trans_cart2sph"]}
{"id": "C25", "title": "Spherical coefficient table is complete, orthonormal and harmonic", "statement": "The table blocks for l=0..15 tile the table without gap or overlap; every row of every block is a solid harmonic (its Laplacian vanishes to the table's precision) and rows of one block are orthonormal on the sphere to that precision.", "quantifier": "all rows of all 16 blocks (a finite domain, checked exhaustively over exact rationals)", "why_tests_cant": "Unit tests compare a few integrals; a wrong coefficient at high l is not exercised.", "anchors": ["src/cart2sph.c:g_trans_cart2sph", "src/cart2sph.c:g_c2s"]}
{"id": "C26", "title": "Spinor transforms are products with the spin matrices", "statement": "For spin-free and spin-dependent operators, the one-index spinor transforms equal the complex matrix product of the (conjugated on the bra) spinor coefficients with the two-component matrix a + i(sigma.x), and the 'i' variants equal i times the plain ones.", "quantifier": "all coefficient blocks and all input batches", "why_tests_cant": "Sign and conjugation errors only show for particular kappa/component combinations.", "anchors": ["src/cart2sph.c:a_bra_cart2spinor_si", "src/cart2sph.c:a_bra_cart2spinor_sf", "src/cart2sph.c:a_ket_cart2spinor_si", "src/cart2sph.c:a_iket_cart2spinor", "src/cart2sph.c:c2s_si_1e"]}
{"id": "C27", "title": "Scratch size reported for one-electron integrals suffices", "statement": "A caller that allocates exactly the reported number of doubles for a one-electron (Cartesian, spherical or spinor) integral never sees an access outside that buffer.", "quantifier": "all shell pairs, primitive and contraction counts, operators (component counts and orders)", "why_tests_cant": "Heap overruns depend on all size parameters jointly and may be silent.", "anchors": ["src/cint1e.c:int1e_cache_size", "src/cint1e.c:CINT1e_loop", "src/cint1e.c:CINT1e_drv", "src/cint1e.c:CINT1e_spinor_drv", "src/misc.h:MALLOC_INSTACK"]}
{"id": "C28", "title": "Scratch size reported for two-electron integrals suffices", "statement": "The same for two-electron integrals, with and without optimizer, Cartesian, spherical and spinor.", "quantifier": "all shell quartets, primitive and contraction counts, operators", "why_tests_cant": "The buffers actually touched depend on which contraction counts are one; the reported size is less than the sum of the reserved areas.", "anchors": ["src/cint2e.c:CINT2e_drv", "src/cint2e.c:CINT2e_loop_nopt", "src/cint2e.c:CINT2e_loop", "src/cint2e.c:CINT2e_spinor_drv"]}
{"id": "C29", "title": "Scratch size reported for three-centre two-electron integrals suffices", "statement": "The same for three-centre two-electron integrals.", "quantifier": "all shell triples, primitive and contraction counts, operators", "why_tests_cant": "As above.", "anchors": ["src/cint3c2e.c:CINT3c2e_drv", "src/cint3c2e.c:CINT3c2e_loop_nopt"]}
{"id": "C30", "title": "Scratch size reported for two-centre two-electron integrals suffices", "statement": "The same for two-centre two-electron integrals, which reuse the one-electron size formula.", "quantifier": "all shell pairs, primitive and contraction counts, operators", "why_tests_cant": "As above.", "anchors": ["src/cint2c2e.c:CINT2c2e_drv", "src/cint2c2e.c:CINT2c2e_loop_nopt", "src/cint1e.c:int1e_cache_size"]}
{"id": "C31", "title": "Scratch size reported for three-centre one-electron integrals suffices", "statement": "The same for three-centre one-electron integrals.", "quantifier": "all shell triples, primitive and contraction counts, operators", "why_tests_cant": "As above.", "anchors": ["src/cint3c1e.c:CINT3c1e_drv", "src/cint3c1e.c:CINT3c1e_loop_nopt"]}
{"id": "C32", "title": "Scratch size reported for four-centre overlap integrals suffices", "statement": "The same for int4c1e: the size returned by the query covers every access made with that buffer.", "quantifier": "all shell quartets, primitive and contraction counts", "why_tests_cant": "The failing region (several contractions on the leading shells) is not what tests use, and heap overruns are silent.", "anchors": ["src/cint4c1e.c:CINT4c1e_drv", "src/cint4c1e.c:CINT4c1e_loop_nopt", "src/g4c1e.c:CINTg4c1e_ovlp"]}
{"id": "C33", "title": "Scratch size reported for grid integrals suffices", "statement": "The same for the grid-based one-electron integrals with their 64-byte aligned blocks, for every alignment of the caller's buffer.", "quantifier": "all shell pairs, grid counts, primitive and contraction counts, operators, buffer alignments", "why_tests_cant": "Alignment waste depends on the run-time address.", "anchors": ["src/cint1e_grids.c:int1e_grids_cache_size", "src/cint1e_grids.c:CINT1e_grids_loop", "src/g1e_grids.c:CINTg0_1e_grids"]}
{"id": "C34", "title": "Grid points are processed exactly once", "statement": "The blocked grid loop visits every grid point of the requested range exactly once, in order, with block lengths between 1 and the block size, and the per-block results are stored at the block's own place of the contracted batch.", "quantifier": "all grid counts", "why_tests_cant": "Block-boundary behaviour for all counts.", "anchors": ["src/cint1e_grids.c:CINT1e_grids_loop", "src/cint1e_grids.c:_transpose_comps"]}
{"id": "C35", "title": "Results do not depend on scratch history", "statement": "For a molecule with at least one atom and for every loop, the result batch is a function of the inputs only: two runs with arbitrary different initial scratch contents give the same batch and flag.", "quantifier": "all inputs, all pairs of initial scratch contents", "why_tests_cant": "A read of stale scratch shows up only with particular histories.", "anchors": ["src/cint1e.c:CINT1e_loop", "src/cint1e.c:make_g1e_gout", "src/cint2e.c:CINT2e_loop_nopt"]}
{"id": "C36", "title": "Optimizer objects are leak free and safe to delete", "statement": "For every sequence of creating, filling and deleting optimizers (including deleting a NULL or never-filled one), every allocation is freed exactly once, nothing is used after being freed, and the caller's pointer is NULL afterwards.", "quantifier": "all sequences of optimizer operations, all basis sizes", "why_tests_cant": "All histories of create/fill/delete; double frees need specific orders.", "anchors": ["src/optimizer.c:CINTinit_2e_optimizer", "src/optimizer.c:CINTdel_2e_optimizer", "src/optimizer.c:CINTdel_pairdata_optimizer", "src/optimizer.c:CINTOpt_set_non0coeff", "src/optimizer.c:CINTOpt_setij"]}
{"id": "C37", "title": "Pair data mark a shell pair empty exactly if every primitive pair is below the cutoff", "statement": "The pair-data routine reports 'empty' iff the estimate of every primitive pair reaches the cutoff, stores for each surviving pair its centre and exponential prefactor and for each other pair a zero prefactor; stored data for (i,j) and (j,i) are transposes of each other.", "quantifier": "all exponents, centres, coefficients, cutoffs, primitive counts", "why_tests_cant": "Screening decisions depend on continuous inputs.", "anchors": ["src/optimizer.c:CINTset_pairdata", "src/optimizer.c:CINTOpt_setij"]}
{"id": "C38", "title": "Using an optimizer does not change two-electron results", "statement": "On inputs where no primitive quartet is screened by either path, calling with and without an optimizer gives the same contracted batch; the index table taken from an optimizer equals the freshly computed one provided the range-separation parameter has the same sign as when the optimizer was built.", "quantifier": "all bases, shells, exponents, contraction patterns", "why_tests_cant": "Histories in which the optimizer was built under a different parameter are not tested.", "anchors": ["src/cint2e.c:CINT2e_drv", "src/optimizer.c:gen_idx", "src/optimizer.c:CINTall_2e_optimizer"]}
{"id": "C39", "title": "A user cutoff is honoured", "statement": "The exponent cutoff used by every integral class is 60 if env[PTR_EXPCUTOFF] is 0 and otherwise the larger of 40 and the user's value; classes that ignore it are identified.", "quantifier": "all env values, all integral classes", "why_tests_cant": "A property of all code paths.", "anchors": ["src/g1e.c:CINTinit_int1e_EnvVars", "src/g2e.c:CINTinit_int2e_EnvVars", "src/cint3c1e.c:CINT3c1e_loop_nopt", "src/cint4c1e.c:CINT4c1e_loop_nopt"]}
{"id": "C40", "title": "Boys-function values satisfy the defining integral", "statement": "In exact arithmetic the incomplete-gamma routines (with and without a lower limit) terminate and return F_m(t) = int_l^1 u^(2m) exp(-t u^2) du for every order: exactly at t=0 and on the upward branch, and within the relative tolerance of the series truncation on the downward branch.", "quantifier": "all orders m < 40 (the length of TURNOVER_POINT; refuted for m >= 40), all t >= 0, all lower limits 0 <= l <= 1", "why_tests_cant": "A statement about all real t and all m.", "anchors": ["src/fmt.c:gamma_inc_like", "src/fmt.c:fmt1_gamma_inc_like", "src/fmt.c:fmt_erfc_like", "src/fmt.c:fmt1_erfc_like"]}
{"id": "C41", "title": "Rys root tables are never read out of bounds", "statement": "For every root count accepted by the library and every x, each table access made while computing Rys roots lies inside the table.", "quantifier": "all accepted root counts, all x", "why_tests_cant": "High angular momenta are not exercised; an out-of-bounds read of static data is silent.", "anchors": ["src/rys_roots.c:CINTrys_roots", "src/rys_wheeler.c:qflocke_jacobi_moments", "src/rys_wheeler.c:qwheeler_recursion", "src/fmt.c:TURNOVER_POINT"]}
{"id": "C42", "title": "Short-range root finding reports failure only on failure", "statement": "For every supported root count, the short-range root finder reports failure (and aborts) only if the selected solver and its fallback failed.", "quantifier": "all root counts, x and lower bounds", "why_tests_cant": "Requires every root count; two of them always abort.", "anchors": ["src/rys_roots.c:CINTsr_rys_roots", "src/rys_roots.c:segment_solve1"]}
{"id": "C43", "title": "Slater-geminal root tables are read inside their range", "statement": "Every parameter for which the Slater-type root routine does not abort selects a table block that belongs to the requested root count and parameter interval.", "quantifier": "all t >= 0, u > 0, root counts", "why_tests_cant": "Boundary intervals of a continuous parameter.", "anchors": ["src/stg_roots.c:CINTstg_roots"]}
{"id": "C44", "title": "Dense kernels are correct for every size", "statement": "The blocked transpose, conjugate transpose and small matrix products used throughout return the mathematical result for every matrix size, including all remainder cases, and write only the destination.", "quantifier": "all matrix sizes and contents", "why_tests_cant": "Blocked code with remainder cases for every size.", "anchors": ["src/fblas.c:CINTdmat_transpose", "src/fblas.c:CINTdplus_transpose", "src/fblas.c:CINTzmat_transpose", "src/fblas.c:CINTzmat_dagger", "src/fblas.c:CINTdgemm_NN1", "src/fblas.c:CINTdgemm_TN", "src/fblas.c:CINTdgemm_NT"]}
{"id": "C45", "title": "Concurrent evaluation of disjoint blocks", "statement": "Threads that evaluate different shell tuples into disjoint blocks of one output array, each with its own scratch and a shared read-only optimizer, produce the sequential result under every interleaving of their writes.", "quantifier": "all interleavings, all disjoint blocks, any number of threads", "why_tests_cant": "All schedules.", "anchors": ["README.rst", "src/cart2sph.c:dcopy_iklj", "src/cint2e.c:CINT2e_drv"]}
{"id": "C46", "title": "Mixed spherical/Cartesian three-centre output", "statement": "int3c2e_sph_ssc writes a block of shape (spherical i, spherical j, Cartesian k), honours dims, and zero-fills exactly that block when nothing survives.", "quantifier": "all angular momenta, contraction counts, dims", "why_tests_cant": "The defect needs i contractions > 1 with l >= 2, or screened shells.", "anchors": ["src/cart2sph.c:c2s_sph_3c2e1_ssc", "src/cint3c2e.c:CINT3c2e_drv"]}
{"id": "C47", "title": "Range-separated screening is the same with and without optimizer", "statement": "For a given env, the set of primitive quartets discarded by screening does not depend on whether an optimizer is passed.", "quantifier": "all env parameters, all shells", "why_tests_cant": "Continuous parameters; the difference is below typical test tolerances.", "anchors": ["src/cint2e.c:CINT2e_loop_nopt", "src/cint2e.c:CINT2e_loop", "src/optimizer.c:CINTOpt_setij", "src/g2e.c:CINTinit_int2e_EnvVars"]}
{"id": "C48", "title": "Gaussian normalisation", "statement": "The radial normalisation returned by CINTgto_norm(n,a) is the constant that makes the integral of r^2 (N r^n exp(-a r^2))^2 over r>0 equal to one.", "quantifier": "all n >= 0, all a > 0", "why_tests_cant": "Continuous parameter and all n.", "anchors": ["src/misc.c:CINTgto_norm", "src/misc.c:gaussian_int"]}
{"id": "C49", "title": "Legacy and Fortran entry points are pass-through", "statement": "Every legacy C entry point and Fortran wrapper calls the corresponding modern entry point with dims NULL, scratch NULL and its remaining arguments unchanged, hence returns the same value and writes the same output.", "quantifier": "all wrapper instances, all arguments", "why_tests_cant": "Macro-generated families of wrappers.", "anchors": ["src/misc.h:ALL_CINT", "src/misc.h:ALL_CINT1E", "src/c2f.h:ALL_CINT_FORTRAN_", "src/c2f.c"]}
{"id": "C50", "title": "Breit driver combines its three ingredients", "statement": "int2e_breit_* returns, element by element in the dims-strided block, one half of (-Gaunt - gauge_r1 + gauge_r2), zero if all three are zero, and reports 'non-zero' iff one of them did.", "quantifier": "all shells, dims, ingredient values and flags", "why_tests_cant": "History-dependent flags and buffer reuse.", "anchors": ["src/breit.c:_int2e_breit_drv", "src/breit.c:_copy_to_out"]}
{"id": "C51", "title": "Integral symmetries", "statement": "In exact arithmetic the primitive two-electron batch is invariant under exchanging i with j, k with l and bra with ket (with the components permuted accordingly), although the library may use different transfer variants and memory layouts for the permuted quartets.", "quantifier": "all angular momenta, geometry, exponents", "why_tests_cant": "All quartets; different code paths on the two sides.", "anchors": ["src/g2e.c:CINTg0_2e", "src/g2e.c:CINTg0_2e_2d", "src/g2e.c:CINTg0_lj2d_4d"]}
{"id": "C52", "title": "Primitive batch is the root-summed product of the three 1D arrays", "statement": "The plain one- and two-electron primitive batches equal, for every component, the sum over roots of the product of the x, y and z array entries with that component's exponents, overwriting or accumulating as requested.", "quantifier": "all angular momenta, all root counts including the SIMD-style special cases", "why_tests_cant": "Special-cased root counts 1..8 and the generic loop.", "anchors": ["src/g2e.c:CINTgout2e", "src/cint1e.c:CINTgout1e", "src/cint1e.c:CINTgout1e_nuc"]}
{"id": "C53", "title": "Three- and four-centre overlap recurrences", "statement": "The three-centre and four-centre one-electron recurrences stay in bounds, read only written cells and compute the three-/four-fold products' Gaussian moments.", "quantifier": "all angular momenta, exponents and centres", "why_tests_cant": "As for the two-centre recurrence; array overlap between stages of the recurrence.", "anchors": ["src/g3c1e.c:CINTg3c1e_ovlp", "src/g4c1e.c:CINTg4c1e_ovlp"]}
{"id": "C54", "title": "Back transformation is the adjoint of the forward transformation", "statement": "The spherical-to-Cartesian helpers compute the product with the transpose of the forward transformation matrix for every l and width.", "quantifier": "all l in the table, all widths and batches", "why_tests_cant": "All inputs.", "anchors": ["src/cart2sph.c:CINTs2c_bra_sph", "src/cart2sph.c:CINTs2c_ket_sph", "src/cart2sph.c:CINTc2s_bra_sph", "src/cart2sph.c:CINTc2s_ket_sph"]}
{"id": "C55", "title": "Moment reordering tables are permutations", "statement": "The order table used to sum polynomial moments visits every coefficient of each polynomial exactly once, so that the computed moment is the full polynomial applied to the Boys moments.", "quantifier": "all 64 rows (finite, exhaustive) and all moment values", "why_tests_cant": "A missing index only affects one order.", "anchors": ["src/rys_wheeler.c:JACOBI_COEF_ORDER", "src/rys_wheeler.c:naive_jacobi_moments"]}
{"id": "C56", "title": "Size arithmetic does not overflow for realistic shells", "statement": "For shells within the documented limits, the size computations performed in 32-bit integers either do not overflow or the driver refuses; the parameter region where they overflow is characterised.", "quantifier": "all shells within the documented limits", "why_tests_cant": "Overflow needs extreme but permitted shells.", "anchors": ["src/cint2e.c:CINT2e_drv", "src/cint1e.c:int1e_cache_size", "include/cint.h.in"]}
{"id": "C57", "title": "Consistency of the entry points' tables", "statement": "For each of the 218 integral names, the ng slots of its optimizer, cart, sph and spinor functions are identical; the integrand addresses at most the (1<<GSHIFT)+1 blocks the drivers allocate; POS_E1 and POS_E2 equal the number of spin components the chosen spinor transforms read; POS_E1*max(1,POS_E2)*TENSOR is the number of results the integrand stores per Cartesian function; and the common factors of the cart, sph and spinor functions agree (up to the sign for 12 Gaunt/gauge names).", "quantifier": "all 218 names of the autocode and hand-written families, all their entry points", "why_tests_cant": "A wrong ng slot of an optimizer or a spinor function shows up only for that function and only as heap corruption or a silently smaller cutoff; nobody compares all of them.", "anchors": ["src/autocode/intor1.c", "src/autocode/intor2.c", "src/autocode/grad1.c", "src/autocode/grad2.c", "src/autocode/hess.c", "src/autocode/gaunt1.c", "src/autocode/breit1.c", "src/cint1e_a.c", "src/cint3c1e_a.c"]}
{"id": "C58", "title": "Integrands compute the documented operators", "statement": "Given in block g0 the one-dimensional integrals of the basis functions up to the orders l+INC, each integrand CINTgout* calls only operators on cells inside the filled ranges, and stores in gout[n*nc+k], for every Cartesian function n and component k, a number that times the entry point's factor and the power of i of the spinor transforms is the value of the k-th tensor/spin component of the operator expression in its documentation, i.e. the combination of products of one-dimensional integrals obtained by differentiating and multiplying the basis functions as the expression says. Spin components that are not stored vanish. For overlap and nuclear-attraction types the one-dimensional integrals are real integrals and the statement covers recurrence, index table and integrand together. Exceptions: int3c1e_ip1_r6_origk (reads a block that is never computed), int1e_ippnucpip and int1e_ipprinvpip (transposed tensor), spinor int2e_breit_r1p2/r2p2 (opposite sign), int2e_ipvg1_xp1/ipvg2_xp1 (read outside the filled range).", "quantifier": "all catalogue entries, all angular momenta, exponents, centres, origins, buffers and memory contents", "why_tests_cant": "The 218 generated functions combine up to hundreds of products each; reference values exist for few of them and an error in one component of one high-order tensor is invisible in norms over a basis.", "anchors": ["src/autocode", "src/cint1e_a.c", "src/cint3c1e_a.c", "src/breit.c", "src/g1e.h", "src/g2e.h", "src/g1e_grids.h", "scripts/auto_intor.cl", "scripts/parser.cl"]}
{"id": "C59", "title": "Enough Rys roots: root sums are the Coulomb-type integrals", "statement": "If the root finders return a Rys quadrature with the requested number of roots (moments of exp(-X t^2) up to order 2n-1 exact), then for all orders whose total is at most the sum of l+INC, the sum over the roots of the products of the three cells that an integrand reads is the integral of the Gaussian product with 1/r, erf(omega r)/r (omega>0) or erfc(omega r)/r (omega<0, one set of roots with a lower limit or two sets with opposite signs), and for one electron with the potential of a point charge or of a Gaussian charge distribution, times the constant prefactor.", "quantifier": "all angular momenta, increments, exponents, centres, omega, charges, buffers; 2, 3 and 4 centres; unrolled and generic kernels; all root finders with the stated property", "why_tests_cant": "One root too few is exact for low total degree and only slightly wrong above it; a wrong theta, tau or sign of the second root set changes numbers that are then taken as reference values.", "anchors": ["src/g2e.c:CINTg0_2e", "src/g2e.c:CINTinit_int2e_EnvVars", "src/g3c2e.c", "src/g2c2e.c", "src/g1e.c:CINTg1e_nuc", "src/g1e.c:CINTnuc_mod", "src/g1e.c:CINTinit_int1e_EnvVars"]}
{"id": "C60", "title": "Coulomb-type entry points compute their documented integrals", "statement": "For every catalogue entry of the nuclear, 1/|r-C| and two-electron (2, 3, 4 centres) families outside the listed exceptions: init function, index table, CINTg1e_nuc or CINTg0_2e with the kernel selected by the init function, and the integrand function, run one after the other on buffers of the sizes the drivers allocate, succeed, and what is added to each gout position, times the entry's constant factor and phase, is c0 times the integral of the documented operators applied to the Cartesian Gaussians of that position with 1/r, erf(omega r)/r, erfc(omega r)/r or the potential of the charge. The short-range early return happens exactly beyond the cutoff. The value is unique.", "quantifier": "all 131 entries of the families (137 less 6 exceptions), all angular momenta up to 15, all exponents with positive pair sums, centres, origins, omega, charges, cutoffs, buffer contents, gout empty or not, all root finders that return Rys quadratures", "why_tests_cant": "Tests compare a few shells with stored numbers; a wrong power, sign, order of components, index, missing root or wrong ng slot in one of the generated functions shows only for some shells, and reference values are made by the same code.", "anchors": ["src/g2e.c:CINTg0_2e", "src/g1e.c:CINTg1e_nuc", "src/g2e.c:CINTg2e_index_xyz", "src/g3c2e.c:CINTinit_int3c2e_EnvVars", "src/g2c2e.c:CINTinit_int2c2e_EnvVars", "src/autocode", "src/cint2e.c:157", "src/cint3c2e.c:128", "src/cint2c2e.c:101"]}
{"id": "C61", "title": "Early returns of the gauge-origin integrals are sound and zero the right block", "statement": "Whenever a generated gauge-origin entry point takes its early return (the two shells of a tested pair are the same shell), every documented component of the integral is zero for whatever one-dimensional integrals, the integrand function would have added zeros, and the zeros it stores are exactly those the driver stores when no primitive survives: same block within dims, same number of components, for the Cartesian, spherical and spinor forms.", "quantifier": "all 20 names and their three forms, all shells, centres, exponents, dims (or NULL), output arrays, buffers", "why_tests_cant": "A shortcut that fires for an integral with a non-vanishing term, or that zeroes one component too few, leaves uninitialised or wrong numbers only in diagonal shell blocks of particular integrals.", "anchors": ["src/autocode/intor1.c:552", "src/autocode/intor2.c:374", "src/autocode/int3c2e.c:538", "src/autocode/gaunt1.c:910", "src/cart2sph.c:c2s_dset0", "src/cart2sph.c:c2s_zset0"]}
{"id": "C62", "title": "A one-electron driver call stores the contracted integrals of the documented operator", "statement": "For every overlap-type, 1/r and nuclear-attraction entry point, a call of its Cartesian or spherical function succeeds and stores in the caller's array, at the documented positions and nowhere else, the contracted integrals: the sum, over the primitive pairs whose size estimate is below the cutoff, of the contraction coefficients times the integral of the documented operator between the primitives (for nuclear attraction summed over all atoms with their charge models), times the s/p normalisation factors and transformed to spherical functions when asked; the return value says whether any pair contributed.", "quantifier": "all one-electron catalogue entries (two excluded by C58), all shell tables with l <= 15, any numbers of primitives, contractions and atoms, all dims or NULL, all contents of work and output arrays, every root finder that returns valid quadrature rules", "why_tests_cant": "Stages that are each right can be combined wrongly: a factor applied twice, a coefficient list of the other shell, a skipped pair that still counts, or a stale work array shows up only for particular contraction patterns, components and screening outcomes.", "anchors": ["src/cint1e.c:CINT1e_loop", "src/cint1e.c:CINT1e_drv", "src/cint1e.c:make_g1e_gout", "src/g1e.c:CINTg1e_nuc", "src/g1e.c:CINTg1e_ovlp", "src/optimizer.c:CINTset_pairdata", "src/cart2sph.c:c2s_sph_1e", "src/cart2sph.c:c2s_cart_1e"]}
{"id": "C63", "title": "A four-centre two-electron driver call stores the contracted electron-repulsion integrals", "statement": "For every four-centre two-electron entry point and the operators 1/r12, erf(omega r12)/r12 and erfc(|omega| r12)/r12, a call of its Cartesian or spherical function without optimizer succeeds and stores in the caller's array, at the documented positions and nowhere else, the contracted integrals: the sum, over the primitive quartets whose pair size estimates are within the cutoff (for erfc the cutoff is raised with the angular momentum of the first pair, and the two charge distributions must also be close enough), of the four contraction coefficients times the integral of the documented operator over the primitives, times the factor of the entry and the s/p normalisation factors, transformed to spherical functions when asked; the return value says whether any quartet was evaluated.", "quantifier": "all four-centre catalogue entries (those C58 leaves out excepted), all shell tables with l <= 15 and at most 32 roots, any numbers of primitives and contractions, any omega, all dims or NULL, all contents of work and output arrays, every pair of root finders that return valid quadrature rules", "why_tests_cant": "The loops alias five work arrays depending on which shells are uncontracted, three kinds of screening decide which quartets are skipped, and a stage's scratch is the next stage's input: combinations of contraction pattern, screening outcome, number of components and array contents are far too many to test, and a wrong factor or stale buffer shows only for some.", "anchors": ["src/cint2e.c:CINT2e_loop_nopt", "src/cint2e.c:CINT2e_drv", "src/g2e.c:CINTg0_2e", "src/g2e.c:CINTinit_int2e_EnvVars", "src/optimizer.c:CINTset_pairdata", "src/cart2sph.c:c2s_sph_2e1", "src/cart2sph.c:c2s_cart_2e1"]}
{"id": "C64", "title": "Three- and two-centre two-electron driver calls store the contracted integrals", "statement": "For every three- and two-centre two-electron entry point with any of the operators 1/r12, erf(omega r12)/r12 and erfc(|omega| r12)/r12, a call of its Cartesian or spherical function without optimizer succeeds and stores in the caller's array, at the documented positions and nowhere else, the contracted integrals: the sum, over the primitives that are kept, of the contraction coefficients times the integral of the documented operator over the primitives, times the factor of the entry and the s/p normalisation factors, transformed to spherical functions when asked. Three centres keep the pairs (i,j) whose size estimate is below the cutoff, two centres keep every pair; for erfc(|omega| r12)/r12 moreover only primitives whose exponent theta omega^2/(omega^2+theta) R^2, R the distance of the two charge distributions, exceeds neither what is left of the cutoff nor 40. The return value says whether any primitive was evaluated.", "quantifier": "all three- and two-centre two-electron catalogue entries (those C58 leaves out excepted), all shell tables with l <= 15 and at most 32 roots, any numbers of primitives and contractions, any omega, all dims or NULL, all contents of work and output arrays, every pair of root finders that return valid quadrature rules", "why_tests_cant": "The loops alias up to four work arrays depending on which shells are uncontracted, the absent centres reuse the four-centre code with exponents and powers set to zero, and screening and short-range cutoffs decide which primitives are skipped: the combinations of contraction pattern, screening outcome, operator, number of components and array contents are far too many to test.", "anchors": ["src/cint3c2e.c:CINT3c2e_loop_nopt", "src/cint3c2e.c:CINT3c2e_drv", "src/cint2c2e.c:CINT2c2e_loop_nopt", "src/cint2c2e.c:CINT2c2e_drv", "src/g2e.c:CINTg0_2e", "src/g3c2e.c:CINTinit_int3c2e_EnvVars", "src/g2c2e.c:CINTinit_int2c2e_EnvVars"]}
{"id": "C65", "title": "Two-electron driver calls with an optimizer store the contracted integrals", "statement": "For every four- and three-centre two-electron entry point with any of the operators 1/r12, erf(omega r12)/r12 and erfc(|omega| r12)/r12, a call of its Cartesian or spherical function with an optimizer, whether or not the optimizer stores pair data and whichever specialised loop the contraction pattern selects, succeeds and stores in the caller's array, at the documented positions and nowhere else, the contracted integrals: the sum, over the primitives that are kept, of the contraction coefficients times the integral of the documented operator over the primitives, times the factor of the entry and the s/p normalisation factors, transformed to spherical functions when asked. With stored pair data a pair counts only if its estimate, made with the larger of the operator's two increments, is below the user's cutoff; four-centre calls with an optimizer use the same cutoff for all omega, three-centre calls raise it for erfc as without optimizer. The return value says whether any primitive was evaluated.", "quantifier": "all four- and three-centre two-electron catalogue entries (those C58 leaves out excepted), stored pair data or none, all shell tables with l <= 15 and at most 32 roots, any numbers of primitives and contractions, any omega, all dims or NULL, all contents of work and output arrays, every pair of root finders that return valid quadrature rules", "why_tests_cant": "Six four-centre and four three-centre loops are selected by the contraction pattern, each with its own aliasing of the work arrays and its own emptiness flags, and the pair data come from one of two places with different cutoffs: a wrong loop or stale flag shows only for some combination of pattern, screening outcome, number of components and array contents.", "anchors": ["src/cint2e.c:CINT2e_1111_loop", "src/cint2e.c:CINT2e_n111_loop", "src/cint2e.c:CINT2e_1n11_loop", "src/cint2e.c:CINT2e_11n1_loop", "src/cint2e.c:CINT2e_111n_loop", "src/cint2e.c:CINT2e_loop", "src/cint2e.c:CINT2e_drv", "src/cint3c2e.c:CINT3c2e_111_loop", "src/cint3c2e.c:CINT3c2e_n11_loop", "src/cint3c2e.c:CINT3c2e_1n1_loop", "src/cint3c2e.c:CINT3c2e_loop", "src/cint3c2e.c:CINT3c2e_drv", "src/optimizer.c:CINTOpt_setij"]}
{"id": "C66", "title": "An optimizer changes which primitives are screened and nothing else", "statement": "Two calls of one four- or three-centre two-electron entry point with the same tables and the same caller's array, each without optimizer, with an optimizer that stores pair data or with one that does not, and with any numbers in their work arrays: if the two calls keep the same primitives (the sets of C63, C64 and C65), they leave the caller's array the same, cell by cell. In particular two calls of the same kind always do, whatever is in the work arrays.", "quantifier": "all four- and three-centre two-electron catalogue entries (those C58 leaves out excepted), Cartesian and spherical, all pairs of the three kinds of call, all shell tables with l <= 15 and at most 32 roots, any numbers of primitives and contractions, any omega, all dims or NULL, all contents of work and output arrays, every pair of root finders that return valid quadrature rules", "why_tests_cant": "The loops with and without optimizer accumulate in different orders and buffers and are selected by the contraction pattern; a stale or uninitialised cell that leaks into the result shows only for some contents of the work arrays and some screening outcomes.", "anchors": ["src/cint2e.c:CINT2e_loop_nopt", "src/cint2e.c:CINT2e_loop", "src/cint2e.c:CINT2e_1111_loop", "src/cint2e.c:CINT2e_drv", "src/cint3c2e.c:CINT3c2e_loop_nopt", "src/cint3c2e.c:CINT3c2e_loop", "src/cint3c2e.c:CINT3c2e_drv"]}
{"id": "C67", "title": "A one-electron spinor call stores two-component matrix elements of the documented operator", "statement": "For every one-electron entry point (overlap-type, 1/r, nuclear attraction) a call of its spinor function succeeds and stores in the caller's complex array, at the documented positions and nowhere else, the matrix elements of the documented operator between two-component functions: the parts of the operator with sigma_x, sigma_y, sigma_z and 1 are combined with the Pauli matrices and with the coefficients of the spinor tables (conjugated for the bra), and each part is the contracted integral over the primitive pairs that the screening keeps, times the s/p normalisation factors. No further factor or phase remains: the factor and the i of the c2s routine chosen by the entry are exactly those of its documented operator.", "quantifier": "all one-electron catalogue entries (those C58 leaves out excepted), all kappas, all coefficient tables, all shell tables with l <= 12, any numbers of primitives and contractions, all dims or NULL, all contents of work and output arrays, every root finder that returns valid quadrature rules", "why_tests_cant": "The order of the four spin parts in the integrand, the choice of c2s routine, its factor of i and the factor of the entry must agree for each of the entries; a wrong sign or swapped Pauli component in one of them is a plausible-looking complex number and shows only against an independent relativistic code, for shells with both kappas.", "anchors": ["src/cint1e.c:CINT1e_spinor_drv", "src/cint1e.c:CINT1e_loop", "src/cart2sph.c:c2s_sf_1e", "src/cart2sph.c:c2s_si_1e", "src/cart2sph.c:c2s_sf_1ei", "src/cart2sph.c:c2s_si_1ei"]}
{"id": "C68", "title": "Two-electron spinor calls store two-component matrix elements of the documented operator", "statement": "For every four-, three- and two-centre two-electron entry point with a spinor function, with any of the operators 1/r12, erf(omega r12)/r12 and erfc(|omega| r12)/r12, a call of it with or without optimizer succeeds and stores in the caller's complex array, at the documented positions and nowhere else, the matrix elements of the documented operator between two-component functions: electron 1 with the Pauli matrices and spinor coefficients of shells i, j, electron 2 with those of shells k, l (spherical functions on k for three centres), each part being the contracted integral over the primitives that the screening keeps, times the s/p normalisation factors, with no further factor or phase.", "quantifier": "all two-electron catalogue entries with a spinor function (those C58 leaves out excepted), with and without optimizer, stored pair data or none, all kappas, all coefficient tables, all shell tables with l <= 12 (15 for the third shell of three centres) and at most 32 roots, any numbers of primitives and contractions, any omega, all dims or NULL, all contents of work and output arrays, every pair of root finders that return valid quadrature rules", "why_tests_cant": "Up to sixteen spin parts of each tensor component pass through two transformations chosen separately for each electron, with a factor of i each; the order of parts in the integrand must fit the order in which the two transformations read them for each of the entries.", "anchors": ["src/cint2e.c:CINT2e_spinor_drv", "src/cint3c2e.c:CINT3c2e_spinor_drv", "src/cint2c2e.c:CINT2c2e_spinor_drv", "src/cart2sph.c:c2s_sf_2e1", "src/cart2sph.c:c2s_si_2e1", "src/cart2sph.c:c2s_sf_2e2", "src/cart2sph.c:c2s_si_2e2", "src/cart2sph.c:c2s_sf_3c2e1"]}
{"id": "C69", "title": "Exchanging the two shells of an electron transposes the stored integrals", "statement": "Calls of int2e with shells (i,j,k,l) and with the shells of electron 1, of electron 2 or of both exchanged, calls of int3c2e with (i,j,k) and (j,i,k), and calls of int1e_ovlp, int1e_nuc and int1e_rinv with (i,j) and (j,i), both succeed and store the same number for the same functions: (ij|kl) = (ji|kl) = (ij|lk) = (ji|lk), (ij|k) = (ji|k), (i|j) = (j|i).", "quantifier": "all shell tables with l <= 15 and at most 32 roots, any numbers of primitives and contractions, Cartesian and spherical functions, every omega, without optimizer, with one that stores pair data and with one that does not, all dims or NULL and all work and output array contents of each of the two calls, every pair of root finders that return valid quadrature rules; no condition on the screening", "why_tests_cant": "The two calls run different code: the recurrence direction, strides and contraction loop depend on which shell comes first, and the screening arithmetic is applied to the pairs in the other order. Callers fill eight-fold symmetric arrays from one quarter of the calls, so a pair of shells treated differently in the two orders would go unnoticed.", "anchors": ["src/g2e.c:CINTinit_int2e_EnvVars", "src/cint2e.c:CINT2e_drv", "src/cint2e.c:CINT2e_loop_nopt", "src/cint2e.c:CINT2e_loop", "src/cint3c2e.c:CINT3c2e_drv", "src/cint1e.c:CINT1e_drv", "src/g1e.c:CINTinit_int1e_EnvVars"]}
{"id": "C70", "title": "Exchanging the two electrons exchanges the index pairs of the stored integrals", "statement": "Calls of int2e with shells (i,j,k,l) and (k,l,i,j), and calls of int2c2e with (i,k) and (k,i), both succeed and store the same number for the same functions: (ij|kl) = (kl|ij) and (i|k) = (k|i). With an optimizer this always holds; without one it holds when both calls keep the same primitives, which is so for omega >= 0 unless a pair estimate equals the cutoff exactly, and is false for the short-range operator.", "quantifier": "all shell tables with l <= 15 and at most 32 roots, any numbers of primitives and contractions, Cartesian and spherical functions, every omega, without optimizer, with one that stores pair data and with one that does not, all dims or NULL and all work and output array contents of each of the two calls, every pair of root finders that return valid quadrature rules", "why_tests_cant": "Exchanging electrons exchanges the roles of pair data and inner loop, of both halves of the recurrence and of the contraction loops. The screening is written separately for each electron, and differences show only where an estimate lies between the two thresholds.", "anchors": ["src/cint2e.c:CINT2e_drv", "src/cint2e.c:CINT2e_loop_nopt", "src/cint2e.c:CINT2e_loop", "src/optimizer.c:CINTset_pairdata", "src/g2e.c:CINTg0_2e", "src/cint2c2e.c:CINT2c2e_drv"]}
{"id": "C71", "title": "Multipole moments and the kinetic energy are symmetric in the two shells", "statement": "Calls of int1e_kin, int1e_z, int1e_zz, int1e_r, int1e_r2, int1e_r4, int1e_rr, int1e_rrr and int1e_rrrr with shells (i,j) and (j,i) both succeed and store the same number for the same functions and the same tensor component: (i|op|j) = (j|op|i).", "quantifier": "the nine entry points, every tensor component, all shell tables with l <= 15, any numbers of primitives and contractions, Cartesian and spherical functions, every origin, all dims or NULL and all work and output array contents of each of the two calls; no condition on the screening", "why_tests_cant": "The operator is always applied to the second shell, so the two calls raise or differentiate different functions: symmetry holds only because the code's derivative and raising recurrences agree with integration by parts. Callers rely on it to fill one triangle only.", "anchors": ["src/autocode/intor1.c:CINTgout1e_int1e_kin", "src/autocode/intor1.c:CINTgout1e_int1e_r", "src/autocode/intor1.c:CINTgout1e_int1e_rrrr", "src/cint1e.c:CINT1e_drv", "src/g1e.c:CINTinit_int1e_EnvVars"]}
{"id": "C72", "title": "Moving the whole molecule does not change the two-electron integrals", "statement": "Two calls of int2e on env arrays that differ only by one vector added to the centres of all shells both succeed, keep the same primitives in the screening and store the same numbers. The same holds, with the vector also added to the common origin, for every component of the four-centre entry points whose operator has no position relative to the origin of space.", "quantifier": "every vector, 43 of the 63 four-centre entry points, all shell tables with l <= 15 and at most 32 roots, any numbers of primitives and contractions, Cartesian and spherical functions, every omega, without optimizer, with one that stores pair data and with one that does not, all dims or NULL and all work and output array contents of each of the two calls, every pair of root finders that return valid quadrature rules", "why_tests_cant": "A use of an absolute coordinate instead of a difference, or of a stale origin, shows only for molecules far from the origin, and in the screening only for estimates near the cutoff; a test compares a few positions.", "anchors": ["src/cint2e.c:CINT2e_drv", "src/cint2e.c:CINT2e_loop_nopt", "src/cint2e.c:CINT2e_loop", "src/optimizer.c:CINTset_pairdata", "src/g2e.c:CINTg0_2e", "src/g2e.c:CINTinit_int2e_EnvVars"]}
{"id": "C73", "title": "Moving the whole molecule does not change the one-electron integrals", "statement": "Two calls of a one-electron entry point whose operator has no position relative to the origin of space, on env arrays that differ only by one vector added to the centres of all shells, to the common origin and to the positions of the charges (the point of the rinv integrals, or all nuclei), both succeed and store the same numbers, in every component.", "quantifier": "every vector, 95 of the 110 one-electron entry points, every number of atoms with point or Gaussian nuclei, all shell tables with l <= 15, any numbers of primitives and contractions, Cartesian and spherical functions, all dims or NULL and all work and output array contents of each of the two calls, every root finder that returns valid quadrature rules", "why_tests_cant": "A use of an absolute coordinate instead of a difference, for one nucleus model or in one operator, shows only for molecules away from the origin; a test compares a few positions of a few molecules.", "anchors": ["src/cint1e.c:CINT1e_drv", "src/cint1e.c:CINT1e_loop", "src/g1e.c:CINTg1e_ovlp", "src/g1e.c:CINTg1e_nuc", "src/g1e.c:CINTinit_int1e_EnvVars"]}
