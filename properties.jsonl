{"id": "C01", "title": "Signed permutations are complete, distinct and carry the true parity", "statement": "permutations_with_signs(seq) returns len(seq)! pairs; the first components are pairwise distinct when the items of seq are distinct, every rearrangement of seq occurs, and the sign of each is +1 exactly when it is obtained from seq by an even number of transpositions (even inversion count).", "quantifier": "every finite sequence of distinct items, of any length", "why_tests_cant": "The output has n! rows and the sign is taken from the position in the enumeration, not computed from the permutation; only an induction on the length shows the two agree for every n.", "anchors": [{"file": "ebcc/util/permutations.py", "symbols": ["permutations_with_signs"]}]}
{"id": "C02", "title": "String permutation lookup and application are inverse", "statement": "For any string s and any rearrangement t of s, permute_string(s, get_string_permutation(s, t)) == t, and the returned tuple is a permutation of range(len(s)); if t is not a sub-multiset of s the call raises instead of returning.", "quantifier": "every pair of strings (repeated characters included)", "why_tests_cant": "Repeated characters make the choice of index non-unique, so correctness depends on the consumption order for every multiset of characters.", "anchors": [{"file": "ebcc/util/permutations.py", "symbols": ["permute_string", "get_string_permutation"]}]}
{"id": "C03", "title": "Lower-triangular index tuples enumerate each strictly (weakly) decreasing tuple exactly once, in order", "statement": "tril_indices_ndim(n, d) yields d index arrays whose columns are exactly the d-tuples over range(n) that are strictly decreasing (non-increasing with include_diagonal=True), each once and in lexicographic order, and ntril_ndim(n, d) is their number.", "quantifier": "every n >= 0 and d >= 1, with and without the diagonal", "why_tests_cant": "A finite table of sizes cannot establish the count formula or the absence of duplicates for every n and d.", "anchors": [{"file": "ebcc/util/permutations.py", "symbols": ["tril_indices_ndim", "ntril_ndim"]}]}
{"id": "C04", "title": "Spin combinations: the full list is every repeated spin string, the unique list has one representative per spin class", "statement": "generate_spin_combinations(n) lists each of the 2**n strings s+s exactly once; with unique=True the listed strings contain, for every possible number of alpha spins 0..n, exactly one string with that many, n+1 in total; with excited=True the last character of each is removed.", "quantifier": "every n >= 1 and all flag combinations", "why_tests_cant": "The uniqueness depends on a canonical form with a special case for the balanced classes; only a proof covers every n, odd and even.", "anchors": [{"file": "ebcc/util/permutations.py", "symbols": ["generate_spin_combinations"]}]}
{"id": "C05", "title": "Packing after unpacking gives back any packed vector", "statement": "For any subscript string, symmetry string and shape with equal extents on equal subscripts, compress_axes(sub, decompress_axes(sub, v, shape)) == v for every vector v of the compressed size.", "quantifier": "every subscript, every shape, every vector of values", "why_tests_cant": "The index bookkeeping (axis sorting, grouping, triangular lists, sign products) interacts with every number and size of groups.", "anchors": [{"file": "ebcc/util/permutations.py", "symbols": ["compress_axes", "decompress_axes", "get_compressed_size"]}]}
{"id": "C06", "title": "Unpacking produces a fully (anti)symmetric array and recovers any such array from its packed form", "statement": "decompress_axes(sub, v, shape) changes sign under exchange of any two axes sharing a '-' subscript and is unchanged under exchange of two axes sharing a '+' subscript; conversely if an array has these symmetries then decompress_axes(sub, compress_axes(sub, x), x.shape) == x.", "quantifier": "every subscript/symmetry/shape and all array contents", "why_tests_cant": "Antisymmetry is a statement about all index tuples and all permutations in a product of symmetric groups.", "anchors": [{"file": "ebcc/util/permutations.py", "symbols": ["compress_axes", "decompress_axes"]}]}
{"id": "C07", "title": "The advertised compressed size is the length of the packed vector", "statement": "get_compressed_size(sub, **sizes) equals compress_axes(sub, x).size for every array x with those extents.", "quantifier": "every subscript and all extents", "why_tests_cant": "Vector offsets in every amplitude conversion rely on it for all sizes; a mismatch only shows for particular group sizes.", "anchors": [{"file": "ebcc/util/permutations.py", "symbols": ["get_compressed_size", "compress_axes"]}]}
{"id": "C08", "title": "Symmetrisation returns an array with the requested symmetry and leaves an already antisymmetric array unchanged", "statement": "symmetrise(sub, x) is antisymmetric in every set of axes sharing a subscript, and is a projection: an input that already has the symmetry is returned unchanged and symmetrise is idempotent.", "quantifier": "every subscript, shape and array", "why_tests_cant": "The normalisation 1/2**(n-1) differs from 1/n! first at three equal subscripts, a size at which existing small-molecule tests have identically zero data.", "anchors": [{"file": "ebcc/util/permutations.py", "symbols": ["symmetrise", "get_symmetry_factor"]}, {"file": "ebcc/cc/uebcc.py", "symbols": ["update_amps"]}]}
{"id": "C09", "title": "Symmetrisation honours a per-axis symmetry string", "statement": "symmetrise(sub, x, symmetry=s) is symmetric in groups whose axes are marked '+' and antisymmetric in groups whose axes are marked '-', also when s mixes the two.", "quantifier": "every subscript and every symmetry string constant on groups", "why_tests_cant": "Needs all permutations of all groups at once; uniform symmetry strings (the only ones used in tests) cannot reveal the interaction.", "anchors": [{"file": "ebcc/util/permutations.py", "symbols": ["symmetrise"]}]}
{"id": "C10", "title": "Combined subscripts identify exactly the axes with the same space and spin", "statement": "combine_subscripts(sub, spin, sizes) returns a string of the same length in which two positions carry the same letter iff they agree in both inputs, the size returned for each letter is the size of its (space, spin) pair, inputs of different length raise ValueError, and more than the available number of distinct pairs raises ValueError.", "quantifier": "every pair of strings and sizes table", "why_tests_cant": "Injectivity of the character allocation up to its exhaustion point is a property of all inputs.", "anchors": [{"file": "ebcc/util/permutations.py", "symbols": ["combine_subscripts"]}]}
{"id": "C11", "title": "Tensor contraction via matrix multiplication equals the defining sum", "statement": "For any valid two-operand subscripts and any arrays with matching extents, the transposed-GEMM contraction path returns the same array as the definition: out[o] = sum over the summed indices of a*b, including traces, repeated, empty and size-zero dimensions (where it must fall back).", "quantifier": "every subscript pattern, all shapes, all array contents (exact arithmetic)", "why_tests_cant": "The path permutes, reshapes and multiplies matrices; correctness must hold for every order of indices and every extent, in particular zero.", "anchors": [{"file": "ebcc/util/einsumfunc.py", "symbols": ["_contract_ttgt", "_contract", "einsum"]}]}
{"id": "C12", "title": "Scaled accumulation in einsum", "statement": "einsum(..., alpha=al, beta=be, out=c) returns al*contraction + be*c for one and two operands, whichever contraction path is taken, and refuses (raises) for more operands when alpha or beta are non-trivial.", "quantifier": "all scale factors, arrays and subscripts", "why_tests_cant": "Several code paths treat the scaling separately; agreement is over all real factors.", "anchors": [{"file": "ebcc/util/einsumfunc.py", "symbols": ["einsum", "_contract_ttgt"]}]}
{"id": "C13", "title": "Implicit output subscripts follow the summation convention", "statement": "When no '->' is given the output index string consists of exactly the letters occurring once over all operands, sorted; explicit output strings are validated: every output letter must occur in the input.", "quantifier": "every subscript string", "why_tests_cant": "A claim over all strings.", "anchors": [{"file": "ebcc/util/einsumfunc.py", "symbols": ["_parse_einsum_input"]}]}
{"id": "C14", "title": "Direct sum forms all sums of one element per operand with the written signs", "statement": "dirsum(sub, *arrays)[idx] is the signed sum of the corresponding elements for every output index.", "quantifier": "every number of operands, all shapes and values", "why_tests_cant": "Broadcasting errors appear only at particular ranks and orders.", "anchors": [{"file": "ebcc/util/einsumfunc.py", "symbols": ["dirsum"]}]}
{"id": "C15", "title": "A namespace behaves like an insertion-ordered dictionary with attribute access", "statement": "For every sequence of set/get/delete/contains/iterate/update/copy calls through item or attribute syntax, a Namespace gives the answers of a dictionary; names of its methods cannot be read through attribute syntax.", "quantifier": "every finite history of operations", "why_tests_cant": "State-machine refinement over unbounded histories.", "anchors": [{"file": "ebcc/util/misc.py", "symbols": ["Namespace"]}]}
{"id": "C16", "title": "Elapsed times are rendered to the requested number of units", "statement": "Timer.format_time(seconds, precision=p) shows at most p time units and the shown units re-compose to the elapsed time truncated at the last unit shown.", "quantifier": "all durations and precisions", "why_tests_cant": "All magnitudes and precisions are involved; boundary values are unbounded.", "anchors": [{"file": "ebcc/util/misc.py", "symbols": ["Timer.format_time"]}]}
{"id": "C17", "title": "Orbital spaces partition the orbitals", "statement": "For an accepted Space, every orbital is exactly one of occupied/virtual, exactly one of frozen/correlated, exactly one of active/inactive; the size properties count the masks and obey n = n_occ + n_vir for each of the total, correlated, frozen, active and inactive spaces.", "quantifier": "every number of orbitals and all masks accepted by the constructor", "why_tests_cant": "Universally quantified over masks of any length.", "anchors": [{"file": "ebcc/ham/space.py", "symbols": ["Space"]}]}
{"id": "C18", "title": "Space.slice selects exactly the orbitals of the requested subspace, or refuses", "statement": "Space.slice(char) either raises because the subspace is not one contiguous run, or returns a slice that selects exactly the orbitals of the mask of that character; it never selects another set.", "quantifier": "every accepted Space and character", "why_tests_cant": "Contiguity detection by argmax and count must be right for every boolean mask.", "anchors": [{"file": "ebcc/ham/space.py", "symbols": ["Space.slice", "Space.mask"]}]}
{"id": "C19", "title": "Relative slices address the right sub-block of the correlated spaces", "statement": "oslice/vslice/xslice(char), applied to an array over the occupied/virtual/correlated orbitals, select exactly the elements that omask/vmask/xmask(char) select.", "quantifier": "every accepted Space whose subspaces are contiguous", "why_tests_cant": "Offsets by negative numbers interact with Python's negative slice semantics for particular sizes only.", "anchors": [{"file": "ebcc/ham/space.py", "symbols": ["Space.oslice", "Space.vslice", "Space.xslice", "Space.omask", "Space.vmask", "Space.xmask"]}]}
{"id": "C20", "title": "Space construction rejects inconsistent masks", "statement": "Space(occupied, frozen, active) raises ValueError when the mask lengths differ or some orbital is both frozen and active, and succeeds otherwise.", "quantifier": "all triples of masks", "why_tests_cant": "All masks of all lengths.", "anchors": [{"file": "ebcc/ham/space.py", "symbols": ["Space.__init__"]}]}
{"id": "C21", "title": "Default and FNO space construction", "statement": "construct_default_space marks exactly the orbitals with positive occupation as occupied and none as frozen or active; construct_fno_space freezes a trailing set of virtuals so that the retained set is a prefix determined by the threshold and the frozen orbitals never include an occupied one.", "quantifier": "all occupation vectors and thresholds", "why_tests_cant": "Depends on ordering of arbitrary occupation numbers.", "anchors": [{"file": "ebcc/ham/space.py", "symbols": ["construct_default_space", "construct_fno_space"]}]}
{"id": "C22", "title": "Ansatz names and identifiers are mutually inverse on documented names and never collide", "statement": "identifier_to_name(name_to_identifier(name)) == name, and two different names never map to the same identifier.", "quantifier": "every method name that the ansatz accepts", "why_tests_cant": "A statement on all strings of a grammar.", "anchors": [{"file": "ebcc/core/ansatz.py", "symbols": ["name_to_identifier", "identifier_to_name"]}]}
{"id": "C23", "title": "Cluster ranks are well formed for every ansatz, spin type and excitation sector", "statement": "fermionic_cluster_ranks / bosonic_cluster_ranks / coupling_cluster_ranks return entries with pairwise distinct names, ranks that agree with the number of index letters of the key, and lambda entries whose key is the particle-hole transpose of the amplitude entry of the same rank.", "quantifier": "every ansatz string the parser accepts, all spin types and sectors", "why_tests_cant": "The notation is open-ended (any concatenation of rank letters with brackets).", "anchors": [{"file": "ebcc/core/ansatz.py", "symbols": ["Ansatz.fermionic_cluster_ranks", "Ansatz.bosonic_cluster_ranks", "Ansatz.coupling_cluster_ranks"]}]}
{"id": "C24", "title": "DIIS memory is bounded and its cached error norms never go stale", "statement": "After any sequence of calls the accelerator stores at most `space` (+1 transiently) vectors, and every stored norm is the norm of the stored error with the same key.", "quantifier": "every history of calls (values and error vectors arbitrary)", "why_tests_cant": "History property over arbitrarily long runs with overwriting and eviction.", "anchors": [{"file": "ebcc/core/damping.py", "symbols": ["DIIS", "DIIS.push", "DIIS.extrapolate", "DIIS.__call__"]}]}
{"id": "C25", "title": "DIIS returns an affine combination and preserves fixed points", "statement": "Whenever the linear solve succeeds, the value returned by DIIS is a combination of stored vectors with coefficients summing to one; if all inputs since construction are the same vector, that vector is returned.", "quantifier": "every history and every solver satisfying the linear system", "why_tests_cant": "Over all histories and all data.", "anchors": [{"file": "ebcc/core/damping.py", "symbols": ["DIIS.extrapolate"]}]}
{"id": "C26", "title": "Below the minimum space DIIS passes the newest vector through", "statement": "While fewer than min_space vectors are stored, calling DIIS with a vector returns that vector.", "quantifier": "every min_space and every history", "why_tests_cant": "The default min_space is 1, so tests never reach the branch with two or more stored vectors.", "anchors": [{"file": "ebcc/core/damping.py", "symbols": ["DIIS.__call__", "DIIS.extrapolate"]}]}
{"id": "C27", "title": "Linear damping is the convex combination of the previous and current vectors", "statement": "LinearDamping returns (1-f)*current + f*previous (the vector itself on the first call) for any factor f, and holds at most two vectors; NoDamping returns its argument.", "quantifier": "all histories and factors", "why_tests_cant": "History dependent.", "anchors": [{"file": "ebcc/core/damping.py", "symbols": ["LinearDamping", "NoDamping"]}]}
{"id": "C28", "title": "The converged flag of the ground-state solver tells the truth", "statement": "After kernel(): at most max_iter updates were made; `converged` is True iff the last update met both the energy and the amplitude tolerance; `e_corr` is the energy of the returned amplitudes (plus the perturbative correction if the ansatz has one).", "quantifier": "every residual/energy function, every tolerance and iteration limit (oracle-quantified), including NaN comparisons", "why_tests_cant": "The loop exit conditions must be right for every trajectory of energies and norms.", "anchors": [{"file": "ebcc/cc/base.py", "symbols": ["BaseEBCC.kernel"]}]}
{"id": "C29", "title": "The lambda solver has the same guarantees and uses the amplitudes it is given", "statement": "solve_lambda(amplitudes=t) performs at most max_iter updates, sets converged_lambda iff the last update met the tolerance, and solves for the given amplitudes t.", "quantifier": "every oracle, tolerances and limits", "why_tests_cant": "As above; the default call path hides whether the argument is honoured.", "anchors": [{"file": "ebcc/cc/base.py", "symbols": ["BaseEBCC.solve_lambda"]}]}
{"id": "C30", "title": "Restricted amplitudes survive the conversion to a vector and back", "statement": "vector_to_amplitudes(amplitudes_to_vector(t)) == t for T, and likewise for lambdas; and amplitudes_to_vector(vector_to_amplitudes(v)) == v for vectors of the right length.", "quantifier": "every ansatz, all space sizes and all amplitude values", "why_tests_cant": "Offsets accumulate over an arbitrary list of blocks.", "anchors": [{"file": "ebcc/cc/rebcc.py", "symbols": ["amplitudes_to_vector", "vector_to_amplitudes", "lambdas_to_vector", "vector_to_lambdas"]}]}
{"id": "C31", "title": "General (spin-orbital) amplitudes survive the conversion to a vector and back", "statement": "As C30 for the general (spin-orbital) class, which stores every entry of each amplitude: v -> amplitudes -> v and t -> v -> t are both the identity.", "quantifier": "every ansatz, sizes, values", "why_tests_cant": "Combines packing with offsets.", "anchors": [{"file": "ebcc/cc/gebcc.py", "symbols": ["amplitudes_to_vector", "vector_to_amplitudes"]}]}
{"id": "C32", "title": "Unrestricted amplitudes survive the conversion to a vector and back", "statement": "The unrestricted class stores one packed block per unique spin combination: v -> amplitudes -> v is the identity, t -> v -> t is the identity on amplitudes antisymmetric in equal indices of equal spin, and a vector of the wrong length is rejected.", "quantifier": "every ansatz, alpha/beta sizes, values", "why_tests_cant": "Combines spin enumeration, packing and offsets.", "anchors": [{"file": "ebcc/cc/uebcc.py", "symbols": ["amplitudes_to_vector", "vector_to_amplitudes"]}]}
{"id": "C33", "title": "The amplitude update is a Jacobi step: fixed points are exactly the zero-residual amplitudes", "statement": "update_amps(t) == t iff the residual returned by the generated equations vanishes at t (orbital-energy denominators non-zero); in general the update is t + residual/denominator.", "quantifier": "all amplitudes, residual functions and non-zero denominators", "why_tests_cant": "All amplitudes, all blocks.", "anchors": [{"file": "ebcc/cc/rebcc.py", "symbols": ["update_amps"]}, {"file": "ebcc/cc/gebcc.py", "symbols": ["update_amps"]}, {"file": "ebcc/cc/uebcc.py", "symbols": ["update_amps"]}]}
{"id": "C34", "title": "Hermitised density matrices are Hermitian", "statement": "make_rdm1_f(hermitise=True) is symmetric and make_rdm2_f(hermitise=True) has the pair-exchange and bra-ket symmetries, whatever the generated code returns; hermitising twice changes nothing.", "quantifier": "all generated arrays", "why_tests_cant": "All arrays.", "anchors": [{"file": "ebcc/cc/rebcc.py", "symbols": ["make_rdm1_f", "make_rdm2_f", "make_eb_coup_rdm"]}]}
{"id": "C35", "title": "Denominators combine orbital energies with the right signs", "statement": "energy_sum(subscript, signs_dict)[idx] is the sum over the positions of sign(position)*energy of that orbital, occupied positive and virtual negative by default, for every subscript.", "quantifier": "every subscript and index tuple, all energies", "why_tests_cant": "All subscripts and indices; letters run out at a finite length.", "anchors": [{"file": "ebcc/cc/rebcc.py", "symbols": ["energy_sum"]}, {"file": "ebcc/cc/uebcc.py", "symbols": ["energy_sum"]}, {"file": "ebcc/cc/gebcc.py", "symbols": ["energy_sum"]}]}
{"id": "C36", "title": "Writing a calculation to disk and reading it back restores it", "statement": "Reading a file written by write() yields an object with the same options, ansatz, space, boson parameters, amplitudes, lambdas, energy and convergence flags.", "quantifier": "every state an EBCC object can be in", "why_tests_cant": "Needs every combination of optional fields.", "anchors": [{"file": "ebcc/core/dump.py", "symbols": ["Dump.write", "Dump.read"]}]}
{"id": "C37", "title": "Precision contexts restore the previous precision", "statement": "Leaving `with precision(...)`/`single_precision()` restores the types in force at entry, for any nesting and also when the body raises.", "quantifier": "every nesting of contexts and every exit (normal or exceptional)", "why_tests_cant": "Exit by exception at any nesting depth.", "anchors": [{"file": "ebcc/core/precision.py", "symbols": ["precision", "single_precision", "set_precision"]}]}
{"id": "C38", "title": "Tailoring pins exactly the active block", "statement": "Inside a tailoring context every amplitude update returns amplitudes whose active block equals the supplied ones and which agree with the untailored update elsewhere; on exit the untailored update is back, for any properly nested use.", "quantifier": "all spaces, amplitudes, updates and nesting", "why_tests_cant": "All index tuples and nested histories.", "anchors": [{"file": "ebcc/ext/tcc.py", "symbols": ["BaseTailor", "TailorREBCC", "TailorUEBCC", "TailorGEBCC"]}]}
{"id": "C39", "title": "External corrections add to the addressed blocks only and do not alter the caller's amplitudes", "statement": "Inside an external-correction context each update equals the plain update plus the correction scattered into its blocks; mixed terms follow the chosen strategy; the amplitudes handed in by the user are not modified.", "quantifier": "all spaces, amplitudes, strategies and numbers of entries into the context", "why_tests_cant": "Aliasing shows only on re-entry.", "anchors": [{"file": "ebcc/ext/eccc.py", "symbols": ["BaseExternalCorrection", "ExternalCorrectionUEBCC._get_external_amplitudes"]}]}
{"id": "C40", "title": "Brueckner optimisation reports convergence", "statement": "BruecknerEBCC.kernel() performs at most max_iter cycles and afterwards `converged` is True iff the last cycle met both tolerances.", "quantifier": "all oracles, tolerances, limits", "why_tests_cant": "All trajectories.", "anchors": [{"file": "ebcc/opt/base.py", "symbols": ["BaseBruecknerEBCC.kernel"]}]}
{"id": "C41", "title": "Brueckner rotation transforms every amplitude block", "statement": "transform_amplitudes(u) replaces every block of every amplitude by its rotated form (identity rotation leaves amplitudes unchanged).", "quantifier": "all ansatze, spin blocks and rotations", "why_tests_cant": "A missed block is invisible in the converged energy.", "anchors": [{"file": "ebcc/opt/rbrueckner.py", "symbols": ["transform_amplitudes"]}, {"file": "ebcc/opt/ubrueckner.py", "symbols": ["transform_amplitudes"]}, {"file": "ebcc/opt/gbrueckner.py", "symbols": ["transform_amplitudes"]}]}
{"id": "C42", "title": "The Davidson subspace stays within its limit and orthonormal", "statement": "Throughout davidson(), the number of basis vectors never exceeds max_space + nroots, and (exact arithmetic) the basis vectors stay orthonormal and the projected matrix equals the representation of the operator in that basis.", "quantifier": "all operators, starting vectors, limits and numbers of iterations", "why_tests_cant": "Loop invariant over all histories with restarts.", "anchors": [{"file": "ebcc/core/davidson.py", "symbols": ["davidson", "_orthonormalise_vectors", "_project_vectors", "_fill_subspace_matrix"]}]}
{"id": "C43", "title": "Picking real roots returns as many roots as asked for when available", "statement": "pick_real_eigenvalues(w, v, nroots) returns at least min(nroots, len(w)) eigenvalues, sorted, and only discards those with larger imaginary part.", "quantifier": "all spectra", "why_tests_cant": "Ties and complex pairs at the cut-off.", "anchors": [{"file": "ebcc/core/davidson.py", "symbols": ["pick_real_eigenvalues", "make_eigenvectors_real"]}]}
{"id": "C44", "title": "Excited-state vectors round-trip", "statement": "For IP, EA and EE EOM, amplitudes_to_vector(vector_to_amplitudes(v)) == v for every vector v of the right length.", "quantifier": "every ansatz, sizes, values and spin type", "why_tests_cant": "Spin-dependent scale factors.", "anchors": [{"file": "ebcc/eom/reom.py", "symbols": ["amplitudes_to_vector", "vector_to_amplitudes"]}, {"file": "ebcc/eom/geom.py", "symbols": ["amplitudes_to_vector", "vector_to_amplitudes"]}, {"file": "ebcc/eom/ueom.py", "symbols": ["amplitudes_to_vector", "vector_to_amplitudes"]}]}
{"id": "C45", "title": "The EOM diagonal has the same sign in every spin representation", "statement": "diag() of the restricted, unrestricted and general EOM solvers agree on corresponding excitations.", "quantifier": "all orbital energies and sectors", "why_tests_cant": "Only the preconditioner and starting guesses are affected, so energies in tests still agree.", "anchors": [{"file": "ebcc/eom/reom.py", "symbols": ["diag"]}, {"file": "ebcc/eom/ueom.py", "symbols": ["diag"]}, {"file": "ebcc/eom/geom.py", "symbols": ["diag"]}]}
{"id": "C46", "title": "EOM starting guesses are distinct unit vectors on the lowest diagonal elements", "statement": "get_guesses(diag) returns min(nroots, diag.size) pairwise orthogonal unit vectors located at the smallest (absolute, for IP/EA) diagonal entries.", "quantifier": "all diagonals and root counts", "why_tests_cant": "All diagonals including ties.", "anchors": [{"file": "ebcc/eom/base.py", "symbols": ["get_guesses"]}, {"file": "ebcc/eom/reom.py", "symbols": ["_argsort_guesses"]}, {"file": "ebcc/util/misc.py", "symbols": ["argsort"]}]}
{"id": "C47", "title": "General two-electron integrals are antisymmetrised", "statement": "The integrals of the general Hamiltonian satisfy <pq||rs> = -<pq||sr> always and = -<qp||rs> = <rs||pq> whenever the underlying chemists' integrals have their 8-fold symmetry.", "quantifier": "all integrals", "why_tests_cant": "All index quadruples.", "anchors": [{"file": "ebcc/ham/eris.py", "symbols": ["GERIs"]}]}
{"id": "C48", "title": "Fock blocks are mutually transposed and independent of access order", "statement": "For a symmetric AO Fock matrix f.xy is the transpose of f.yx for all spaces, with or without the boson shift, and the values do not depend on which blocks were requested before.", "quantifier": "all spaces, couplings and access histories", "why_tests_cant": "Caching makes results potentially history dependent.", "anchors": [{"file": "ebcc/ham/fock.py", "symbols": ["RFock", "UFock"]}, {"file": "ebcc/ham/base.py", "symbols": ["_get_coeffs"]}]}
{"id": "C49", "title": "The coherent-state shift removes the mean-field boson drive", "statement": "With shift=True the mean-field boson coupling vector G used by the equations vanishes, omega*xi equals the drive, and the constant energy const is sum(omega*xi**2); with shift=False xi and const vanish and G is the drive.", "quantifier": "all couplings, frequencies and densities", "why_tests_cant": "An identity over all real data.", "anchors": [{"file": "ebcc/cc/rebcc.py", "symbols": ["get_mean_field_G"]}, {"file": "ebcc/cc/base.py", "symbols": ["BaseEBCC.xi", "BaseEBCC.const"]}]}
{"id": "C50", "title": "FCI coefficient extraction and packing are inverse, with correct spin shapes", "statement": "Packing C amplitudes into a CI vector and extracting them again gives the same C amplitudes, for all orders up to four and also when alpha and beta active spaces differ in size.", "quantifier": "all spaces, orders, CI vectors", "why_tests_cant": "Tests use spin-balanced or order<=2 data.", "anchors": [{"file": "ebcc/ext/fci.py", "symbols": ["_ci_vector_to_coefficients_unrestricted", "_amplitudes_to_ci_vector_unrestricted", "_ci_vector_to_coefficients_restricted"]}]}
{"id": "C51", "title": "Starting amplitudes are the perturbative guess in every spin representation", "statement": "init_amps sets singles, doubles, boson and coupling amplitudes to (coupling)/(denominator) for the lowest rank and zero for higher ranks, with arrays of the shape that amplitudes_to_vector expects, in all three spin types.", "quantifier": "all ansatze, spaces and couplings", "why_tests_cant": "Bosonic spin cases with different alpha/beta sizes are not exercised.", "anchors": [{"file": "ebcc/cc/rebcc.py", "symbols": ["init_amps"]}, {"file": "ebcc/cc/gebcc.py", "symbols": ["init_amps"]}, {"file": "ebcc/cc/uebcc.py", "symbols": ["init_amps"]}]}
{"id": "C52", "title": "Keyword options never leak between calculations", "statement": "Constructing a calculation with an explicit options object and keyword overrides does not change any other calculation that was given the same options object.", "quantifier": "all options objects and constructor histories", "why_tests_cant": "Aliasing across objects.", "anchors": [{"file": "ebcc/cc/base.py", "symbols": ["BaseEBCC.__init__"]}, {"file": "ebcc/cc/uebcc.py", "symbols": ["from_rebcc"]}, {"file": "ebcc/cc/gebcc.py", "symbols": ["from_uebcc"]}]}
{"id": "C53", "title": "DIIS coefficients are the optimal ones", "statement": "The coefficients used by DIIS sum to one and give the combination of stored error vectors of least norm: any other affine combination has a squared norm larger by the squared norm of the difference.", "quantifier": "all numbers of stored vectors and all error vectors", "why_tests_cant": "A statement about all competing coefficient vectors.", "anchors": [{"file": "ebcc/core/damping.py", "symbols": ["DIIS.extrapolate"]}]}
{"id": "C54", "title": "Starting lambdas are the transposed amplitudes", "statement": "init_lams returns, for every amplitude of the ansatz, a lambda of the shape that lambdas_to_vector expects whose element with bra and ket indices exchanged equals the amplitude element; pure boson lambdas equal the boson amplitudes.", "quantifier": "all ansatze, spaces and amplitudes, in all three spin types", "why_tests_cant": "A statement about every element and every ansatz.", "anchors": [{"file": "ebcc/cc/rebcc.py", "symbols": ["init_lams"]}, {"file": "ebcc/cc/gebcc.py", "symbols": ["init_lams"]}, {"file": "ebcc/cc/uebcc.py", "symbols": ["init_lams"]}]}
{"id": "C55", "title": "Chemists' integrals are the transformed integrals, symmetric, and independent of access order", "statement": "A block of the restricted or unrestricted two-electron integrals is the four-index transformation of the atomic-orbital integrals to the orbitals named by its key; blocks with permuted keys are permutations of each other when the atomic-orbital integrals have 8-fold symmetry; the density-fitted blocks equal the exact transformation of the fitted atomic-orbital integrals; none of this depends on which blocks were requested before.", "quantifier": "all orbitals, integrals, keys and access histories", "why_tests_cant": "A statement about every block and every access history.", "anchors": [{"file": "ebcc/ham/eris.py", "symbols": ["RERIs", "UERIs"]}, {"file": "ebcc/ham/cderis.py", "symbols": ["RCDERIs"]}, {"file": "ebcc/ham/base.py", "symbols": ["_get_coeffs"]}]}
{"id": "C56", "title": "Contractions of many operands do not depend on the contraction path", "statement": "einsum of three or more operands returns the defining sum over the letters absent from the output, whatever contraction path numpy chooses and whichever contraction method is configured; labels given as integers give the same result as the corresponding letters.", "quantifier": "all subscripts, operands, shapes and contraction paths", "why_tests_cant": "The path depends on all extents; every order of contraction must agree.", "anchors": [{"file": "ebcc/util/einsumfunc.py", "symbols": ["einsum", "_parse_einsum_input"]}]}
{"id": "C57", "title": "Brueckner orbitals stay orthonormal", "statement": "However many cycles a Brueckner optimisation performs, the orbital coefficients it produces are orthonormal in the metric in which the initial ones are, and frozen orbitals keep their coefficients.", "quantifier": "all spaces, initial orbitals, amplitudes and numbers of cycles, in all spin types", "why_tests_cant": "An invariant of an iteration of unbounded length.", "anchors": [{"file": "ebcc/opt/rbrueckner.py", "symbols": ["get_rotation_matrix", "update_coefficients"]}, {"file": "ebcc/opt/ubrueckner.py", "symbols": ["get_rotation_matrix", "update_coefficients"]}, {"file": "ebcc/opt/base.py", "symbols": ["BaseBruecknerEBCC.kernel"]}]}
{"id": "C58", "title": "A root the Davidson solver reports as converged solves the eigenproblem", "statement": "When davidson() reports root k as converged, the norm of A x_k - w_k x_k of the returned pair is below the residual tolerance, inner products of the returned vectors are those of the small eigenvectors, and the residual has no component in the subspace when the small problem is solved exactly.", "quantifier": "all linear operators, eigensolvers, choices of roots, guesses, tolerances and numbers of iterations (right eigenvectors, exact arithmetic)", "why_tests_cant": "Convergence flags pass through restarts, reordering of roots and exhausted trial vectors.", "anchors": [{"file": "ebcc/core/davidson.py", "symbols": ["davidson", "_outer_product_to_subspace", "_sort_eigenvalues"]}]}
{"id": "C59", "title": "follow_state restarts the Davidson solver from the previous vectors", "statement": "With follow_state=True, when a residual grows beyond one in a large subspace, davidson() restarts from the vectors of the previous cycle.", "quantifier": "all runs", "why_tests_cant": "Requires a subspace larger than nroots + 4 with growing residuals, which small tests do not reach.", "anchors": [{"file": "ebcc/core/davidson.py", "symbols": ["davidson"]}]}
{"id": "C60", "title": "Antisymmetrising an array over chosen axes", "statement": "antisymmetrise_array returns the signed sum over all permutations of the given axes (all axes when none are given), leaving the other axes in place; the result changes sign whenever two of the axes are exchanged, and an array that already does is multiplied by the factorial of the number of axes.", "quantifier": "all arrays, and all lists of distinct axes of equal extent, in any order", "why_tests_cant": "The property concerns every array element and every set of axes.", "anchors": [{"file": "ebcc/util/permutations.py", "symbols": ["antisymmetrise_array"]}]}
{"id": "C61", "title": "Every generated equation runs and returns arrays of the documented shapes", "statement": "Each function of ebcc.codegen (energies, amplitude and Lambda updates, intermediates, matrix-vector products, density matrices of every ansatz), called with arrays whose extents match their names, runs to the end for all numbers of orbitals, auxiliary functions and bosons, and every contraction method and path; its results have the axes their names say; its arguments keep their values, except that cached intermediates may be removed.", "quantifier": "all generated functions, all sizes (including zero), all contraction methods and paths, all array contents", "why_tests_cant": "There are hundreds of functions with tens of thousands of contractions; tests run a few of them on a few molecules, where numbers of orbitals of different kinds can coincide.", "anchors": [{"file": "ebcc/codegen/RCCSD.py", "symbols": ["energy", "update_amps"]}, {"file": "ebcc/codegen/UCCSD.py", "symbols": ["update_amps"]}, {"file": "ebcc/codegen/UDFCCD.py", "symbols": ["make_rdm1_f"]}]}
{"id": "C62", "title": "Orbital rotations leave energies unchanged", "statement": "Turn the orbitals within each kind (occupied, virtual, per spin, active, auxiliary, bosonic modes) by any orthogonal matrix. Every generated function, given the rotated integrals and amplitudes, returns the rotation of the results it returns for the original ones. In particular every energy is unchanged.", "quantifier": "for every translated generated function, every field, all sizes, all orthogonal matrices, all arguments, both einsum back ends and every valid contraction path", "why_tests_cant": "a test rotates one set of orbitals of one molecule for a few models", "anchors": [{"file": "ebcc/codegen/RMP2.py", "symbols": ["energy"]}, {"file": "ebcc/codegen/GCCSD.py", "symbols": ["energy", "update_amps"]}, {"file": "ebcc/codegen/UCCSDT.py", "symbols": ["update_amps"]}]}
{"id": "C63", "title": "Restricted and unrestricted calculations agree on closed shells", "statement": "For every ansatz with both kinds of generated equations, the energy and the residuals of the amplitude and Lambda equations of an unrestricted calculation, given the spin blocks of closed-shell integrals and amplitudes, equal the energy and the spin blocks of the residuals of the restricted one.", "quantifier": "all fields of characteristic zero, all numbers of orbitals, auxiliary functions and bosons, all real closed-shell integrals and amplitudes, converged or not", "why_tests_cant": "Tests compare converged energies of a few molecules; the equations are thousands of contractions generated separately.", "anchors": [{"file": "ebcc/codegen/RCCSD.py", "symbols": ["energy", "update_amps", "update_lams"]}, {"file": "ebcc/codegen/UCCSD.py", "symbols": ["energy", "update_amps", "update_lams"]}, {"file": "ebcc/codegen/RCCSD_S_1_1.py", "symbols": ["update_amps"]}, {"file": "ebcc/cc/uebcc.py", "symbols": ["from_rebcc"]}]}
{"id": "C64", "title": "Unrestricted and general calculations agree", "statement": "For every ansatz with both kinds of generated equations, the energy and the residuals of the amplitude and Lambda equations of a general calculation, given the spin-orbital form of the integrals and amplitudes of an unrestricted one, equal the energy and the spin-orbital form of the residuals of the unrestricted one; blocks that do not conserve spin vanish.", "quantifier": "all fields of characteristic zero, all numbers of alpha and beta orbitals and bosons, all real integrals and amplitudes, converged or not", "why_tests_cant": "Tests compare converged energies of a few molecules; the equations are thousands of contractions generated separately.", "anchors": [{"file": "ebcc/codegen/UCCSD.py", "symbols": ["energy", "update_amps", "update_lams"]}, {"file": "ebcc/codegen/GCCSD.py", "symbols": ["energy", "update_amps", "update_lams"]}, {"file": "ebcc/cc/gebcc.py", "symbols": ["from_uebcc"]}]}
{"id": "C65", "title": "Density-fitted equations agree with the conventional ones", "statement": "For every ansatz with density-fitted equations, the energy and the residuals of the amplitude and Lambda equations equal those of the equations without density fitting for the four-centre integrals assembled from the three-centre ones.", "quantifier": "all fields of characteristic zero, all numbers of orbitals and auxiliary functions, all three-centre integrals, Fock matrices and amplitudes, restricted and unrestricted", "why_tests_cant": "Tests compare converged energies to a tolerance that hides the fitting error; the two sets of equations are generated separately and contract in a different order.", "anchors": [{"file": "ebcc/codegen/RDFCCSD.py", "symbols": ["energy", "update_amps", "update_lams"]}, {"file": "ebcc/codegen/UDFCCSD.py", "symbols": ["energy", "update_amps", "update_lams"]}]}
{"id": "C66", "title": "Exchanging alpha and beta changes nothing", "statement": "An unrestricted calculation with alpha and beta exchanged, in the numbers of orbitals, the integrals and the amplitudes, has the same energy and the exchanged residuals.", "quantifier": "all fields of characteristic zero, all numbers of alpha and beta orbitals, all arguments", "why_tests_cant": "The equations of the two spins are generated as separate statements; tests of closed shells and of high-spin states with more alpha electrons cannot tell an error in the other one.", "anchors": [{"file": "ebcc/codegen/UCCSD.py", "symbols": ["energy", "update_amps", "update_lams"]}, {"file": "ebcc/codegen/UCC3.py", "symbols": ["update_amps"]}]}
{"id": "C67", "title": "Residuals keep the permutational symmetry of the amplitudes", "statement": "If the amplitudes have their permutational symmetries (antisymmetry of equal spins, pair symmetry of restricted doubles, symmetry of boson pairs), so have the residuals, and hence all iterates.", "quantifier": "all fields of characteristic zero, all numbers of orbitals, all integrals and symmetric amplitudes", "why_tests_cant": "A statement about all elements of the residuals for all amplitudes.", "anchors": [{"file": "ebcc/codegen/GCCSD.py", "symbols": ["update_amps", "update_lams"]}, {"file": "ebcc/codegen/UCCSD.py", "symbols": ["update_amps"]}, {"file": "ebcc/codegen/RCCSD.py", "symbols": ["update_amps"]}]}
{"id": "C68", "title": "The generated equations are the textbook equations", "statement": "Energy and residuals of the general CCSD, CCD, linearised CC, QCISD, CC2, MP2 and MP3 equations are those of the textbooks (spin-orbital form) for all integrals and amplitudes; for QCISD when the Fock matrix has no occupied-virtual block.", "quantifier": "all fields of characteristic zero, all numbers of orbitals, all real integrals and antisymmetric amplitudes, converged or not", "why_tests_cant": "Tests compare a converged energy per molecule with another program; terms that vanish for canonical or for closed-shell orbitals are not seen.", "anchors": [{"file": "ebcc/codegen/GCCSD.py", "symbols": ["energy", "update_amps"]}, {"file": "ebcc/codegen/GCCD.py", "symbols": ["energy", "update_amps"]}, {"file": "ebcc/codegen/GCC2.py", "symbols": ["energy", "update_amps"]}, {"file": "ebcc/codegen/GLCCSD.py", "symbols": ["update_amps"]}, {"file": "ebcc/codegen/GQCISD.py", "symbols": ["energy", "update_amps"]}, {"file": "ebcc/codegen/GMP3.py", "symbols": ["energy"]}]}
{"id": "C69", "title": "The Lambda equations are the gradient of the Lagrangian", "statement": "The residuals of the Lambda equations are the derivatives of the Lagrangian (energy plus multipliers times amplitude residuals, each determinant counted once) with respect to the amplitudes, in every direction, at every point.", "quantifier": "all fields of characteristic zero, all numbers of orbitals, all integrals, amplitudes, multipliers and directions, converged or not", "why_tests_cant": "Tests compare density matrices of one converged molecule; the residual is a polynomial in all amplitudes and the claim is one about its coefficients.", "anchors": [{"file": "ebcc/codegen/GCCSD.py", "symbols": ["energy", "update_amps", "update_lams"]}, {"file": "ebcc/codegen/GCCD.py", "symbols": ["update_lams"]}, {"file": "ebcc/codegen/GCC2.py", "symbols": ["update_lams"]}, {"file": "ebcc/codegen/GCCSD_S_1_1.py", "symbols": ["update_lams"]}]}
{"id": "C70", "title": "The equations are size-extensive", "statement": "For a system of two parts that do not interact (no integrals and no amplitudes with indices of both), the energy is the sum of the energies of the parts and the amplitude residuals are those of the parts, those with indices of both parts being zero.", "quantifier": "all fields of characteristic zero, both parts of any size, all integrals and amplitudes, every ansatz of coupled-cluster and perturbation theory in the list", "why_tests_cant": "The claim is about pairs of systems of all sizes; a test sees two molecules at a large distance to a tolerance.", "anchors": [{"file": "ebcc/codegen/RCCSD.py", "symbols": ["energy", "update_amps"]}, {"file": "ebcc/codegen/UCCSD.py", "symbols": ["energy", "update_amps"]}, {"file": "ebcc/codegen/GCCSD.py", "symbols": ["energy", "update_amps"]}, {"file": "ebcc/codegen/RQCISD.py", "symbols": ["update_amps"]}]}
{"id": "C71", "title": "Density matrices reproduce the energy", "statement": "For solved amplitude equations, contracting the Hamiltonian with the one- and two-particle density matrices (and those with bosons) that the generated functions return gives the energy of the reference plus the correlation energy, whatever the multipliers; for amplitudes that are no solution it gives the Lagrangian.", "quantifier": "all fields of characteristic zero, all numbers of orbitals and bosons, all real integrals, amplitudes and multipliers, converged or not; restricted, unrestricted and general CCD and CCSD, general CCSDT and the methods with bosons", "why_tests_cant": "Tests compare the energy of one converged molecule to a tolerance; blocks that vanish by symmetry there are not seen.", "anchors": [{"file": "ebcc/codegen/GCCSD.py", "symbols": ["make_rdm1_f", "make_rdm2_f", "energy", "update_amps"]}, {"file": "ebcc/codegen/RCCSD.py", "symbols": ["make_rdm1_f", "make_rdm2_f"]}, {"file": "ebcc/codegen/UCCSD.py", "symbols": ["make_rdm1_f", "make_rdm2_f"]}, {"file": "ebcc/codegen/GCCSD_S_1_1.py", "symbols": ["make_sing_b_dm", "make_rdm1_b", "make_eb_coup_rdm"]}]}
{"id": "C72", "title": "Density matrices have the traces and symmetries of density matrices", "statement": "The trace of the one-particle density matrix is the number of electrons n, the partial trace of the two-particle one is n - 1 times the one-particle one (n of the other spin times, for opposite spins), and the two-particle one is antisymmetric in its creation and in its annihilation operators; for all amplitudes and multipliers.", "quantifier": "all fields of characteristic zero, all numbers of orbitals, all amplitudes and multipliers, converged or not", "why_tests_cant": "A statement about all elements for all amplitudes; tests look at the trace for one molecule.", "anchors": [{"file": "ebcc/codegen/GCCSD.py", "symbols": ["make_rdm1_f", "make_rdm2_f"]}, {"file": "ebcc/codegen/RCCSD.py", "symbols": ["make_rdm1_f", "make_rdm2_f"]}, {"file": "ebcc/codegen/UCCSD.py", "symbols": ["make_rdm1_f", "make_rdm2_f"]}, {"file": "ebcc/codegen/RDFCCSD.py", "symbols": ["make_rdm1_f", "make_rdm2_f"]}]}
{"id": "C73", "title": "Restricted, unrestricted and general density matrices agree", "statement": "The density matrices of a restricted calculation are the sums over spins of those of the unrestricted one for the same closed-shell system, and the spin blocks of those of a general calculation are those of the unrestricted one; blocks that do not conserve spin vanish.", "quantifier": "all fields of characteristic zero, all numbers of orbitals and bosons, all amplitudes and multipliers, converged or not", "why_tests_cant": "Tests compare converged density matrices of a few molecules; the functions are generated separately.", "anchors": [{"file": "ebcc/codegen/RCCSD.py", "symbols": ["make_rdm1_f", "make_rdm2_f"]}, {"file": "ebcc/codegen/UCCSD.py", "symbols": ["make_rdm1_f", "make_rdm2_f"]}, {"file": "ebcc/codegen/GCCSD.py", "symbols": ["make_rdm1_f", "make_rdm2_f"]}, {"file": "ebcc/codegen/UCCSD_S_1_1.py", "symbols": ["make_rdm2_f", "make_eb_coup_rdm"]}, {"file": "ebcc/codegen/UMP2.py", "symbols": ["make_rdm1_f"]}]}
{"id": "C74", "title": "Converting a restricted calculation to an unrestricted one keeps the energy and the equations", "statement": "UEBCC.from_rebcc turns the amplitudes and multipliers of a restricted calculation into ones for which the unrestricted functions return the same energy and the spin blocks of the same residuals, for every ansatz; converting them further to a general calculation gives antisymmetric amplitudes with these blocks.", "quantifier": "all fields of characteristic zero, all numbers of orbitals and bosons, all integrals, amplitudes and multipliers, converged or not, all ansatzes", "why_tests_cant": "Tests convert a few converged CCSD calculations and compare energies to a tolerance; conventions (factors 1/2, signs) cancel there or are never exercised.", "anchors": [{"file": "ebcc/cc/uebcc.py", "symbols": ["UEBCC.from_rebcc"]}, {"file": "ebcc/cc/gebcc.py", "symbols": ["GEBCC.from_rebcc"]}, {"file": "ebcc/util/permutations.py", "symbols": ["symmetrise"]}]}
{"id": "C75", "title": "Converting an unrestricted calculation to a general one keeps the energy and the equations", "statement": "GEBCC.from_uebcc turns the amplitudes and multipliers of an unrestricted calculation into antisymmetric ones over spin orbitals, whatever the order of the alpha and beta orbitals, for which the general functions return the same energy and residuals with the same spin blocks; the conversion succeeds for every ansatz and every number of electrons of either spin.", "quantifier": "all fields of characteristic zero, all numbers of orbitals and bosons, all orders of the spin orbitals, all integrals, amplitudes and multipliers, converged or not, all ansatzes", "why_tests_cant": "Tests convert a few converged calculations; permutations, signs and orders of orbitals are not enumerated.", "anchors": [{"file": "ebcc/cc/gebcc.py", "symbols": ["GEBCC.from_uebcc"]}, {"file": "ebcc/util/permutations.py", "symbols": ["permutations_with_signs", "permute_string", "generate_spin_combinations"]}]}
{"id": "C76", "title": "Results do not depend on the order of the orbitals", "statement": "Listing the occupied, virtual, alpha, beta, ... orbitals in another order permutes the results of every generated function accordingly and leaves energies unchanged; in particular alpha and beta spin orbitals may be interleaved in any way.", "quantifier": "all fields, all numbers of orbitals, all permutations within each kind, every generated function", "why_tests_cant": "Tests use the order of the mean field.", "anchors": [{"file": "ebcc/codegen/GCCSD.py", "symbols": ["energy", "update_amps", "update_lams"]}, {"file": "ebcc/codegen/UCCSD.py", "symbols": ["energy", "update_amps"]}, {"file": "ebcc/codegen/RCCSD.py", "symbols": ["energy", "update_amps"]}]}
{"id": "C77", "title": "Equation-of-motion products agree between restricted, unrestricted, general and density-fitted codes", "statement": "For ionisation and electron attachment, the left and right products of the Hamiltonian with a vector that the restricted code returns are those of the unrestricted code for equal spins, the unrestricted ones are those of the general code over spin orbitals, and the density-fitted ones are those of the four-index code for the fitted integrals.", "quantifier": "all fields of characteristic zero, all sizes, all Fock matrices, integrals, amplitudes and vectors, every product of CCSD, CCD, CC2 and MP2", "why_tests_cant": "Tests compare eigenvalues of a few molecules, which a product that is wrong on other vectors can still reproduce.", "anchors": [{"file": "ebcc/codegen/RCCSD.py", "symbols": ["hbar_matvec_ip", "hbar_lmatvec_ip"]}, {"file": "ebcc/codegen/UCCSD.py", "symbols": ["hbar_matvec_ip", "hbar_matvec_ea"]}, {"file": "ebcc/codegen/GCCSD.py", "symbols": ["hbar_matvec_ip", "hbar_matvec_ea"]}, {"file": "ebcc/codegen/RDFCCSD.py", "symbols": ["hbar_matvec_ip"]}]}
{"id": "C78", "title": "Left and right equation-of-motion products are adjoint", "statement": "<l, H r> = <r, H^T l> for the product H r of a right vector and the product H^T l of a left vector, so that left and right eigenvectors belong to the same eigenvalues.", "quantifier": "all fields of characteristic zero, all sizes, all tensors and all pairs of vectors, IP, EA and EE", "why_tests_cant": "A missing term of one product changes eigenvalues only for some systems and cannot be excluded by examples.", "anchors": [{"file": "ebcc/codegen/GCCSD.py", "symbols": ["hbar_matvec_ip", "hbar_lmatvec_ip", "hbar_matvec_ee", "hbar_lmatvec_ee"]}, {"file": "ebcc/codegen/GCC2.py", "symbols": ["hbar_matvec_ip", "hbar_lmatvec_ip"]}, {"file": "ebcc/codegen/UCCSD.py", "symbols": ["hbar_matvec_ip", "hbar_lmatvec_ip"]}]}
{"id": "C79", "title": "Equation-of-motion products are linear and keep vectors antisymmetric", "statement": "The product of r + c s is the product of r plus c times that of s, and the product of a vector that is antisymmetric in equivalent indices is antisymmetric, as the eigensolver and the packing of vectors require.", "quantifier": "all fields of characteristic zero, all sizes, tensors, vectors and numbers c, every product", "why_tests_cant": "Linearity and antisymmetry are statements about all vectors.", "anchors": [{"file": "ebcc/codegen/GCCSD.py", "symbols": ["hbar_matvec_ip", "hbar_matvec_ea", "hbar_matvec_ee"]}, {"file": "ebcc/codegen/UCCSD.py", "symbols": ["hbar_matvec_ip", "hbar_matvec_ea"]}, {"file": "ebcc/eom/base.py", "symbols": ["matvec"]}]}
{"id": "C80", "title": "The product of neutral excitations is the derivative of the amplitude equations", "statement": "The product of a vector of excitations is the derivative of the residuals of update_amps along that vector, up to a disconnected term that is zero when the residual of the singles is.", "quantifier": "all fields of characteristic zero, all sizes, tensors, amplitudes and directions", "why_tests_cant": "Finite differences test a few directions only and with limited accuracy.", "anchors": [{"file": "ebcc/codegen/GCCSD.py", "symbols": ["hbar_matvec_ee", "update_amps"]}, {"file": "ebcc/codegen/GCCD.py", "symbols": ["hbar_matvec_ee", "update_amps"]}, {"file": "ebcc/codegen/GCC2.py", "symbols": ["hbar_matvec_ee", "update_amps"]}]}
{"id": "C81", "title": "Generated conversions between cluster amplitudes and CI coefficients are the exponential and the logarithm", "statement": "The functions that turn cluster amplitudes of up to four electrons into CI coefficients return the coefficients of exp(T), those that turn coefficients into amplitudes return log(1 + C), and each undoes the other; in the restricted, the unrestricted and the general code.", "quantifier": "all fields of characteristic zero, all sizes, all amplitudes and coefficients with the antisymmetry (spin orbitals) or the permutation symmetry (spatial orbitals) of excitations", "why_tests_cant": "Tests compare the energy of one external correction; a wrong sign of one of hundreds of terms of the quadruples is invisible when the amplitudes concerned vanish.", "anchors": [{"file": "ebcc/codegen/GecCC.py", "symbols": ["convert_c1_to_t1", "convert_c4_to_t4", "convert_t4_to_c4"]}, {"file": "ebcc/codegen/UecCC.py", "symbols": ["convert_c4_to_t4", "convert_t4_to_c4"]}, {"file": "ebcc/codegen/RecCC.py", "symbols": ["convert_c4_to_t4", "convert_t4_to_c4"]}]}
{"id": "C82", "title": "Cluster amplitudes survive the conversion to CI vectors and back", "statement": "Converting cluster amplitudes of up to four electrons to coefficient amplitudes or to a CI vector, normalised or not, and converting the result back returns the same amplitudes; the same for coefficient amplitudes.", "quantifier": "all fields of characteristic zero, all numbers of active orbitals, orders 1 to 4, all antisymmetric amplitudes; through a CI vector for equal numbers of orbitals of both spins or up to double excitations", "why_tests_cant": "The code itself says of the factors that it is unknown why they work; tests use one molecule.", "anchors": [{"file": "ebcc/ext/fci.py", "symbols": ["_coefficients_to_amplitudes_unrestricted", "_amplitudes_to_coefficients_unrestricted", "_ci_vector_to_amplitudes_unrestricted", "_amplitudes_to_ci_vector_unrestricted", "_amplitudes_to_ci_vector_restricted", "_ci_vector_to_amplitudes_restricted"]}]}
{"id": "C83", "title": "The helpers argsort, prod and regularise_tuple lose nothing", "statement": "argsort lists every position once, in the order of the values, and is stable; prod is the product in any order; regularise_tuple returns the items however they are passed and refuses a tuple followed by more arguments instead of dropping them.", "quantifier": "all lists of values, all arguments", "why_tests_cant": "Statements about all lists; ties and mixed arguments are not tested.", "anchors": [{"file": "ebcc/util/misc.py", "symbols": ["argsort", "prod", "regularise_tuple"]}]}
{"id": "C84", "title": "External corrections are exactly the terms of triples and quadruples in the amplitude equations", "statement": "With triples and quadruples that are zero outside the active space, the update of singles and doubles of CCSDTQ equals that of CCSD plus the external and mixed corrections placed at the active orbitals; the corrections of the unrestricted code are the spin blocks of the general ones, and the restricted ones are those of a closed shell.", "quantifier": "all fields of characteristic zero, all sizes and choices of active orbitals, all integrals and amplitudes with their symmetries, every contraction order", "why_tests_cant": "Tests compare one energy with a reference value; a missing or doubled term is invisible when the amplitudes concerned are small or zero.", "anchors": [{"file": "ebcc/codegen/GecCC.py", "symbols": ["update_amps_external", "update_amps_mixed"]}, {"file": "ebcc/codegen/UecCC.py", "symbols": ["update_amps_external", "update_amps_mixed"]}, {"file": "ebcc/codegen/RecCC.py", "symbols": ["update_amps_external", "update_amps_mixed"]}, {"file": "ebcc/codegen/GCCSDTQ.py", "symbols": ["update_amps"]}, {"file": "ebcc/codegen/GCCSD.py", "symbols": ["update_amps"]}]}
