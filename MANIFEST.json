{
 "claims": [
  {
   "property": "C01",
   "status": "proved",
   "theorems": [
    "C01_permutations_complete",
    "C01_permutations_count",
    "C01_permutations_distinct",
    "C01_permutations_sign",
    "C01_permutations_reachable",
    "C01_factorial"
   ],
   "note": "all sequences of distinct items"
  },
  {
   "property": "C02",
   "status": "proved",
   "theorems": [
    "C02_string_permutation_roundtrip",
    "C02_string_permutation_sound",
    "C02_string_permutation_raises"
   ],
   "note": "all strings; indices modelled as naturals"
  },
  {
   "property": "C03",
   "status": "proved",
   "theorems": [
    "C03_tril_columns",
    "C03_tril_members",
    "C03_tril_order",
    "C03_tril_once",
    "C03_ntril_counts",
    "C03_ntril_closed_form"
   ],
   "note": "all n, d"
  },
  {
   "property": "C04",
   "status": "proved",
   "theorems": [
    "C04_spin_full",
    "C04_spin_full_once",
    "C04_spin_unique",
    "C04_spin_unique_excited"
   ],
   "note": "all n, all flags; for odd n the two middle classes are listed in swapped order, still one each"
  },
  {
   "property": "C05",
   "status": "proved",
   "theorems": [
    "C05_pack_unpack",
    "C05_pack_unpack_symmetry",
    "C05_pack_unpack_diagonal"
   ],
   "note": "any subscript with the default symmetry; symmetry strings when equal subscripts are adjacent"
  },
  {
   "property": "C06",
   "status": "partial",
   "theorems": [
    "C06_unpacked_antisymmetric",
    "C06_unpacked_symmetry",
    "C06_unpack_pack",
    "C06_unpack_pack_symmetry",
    "C06_unpack_pack_diagonal",
    "C06_interleaved_symmetry_refuted",
    "C06_diagonal_minus_refuted"
   ],
   "note": "proved for the default symmetry (any subscript) and for symmetry strings on adjacent equal subscripts; refuted for interleaved subscripts with a string (AssertionError) and for include_diagonal with '-'"
  },
  {
   "property": "C07",
   "status": "proved",
   "theorems": [
    "C07_compressed_size",
    "C07_packed_entries"
   ],
   "note": "all subscripts and extents"
  },
  {
   "property": "C08",
   "status": "partial",
   "theorems": [
    "C08_symmetrised_antisymmetric",
    "C08_symmetrise_scaling",
    "C08_projection_pairs_partial",
    "C08_projection_refuted"
   ],
   "note": "antisymmetry holds in general; projection holds iff no subscript occurs more than twice: exact scale factor proved and the general projection claim refuted"
  },
  {
   "property": "C09",
   "status": "partial",
   "theorems": [
    "C09_symmetrise_plus",
    "C09_first_axis_decides_partial",
    "C09_mixed_refuted"
   ],
   "note": "uniform strings proved; with mixed strings the first axis decides for all groups, so the property is refuted"
  },
  {
   "property": "C10",
   "status": "proved",
   "theorems": [
    "C10_combine_subscripts",
    "C10_combine_succeeds",
    "C10_combine_length_error",
    "C10_combine_too_many"
   ],
   "note": "any number of subscripts"
  },
  {
   "property": "C11",
   "status": "proved",
   "theorems": [
    "C11_every_method_is_the_defining_sum",
    "C11_matrix_method_agrees",
    "C11_buffer_shape_unchecked_refuted"
   ],
   "note": "up to two operands; ellipses, integer-list subscripts and the TBLIS backend are not modelled"
  },
  {
   "property": "C12",
   "status": "proved",
   "theorems": [
    "C12_scaled_accumulation_one_operand",
    "C12_scaled_accumulation_two_operands",
    "C12_scaling_refused_for_many_operands"
   ],
   "note": "scaling with more than two operands is refused by the code and proved so"
  },
  {
   "property": "C13",
   "status": "proved",
   "theorems": [
    "C13_output_letters",
    "C13_invalid_output_refused",
    "C13_accepted_output_valid"
   ],
   "note": "string subscripts"
  },
  {
   "property": "C14",
   "status": "proved",
   "theorems": [
    "C14_direct_sum",
    "C14_leading_sign_refuted"
   ],
   "note": "any number of operands; a leading sign is refused (refuted)"
  },
  {
   "property": "C15",
   "status": "proved",
   "theorems": [
    "C15_namespace_is_dictionary",
    "C15_attribute_round_trip_refuted",
    "C15_popitem_newest_refuted"
   ],
   "note": "all programs; two differences from a dictionary recorded as refuted theorems"
  },
  {
   "property": "C16",
   "status": "partial",
   "theorems": [
    "C16_units_recompose_partial",
    "C16_precision_limits_units_refuted",
    "C16_precision_ignored"
   ],
   "note": "re-composition proved for all durations; the precision bound is refuted: the argument has no effect"
  },
  {
   "property": "C17",
   "status": "proved",
   "theorems": [
    "C17_masks_partition",
    "C17_sizes_add_up",
    "C17_size_is_count",
    "C17_mask_is_documented",
    "C17_inactive_within_correlated_refuted"
   ],
   "note": "all accepted spaces"
  },
  {
   "property": "C18",
   "status": "proved",
   "theorems": [
    "C18_slice_exact_or_refused",
    "C18_slice_selects_as_mask"
   ],
   "note": "all accepted spaces and characters"
  },
  {
   "property": "C19",
   "status": "partial",
   "theorems": [
    "C19_oslice",
    "C19_vslice_partial",
    "C19_vslice_refuted",
    "C19_xslice_partial",
    "C19_xslice_refuted"
   ],
   "note": "oslice in full; vslice and xslice on exactly the subspaces where they are right, refuted elsewhere"
  },
  {
   "property": "C20",
   "status": "proved",
   "theorems": [
    "C20_rejects",
    "C20_accepts"
   ],
   "note": "all masks"
  },
  {
   "property": "C21",
   "status": "proved",
   "theorems": [
    "C21_default_space",
    "C21_fno_threshold",
    "C21_fno_fraction",
    "C21_fno_non_aufbau_refuted"
   ],
   "note": "all occupations and thresholds; needs occupied orbitals first, refuted otherwise"
  },
  {
   "property": "C22",
   "status": "partial",
   "theorems": [
    "C22_identifiers_distinct",
    "C22_round_trip_partial",
    "C22_round_trip_refuted",
    "C22_unbalanced_collision_refuted",
    "C22_named_ansatz",
    "C22_unknown_name_refused",
    "C22_one_shot",
    "C22_perturbative",
    "C22_named_kinds",
    "C22_available_models_refuted"
   ],
   "note": "Identifiers of method names never collide, proved for all names. The documented inverse is proved for names without dash/square brackets/letters w,x,y,p and refuted for CCSD-SD-1-2; available_models listing refuted.; one-shot and perturbative methods characterised"
  },
  {
   "property": "C23",
   "status": "partial",
   "theorems": [
    "C23_fermionic_entries",
    "C23_quadruple_ip_refuted",
    "C23_names_distinct_partial",
    "C23_names_distinct_refuted",
    "C23_named_ansatzes_distinct",
    "C23_lambda_transposes",
    "C23_lambda_quadruple_refuted",
    "C23_letters_select_ranks",
    "C23_unknown_prefix_refused_refuted",
    "C23_bosonic_entries",
    "C23_bosonic_lambda",
    "C23_coupling_entries",
    "C23_coupling_lambda",
    "C23_coupling_names_partial",
    "C23_coupling_names_refuted",
    "C23_coupling_eom_refused"
   ],
   "note": "Entries well formed, sorted, lambda transposition, letters select ranks, bosonic and coupling ranks proved for all ansatz strings; distinct names refuted for mixed triples and for coupling ranks >= 11; quadruple keys not adapted (refuted)."
  },
  {
   "property": "C24",
   "status": "proved",
   "theorems": [
    "C24_memory_and_cache",
    "C24_is_textbook_diis",
    "C24_reset_starts_again",
    "C24_calls_total",
    "C24_evicts_largest_error",
    "C24_direct_methods_refuted"
   ],
   "note": "memory bound, cache soundness and refinement to textbook DIIS for every history of calls; direct push/extrapolate use refuted; solver (with eigh fallback) is an oracle, exact real arithmetic; a reset object behaves like a new one"
  },
  {
   "property": "C25",
   "status": "proved",
   "theorems": [
    "C25_affine_combination",
    "C25_fixed_point"
   ],
   "note": "any solver satisfying its equations; any history"
  },
  {
   "property": "C26",
   "status": "partial",
   "theorems": [
    "C26_first_call_partial",
    "C26_returns_first_vector",
    "C26_passes_newest_refuted",
    "C26_space_one_never_moves"
   ],
   "note": "holds for the first call only; refuted in general, and what it does return is characterised for every history"
  },
  {
   "property": "C27",
   "status": "proved",
   "theorems": [
    "C27_linear_damping",
    "C27_reset_starts_again"
   ],
   "note": "every history and factor"
  },
  {
   "property": "C28",
   "status": "proved",
   "theorems": [
    "C28_converged_flag",
    "C28_restart_is_stable"
   ],
   "note": "all oracles (energy, update, conversions, accelerator, comparisons)"
  },
  {
   "property": "C29",
   "status": "partial",
   "theorems": [
    "C29_lambda_flag_partial",
    "C29_given_amplitudes_refuted"
   ],
   "note": "loop guarantees proved for all oracles; the amplitudes argument is ignored (refuted)"
  },
  {
   "property": "C30",
   "status": "proved",
   "theorems": [
    "C30_amplitudes_round_trip",
    "C30_vector_round_trip",
    "C30_documented",
    "C30_combined_triples_refuted"
   ],
   "note": "all readable ansatzes with distinct names; a too long vector is cut rather than refused (proved); combined full and active triples share a name (refuted)"
  },
  {
   "property": "C31",
   "status": "proved",
   "theorems": [
    "C31_amplitudes_round_trip",
    "C31_vector_round_trip"
   ],
   "note": "all readable ansatzes with distinct names; stored without packing"
  },
  {
   "property": "C32",
   "status": "proved",
   "theorems": [
    "C32_amplitudes_round_trip",
    "C32_vector_round_trip",
    "C32_higher_coupling_refused"
   ],
   "note": "all readable ansatzes with at most one fermionic excitation in the coupling; others are refused (proved)"
  },
  {
   "property": "C33",
   "status": "partial",
   "theorems": [
    "C33_jacobi_step",
    "C33_fixed_points",
    "C33_unrestricted_jacobi_step_partial",
    "C33_singles_doubles_scale",
    "C33_unrestricted_fixed_points_partial",
    "C33_unrestricted_triples_refuted",
    "C33_perturbative_lambdas_merged"
   ],
   "note": "Restricted and general classes: the update is exactly t + residual/denominator in every block and its fixed points are exactly the zero-residual amplitudes. Unrestricted: proved with the factor antisymmetriser_scale, which is one when no three axes share letter and spin; for triples the code multiplies same-spin blocks by 9/4 (C33_unrestricted_triples_refuted), so the full statement is false there. Perturbative lambdas replace lambdas of the same name before an update (restricted and general)."
  },
  {
   "property": "C34",
   "status": "proved",
   "theorems": [
    "C34_one_body",
    "C34_two_body",
    "C34_two_body_unrestricted",
    "C34_electron_boson"
   ],
   "note": "For every array the generated code may return. Symmetry means real symmetric; complex arrays are not modelled. 2 must be invertible."
  },
  {
   "property": "C35",
   "status": "partial",
   "theorems": [
    "C35_restricted_general",
    "C35_unrestricted",
    "C35_long_subscripts_refuted"
   ],
   "note": "Proved for every non-empty subscript of at most 26 letters; longer ones raise ValueError (C35_long_subscripts_refuted) because next_char runs out of letters."
  },
  {
   "property": "C36",
   "status": "partial",
   "theorems": [
    "C36_restored_partial",
    "C36_module_refuted",
    "C36_density_fitting_refuted",
    "C36_none_option_refuted"
   ],
   "note": "Round trip proved for every spin type, solution state and previous file content when the ansatz names no module, uses no density fitting and no option is None; three theorems refute the claim for those cases. Missing: nothing beyond the refuted cases and non-Hartree-Fock mean fields."
  },
  {
   "property": "C37",
   "status": "partial",
   "theorems": [
    "C37_scoping_partial",
    "C37_normal_exit",
    "C37_exception_refuted"
   ],
   "note": "Lexical scoping proved for every program in which no context is left by an exception, and restoration on every normal exit; refuted when an exception leaves a context (no try/finally)."
  },
  {
   "property": "C38",
   "status": "partial",
   "theorems": [
    "C38_active_block_partial",
    "C38_active_block_unrestricted_partial",
    "C38_contexts_lexical_partial",
    "C38_frozen_refuted",
    "C38_frozen_core_refuted",
    "C38_active_axes_refuted",
    "C38_self_nesting_refuted"
   ],
   "note": "Exact pinning proved for R/G and U when no frozen orbital precedes an active one and amplitudes have full axes; contexts proved lexical. Outside these hypotheses the claim is refuted (frozen orbitals, active-only axes, self-nesting)."
  },
  {
   "property": "C39",
   "status": "partial",
   "theorems": [
    "C39_adds_blocks_partial",
    "C39_adds_blocks_unrestricted_partial",
    "C39_corrections",
    "C39_corrections_unrestricted",
    "C39_external_partial",
    "C39_entries_partial",
    "C39_unrestricted_user_refuted",
    "C39_frozen_refuted"
   ],
   "note": "Added blocks, corrections (R/G/U) and embedding of external amplitudes proved when no frozen orbital precedes the class; re-entry proved for R/G and refuted for U (shallow copy); frozen orbitals refuted. Residuals of the generated code are arbitrary inputs."
  },
  {
   "property": "C40",
   "status": "partial",
   "theorems": [
    "C40_kernel_cycles",
    "C40_one_cycle",
    "C40_tolerances",
    "C40_flag_never_set",
    "C40_flag_refuted",
    "C40_energy_change_refuted"
   ],
   "note": "The cycles, the early stop, the tolerances and the returned energy are proved for every solver; the converged flag and the energy criterion are refuted."
  },
  {
   "property": "C41",
   "status": "partial",
   "theorems": [
    "C41_restricted_and_general_partial",
    "C41_identity_partial",
    "C41_unrestricted_partial",
    "C41_unrestricted_refuted",
    "C41_argument_refuted",
    "C41_bosons_refused"
   ],
   "note": "Proved for restricted and general calculations over all correlated orbitals; the unrestricted version rotates only the last spin block (proved, and the property refuted); the amplitudes argument is ignored (refuted); bosons are refused; active-space axes not covered."
  },
  {
   "property": "C42",
   "status": "proved",
   "theorems": [
    "C42_subspace_invariants",
    "C42_matrix_large_enough",
    "C42_too_many_guesses_refuted"
   ],
   "note": "The size bound is for the enlarged limit max_space + 6 (nroots - 1), the number of roots or of guesses, whichever is largest; more guesses than rows of the matrix are written out of bounds (refuted)."
  },
  {
   "property": "C43",
   "status": "partial",
   "theorems": [
    "C43_values_picked",
    "C43_enough_iff",
    "C43_enough_refuted"
   ],
   "note": "Order, choice and the exact condition for enough values are proved; the claim that enough values are always returned is refuted (strict comparison with the threshold)."
  },
  {
   "property": "C44",
   "status": "partial",
   "theorems": [
    "C44_restricted",
    "C44_general",
    "C44_unrestricted_partial",
    "C44_unrestricted_refuted",
    "C44_bosons_refused"
   ],
   "note": "Proved as stated for the restricted and general solvers. The unrestricted solver divides by a spin multiplicity when reading, so the property fails there (refutation with a concrete vector); what it computes instead is proved for all inputs."
  },
  {
   "property": "C45",
   "status": "partial",
   "theorems": [
    "C45_restricted",
    "C45_general",
    "C45_unrestricted",
    "C45_ionisation_agrees_partial",
    "C45_spin_orbitals_agree_partial",
    "C45_signs_refuted"
   ],
   "note": "The diagonal of each solver is proved entry by entry. Restricted/unrestricted agreement is proved for ionisation and restricted/general for ionisation and neutral excitations; the signs differ in the remaining cases, which is shown by a concrete closed shell."
  },
  {
   "property": "C46",
   "status": "proved",
   "theorems": [
    "C46_guesses",
    "C46_no_guess",
    "C46_koopmans_refuted"
   ],
   "note": "For every diagonal. With the Koopmans option only the single-excitation entries are searched, so fewer guesses than min(nroots, size) can be returned: refutation included."
  },
  {
   "property": "C47",
   "status": "proved",
   "theorems": [
    "C47_value",
    "C47_ket_antisymmetric",
    "C47_bra_antisymmetric"
   ],
   "note": "PySCF's ao2mo is modelled by its defining sum."
  },
  {
   "property": "C48",
   "status": "partial",
   "theorems": [
    "C48_value",
    "C48_shifted_value",
    "C48_transposed",
    "C48_shifted_transposed",
    "C48_history",
    "C48_history_shifted_partial",
    "C48_history_refuted",
    "C48_coupling_history",
    "C48_unrestricted_value",
    "C48_unrestricted_shifted_value",
    "C48_unrestricted_transposed",
    "C48_unrestricted_shifted_transposed",
    "C48_unrestricted_history",
    "C48_unrestricted_history_shifted_partial"
   ],
   "note": "Values, transposition and history independence of every block that a new container returns. Refuted: with the boson shift a block in the AO basis is refused at first and returned unshifted afterwards."
  },
  {
   "property": "C49",
   "status": "proved",
   "theorems": [
    "C49_drive",
    "C49_drive_unrestricted",
    "C49_shifted",
    "C49_unshifted"
   ],
   "note": "Over any field, non-zero frequencies. The drive is the trace of the occupied-occupied coupling."
  },
  {
   "property": "C50",
   "status": "partial",
   "theorems": [
    "C50_roundtrip_partial",
    "C50_roundtrip_doubles",
    "C50_open_shell_triples_refuted",
    "C50_restricted_agrees",
    "C50_restricted_agrees_quadruples"
   ],
   "note": "The round trip from excitation amplitudes through the CI vector and back is proved for rank <= 2 and, when the two spins have equal occupied and equal virtual counts or the shapes agree, for all ranks up to 4; open-shell triples are refuted (the reader allocates arrays of the wrong shape). Restricted reading is proved equal to unrestricted reading. The generated T/C conversion is an oracle."
  },
  {
   "property": "C51",
   "status": "partial",
   "theorems": [
    "C51_restricted",
    "C51_general_partial",
    "C51_general_coupling_refuted",
    "C51_unrestricted_partial",
    "C51_unrestricted_coupling_refuted"
   ],
   "note": "restricted complete; general with coupling amplitudes only if the rank test of the code (stale n) agrees, refuted otherwise; unrestricted with coupling amplitudes only for equal alpha/beta energies, refuted otherwise"
  },
  {
   "property": "C52",
   "status": "partial",
   "theorems": [
    "C52_fresh",
    "C52_new",
    "C52_shared_partial",
    "C52_convert",
    "C52_refuted"
   ],
   "note": "Proved: constructions without an options object affect nobody; the options seen by a new calculation; effect of sharing limited to keywords and shift; conversion harmless when bosons or shift off. Refuted: sharing an options object leaks keywords and shift."
  },
  {
   "property": "C53",
   "status": "proved",
   "theorems": [
    "C53_coefficients_optimal"
   ],
   "note": "Pythagoras identity over any commutative ring"
  },
  {
   "property": "C54",
   "status": "partial",
   "theorems": [
    "C54_transposed_partial",
    "C54_unrestricted_transposed_partial",
    "C54_quadruples_refuted"
   ],
   "note": "up to triples, all spin types; refuted for quadruples"
  },
  {
   "property": "C55",
   "status": "proved",
   "theorems": [
    "C55_value",
    "C55_history",
    "C55_symmetric",
    "C55_unrestricted",
    "C55_fitted",
    "C55_fitted_history"
   ],
   "note": "PySCF's ao2mo and nr_e2 are modelled by their defining sums; UERIs is covered through its restricted parts."
  },
  {
   "property": "C56",
   "status": "partial",
   "theorems": [
    "C56_any_path_is_the_defining_sum",
    "C56_scaling_refused",
    "C56_integer_labels_partial",
    "C56_large_labels_refused",
    "C56_implicit_order_refuted"
   ],
   "note": "Explicit outputs with labels 0..51 and any path are proved; an implicit output with labels on both sides of 26 comes out in the wrong order (refuted). numpy's choice of path enters as a hypothesis (valid_path). Ellipses, negative integers and the TBLIS method are not modelled."
  },
  {
   "property": "C57",
   "status": "proved",
   "theorems": [
    "C57_orbitals_stay_orthonormal",
    "C57_unrestricted"
   ],
   "note": "Matrix exponential, logarithm, determinant sign and the accelerator are parameters with their textbook properties."
  },
  {
   "property": "C58",
   "status": "proved",
   "theorems": [
    "C58_converged_means_small_residual",
    "C58_vectors_keep_inner_products",
    "C58_residual_orthogonal_to_basis"
   ],
   "note": "Right eigenvectors, follow_state off."
  },
  {
   "property": "C59",
   "status": "partial",
   "theorems": [
    "C59_follow_state_never_restarts",
    "C59_preconditioner",
    "C59_first_cycle",
    "C59_follow_state_refuted"
   ],
   "note": "Refuted: no run ever restarts from the previous vectors; every attempt ends in an error."
  },
  {
   "property": "C60",
   "status": "proved",
   "theorems": [
    "C60_antisymmetrise_array"
   ],
   "note": ""
  },
  {
   "property": "C61",
   "status": "proved",
   "theorems": [
    "C61_generated_functions_run",
    "C61_udfccd_make_rdm1_refuted",
    "C61_udfccd_make_rdm2_refuted"
   ],
   "note": "Deep embedding of all translated functions (412); one kernel-checked abstract interpretation covers all sizes. UDFCCD.make_rdm1_f always fails (refuted). Not translated: see tools/cg_skipped.txt and the assembly of density matrices from blocks."
  },
  {
   "property": "C62",
   "status": "proved",
   "theorems": [
    "C62_results_rotate",
    "C62_energies_invariant"
   ],
   "note": "All 411 translated generated functions; the few untranslated functions (tools/cg_skipped.txt) and the assembly of blocks into density matrices are not covered."
  },
  {
   "property": "C63",
   "status": "partial",
   "theorems": [
    "C63_unrestricted_reduces_to_restricted",
    "C63_unrestricted_reduces_to_restricted_rounded_partial",
    "C63_rccsd_s_1_1_singles_refuted",
    "C63_arguments_exist"
   ],
   "note": "All corresponding energy, update_amps and update_lams functions agree exactly on closed shells, for every size, field and contraction path. Partial: functions whose literals carry rounding errors of the code generator are compared after removing them; RCCSD_S_1_1.update_amps returns twice the singles residual (refuted)."
  },
  {
   "property": "C64",
   "status": "partial",
   "theorems": [
    "C64_general_reduces_to_unrestricted",
    "C64_general_reduces_to_unrestricted_rounded_partial",
    "C64_arguments_exist"
   ],
   "note": "All corresponding energy, update_amps and update_lams functions agree exactly. Partial: functions whose literals carry rounding errors of the code generator are compared after removing them. CCSDT update_lams is not in the list (checking time)."
  },
  {
   "property": "C65",
   "status": "proved",
   "theorems": [
    "C65_density_fitting_restricted",
    "C65_density_fitting_unrestricted",
    "C65_arguments_exist_restricted",
    "C65_arguments_exist_unrestricted"
   ],
   "note": "All 38 density-fitted energy, update_amps and update_lams functions that have a conventional counterpart."
  },
  {
   "property": "C66",
   "status": "partial",
   "theorems": [
    "C66_exchange_of_spins",
    "C66_arguments_exist"
   ],
   "note": "Proved for the functions listed in unrestricted_functions; density-fitted functions, CCSDT amplitudes and Lambda equations with bosons are not in the list (checking time)."
  },
  {
   "property": "C67",
   "status": "partial",
   "theorems": [
    "C67_residuals_symmetric_restricted",
    "C67_residuals_symmetric_unrestricted",
    "C67_residuals_symmetric_general",
    "C67_arguments_exist"
   ],
   "note": "Proved for the functions listed in restricted_residuals, unrestricted_residuals and general_residuals (all general ones); unrestricted density-fitted functions, UCCSDT, RCCSDT Lambda equations, unrestricted Lambda equations with bosons and RCCSD_S_1_1.update_amps (rounded literals) are not in the lists."
  },
  {
   "property": "C68",
   "status": "proved",
   "theorems": [
    "C68_textbook_equations",
    "C68_textbook_qcisd",
    "C68_arguments_exist"
   ],
   "note": "GCCSD, GCCD, GLCCSD, GLCCD, GCC2, GMP2, GMP3; GQCISD for a Fock matrix without occupied-virtual block, as its property states."
  },
  {
   "property": "C69",
   "status": "partial",
   "theorems": [
    "C69_lambda_is_gradient",
    "C69_arguments_exist",
    "C69_cc2_lambda_refuted",
    "C69_boson_lambda_refuted"
   ],
   "note": "GCCD and GCCSD proved; refuted for CC2 and for the methods with bosons; CCSDT not included"
  },
  {
   "property": "C70",
   "status": "partial",
   "theorems": [
    "C70_size_extensive_restricted",
    "C70_size_extensive_unrestricted",
    "C70_size_extensive_general",
    "C70_arguments_exist"
   ],
   "note": "Energies and amplitude equations of the methods in extensive_R, extensive_U, extensive_G; CCSDT, RCC3/UCC3 amplitudes, unrestricted bosonic amplitudes and unrestricted density-fitted functions are not in the lists (time of the checker)."
  },
  {
   "property": "C71",
   "status": "partial",
   "theorems": [
    "C71_energy_of_densities_restricted",
    "C71_energy_of_densities_unrestricted",
    "C71_energy_of_densities_general",
    "C71_energy_of_densities_rounded_partial"
   ],
   "note": "Restricted, unrestricted and general CCD and CCSD, general CCSDT and coupled electrons and bosons; the density-fitting and single-precision-constant modules only up to rounded constants (_rounded_partial). CC2 excluded: its density matrices are those of CCSD. UDFCCD excluded: its functions always fail. Optional symmetrisation in cc/ not included."
  },
  {
   "property": "C72",
   "status": "partial",
   "theorems": [
    "C72_traces_restricted",
    "C72_traces_unrestricted",
    "C72_traces_general",
    "C72_traces_restricted_rounded_partial",
    "C72_traces_general_rounded_partial",
    "C72_exchange_restricted",
    "C72_exchange_unrestricted",
    "C72_exchange_general",
    "C72_exchange_general_rounded_partial"
   ],
   "note": "Modules with rounded constants only up to those constants (_rounded_partial). UDFCCD excluded: its functions always fail."
  },
  {
   "property": "C73",
   "status": "partial",
   "theorems": [
    "C73_restricted_is_spin_sum",
    "C73_restricted_is_spin_sum_rounded_partial",
    "C73_general_has_spin_blocks",
    "C73_general_has_spin_blocks_rounded_partial",
    "C73_arguments_exist"
   ],
   "note": "Modules with rounded constants only up to those constants (_rounded_partial). Two-particle density matrices of CCSDT not included."
  },
  {
   "property": "C74",
   "status": "partial",
   "theorems": [
    "C74_converted_calculation_agrees",
    "C74_arguments_exist",
    "C74_singles",
    "C74_doubles",
    "C74_ansatzes",
    "C74_triples_refuted"
   ],
   "note": "Proved for every ansatz without triple excitations (all named ones, with bosons): the conversion succeeds, its blocks are given in closed form, and the generated unrestricted functions called with them agree with the restricted ones (energies, amplitude and Lambda residuals in the list of C63). False for triples (C74_triples_refuted). The construction of the new object is not modelled."
  },
  {
   "property": "C75",
   "status": "partial",
   "theorems": [
    "C75_converted_calculation_agrees",
    "C75_arguments_exist",
    "C75_singles",
    "C75_doubles",
    "C75_triples_refuted"
   ],
   "note": "As C74 for from_uebcc, for every interleaving of alpha and beta orbitals and every number of electrons (functions in the list of C64). False for triples (C75_triples_refuted). get_ghf_orbspin is an argument."
  },
  {
   "property": "C76",
   "status": "proved",
   "theorems": [
    "C76_order_of_orbitals",
    "C76_spin_orbitals_in_any_order"
   ],
   "note": "Every generated function, all permutations within each kind of orbital; spin orbitals interleaved in any way."
  },
  {
   "property": "C77",
   "status": "proved",
   "theorems": [
    "C77_restricted_unrestricted",
    "C77_unrestricted_general",
    "C77_density_fitting",
    "C77_arguments_exist"
   ],
   "note": "Every product of CCSD, CCD, CC2 and MP2 for ionisation and electron attachment; neutral excitations exist in the general code only."
  },
  {
   "property": "C78",
   "status": "partial",
   "theorems": [
    "C78_left_right_adjoint",
    "C78_cc2_adjoint_refuted"
   ],
   "note": "Proved for CCSD and CCD, including the density-fitted codes; refuted for CC2."
  },
  {
   "property": "C79",
   "status": "proved",
   "theorems": [
    "C79_linear",
    "C79_antisymmetric",
    "C79_arguments_exist"
   ],
   "note": "Every product, IP, EA and EE."
  },
  {
   "property": "C80",
   "status": "partial",
   "theorems": [
    "C80_product_is_derivative",
    "C80_arguments_exist",
    "C80_cc2_derivative_refuted"
   ],
   "note": "Proved for GCCSD and GCCD; refuted for GCC2."
  },
  {
   "property": "C81",
   "status": "proved",
   "theorems": [
    "C81_general_exponential",
    "C81_general_logarithm",
    "C81_general_inverse",
    "C81_unrestricted_exponential",
    "C81_unrestricted_logarithm",
    "C81_unrestricted_inverse",
    "C81_restricted_exponential",
    "C81_restricted_logarithm",
    "C81_restricted_inverse",
    "C81_arguments_exist"
   ],
   "note": ""
  },
  {
   "property": "C82",
   "status": "partial",
   "theorems": [
    "C82_amplitudes_back",
    "C82_coefficients_back",
    "C82_vector_back_partial",
    "C82_restricted_vector_back",
    "C82_restricted_amplitudes_exist"
   ],
   "note": "Unrestricted and restricted conversions. Missing: through a CI vector, unrestricted amplitudes with different numbers of alpha and beta orbitals at orders 3 and 4, where C50 refutes it."
  },
  {
   "property": "C83",
   "status": "proved",
   "theorems": [
    "C83_argsort",
    "C83_prod",
    "C83_regularise_tuple",
    "C83_single_tuple_item_refuted"
   ],
   "note": "A single argument that is itself a tuple is taken apart (C83_single_tuple_item_refuted)."
  },
  {
   "property": "C84",
   "status": "proved",
   "theorems": [
    "C84_corrections_exact",
    "C84_unrestricted_corrections",
    "C84_restricted_corrections",
    "C84_division_needed",
    "C84_arguments_exist"
   ],
   "note": "General, unrestricted and restricted corrections; update_amps of CCSDTQ exists for general calculations only."
  }
 ]
}