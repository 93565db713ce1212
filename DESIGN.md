# Formal model of BoothGroup/ebcc in Rocq (Coq 8.16)

This document was written before the proofs and is kept current. Section 1 describes how the
code is modelled, section 2 what is modelled and proved for each property, section 3 the
trusted base, section 4 the findings (places where the code does not have the property),
section 5 what is not modelled, section 6 how the theorems were tested.

## 1. Modelling conventions

* Every Python function becomes a total computable Gallina function, branch by branch. Every
  definition cites the file and lines it models. Exceptions are values (`Err <kind>`), and
  branches that raise in Python are explicit in the model.
* Layout per area `X`: `XModel.v` (definitions only), `XSpec.v` (small independent
  specification vocabulary), `XProofs.v`/`XThms.v` and other files (lemmas), `XEx.v` (concrete
  instances), `XProps.v` (theorems only, each closed by `exact`, with an example that meets the
  hypotheses and `Print Assumptions`).
* Python `str` is a list of code points (`pystr = list nat`, literals written `str "abc"`). Python
  `int` used for sizes and indices is `nat`, and `Z` where it can be negative (slices). Dictionaries
  are association lists in insertion order.
* Floating point is replaced by exact arithmetic over an arbitrary commutative ring or field
  (`rng`, `fld` in `Alg.v`), or by `Z`/`Qc` in examples: rounding is not modelled. Where a
  comparison can involve NaN the outcome of the comparison is an oracle.
* `numpy` arrays (`arr` in `ArrModel.v`) are a shape and the flat C-ordered list of elements;
  `ravel`, `reshape`, `transpose`, slicing, `put` act on it as documented.
* External computations (eigensolvers, linear solves, matrix exponentials, atomic integrals,
  mean-field energies, the choice of a contraction path) are Section variables or arguments, so the
  theorems quantify over all of them.
* The generated equations (`ebcc/codegen/*.py`, 69 modules, 140 000 lines of Python) are translated
  mechanically by `tools/translate_codegen.py` into programs of a small tensor language
  (`CgModel.v`: assignments of einsum, scaled accumulation, transposes, zeros, deletion, cached
  intermediates) whose semantics calls the model of `ebcc/util/einsumfunc.py`. The theorems about
  them are proved by abstract interpreters that are themselves proved sound (`CgProofs.v`) for all
  sizes, fields, arguments and contraction paths; the kernel evaluates the interpreter on each
  program.

## 2. Plan and outcome per property

Status and notes are in `MANIFEST.json`; `_partial` theorems say in the note what is missing and
`_refuted` theorems are counterexamples (section 4).

| id | modelled | how proved | files |
|----|----------|------------|-------|
| C01 | recursive insertion enumeration of permutations | induction on length; parity by inversion count | `PermProps.v` |
| C02 | string permutation lookup | induction over the target with the consumed multiset | `PermProps.v` |
| C03 | nested lower-triangular index generation | induction on the number of dimensions | `PermProps.v` |
| C04 | product, count, balanced special case, canonical de-duplication | counting argument per class | `PermProps.v` |
| C05 | sorting axes, grouping, flattening, triangular lists, gather/scatter | per-group lemmas on sorted tuples, lifted to products of groups | `TensorProps.v` |
| C06 | the same with signed scatter | signs of sorting permutations; refutation witnesses | `TensorProps.v` |
| C07 | the size formula and the packing | counting of strictly decreasing tuples | `TensorProps.v` |
| C08 | sum over products of permutations with sign and factor | reindexing of sums over the group; refutation | `TensorProps.v` |
| C09 | symmetry strings | as C08; refutation | `TensorProps.v` |
| C10 | character allocation loop | injectivity invariant of the allocation map | `PermProps.v` |
| C11 | index classification, transposes, reshape, GEMM; all back ends | extensional equality of finite sums | `EinsumProps.v` |
| C12 | alpha/beta/out handling | as C11 | `EinsumProps.v` |
| C13 | subscript parser | structural induction over the parsed string | `EinsumProps.v` |
| C14 | direct sums | structural | `EinsumProps.v` |
| C15 | namespace as state machine | refinement to an association list over all call histories | `MiscProps.v` |
| C16 | unit decomposition and slicing | arithmetic; refutation | `MiscProps.v` |
| C17 | masks | list induction | `SpaceProps.v` |
| C18 | runs of a mask as a slice | induction over masks | `SpaceProps.v` |
| C19 | relative slices with Python negative-index semantics | arithmetic; refutation outside the proved cases | `SpaceProps.v` |
| C20 | constructor checks | case analysis | `SpaceProps.v` |
| C21 | default space; FNO thresholds | list induction; oracle for natural occupations | `SpaceProps.v` |
| C22 | string rewriting of names | induction over strings; refutation | `AnsatzProps.v` |
| C23 | notation expansion into cluster ranks | induction over ansatz strings; finite tables lifted by lemmas | `AnsatzProps.v` |
| C24 | DIIS as a state machine over calls, solver as oracle | invariants over histories | `DampProps.v` |
| C25 | extrapolation | linear algebra over an arbitrary field | `DampProps.v` |
| C26 | minimum space | characterisation over histories; refutation | `DampProps.v` |
| C27 | linear damping | invariant over histories | `DampProps.v` |
| C28 | ground-state solver loop over oracles | induction on the iteration budget | `KernelProps.v` |
| C29 | lambda solver loop | as C28; refutation | `KernelProps.v` |
| C30 | block lists to vector and back (restricted) | induction on the rank list | `VecProps.v` |
| C31 | the same with packed blocks (general) | C05-C07 | `VecProps.v` |
| C32 | the same per spin block (unrestricted) | C05-C07 | `VecProps.v` |
| C33 | Jacobi update | ring reasoning per element; C08 | `CcProps.v` |
| C34 | hermitisation | ring reasoning per element | `CcProps.v` |
| C35 | signed broadcast sums of energies | induction on the subscript | `CcProps.v` |
| C36 | checkpoint file as key/value store | case analysis over all previous contents; refutation | `CoreProps.v` |
| C37 | precision state and exits | induction over nested programs; refutation | `CoreProps.v` |
| C38 | masked scatter, method replacement | per-index reasoning; contexts as a stack; refutation | `ExtProps.v` |
| C39 | external corrections, aliasing | per-index reasoning; heap model; refutation | `ExtProps.v` |
| C40 | Brueckner loop | induction; refutation | `OptProps.v` |
| C41 | block transformation of amplitudes | per-element sums; refutation | `OptProps.v` |
| C42 | Davidson loop bookkeeping | loop invariant; refutation | `DavProps.v` |
| C43 | picking real eigenvalues | sorting lemmas; refutation | `DavProps.v` |
| C44 | EOM vector conversions | reuse of C30-C32; refutation | `EomProps.v` |
| C45 | EOM diagonals | per-element; refutation | `EomProps.v` |
| C46 | EOM guesses | sorting lemmas; refutation | `EomProps.v` |
| C47 | general two-electron integrals | ring reasoning per element | `HamProps.v` |
| C48 | Fock containers with caches | cache invariant over access histories; refutation | `HamProps.v` |
| C49 | boson shift | ring reasoning | `CcProps.v` |
| C50 | CI vector reading and packing | reuse of C05/C06; refutation of open-shell shapes | `FciProps.v` |
| C51 | initial amplitudes | case analysis; refutation | `InitProps.v` |
| C52 | options objects in a heap | case analysis over heaps; refutation | `CoreProps.v` |
| C53 | DIIS linear system | optimality (Lagrange conditions) over an ordered field | `DampProps.v` |
| C54 | initial lambdas | per rank; refutation | `InitProps.v` |
| C55 | chemists' integrals with caches | cache invariant; multilinear sums | `HamProps.v` |
| C56 | many-operand contraction along a path | induction over valid paths | `EinPathProps.v` |
| C57 | orbital rotation of the optimiser | orthogonality of products | `OptProps.v` |
| C58 | Davidson residuals and Ritz vectors | loop invariant | `DavProps.v` |
| C59 | follow_state | refutation over all runs | `DavProps.v` |
| C60 | antisymmetrise_array | sum over permutations | `AntisymmProps.v` |
| C61 | all generated functions, translated | abstract interpretation: liveness, kinds of axes, cached intermediates | `CgProps.v` |
| C62 | all generated functions, translated | abstract interpretation with a relational domain over two runs (rotated and original arguments) | `CgProps.v` |
| C63 | All restricted and unrestricted energy, update_amps and update_lams programs as translated (C61); conversion tables (`CgTables.v`) as the specification of corresponding tensors | Symbolic execution of a program over formal sums of contractions of basis tensors (`CgPoly`), with a canonical form of contractions under relabelling, symmetries and reordering; soundness by induction over statements (`CgPolyProofs`, `CgPolyDom`, `CgCompareProofs`) for every size and field; equality of canonical forms by kernel computation. Refutation for RCCSD_S_1_1 singles. Partial: functions whose literals carry generator noise are compared after removing it | `CgAgreeProps.v` |
| C64 | As C63 for unrestricted and general programs; general tensors are block tensors over alpha and beta orbitals | As C63, with sums over spin orbitals split into sums over blocks | `CgAgreeProps.v` |
| C65 | Density-fitted and conventional programs (C61); table of assembled integrals (`CgTables2.fitted`) | As C63: both programs are executed symbolically over the three-centre integrals and their canonical forms compared | `CgAgree2Props.v` |
| C66 | Unrestricted programs (C61); table of exchanged arguments | As C63, the second run being a renaming of the kinds of axes (`CgRename`). Not checked: density-fitted functions, CCSDT amplitudes, Lambda equations with bosons (time of the checker) | `CgAgree2Props.v` |
| C67 | Restricted, unrestricted and general update_amps and update_lams (C61) | One symbolic run; each result is compared with its permutation (`CgOwn`). Not checked: unrestricted density-fitted functions, UCCSDT, RCCSDT Lambda, bosonic unrestricted Lambda (time); RCCSD_S_1_1.update_amps (rounded literals) | `CgAgree2Props.v` |
| C68 | General CCSD, CCD, LCCSD, LCCD, QCISD, CC2, MP2, MP3 programs (C61); the textbook equations written down independently in `CgTextbook.v` | Symbolic execution; canonical forms compared with the textbook formulas | `CgAgree2Props.v` |
| C69 | General CCD, CCSD, CC2 and CCSD-S-1-1 energy, update_amps and update_lams (C61); Lagrangian and displaced amplitudes as formulas (`CgLagSpec.v`) | Three symbolic runs over the tensors, a number epsilon and directions; the coefficient of epsilon is compared (`CgRel`, `CgRelProofs`). Refuted for CC2 and for the methods with bosons. Partial: CCSDT is not included (time of the checker); the restricted and unrestricted equations follow by C63, C64 | `CgLagProps.v` |
| C70 | Energies and update_amps of all ansatze (C61); tensors of two parts and of the whole as tables (`CgPartSpec.v`) | Three symbolic runs, two with renamed kinds of axes; canonical forms compared blockwise (`CgPart`). Not included: CCSDT, RCC3 and UCC3 amplitudes, unrestricted bosonic amplitudes, UDF functions (time of the checker) | `CgPartProps.v` |
| C71 | make_rdm1_f, make_rdm2_f, energy, update_amps (and the functions for bosons) of restricted, unrestricted and general CCD and CCSD, general CCSDT and general CCSD-S-1-1, SD-1-1, SD-1-2 (C61); contractions as formulas (`CgDensTables.v`, `CgDensSpec.v`) | Symbolic runs over the same tensors; Kronecker deltas are contracted and the canonical form of the difference is empty (`CgDelta`, `CgDens`). Not claimed for CC2 (its density matrices are those of CCSD, so the identity fails). Not modelled: the optional symmetrisation in cc/*.py and the assembly of the blocks into one array | `CgDensProps.v` |
| C72 | make_rdm1_f and make_rdm2_f of the methods in `CgDensPairs.v` (C61) | As C71, with the number of electrons as the trace of an identity matrix; exchange symmetries by comparing results with each other (`CgOwn`) | `CgDensProps.v` |
| C73 | Density-matrix functions of R/U/G pairs (C61); spin sums and spin blocks as tables (`CgDensTables.v`) | Symbolic runs, canonical forms compared blockwise. Not included: two-particle density matrices of CCSDT (time of the checker) | `CgDensProps.v` |
| C74 | `UEBCC.from_rebcc` (dictionaries of amplitudes and multipliers, `ConvModel.v`), generated functions (C61) | Values of every converted block (`ConvThms`), which meet table `closed_shell`; then C63. Success and existence of the arguments in `ConvTotal`, `ConvExist`. Singles, doubles, couplings to bosons; refuted for triples. Not modelled: construction of the new object | `ConvProps.v` |
| C75 | `GEBCC.from_uebcc` (same), with the positions of alpha and beta orbitals as argument | The loops over permutations and spin patterns reduced to a sum of placed blocks (`ConvProofs`, `ConvThms`); then C64 and C76. Singles, doubles, couplings; refuted for triples. Not modelled: `get_ghf_orbspin`, construction of the new object | `ConvProps.v` |
| C76 | Generated functions (C61) | A permutation is an orthogonal matrix, so the theorem on rotations of the orbitals applies; spin orbitals in any order by reordering (`CgOrder`) | `ConvProps.v` |
| C77 | Generated functions `hbar_(l)matvec_*` and their `_intermediates` (C61), run one after the other (`CgChainSpec`) | The two functions are composed into one (`CgChain`), whose normal form is compared as in C63–C65 (`CgEom`); all pairs in `CgEomPairs` | `CgEomProps.v` |
| C78 | Same | The difference of both inner products has normal form zero. Proved for CCSD and CCD, refuted for CC2 | `CgEomProps.v` |
| C79 | Same | Differences of entries have normal form zero (`CgEomThms`) | `CgEomProps.v` |
| C80 | Same, with `update_amps` | First-order terms as in C69, with the residuals at the given amplitudes as a further call (`derivative_sound`). Proved for GCCSD and GCCD, refuted for GCC2 | `CgEomProps.v` |
| C81 | The 24 `convert_*` functions of GecCC, UecCC and RecCC; exp(T) and log(1 + C) as sums over the divisions of the electrons (`CgExpSpec`) | Every result is compared with the expansion by normal forms, over tensors with the symmetries of excitations (`CgExp`) | `CgExpProps.v` |
| C82 | The wrappers of `ext/fci.py` (`FciConvModel`) around the functions of C81 and the packing of C50 | Induction over the orders; antisymmetry of the coefficients by comparing normal forms before and after the exchange of two indices (`FciConv1`-`FciConv5`); closed shells: the symmetrised and moved blocks are compared with the spin blocks of spatial excitations (`FciConvR`, `FciConv6`, `FciConv7`) | `FciConvProps.v` |
| C83 | `argsort` (`ArrModel`), `prod` and `regularise_tuple` (`MiscModel`); values are natural numbers | Induction over the lists | `HelpProps.v` |
| C84 | `update_amps_external` and `update_amps_mixed` of GecCC, UecCC and RecCC, `GCCSDTQ.update_amps`, `GCCSD.update_amps`; active orbitals are chosen by arbitrary matrices (`CgEcSpec`), which includes the selection by masks | The statements that the singles and doubles do not depend on are removed from the programs, which is proved to leave these results unchanged (`CgSlice`); the remaining programs are compared by normal forms (`CgEc`) | `CgEcProps.v` |

No property in the list is inexpressible; those whose truth rests on numerical behaviour
(floating-point rounding, convergence of iterations) are stated in exact arithmetic.

## 3. Trusted base

* Coq 8.16.1's kernel (including its virtual machine, used by `vm_compute` on closed boolean checks).
* Axioms: none. `Print Assumptions` stands under every theorem of the `*Props.v` files (359
  theorems) and prints "Closed under the global context" for each. A whole-library `coqchk -o` lists
  seven parameters of `Coq.ssr.ssrunder.Under_rel` (`Under_rel`, `Under_rel_from_rel`,
  `Under_relE`, `Over_rel`, `over_rel`, `over_rel_done`, `under_rel_done`): these belong to an opaque module of the
  standard library's ssreflect files, are realised there, and no theorem depends on them.
* The faithfulness of the hand-written model to the Python source. Every definition cites the lines
  it models.
* `tools/translate_codegen.py` for the generated equations. It parses each module with Python's `ast`,
  refuses everything outside the expected statement forms (the refused functions are listed in
  `tools/cg_skipped.txt`), maps names to axis kinds (`t2.aaaa` to occupied-alpha twice,
  virtual-alpha twice), maps letters of einsum strings to integers, reads literals as exact
  decimals, and rejects in-place updates of an array that may be a view of another live array.
  `CgAll.v` and `Cg_*.v` are its output, byte for byte.
* The tables in `CgTables.v` (generated by `tools/conversion_tables.py`, readable as formulas) are part of the
  statements of C63 and C64: they say what "the same" integrals and amplitudes means.
* Oracles, that is, arguments over which the theorems quantify, sometimes with a stated contract:
  linear solver of DIIS (with its eigenvalue fallback), generated energies and residuals in the
  solver loops (C28, C29, C33, C39, C40), atomic integrals and the mean field, matrix
  exponential/logarithm/determinant sign and the mean-field energy in the optimiser,
  eigensolver/argsort/norm/matrix-vector product in the Davidson solver, `tn_addrs_signs` of PySCF
  (contract `addresses_ok`), the conversion of amplitudes to coefficients in C50 (modelled in C81 and C82), the choice of contraction path
  (contract `valid_path`/`path_ok`), natural occupations of FNO, `importlib` lookups, the recursion limit.
* `ao2mo`, `dot`, `einsum`, `take`, `put`, `transpose`, `reshape`, `argsort`, `linalg` calls mean
  what the numpy/PySCF documentation says.

## 4. Findings

Each item marked with a theorem name is a machine-checked counterexample about the model; the others
were noticed while reading and are recorded for the maintainers.

**util/permutations.py**
* `symmetrise` multiplies an antisymmetric array with three equal subscripts by 9/4: the factor is
  1/2^(n-1) per group where 1/n! is needed (`C08_projection_refuted`). Unrestricted triples
  amplitudes are therefore rescaled in every update (`C33_unrestricted_triples_refuted`).
* With a per-axis symmetry string the sign of every group is taken from the first permuted axis only
  (`C09` refutation); decompression with `include_diagonal=True` and "-" is not antisymmetric and an
  interleaved subscript with a string fails an assertion (`C06_diagonal_minus_refuted`,
  `C06_interleaved_symmetry_refuted`).
* Docstring examples of `permute_string` and `get_string_permutation` are wrong; for odd n the spin
  combinations swap the two middle classes; `decompress` may leave an `out=` buffer zero;
  `combine_subscripts` fails above 91 distinct keys (`C10_combine_too_many`); `ntril_ndim` has
  unreachable lines.

**util/einsumfunc.py**
* The matrix-multiplication path accepts an `out` buffer of the wrong shape
  (`C11_buffer_shape_unchecked_refuted`); `dirsum` fails on a leading sign
  (`C14_leading_sign_refuted`) and with IndexError on a trailing sign or an empty subscript; integer
  labels on both sides of 26 without an output list are ordered wrongly
  (`C56_implicit_order_refuted`); `out` is ignored and scaling refused for more than two operands.

**util/misc.py** — keys that equal method names are shadowed
(`C15_attribute_round_trip_refuted`), `popitem` removes the oldest entry
(`C15_popitem_newest_refuted`), the precision of `Timer.format_time` has no effect
(`C16_precision_limits_units_refuted`).

**core/precision.py** — no `try/finally`: an exception leaves the precision changed
(`C37_exception_refuted`).

**ham/space.py** — `inactive` contains frozen orbitals (`C17_inactive_within_correlated_refuted`);
`vslice`/`xslice` go wrong with frozen or active orbitals on the other side
(`C19_vslice_refuted`, `C19_xslice_refuted`); FNO freezes occupied orbitals when occupations are
not aufbau (`C21_fno_non_aufbau_refuted`).

**core/ansatz.py** — `identifier_to_name` is not an inverse (`C22_round_trip_refuted`), unbalanced
brackets collide, `available_models` strips characters instead of a suffix
(`C22_available_models_refuted`), mixed triples give one name twice
(`C23_names_distinct_refuted`), quadruple keys are not adapted to IP/EA (`C23_quadruple_ip_refuted`),
coupling names collide at rank 11 (`C23_coupling_names_refuted`), unknown prefixes are treated as MP2
(`C23_unknown_prefix_refused_refuted`).

**core/damping.py** — below the minimum space the first vector is returned rather than the newest
(`C26_passes_newest_refuted`); with `space` at most one the vector never moves
(`C26_space_one_never_moves`); direct calls of `extrapolate`/`push` leave a stale norm
(`C24_direct_methods_refuted`).

**cc/base.py, cc/rebcc.py, cc/uebcc.py, cc/gebcc.py** — `solve_lambda` ignores its `amplitudes`
argument (`C29_given_amplitudes_refuted`); GEBCC tests a stale rank and UEBCC reads alpha energies for
the beta coupling amplitudes (`C51_general_coupling_refuted`, `C51_unrestricted_coupling_refuted`);
initial quadruple lambdas are in the wrong layout (`C54_quadruples_refuted`); options objects are
shared and mutated (`C52_refuted`); `energy_sum` fails above 26 letters
(`C35_long_subscripts_refuted`); perturbative lambdas raise NameError in GEBCC and are ignored in UEBCC;
`from_uebcc`/`from_rebcc` ignore custom orbitals; the restricted and general vector readers accept
over-long vectors.

**core/dump.py** — the module name is passed as the wrong positional argument
(`C36_module_refuted`), density fitting is not written (`C36_density_fitting_refuted`), options set to
None come back as defaults (`C36_none_option_refuted`).

**ham/fock.py, ham/elbos.py, ham/eris.py** — RFock caches the unshifted block before the shift
(`C48_history_refuted`); GEBCC with a density-fitted mean field has no CDERIs.

**ext/** — frozen orbitals, active-only axes and nesting the same context break tailoring and external
corrections (`C38_*_refuted`, `C39_*_refuted`); the unrestricted variant changes the caller's amplitudes
(`C39_unrestricted_user_refuted`); open-shell triple and quadruple CI coefficients are read with wrong
shapes (`C50_open_shell_triples_refuted`).

**opt/** — the Brueckner solver never sets `converged` (`C40_flag_refuted`) and compares the energy with
itself (`C40_energy_change_refuted`); the unrestricted transformation acts on the last spin block only
(`C41_unrestricted_refuted`) and its argument is ignored (`C41_argument_refuted`).

**eom/, core/davidson.py** — the unrestricted reader divides by a spin multiplicity
(`C44_unrestricted_refuted`); signs of diagonals differ between solvers (`C45_signs_refuted`); Koopmans
guesses may be too few (`C46_koopmans_refuted`); more guesses than the subspace raise IndexError
(`C42_too_many_guesses_refuted`); `pick` uses a strict comparison (`C43_enough_refuted`);
`follow_state` never works (`C59_follow_state_refuted`).

**cc/uebcc.py, cc/gebcc.py, conversions and updates** — the residuals of equal-spin doubles that the
generated equations return are twice those that belong to the halved amplitudes (tables of C63), so
`UEBCC.update_amps` takes twice the step for equal-spin doubles, and converting a restricted calculation and
updating do not commute away from convergence. `from_rebcc` rescales triples by the same 1/2^(n-1):
`abaaba` comes out twice and `aaaaaa` 4.5 times what the unrestricted equations use. `from_uebcc` compares `comb`
instead of the permuted pattern in its inner loop, so spin patterns such as `aab` add a permutation
that mixes alpha and beta axes (`C74_triples_refuted`: a restricted calculation converted to a general one has a
triples amplitude of twice the size that is not antisymmetric; `C75_triples_refuted`: three alpha and two beta
electrons give a shape error).

**codegen/** — the singles residual of `RCCSD_S_1_1.update_amps` is twice that of its unrestricted and general
counterparts (`C63_rccsd_s_1_1_singles_refuted`): same solutions, different steps. `UDFCCD.make_rdm1_f` always fails (`C61_udfccd_make_rdm1_refuted`): it reads `t2.aa`. So does `UDFCCD.make_rdm2_f` (`C61_udfccd_make_rdm2_refuted`): line 900 assigns a member of `rdm2.aabb`, which is never created (the block is called `rdm2.abab`). The density matrices of CC2 are those of CCSD and do not reproduce the CC2 energy.
The CC2 Lambda equations are not the gradient of the CC2 Lagrangian (GCC2.py:161-, likewise RCC2, UCC2):
`l2new` contains the terms v_oooo·l2, v_vvvv·l2 and v_ovov·l2 of the CCSD equations (`C69_cc2_lambda_refuted`), so
converged multipliers, and density matrices made from them, are not those of CC2.  The Lambda equations of the methods
with bosons have `lu11new += einsum("w,ia->wai", ls1, x11) * 2` (GCCSD_S_1_1.py:507 and its relatives), twice the
derivative, while l1·G is missing (`C69_boson_lambda_refuted`).

The QCISD modules drop the driving term f_ia of the singles residual and f·t1 of the energy but keep f_kc·t2
(GQCISD.py:87-121): the equations are QCISD only for a Fock matrix without occupied-virtual block, which the
code does not check (C68 is proved under this hypothesis).
Some modules (CC3, CCSDT) carry rounded literals such as 2.00000000000002. Matrix-vector products of
several modules delete the shared intermediates, so they are recomputed for every vector (correct, slow).

CC2 equation-of-motion products: the right and left products are not adjoint (`C78_cc2_adjoint_refuted`). The left
products contain t1-dressed integrals, e.g. 1/2 t1_ja v_ijkl l_kla in the singles (GCC2.py), that the right products
lack, so left and right eigenvalues differ. The product of neutral excitations has CCSD-type terms v·r2 in the doubles,
so it is not the derivative of the CC2 residuals either (`C80_cc2_derivative_refuted`).

## 5. Not modelled

Logging, timing output, type stubs, plotting of convergence; complex numbers; floating-point rounding;
`ebcc/backend` other than numpy; the TBLIS back end; einsum ellipses and negative integer labels; the
scripts under `bootstrap` that generate the code; the assembly of blocks into full density matrices
in `codegen` (`pack_2e`, `np.block`) and the functions in `tools/cg_skipped.txt`; callbacks of the
Davidson solver and its complex vectors; restricted packing of CI vectors.

## 6. Testing the theorems

`seeded/LOG.jsonl` has one line per seeded bug: the definition edited in a scratch copy, the edit, the
claim it breaks, the theorems that failed, and what was tightened when none failed.
