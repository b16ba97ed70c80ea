# PyBox formal model: design

PyBox is a code generator (mechanism text -> dictionaries -> numba / Fortran
source) plus drivers that integrate the generated right-hand side.  The model
follows that shape: the parser is a Gallina function on texts, the writers are
Gallina functions that emit *statements of a small target language*, and the
target language has a semantics over the real numbers.  Theorems are about
"parse, generate, then run".

## Layers (rocq/theories)

`Model*.v` is the code, function by function, with the lines in /repo it
follows.  `Spec*.v` is what a user expects, written without the model's
helpers.  `Props*.v` holds the theorems, their non-vacuity examples and
`Print Assumptions`.  Other files are lemmas.

| files | contents |
| --- | --- |
| `Base`, `PyStr`, `PyRe`, `PyDict` | exceptions as values, Python strings, regular expressions, insertion-ordered dicts |
| `ModelParse`, `SpecMech`, `Parse*`, `PropsParse` | `extract_mechanism`; what a mechanism is and which texts write it; C01-C09 |
| `ModelLang`, `ModelGen`, `ModelRhs`, `SpecKin`, `Gen*`, `LangFacts`, `PropsKin`, `PropsRhs`, `PropsSparse` | generated reactant products and sums, saved matrices; mass-action kinetics; C10-C19, C54 |
| `GenJac*`, `JacDeriv`, `PropsJac` | generated Jacobian; C20-C23 |
| `ModelOmp`, `OmpFacts`, `PropsOmp` | OpenMP regions as interleavings; break lists; C24, C25 |
| `ModelRate`, `Rate*`, `SpecRate*`, `PropsRate`, `PropsRateValue` | `rate_coeff_conversion.py`, rate files; C26-C30, C55, C58 |
| `ModelExpr`, `ModelRateBody`, `ModelRateRun`, `SpecSun`, `SpecTroe`, `SpecMcmEnv`, `PropsBody`, `PropsTroe` | lexer, parser and meaning of the rate modules, their fixed statements; zenith, photolysis, Troe rates; C31, C32, C52, C56, C57 |
| `ModelRo2`, `SpecRo2`, `PropsRo2` | RO2 list; C33 |
| `ModelSolver`, `SpecSolver`, `SolverFacts`, `OdeFacts`, `PropsSolver` | solver loops, binary64 times; C34-C38 |
| `ModelGas`, `SpecGas`, `PropsGas` | whole gas-phase right-hand side; C59 |
| `ModelPart`, `SpecPart`, `Part*`, `PropsPart` | partitioning routine, threads; C39-C41, C60, C61 |
| `ModelAero`, `SpecAero`, `AeroFacts`, `PropsAero`, `PropsAeroRun`, `PropsAeroChem` | property arrays, size distribution, aerosol driver; C42-C45, C53, C62-C64 |
| `ModelSpecies`, `SpecSpecies`, `PropsSpecies` | yield file and SMILES file; C46, C47 |
| `ModelFiles`, `SpecFiles`, `PropsFiles` | working directory, reuse, crashes; C48, C49, C65 |
| `ModelSplit`, `SpecSplit`, `PropsSplit` | operator splitting loop; C50 |
| `ModelPlot`, `SpecPlot`, `PropsPlot` | bar chart; C51 |
| `ModelYield`, `SpecMethod`, `PropsMethod`, `PropsYield` | fixed yield driver, runs with linear integrators; C66-C69 |
| `ModelGasJac`, `PropsGasJac` | the Jacobian function the drivers give to the solver; C70 |
| `SpecTraj`, `OdeSign`, `PropsTraj` | exact solutions of the generated equations: sign and conserved quantities; C71, C72 |
| `OdeNear`, `PartBounds`, `AeroPull`, `GasFortran`, `ModelAeroRun`, `SpecAeroRun`, `PropsAeroTraj`, `PropsYieldTraj` | whole runs of the aerosol drivers: signs, conserved amounts, reported rows; C73-C75 |
| `PropsAeroBatch` | what the aerosol driver hands to the solver; recorded runs batch by batch; C76, C77 |
| `PropsGasF2py.v` | C78: the f2py driver's right-hand side and Jacobian against the numba driver's |
| `ModelSource.v` | readers of the generated Python and Fortran source text |
| `ModelWrite.v` | the text of the generated files, character by character |
| `SpecSource.v` | what reading back should give: numerals, line breaks, one program |
| `SourceRead.v`, `SourceGen.v`, `SourceRun.v` | lemmas: lexing of printed programs, shapes of the generators' lines, programs without breaks run alike |
| `PropsSource.v` | C79 |
| `PropsSourceRun.v` | C80 |
| `SourceWidth.v`, `PropsWidth.v` | C81: width of the lines; examples for C79-C81 |
| `SpecTame`, `TameFacts`, `PropsTame` | C82: the class of usual rate expressions, their values as regular functions of time and RO2, and C58, C59, C71, C73 without assumptions on rate values |
| `ModelRateText`, `ModelRateWrite`, `ModelRateRead`, `ModelGasFiles`, `SpecRateText`, `RateTrail`, `RateFile*`, `PropsRateText` | C83: the two rate files character by character, readers for them, and calls of what was read |
| `OdeClose`, `GasFlow`, `PropsUnique` | C84: two solutions of the same equations; the generated right-hand side as a total function and the weights it lowers |
| `OdeInt`, `OdePicard`, `OdeExist`, `SunPieces`, `TameFlow`, `PropsExist` | C85: Picard iteration for bounded Lipschitz equations (Coquelicot's Riemann integral, no axioms beyond those of the reals), gluing over pieces of time, finitely many sunrises and sunsets, rates by day and by night |
| `ModelPartText`, `ModelFort`, `PartText`, `PartRead`, `PartProg`, `PartRun`, `PartCall`, `PropsPartText` | C86: the text of Partitioning.f90 character by character; a reader for the Fortran it uses (declarations, array sections, assignments, a parallel do) and an interpreter with undefined memory; the program that is read; what one iteration, the loop and a call do |
| `PropsIntQuot` | C87: quotients of integer literals, EXP of an integer literal, in the numba and the Fortran text |
| `SpecCsv`, `ModelCsv`, `PropsSaved` | C88, C89: csv.writer, csv.reader, the saved names; what later runs do to saved results |
| `ModelAeroFiles`, `PropsAeroFiles` | C90: dydt_func of the aerosol driver on the four compiled files, with its attributes |
| `OdeBox` | existence, uniqueness and stability in a box of non-negative states; Lipschitz laws for quotients, exponentials and cube roots |
| `PartLip` | every intermediate value of the partitioning section is Lipschitz in the state on a box |
| `AeroExist` | chemistry plus exchange on a box: existence and closeness |
| `PropsAeroExist` | C91 |
| `SpecError` | integrators that are off by at most delta in a batch |
| `PropsError` | C92 |
| `SpecChem` | the chemistry of a mechanism as differential equations, rows one batch after the other |
| `PropsChem` | C93 |
| `SpecAeroChem` | chemistry and condensation together as differential equations |
| `PropsAeroEnd` | C94 |
| `OdeStay` | a solution starting near a bounded one stays near it |
| `PropsSigned` | C95 |
| `ModelGasEnd` | dydt_func of f2py/ODE_solver.py from the files as compiled, with thread orders and memory |
| `PropsGasEnd` | C96 |
| `SpecYieldChem` | condensation of a fixed set of products as differential equations |
| `ModelYieldFiles` | dydt_func and run of ODE_solver_fixedyield.py with the text of Partitioning.f90 |
| `PropsYieldEnd` | C97 |
| `SpecRecord` | what a row of SOA_matrix and size_matrix should say of a row of y_matrix |
| `PropsRecord` | C98 |
| `PropsSoaEnd` | C99 |

## Plan per property

Each line: what is modelled / how it is proved.  Where a property is false of
the code, a `_refuted` theorem gives the witness and the rest of the line says
under which guard the property is proved (`_partial`), and where the exact
condition is known (`_exactly_when`) or the computed value is known in general
(`_exact`).

- C01, C02 parser state invariant by induction over equations and items.
- C03 error cases of the parser as values; equivalence "Ok iff well formed".
- C04 rate text: equality with a filter of the source text.
- C05 reactant table = sum over occurrences, induction over the reactant loop.
- C06 product table: false in general (the code tests the wrong variable); witness and exact guard.
- C07 coefficient regular expression: false for names with digits; witness family, proof for the other forms.
- C08, C09 relation "text writes mechanism m"; parsing any such text = interpretation of m; printer for the converse. Brace comments refuted.
- C10, C11 generated product statements evaluated in R; false for repeated reactants, exact value in general; Fortran against numba.
- C12, C13, C15 generated sums and saved matrix; C13 false when a coefficient is not 1 (the code prints stoich+1), C15 when a species is on both sides.
- C14, C18, C19 structural inductions over the writers (bath gases, every cell written, empty right-hand sides).
- C16, C17 composition of the above, exchange of finite sums; C17 conserved elements.
- C20 Jacobian entry = derivative (derivable_pt_lim) under the exact guard; witness for the omitted row coefficient.
- C21-C23 structure of emitted entries; set order as an arbitrary permutation.
- C24, C25 blocks as lists of writes to disjoint cells; any interleaving gives the same memory; linspace break list in binary64.
- C26-C30 string functions; character-wise specification; witnesses for the renaming tables.
- C31, C32, C52, C56, C57 real analysis on the formulas read from the rate module text.
- C33 list reasoning over the RO2 names; missing comma refuted.
- C34-C38 loop with an arbitrary solver; clock restart refuted; exact and binary64 counters; uniqueness of solutions (Gronwall) for C38.
- C39-C41, C60, C61 partitioning loop over R: each iteration writes its cells; any order; threads as interleavings of small steps.
- C42-C45, C53, C62, C63 tables and index arithmetic of the aerosol driver; sums over bins.
- C46, C47 tables of the two species files as functions of the rows; stale binding refuted.
- C48, C49, C65 directory as a map of names to contents, scripts as lists of operations; invariant over histories with crashes.
- C50 loop with an arbitrary solver and a row counter; with the times in the code it always raises.
- C51 index arithmetic of the slices against the sum over bins.
- C54 matrix of reactant coefficients, exp(M log y).
- C55, C58 parser of generated rate text composed with the conversions: the value is that of the expression.
- C59, C64 composition from mechanism text to the vector returned, gas and aerosol.
- C66, C67 fixed yield set-up as a function of the rows; partitioning theorems applied to it.
- C68 integrators as functions whose outputs are affine combinations; invariant over batches.
- C69 the observer of the last evaluation as state of the run; explicit Euler refutes it.
- C70 total derivative of the right-hand side including the peroxy radical sum in the rates; compared entry by entry with the generated Jacobian.
- C71 quasi-positivity of the generated right-hand side (C18), Lipschitz bounds, and Gronwall's inequality for the squared negative part.
- C72 derivative of the balanced total is zero along a solution; with C71 it bounds each species.
- C73 bound on the exchange near non-negative states (the particle phase keeps a core, so sums stay away from 0), Gronwall's inequality for the squared negative part with a barrier.
- C74 exchange moves molecules between slots of one species; C68's argument over both phases.
- C75 as C69, for the aerosol driver.
- C76 C64 with the set-up and the calls of the driver.
- C77 a recorded run is a gas-phase run (C35, C36) with the attributes carried in the state.
- C78: gas_jac_fortran (f2py/ODE_solver.py:100-129) joins C58 (rates), C23/C24 (Jacobian text and OpenMP), generated_fortran (right-hand side); the derivative statement is carried over from C70.
- C79: writers (ModelWrite.v) transcribe the f.write calls, readers (ModelSource.v) lex and parse lines; the proof reads back token by token (lexes_*), line by line, then whole files.
- C80: composes C79 with C16 and C24 through the lemma that lowest terms and joined lines do not change what a program computes.
- C81: the column reached after each token is tracked through the generators' loops (keeps, ends); counter-examples by computation.
- C82: a syntactic class `usual` (and, at given temperature and water, `tame`) of rate expressions; by induction each has a value for every time and RO2, non-negative, bounded and Lipschitz in RO2 (photolysis rates lie in [0, l], MCM constants are positive by C52); compose with C58, C59, C71, C73.
- C83: the fixed part of each rate file is a literal list of lines; a reader for Python modules of this shape (imports, decorated functions, assignments, if/else, subscripted stores) and one for the Fortran subroutine (declarations, implicit none check, directives, continuation) are run on it by computation, and on the rate lines by the lexing lemmas of C55/C79; compose with C58, C80 and C33.
- C84: Gronwall's inequality for the square of the distance of two solutions, with a finite set of exceptional times; the generated right-hand side is Lipschitz on bounded sets uniformly in time (C71); the weighted total has a non-positive derivative, which bounds the solutions; runs by induction over the batches.
- C85: Picard iteration gives solutions where the right-hand side is continuous in time, bounded and Lipschitz; it is made so by clipping the concentrations; the cosine of the zenith angle crosses the cut-off finitely often, so there are finitely many pieces by day and by night, which are glued; the clipping never acts, because the solution stays non-negative (C71) and the weight bounds it (C84).
- C86: the text is lexed line by line and read as a program once and for all (only the printed numbers vary); each statement is run symbolically against the physics (C41, C61), the loop by induction over the bins, in memory of which only the declared shapes are known at the start.
- C87: the readers of C55 keep integer and real literals apart; the value of e*(a/b) in each language follows from the parsing lemmas of C55, the comparison from division with remainder.
- C88: run the reader over what the writer makes of a field, a record and a file, by induction; compose with C01.
- C89: every action of a later run touches another name (induction over the history), or cleaning removes the file (C48).
- C90: compose C83 (chemistry from the files), C86 (partitioning from its file) and C62 (the two together).
- C91: on a box of non-negative states the exchange is Lipschitz (total, fractions, densities, radii, Kelvin factors, accommodation, growth, one after the other), so chemistry plus exchange has solutions by C85's construction; the box is never left, because the exchange keeps the molecules of every component (C39) and the weight bounds the chemistry (C84); the exchange has the same value for every order of the bins (C40).
- C92: induction on the number of batches; one batch multiplies the distance to the exact rows by the stability constant of C84 or C91 and adds delta; the box of C84 or C91, widened by delta, holds both, so the constants do not depend on the run.
- C93: the imported modules compute gas_dydt_numba for every state (files_same); its solutions from non-negative states are those of the chemistry (C59, C84, C85); C92 for the rows; batches of a time-independent system are joined end to end.
- C94: the condensation equations determine the derivative of a non-negative state, because the radius is unique (PartValue); so the files (C90) and the model (C62, C59) have the same derivative there, C91 gives one solution per batch and C92 (aerosol_rows) the distance of the rows.
- C95: as C92, with off_by_signed (SpecError) instead of off_by; instead of both solutions being bounded only the exact one is, and `stays` shows by completeness that the other cannot leave the box.
- C96: `compiled_same` from C79, C83 and `generated_fortran`; then `gas_signed` of C95 and `rows_chemistry` of C93. The two drivers: the same exact rows by uniqueness, the same times because the loop does not look at the state.
- C97: `yield_slopes` determines the derivative (the radius is unique), the model has it (C39, C41, C61), the file computes it (`call_partition` of C86); then `yield_rows` of C92 and C91_yield.
- C98: organic mass and particle volume are linear in the state; the attributes of one call are exact (C61, C90); induction over the batches with `record_rows`.
- C99: C94 and C97 give exact states near the stored ones, C98 describes the stored ones; a description moves to a close state by linearity.

## Trusted base

- The kernel of Coq 8.16.1.  No axiom, parameter or hypothesis outside a section is added, no check is switched off.
- Axioms of the standard library that appear in `Print Assumptions` (A1-A3 come with the real numbers, A4 from Flocq's and the library's use of classical logic):
  - A1 `ClassicalDedekindReals.sig_not_dec`
  - A2 `ClassicalDedekindReals.sig_forall_dec`
  - A3 `FunctionalExtensionality.functional_extensionality_dep`
  - A4 `Classical_Prop.classic`
- Libraries used besides the standard library: Flocq (binary64 times, single precision literals). It adds no axioms.
- That the model says what the code says: each definition cites the lines it follows and its simplifications.

`Print Assumptions` for each theorem of the manifest:

- **closed under the global context**: `C01_first_appearance`, `C01_inverse`, `C01_order`, `C01_species_numbering`, `C02_light_excluded`, `C02_registered_iff_written`, `C03_accepts_iff`, `C03_count`, `C03_keys`, `C04_rate_text`, `C04_written`, `C05_every_text`, `C05_reactant_coefficients`, `C06_partial`, `C06_refuted`, `C06_refuted_dropped`, `C07_partial`, `C07_refuted`, `C07_refuted_file`, `C08_layout_partial`, `C08_line_breaks`, `C08_refuted`, `C09_roundtrip`, `C09_writable`, `C19_refuted`, `C24_empty_refuted`, `C25_blocks`, `C26_exact`, `C26_partial`, `C26_refuted`, `C27_exactly_when`, `C27_expressions`, `C27_refuted`, `C27_refuted_name`, `C28_never_renamed`, `C28_partial`, `C28_refuted`, `C29_partial`, `C29_refuted`, `C30_statements`, `C30_values`, `C33_indices`, `C42_layout`, `C46_exactly_when`, `C46_table`, `C47_exactly_when`, `C47_partial`, `C47_refuted`, `C48_aerosol_partial`, `C48_cache_refuted`, `C48_exactly_when`, `C48_f2py_refuted`, `C48_gas_partial`, `C48_refuted`, `C48_yield_partial`, `C49_aerosol_refuted`, `C49_f2py_partial`, `C49_f2py_refuted`, `C49_gas`, `C49_gas_completes`, `C49_gas_other`, `C49_yield_refuted`, `C54_matrix`, `C65_crash`, `C65_f2py_refuted`, `C79_dydt_fortran`, `C79_dydt_numba`, `C79_jacobian_fortran`, `C79_jacobian_numba`, `C79_reactants_fortran`, `C79_reactants_numba`, `C81_dydt_fits`, `C81_jacobian_fits`, `C81_reactants_fits`, `C81_refuted`, `C83_line_fits`, `C86_contended`, `C88_names`, `C88_round_trip`, `C89_aerosol_refuted`, `C89_f2py`, `C89_gas_partial`, `C89_gas_refuted`, `C89_yield`.
- **A2**: `C34_initial_state`.
- **A2, A3**: `C15_exact`, `C33_exactly_when`, `C33_partial`, `C33_refuted`, `C43_exactly_when`, `C43_partition`, `C51_partial`, `C51_refuted`, `C51_title`.
- **A1, A2, A3**: `C53_boundary`, `C53_water`.
- **A1, A2, A3, A4**: `C10_exact`, `C10_exactly_when`, `C10_partial`, `C10_refuted`, `C10_refuted_light_only`, `C11_fortran_equals_numba`, `C12_parsed`, `C12_tables`, `C13_exact`, `C13_partial`, `C13_refuted`, `C14_fortran`, `C14_numba`, `C14_parsed`, `C15_partial`, `C15_refuted`, `C16_fortran_partial`, `C16_partial`, `C16_refuted`, `C17_partial`, `C17_refuted`, `C18_fortran`, `C18_numba`, `C19_exactly_when`, `C19_exactly_when_fortran`, `C19_partial`, `C20_exact`, `C20_exactly_when`, `C20_partial`, `C20_refuted`, `C21_sparsity`, `C22_order_independent`, `C23_fortran_equals_numba`, `C24_jacobian`, `C24_loss_gain`, `C24_openmp`, `C24_reactants`, `C25_breaks`, `C31_day_and_night`, `C31_range`, `C31_values`, `C32_exactly_when`, `C32_hour`, `C32_rates`, `C34_run_partial`, `C34_unknown_species`, `C35_partial`, `C35_refuted`, `C35_times_partial`, `C36_exactly_when`, `C36_partial`, `C36_refuted`, `C37_exactly_when`, `C37_refuted`, `C38_mass_action_partial`, `C38_partial`, `C38_rows_partial`, `C39_partial`, `C39_total`, `C40_coupling_partial`, `C40_untouched_partial`, `C41_direction`, `C42_initial`, `C42_refuted`, `C42_unknown_species`, `C42_water_shadowed`, `C44_exactly_when`, `C44_mismatch_fails`, `C44_partial`, `C45_exactly_when`, `C45_partial`, `C45_refuted`, `C50_exactly_when`, `C50_partial`, `C50_refuted`, `C50_seconds`, `C52_needs_temperature`, `C52_positive`, `C54_product`, `C55_partial`, `C55_refuted`, `C56_partial`, `C56_refuted`, `C57_plain`, `C57_troe`, `C58_partial`, `C59_fortran_partial`, `C59_partial`, `C60_one_thread`, `C60_partial`, `C60_refuted`, `C61_outputs`, `C62_conservation`, `C63_equilibrium`, `C64_partial`, `C66_exactly_when`, `C66_partial`, `C67_conservation`, `C67_reported_RH`, `C67_start`, `C68_gas_partial`, `C68_rows`, `C68_yield_partial`, `C69_late`, `C69_partial`, `C69_refuted`, `C70_exact`, `C70_partial`, `C70_refuted`, `C71_partial`, `C71_rows_partial`, `C72_bounded_partial`, `C72_conserved`, `C73_partial`, `C73_rows_partial`, `C73_yield_partial`, `C73_yield_rows_partial`, `C74_bounded_partial`, `C74_conserved_partial`, `C74_rows_partial`, `C75_partial`, `C76_partial`, `C77_aerosol_partial`, `C77_exactly_when`, `C77_partial`, `C77_refuted`, `C78_exact`, `C78_partial`, `C78_same_partial`, `C80_fortran_partial`, `C80_jacobian_fortran`, `C80_jacobian_numba`, `C80_numba_partial`, `C81_partial`, `C82_aerosol_partial`, `C82_aerosol_rows_partial`, `C82_gas_partial`, `C82_gas_rows_partial`, `C82_rates`, `C82_regular`, `C82_rhs_partial`, `C82_usual`, `C83_fits`, `C83_fortran`, `C83_numba`, `C83_rates_partial`, `C83_refuted`, `C83_rhs_fortran_partial`, `C83_rhs_partial`, `C84_bounded_partial`, `C84_drivers_partial`, `C84_rows_partial`, `C84_stable_partial`, `C84_unique_partial`, `C85_exists_partial`, `C85_fortran_partial`, `C85_refuted`, `C85_rows_partial`, `C86_partial`, `C87_exactly_when`, `C87_exp`, `C87_rates`, `C87_refuted`, `C90_partial`, `C91_aerosol_partial`, `C91_aerosol_rows_partial`, `C91_aerosol_stable_partial`, `C91_yield`, `C91_yield_rows`, `C91_yield_stable`, `C92_aerosol_partial`, `C92_gas_partial`, `C92_yield`, `C93_partial`, `C94_partial`, `C95_gas_partial`, `C95_partial`, `C96_drivers_partial`, `C96_partial`, `C97_partial`, `C98_aerosol_partial`, `C98_yield_partial`, `C99_aerosol_partial`, `C99_yield_partial`.

## What is modelled

- `Parse_eqn_file.py`: `extract_mechanism`, `extract_smiles_species`, `extract_species`, the statements emitted by `write_rate_file_numba`, `write_rate_file_fortran`, `write_RO2_indices`, `write_reactants_indices(_fortran)`, `write_loss_gain_matrix`, `write_loss_gain_fortran`, `write_gas_jacobian_numba/_fortran`, `write_partitioning_section_fortran_ignore`; OpenMP directives around them.
- `rate_coeff_conversion.py`: all conversions.
- `ODE_solver.py`, `f2py/ODE_solver.py`, `Aerosol/f2py/ODE_solver.py`, `Aerosol/f2py/Fixed_yield/ODE_solver_fixedyield.py`: set-up of the state, `dydt_func`, the batch loop and the stored rows. `ODE_solver_opsplit.py`: the loop only.
- `Gas_simulation.py`, `f2py/Gas_simulation_f2py.py`, `Aerosol_simulation_f2py.py`, `Aerosol_sim_fixed_yield.py`: order of steps, file operations, initial state.
- `Aerosol/Property_calculation.py`, `Aerosol/Size_distributions.py`: all of both, with the UManSysProp estimates as parameters.
- `Plotting.py`: `stacked_bar` up to the list of bars.

## What is not modelled

- `write_rate_file` (plain Python, not called by any driver).
- `write_partitioning_section_fortran` (the variant without include list): the file it writes does not compile (`total_SOA_mass_array` is undeclared under `implicit none`).
- Compilers (numba, gfortran, f2py), assimulo, Pybel, minidom, UManSysProp: parameters of the model. A solver is an arbitrary function of the right-hand side, or, for C38 and C68, one with a stated property.
- Rounding of concentrations and rates. Times of the batch loop and the OpenMP break list are binary64; Fortran literals in reactant powers are single precision (C11, C18, C23); everything else is exact. Underflow in numpy/scipy is left out, an operation without a finite real result is an error value. `start_time + t` is taken in the reals in C59.
- Literals without a point or exponent are integers: Fortran's `/` and `**` of two integers truncate, and its intrinsics refuse an integer (C87). Integers are unbounded.
- Text is ASCII. `%s` of a number prints its value: a printed number is a token carrying the value. Python's parsing of a generated file into those tokens is covered, character by character including headers, declarations, helper functions and directives, for the reactants, dydt and Jacobian files (`ModelSource`, `ModelWrite`) and for the rate files (`ModelRateText`, `ModelRateWrite`, `ModelRateRead`).
- Fortran unary minus precedence is that of the grammar in `ModelExpr`.
- Headers and comment lines of the RO2 and J files; printing, timing, plot windows, `pdb.set_trace()` (opsplit L191).
- Directories deeper than one level, file names with a slash, stale `.pyc` and numba caches.
- `linear_method` (C68) leaves out rounding, and Newton corrections with a supplied Jacobian that have not converged.
- The Troe and photolysis tables in `SpecTroe`/`SpecSun` are the published MCM forms as the project's text gives them; they cannot be compared with the web site from here.
