{
 "claims": [
  {
   "property": "C01",
   "status": "proved",
   "theorems": [
    "C01_species_numbering",
    "C01_inverse",
    "C01_order",
    "C01_first_appearance"
   ],
   "note": ""
  },
  {
   "property": "C02",
   "status": "proved",
   "theorems": [
    "C02_registered_iff_written",
    "C02_light_excluded"
   ],
   "note": ""
  },
  {
   "property": "C03",
   "status": "proved",
   "theorems": [
    "C03_accepts_iff",
    "C03_count",
    "C03_keys"
   ],
   "note": ""
  },
  {
   "property": "C04",
   "status": "proved",
   "theorems": [
    "C04_rate_text",
    "C04_written"
   ],
   "note": ""
  },
  {
   "property": "C05",
   "status": "proved",
   "theorems": [
    "C05_reactant_coefficients",
    "C05_every_text"
   ],
   "note": ""
  },
  {
   "property": "C06",
   "status": "partial",
   "theorems": [
    "C06_partial",
    "C06_refuted",
    "C06_refuted_dropped"
   ],
   "note": "False as stated: the code tests the last reactant instead of the product. C06_partial gives the exact condition per equation (sufficient for all coefficients, necessary for positive ones)."
  },
  {
   "property": "C07",
   "status": "partial",
   "theorems": [
    "C07_partial",
    "C07_refuted",
    "C07_refuted_file"
   ],
   "note": "Bare names: all. Coefficients: exactly the names without digits; C07_refuted shows every name with a digit is misread."
  },
  {
   "property": "C08",
   "status": "partial",
   "theorems": [
    "C08_layout_partial",
    "C08_line_breaks",
    "C08_refuted"
   ],
   "note": "All layouts without brace comments; brace comments refuted."
  },
  {
   "property": "C09",
   "status": "proved",
   "theorems": [
    "C09_writable",
    "C09_roundtrip"
   ],
   "note": ""
  },
  {
   "property": "C10",
   "status": "partial",
   "theorems": [
    "C10_partial",
    "C10_exact",
    "C10_exactly_when",
    "C10_refuted",
    "C10_refuted_light_only"
   ],
   "note": "False as stated: a reactant written twice contributes its power twice (NO+NO gives [NO]^4). C10_exact says what is computed for every file and state, C10_exactly_when that distinct reactants is the exact condition; equations with only light get 0."
  },
  {
   "property": "C11",
   "status": "proved",
   "theorems": [
    "C11_fortran_equals_numba"
   ],
   "note": "For reactant coefficients that are single precision numbers (Fortran literals are single precision); equations with only light keep the initial content of the output."
  },
  {
   "property": "C12",
   "status": "proved",
   "theorems": [
    "C12_tables",
    "C12_parsed"
   ],
   "note": "Exact real arithmetic."
  },
  {
   "property": "C13",
   "status": "partial",
   "theorems": [
    "C13_partial",
    "C13_exact",
    "C13_refuted"
   ],
   "note": "False as stated: the Fortran generator prints stoich+1 for coefficients other than 1. Proved for coefficients equal to 1; C13_exact says what is computed in general."
  },
  {
   "property": "C14",
   "status": "proved",
   "theorems": [
    "C14_numba",
    "C14_fortran",
    "C14_parsed"
   ],
   "note": ""
  },
  {
   "property": "C15",
   "status": "partial",
   "theorems": [
    "C15_partial",
    "C15_exact",
    "C15_refuted"
   ],
   "note": "False as stated when a species is on both sides of an equation (gain overwrites loss). C15_exact gives every entry."
  },
  {
   "property": "C16",
   "status": "partial",
   "theorems": [
    "C16_partial",
    "C16_fortran_partial",
    "C16_refuted"
   ],
   "note": "Under the guards of C06 and C10; Fortran additionally for unit coefficients (C13)."
  },
  {
   "property": "C17",
   "status": "partial",
   "theorems": [
    "C17_partial",
    "C17_refuted"
   ],
   "note": "Under the guard of C06; false without it."
  },
  {
   "property": "C18",
   "status": "proved",
   "theorems": [
    "C18_numba",
    "C18_fortran"
   ],
   "note": "Numba: every written mechanism. Fortran: positive single precision reactant coefficients."
  },
  {
   "property": "C19",
   "status": "partial",
   "theorems": [
    "C19_partial",
    "C19_exactly_when",
    "C19_exactly_when_fortran",
    "C19_refuted"
   ],
   "note": "False as stated: a species that occurs only as an unrecorded product (C06) gets an empty right-hand side."
  },
  {
   "property": "C20",
   "status": "partial",
   "theorems": [
    "C20_exact",
    "C20_partial",
    "C20_exactly_when",
    "C20_refuted"
   ],
   "note": "False as stated: the Jacobian omits the row species' coefficients and drops reactant powers below 2. C20_exact says what is computed, C20_exactly_when when it is the derivative."
  },
  {
   "property": "C21",
   "status": "proved",
   "theorems": [
    "C21_sparsity"
   ],
   "note": "A species counts as produced when the parser recorded it as a product (see C06)."
  },
  {
   "property": "C22",
   "status": "proved",
   "theorems": [
    "C22_order_independent"
   ],
   "note": ""
  },
  {
   "property": "C23",
   "status": "proved",
   "theorems": [
    "C23_fortran_equals_numba"
   ],
   "note": "For reactant coefficients representable in single precision, the precision of a Fortran literal."
  },
  {
   "property": "C24",
   "status": "proved",
   "theorems": [
    "C24_reactants",
    "C24_loss_gain",
    "C24_jacobian",
    "C24_openmp",
    "C24_empty_refuted"
   ],
   "note": "Every break list, every assignment of blocks to threads and every interleaving. C24_empty_refuted: with no species the directives are unbalanced."
  },
  {
   "property": "C25",
   "status": "proved",
   "theorems": [
    "C25_breaks",
    "C25_blocks"
   ],
   "note": ""
  },
  {
   "property": "C26",
   "status": "partial",
   "theorems": [
    "C26_exact",
    "C26_partial",
    "C26_refuted"
   ],
   "note": "False as stated: a bracket inside the argument of J takes the closing bracket, and an unclosed J( overwrites the last character (C26_refuted). C26_exact says for every text which characters can change; C26_partial gives exactly J(..) -> J[..] when arguments of J contain no brackets."
  },
  {
   "property": "C27",
   "status": "partial",
   "theorems": [
    "C27_exactly_when",
    "C27_expressions",
    "C27_refuted",
    "C27_refuted_name"
   ],
   "note": "False for exponents written D0.. (not converted for Python) and for D followed by a digit inside a name. C27_exactly_when: a literal keeps its value in numba Python iff it contains no D0, in Fortran always. C27_expressions: for every well formed rate expression the converted text is the same expression in the target syntax."
  },
  {
   "property": "C28",
   "status": "partial",
   "theorems": [
    "C28_partial",
    "C28_never_renamed",
    "C28_refuted"
   ],
   "note": "Only the last entry of each table takes effect: EXP (Python) and dlog (Fortran) are always renamed, the others never are."
  },
  {
   "property": "C29",
   "status": "partial",
   "theorems": [
    "C29_partial",
    "C29_refuted"
   ],
   "note": "Holds for one call of EXP with an argument without brackets; false with two calls, nested brackets or grouping brackets."
  },
  {
   "property": "C30",
   "status": "proved",
   "theorems": [
    "C30_statements",
    "C30_values"
   ],
   "note": "For every accepted file, every conversion, every evaluator, every initial array; Fortran also for every block division and interleaving."
  },
  {
   "property": "C31",
   "status": "proved",
   "theorems": [
    "C31_values",
    "C31_range",
    "C31_day_and_night"
   ],
   "note": "Values computed over the reals; Fortran literals are read exactly (rounding to single precision is not modelled)."
  },
  {
   "property": "C32",
   "status": "proved",
   "theorems": [
    "C32_hour",
    "C32_exactly_when",
    "C32_rates"
   ],
   "note": ""
  },
  {
   "property": "C33",
   "status": "partial",
   "theorems": [
    "C33_indices",
    "C33_exactly_when",
    "C33_partial",
    "C33_refuted"
   ],
   "note": "The index list is exactly the positions of the listed names; the sum is the sum over all peroxy radicals exactly when no species is IBUTALBO2 or IBUTALCO2 (two names joined by a missing comma) and at least one listed radical is present (an empty list raises IndexError)."
  },
  {
   "property": "C34",
   "status": "proved",
   "theorems": [
    "C34_initial_state",
    "C34_unknown_species",
    "C34_run_partial"
   ],
   "note": ""
  },
  {
   "property": "C35",
   "status": "partial",
   "theorems": [
    "C35_partial",
    "C35_times_partial",
    "C35_refuted"
   ],
   "note": "Proved when n*batch_step is computed without rounding (batch_step = z*2^e, n*z < 2^53); refuted for 0.8 s in batches of 0.1 s, where the sum is rounded and the run raises IndexError."
  },
  {
   "property": "C36",
   "status": "partial",
   "theorems": [
    "C36_exactly_when",
    "C36_partial",
    "C36_refuted"
   ],
   "note": "False as stated. C36_exactly_when gives the exact condition for every pair of floating point numbers; C36_partial: for whole numbers the run finishes exactly when batch_step divides simulation_time, otherwise IndexError; C36_refuted: 1.0/0.1 and 1000/300."
  },
  {
   "property": "C37",
   "status": "partial",
   "theorems": [
    "C37_exactly_when",
    "C37_refuted"
   ],
   "note": "False as stated: every batch is integrated with the clock restarted at start_time. True for all solvers and right-hand sides exactly when there is at most one batch."
  },
  {
   "property": "C38",
   "status": "partial",
   "theorems": [
    "C38_rows_partial",
    "C38_partial",
    "C38_mass_action_partial"
   ],
   "note": "For a solver without error and a right-hand side that is Lipschitz on bounded sets (proved for mass-action kinetics with whole-number reactant coefficients): any two splits whose times are computed without rounding end in the same state. Missing: splits whose sums are rounded (refuted in C35_refuted: the run raises)."
  },
  {
   "property": "C39",
   "status": "partial",
   "theorems": [
    "C39_partial",
    "C39_total",
    "C60_refuted"
   ],
   "note": "Proved for the ignore variant run on one thread, in every order of the bins, for an include list without repetition. C60_refuted: with two threads the condensed changes can be lost. The other variant (write_partitioning_section_fortran) does not compile (undeclared total_SOA_mass_array under implicit none) and is not modelled."
  },
  {
   "property": "C40",
   "status": "partial",
   "theorems": [
    "C40_untouched_partial",
    "C40_coupling_partial"
   ],
   "note": "On one thread, every order of the bins; C60_partial extends the gas part to every interleaving. The condensed part is false under races (C60_refuted)."
  },
  {
   "property": "C41",
   "status": "proved",
   "theorems": [
    "C41_direction"
   ],
   "note": "Also the value of every slot against the specification in SpecPart.v (Raoult, Kelvin, Fuchs-Sutugin, radius from volume)."
  },
  {
   "property": "C42",
   "status": "partial",
   "theorems": [
    "C42_layout",
    "C42_initial",
    "C42_unknown_species",
    "C42_water_shadowed",
    "C42_refuted"
   ],
   "note": "True for every mechanism without a species called H2O; C42_refuted: with one, the driver redirects the name to a fresh slot and the slot the chemistry reads starts empty."
  },
  {
   "property": "C43",
   "status": "proved",
   "theorems": [
    "C43_partition",
    "C43_exactly_when"
   ],
   "note": "C43_exactly_when: the call goes through exactly when every SMILES in use has an object with a carbon atom (otherwise ZeroDivisionError or KeyError)."
  },
  {
   "property": "C44",
   "status": "partial",
   "theorems": [
    "C44_partial",
    "C44_exactly_when",
    "C44_mismatch_fails"
   ],
   "note": "Proved with ignore_vp True. Without it the arrays have the right length exactly when every species has SMILES; otherwise every evaluation of the right-hand side is rejected."
  },
  {
   "property": "C45",
   "status": "partial",
   "theorems": [
    "C45_partial",
    "C45_exactly_when",
    "C45_refuted"
   ],
   "note": "Needs a geometric standard deviation above 1 and at least two bins; C45_refuted: with std = 1 there is no distribution. Over the reals (no underflow)."
  },
  {
   "property": "C46",
   "status": "proved",
   "theorems": [
    "C46_table",
    "C46_exactly_when"
   ],
   "note": "For every file in the documented layout (SMILES, number, anything; three kinds of line end) all tables are aligned; C46_exactly_when states, for every text, when reading succeeds (a blank line is an IndexError). Pybel and float() are parameters."
  },
  {
   "property": "C47",
   "status": "partial",
   "theorems": [
    "C47_partial",
    "C47_exactly_when",
    "C47_refuted"
   ],
   "note": "False as stated: a species whose record has no SMILES gets that of an earlier record, or the reading stops with UnboundLocalError. Exact condition proved. minidom is represented by the list of its nodes; SMILES without the characters XML escapes."
  },
  {
   "property": "C48",
   "status": "partial",
   "theorems": [
    "C48_exactly_when",
    "C48_gas_partial",
    "C48_aerosol_partial",
    "C48_yield_partial",
    "C48_refuted",
    "C48_cache_refuted",
    "C48_f2py_refuted"
   ],
   "note": "False as stated: cleaning raises exactly when a directory has a stale name or a name contains two of the patterns; the numba cache patterns match nothing; the f2py driver leaves pickles and npy files. Proved: a completed parse run leaves no stale file but those it made and touches nothing else. The directory is a map from names to files or subdirectories."
  },
  {
   "property": "C49",
   "status": "partial",
   "theorems": [
    "C49_gas",
    "C49_gas_other",
    "C49_gas_completes",
    "C49_f2py_partial",
    "C49_f2py_refuted",
    "C49_aerosol_refuted",
    "C49_yield_refuted"
   ],
   "note": "Holds for the gas driver, and for the f2py driver until another mechanism is parsed. The aerosol and fixed yield drivers load a file that no run writes. The pickled value is the value loaded back; f2py compilation is a parameter."
  },
  {
   "property": "C50",
   "status": "partial",
   "theorems": [
    "C50_partial",
    "C50_exactly_when",
    "C50_seconds",
    "C50_refuted"
   ],
   "note": "Proved for all solvers and times: the phases alternate and each fills one row, provided there is a row for each phase; the run raises IndexError exactly when there is not. With the times in the code (3600, 100, 10, 20 s) it always raises (C50_refuted). Only the loop of the module is modelled."
  },
  {
   "property": "C51",
   "status": "partial",
   "theorems": [
    "C51_partial",
    "C51_title",
    "C51_refuted"
   ],
   "note": "Proved where the state has as many condensed components as gas species, which is the case at the only call. Otherwise wrong slots are read (C51_refuted). In a bin without organic mass the shares are nan. The drawing itself is the returned list of bars; numpy's stretching of length 1 arrays is left out."
  },
  {
   "property": "C52",
   "status": "proved",
   "theorems": [
    "C52_positive",
    "C52_needs_temperature"
   ],
   "note": "Over the reals."
  },
  {
   "property": "C53",
   "status": "proved",
   "theorems": [
    "C53_water",
    "C53_boundary"
   ],
   "note": ""
  },
  {
   "property": "C54",
   "status": "proved",
   "theorems": [
    "C54_matrix",
    "C54_product"
   ],
   "note": "C54_product: exp(M @ log y), the sparse route kept beside dydt_func, is the mass-action product also when a reactant is written twice."
  },
  {
   "property": "C55",
   "status": "partial",
   "theorems": [
    "C55_partial",
    "C55_refuted"
   ],
   "note": "Expressions built from literals, names, J(k), EXP, brackets, signs and + - * / **; exponents D0.. excluded (refuted for numba), as are names the conversion changes (C27). Other functions are excluded by C28. A quotient or power of two integers and EXP of one are excluded (C87)."
  },
  {
   "property": "C56",
   "status": "partial",
   "theorems": [
    "C56_partial",
    "C56_refuted"
   ],
   "note": "Every constant but NCPPN and FPPN; those two differ (C56_refuted), because the Numba text uses other variables there."
  },
  {
   "property": "C57",
   "status": "proved",
   "theorems": [
    "C57_troe",
    "C57_plain"
   ],
   "note": "Over the reals."
  },
  {
   "property": "C58",
   "status": "partial",
   "theorems": [
    "C58_partial"
   ],
   "note": "Files without repeated braces (written) whose rate texts satisfy the guards of C55."
  },
  {
   "property": "C59",
   "status": "partial",
   "theorems": [
    "C59_partial",
    "C59_fortran_partial"
   ],
   "note": "Inherits the guards of C16, C33, C55 and C58: distinct reactants, no product written twice beside an earlier one, a peroxy radical present and none of the run-together names, rates in the expression grammar; Fortran also unit coefficients. The refuted cases are under those claims. The time of day start_time+t is taken in the reals."
  },
  {
   "property": "C60",
   "status": "partial",
   "theorems": [
    "C60_one_thread",
    "C60_partial",
    "C60_refuted"
   ],
   "note": "Refuted as stated: index1 and index2 are shared between threads, so the condensed part can be written to the wrong bin. Proved: one thread in any order; and for every interleaving the sizes, water activities, total mass and gas derivatives."
  },
  {
   "property": "C61",
   "status": "proved",
   "theorems": [
    "C61_outputs"
   ],
   "note": ""
  },
  {
   "property": "C62",
   "status": "proved",
   "theorems": [
    "C62_conservation"
   ],
   "note": "On one thread, every order of the bins (C60_refuted shows the race)."
  },
  {
   "property": "C63",
   "status": "proved",
   "theorems": [
    "C63_equilibrium"
   ],
   "note": ""
  },
  {
   "property": "C64",
   "status": "partial",
   "theorems": [
    "C64_partial"
   ],
   "note": "Guards of C59_fortran_partial; bins on one thread in any order."
  },
  {
   "property": "C65",
   "status": "partial",
   "theorems": [
    "C65_crash",
    "C65_f2py_refuted"
   ],
   "note": "Holds for the gas driver; the f2py driver mixes mechanisms (C65_f2py_refuted, C49_f2py_refuted). One file operation is open, write or remove; an interrupted write leaves an unreadable file."
  },
  {
   "property": "C66",
   "status": "partial",
   "theorems": [
    "C66_partial",
    "C66_exactly_when"
   ],
   "note": "Proved when every product has a carbon atom; otherwise the driver raises ZeroDivisionError (C66_exactly_when). Molecule properties from UManSysProp are parameters."
  },
  {
   "property": "C67",
   "status": "proved",
   "theorems": [
    "C67_conservation",
    "C67_start",
    "C67_reported_RH"
   ],
   "note": "Concentrations are reals. C67_start also shows that at 0 < RH < 1 water evaporates from every bin at the start, as the initial water ignores the Kelvin effect."
  },
  {
   "property": "C68",
   "status": "partial",
   "theorems": [
    "C68_rows",
    "C68_gas_partial",
    "C68_yield_partial"
   ],
   "note": "Proved in exact arithmetic for integrators whose output is the start plus combinations of right-hand side values; rounding and unconverged implicit iterations with an analytic Jacobian are left out. The gas model needs products_safe (see C12)."
  },
  {
   "property": "C69",
   "status": "partial",
   "theorems": [
    "C69_partial",
    "C69_late",
    "C69_refuted"
   ],
   "note": "Holds if the integrator evaluates the right-hand side last at its output. Otherwise the arrays lag the state (C69_late, C69_refuted: explicit Euler)."
  },
  {
   "property": "C70",
   "status": "partial",
   "theorems": [
    "C70_exact",
    "C70_partial",
    "C70_refuted"
   ],
   "note": "False when a rate depends on RO2 (almost every MCM mechanism): the Jacobian treats RO2 as constant. C70_exact gives the missing term, C70_partial the case without RO2; rows as in C20, guards of C59."
  },
  {
   "property": "C71",
   "status": "partial",
   "theorems": [
    "C71_partial",
    "C71_rows_partial"
   ],
   "note": "Whole-number reactant coefficients; rates non-negative and Lipschitz in RO2 on bounded sets; the guards of C33 on RO2. Rounding and integrator error are left out."
  },
  {
   "property": "C72",
   "status": "partial",
   "theorems": [
    "C72_conserved",
    "C72_bounded_partial"
   ],
   "note": "Conservation needs products_safe (C12); the bound also the guards of C71. Exact solutions."
  },
  {
   "property": "C73",
   "status": "partial",
   "theorems": [
    "C73_partial",
    "C73_rows_partial",
    "C73_yield_partial",
    "C73_yield_rows_partial"
   ],
   "note": "Mechanisms as in C64; rates non-negative and Lipschitz in RO2 on bounded sets; no rounding, no integrator error."
  },
  {
   "property": "C74",
   "status": "partial",
   "theorems": [
    "C74_rows_partial",
    "C74_conserved_partial",
    "C74_bounded_partial"
   ],
   "note": "Mechanisms whose generated Fortran is right (unit coefficients, no repeated species; see C13, C16)."
  },
  {
   "property": "C75",
   "status": "partial",
   "theorems": [
    "C75_partial"
   ],
   "note": "Only for integrators whose last evaluation is at the state they return, and rows with no negative condensed amount; C69_refuted shows the same defect in the fixed-yield driver."
  },
  {
   "property": "C76",
   "status": "partial",
   "theorems": [
    "C76_partial"
   ],
   "note": "Mechanisms as in C64 (generated Fortran right: unit coefficients, no repeated species)."
  },
  {
   "property": "C77",
   "status": "partial",
   "theorems": [
    "C77_partial",
    "C77_aerosol_partial",
    "C77_exactly_when",
    "C77_refuted"
   ],
   "note": "Exact multiples: as C35, simulation_time = n*batch_step with n*z below 2^53; refuted for 0.8 = 8*0.1 (IndexError); exact condition in C77_exactly_when."
  },
  {
   "property": "C78",
   "status": "partial",
   "theorems": [
    "C78_same_partial",
    "C78_exact",
    "C78_partial"
   ],
   "note": "Proved at positive states for the derivative and at all states for the equality, for the mechanisms the Fortran modules get right (unit coefficients, distinct products, last reactant not a product: C13, C16). When a rate reads RO2 the Jacobian misses the derivative through RO2; C78_exact states the difference (see C70_refuted)."
  },
  {
   "property": "C79",
   "status": "proved",
   "theorems": [
    "C79_reactants_numba",
    "C79_dydt_numba",
    "C79_jacobian_numba",
    "C79_reactants_fortran",
    "C79_dydt_fortran",
    "C79_jacobian_fortran"
   ],
   "note": "The readers cover the part of Python and Fortran that the generated files use (ModelSource.v); printing of a coefficient is any text that reads back as its value (prints)."
  },
  {
   "property": "C80",
   "status": "partial",
   "theorems": [
    "C80_numba_partial",
    "C80_fortran_partial",
    "C80_jacobian_numba",
    "C80_jacobian_fortran"
   ],
   "note": "Guards of C16 (repeated reactants, unsafe products; for Fortran unit coefficients); Fortran files must have no over-long line (C81). Rate expressions are not part of the text layer here."
  },
  {
   "property": "C81",
   "status": "partial",
   "theorems": [
    "C81_dydt_fits",
    "C81_reactants_fits",
    "C81_jacobian_fits",
    "C81_partial",
    "C81_refuted"
   ],
   "note": "False in general (C81_refuted: the reactants line of a 30-reactant equation, and a Jacobian entry of four six-body reactions). Proved: dydt always fits when digits of indices plus width of coefficients is at most 13; reactants fit up to k reactants with 21+D+k(D+6+w)<=132; the Jacobian for at most bimolecular reactions with 10D+4w<=80. C81_partial joins this with C80: up to 99999 species and reactions, six reactants, six characters per coefficient."
  },
  {
   "property": "C82",
   "status": "partial",
   "theorems": [
    "C82_usual",
    "C82_regular",
    "C82_rates",
    "C82_rhs_partial",
    "C82_gas_partial",
    "C82_gas_rows_partial",
    "C82_aerosol_partial",
    "C82_aerosol_rows_partial"
   ],
   "note": "C82_usual, C82_regular and C82_rates are complete; the consequences for right-hand sides and runs keep the guards on the mechanism of C59, C71 and C73 (repeated reactants, products the generators get wrong, a listed peroxy radical). Expressions with differences are covered where the bracket is not negative (tame_steady)."
  },
  {
   "property": "C83",
   "status": "partial",
   "theorems": [
    "C83_numba",
    "C83_fortran",
    "C83_fits",
    "C83_line_fits",
    "C83_rates_partial",
    "C83_rhs_partial",
    "C83_rhs_fortran_partial",
    "C83_refuted"
   ],
   "note": "The Fortran part needs lines of at most 132 columns, which C83_refuted shows is not automatic: long rates are never broken. C83_fits says exactly which files are accepted. The right-hand side theorems keep the guards of C59 and C80 on the mechanism."
  },
  {
   "property": "C84",
   "status": "partial",
   "theorems": [
    "C84_unique_partial",
    "C84_drivers_partial",
    "C84_rows_partial",
    "C84_stable_partial",
    "C84_bounded_partial"
   ],
   "note": "Exact solutions and integrators without error, not CVODE with its tolerances (for small errors see C92). Rates are of the form of C82, the mechanism has a peroxy radical and none of the names of C33. The drivers theorem has the guards under which the Fortran code is right (C13, C23)."
  },
  {
   "property": "C85",
   "status": "partial",
   "theorems": [
    "C85_exists_partial",
    "C85_fortran_partial",
    "C85_rows_partial",
    "C85_refuted"
   ],
   "note": "Exact solutions and integrators without error, not CVODE with its tolerances (for small errors see C92). Rates are of the form of C82, the mechanism has a peroxy radical and none of the names of C33. The weight is needed: CH3O2 = CH3O2 + CH3O2 with a rate proportional to RO2 has no solution after 1/(k y0) (C85_refuted)."
  },
  {
   "property": "C86",
   "status": "partial",
   "theorems": [
    "C86_partial",
    "C86_contended"
   ],
   "note": "The loop runs on one thread; several threads share index1, index2 and total_water_cond_mass (C86_contended), and C60 says what then can go wrong. Real numbers instead of double precision; Pi is the printed 3.1415927 without its rounding to single precision. total_water_cond_mass is added to without being given a value; no result depends on it."
  },
  {
   "property": "C87",
   "status": "partial",
   "theorems": [
    "C87_exactly_when",
    "C87_rates",
    "C87_refuted",
    "C87_exp"
   ],
   "note": "False: Fortran truncates (C87_refuted, coefficient 0 instead of a positive one). C87_exactly_when: the two agree exactly when the divisor divides the dividend or the other factor is 0. EXP of an integer literal is not Fortran (C87_exp). Integers are unbounded in the model. For the factor e the guards of C55 apply."
  },
  {
   "property": "C88",
   "status": "proved",
   "theorems": [
    "C88_names",
    "C88_round_trip"
   ],
   "note": "csv.writer and csv.reader with Python's default dialect; on a system that does not translate newlines."
  },
  {
   "property": "C89",
   "status": "partial",
   "theorems": [
    "C89_gas_partial",
    "C89_gas_refuted",
    "C89_f2py",
    "C89_aerosol_refuted",
    "C89_yield"
   ],
   "note": "True for the f2py driver and for the CSV files of the others. False for the .npy file of the gas-phase driver and for everything the aerosol driver saves (by default): the next parse run of any mechanism deletes them, as it deletes all .npy and .pickle files. Later runs of the aerosol and fixed-yield drivers are completed ones; names that contain one of the deleted endings are excluded."
  },
  {
   "property": "C90",
   "status": "partial",
   "theorems": [
    "C90_partial"
   ],
   "note": "Under the guards of C83 (coefficients one, no repeated reactant, lines of at most 132 columns, no integer quotients in rates) and C86 (one thread for the size bins). Real arithmetic. The relative humidity is the pressure ratio up to one part in a million, because 101325 and 9.86923E-6 are not exact inverses."
  },
  {
   "property": "C91",
   "status": "partial",
   "theorems": [
    "C91_yield",
    "C91_yield_rows",
    "C91_yield_stable",
    "C91_aerosol_partial",
    "C91_aerosol_rows_partial",
    "C91_aerosol_stable_partial"
   ],
   "note": "The fixed-yield theorems have no guard beyond the set-up of C66. For the gas and particle model: the guards of C73 (coefficients one, no repeated reactant, a peroxy radical), rates of the form of C82, and the weight of C85. Exact solutions and integrators without error, not CVODE with its tolerances (for small errors see C92); real arithmetic."
  },
  {
   "property": "C92",
   "status": "partial",
   "theorems": [
    "C92_gas_partial",
    "C92_yield",
    "C92_aerosol_partial"
   ],
   "note": "C92_yield has no guard beyond the set-up of C66. The gas theorem has the guards of C85, the gas and particle theorem those of C91. The integrator's answers are assumed non-negative, which CVODE does not promise; that CVODE's tolerances bound the error of a batch is not proved. Real arithmetic in the right-hand sides; the times and batch counts are the driver's doubles."
  },
  {
   "property": "C93",
   "status": "partial",
   "theorems": [
    "C93_partial"
   ],
   "note": "Composes C07, C33, C34, C58, C59, C79, C83, C84, C85 and C92; the statement speaks of the text, the files, the run and the specification SpecChem only. Missing: the guards (those of C59, C83 and C85), the integrator's answers are assumed non-negative, and every batch reads the clock from the start of the simulation on (C37_refuted), so with photolysis the batches do not join up to one day. Real arithmetic in the right-hand side."
  },
  {
   "property": "C94",
   "status": "partial",
   "theorems": [
    "C94_partial"
   ],
   "note": "Composes C42, C44, C59, C62, C64, C82, C90, C91 and C92; the statement speaks of the text, the files, the run and the specifications SpecChem and SpecAeroChem only. Missing: the guards (those of C90 and C91), the integrator's answers and the exact solutions it is near to are assumed non-negative, every batch reads the clock from the start of the simulation on (C37_refuted), and the initial state is the one of C42_initial. Real arithmetic in the right-hand side."
  },
  {
   "property": "C95",
   "status": "partial",
   "theorems": [
    "C95_gas_partial",
    "C95_partial"
   ],
   "note": "The exact solution from the true state is bounded, the equations are Lipschitz on every bounded set including negative states, so a continuation argument (OdeStay) keeps the perturbed solution near; the bounds add up over the batches. C95_partial states it from the mechanism text and the three generated files to the chemistry of SpecChem. Missing: the guards of C93, every batch reads the clock from the start of the simulation on (C37_refuted), and only the gas driver: the particle equations take roots of the amounts and are not defined for negative ones. Real arithmetic in the right-hand side."
  },
  {
   "property": "C96",
   "status": "partial",
   "theorems": [
    "C96_partial",
    "C96_drivers_partial"
   ],
   "note": "compiled_same: at every state of the right length, negative ones included, the compiled files compute what the numba driver computes; so C95's argument carries over. C96_drivers_partial puts the two runs side by side: same times, rows within C (delta + delta'). Missing: the guards of C83_rhs_fortran_partial (unit coefficients, no repeated product, rates of the usual form, lines within 132 columns) and of C95; every batch reads the clock from the start of the simulation on (C37_refuted); the arithmetic of the right-hand side is real."
  },
  {
   "property": "C97",
   "status": "partial",
   "theorems": [
    "C97_partial"
   ],
   "note": "yield_file_same: on every non-negative state of the right length the routine read back from the file computes the derivative of C66/C67 whatever the bin order; then the error bound of C92 and existence and uniqueness of C91. Missing: one thread runs the parallel loop (as in C86); the exact solutions the integrator is compared with are non-negative; the arithmetic is real; the conversion of SMILES to properties is given."
  },
  {
   "property": "C98",
   "status": "partial",
   "theorems": [
    "C98_yield_partial",
    "C98_aerosol_partial"
   ],
   "note": "Mass and volume are linear in the contents (mass_near, volume_near), the attributes of a call are exact at its state (C61, C86, C90), and record_rows carries this through the batches. Sharpens C69 and C75, which ask for a last evaluation exactly at the returned state and speak of the model without the files. Missing: the driver itself does not make the integrator evaluate near the returned state (C69_refuted); one thread runs the parallel loop; the arithmetic is real."
  },
  {
   "property": "C99",
   "status": "partial",
   "theorems": [
    "C99_yield_partial",
    "C99_aerosol_partial"
   ],
   "note": "C94 or C97 for the states, C98 for the recorded values, and linearity of mass and volume (describes_shift). Missing: the driver itself does not make the integrator evaluate near the returned state (C69_refuted); the exact solutions the integrator is compared with are non-negative; one thread runs the parallel loop; the arithmetic is real."
  }
 ]
}