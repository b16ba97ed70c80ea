{"id": "C01", "title": "Species numbering is a bijection", "statement": "After parsing a mechanism file, species_dict and species_dict2array are inverse to each other and number the species 0..n-1 without gaps or repeats, in order of first appearance (reactants of an equation before its products).", "quantifier": "every text the parser accepts", "why_tests_cant": "a test checks one mechanism; a collision or a gap can appear for any text", "anchors": ["Parse_eqn_file.py:extract_mechanism (species_dict, species_dict2array)"]}
{"id": "C02", "title": "Exactly the chemical species of the file are registered", "statement": "A name has an index if and only if it is written as a reactant or product of one of the parsed equations and is not 'hv'; 'hv' never has an index, a loss entry or a reactant slot.", "quantifier": "every accepted mechanism text", "why_tests_cant": "needs every arrangement of species over equations", "anchors": ["Parse_eqn_file.py:extract_mechanism"]}
{"id": "C03", "title": "Equation count and acceptance", "statement": "The number of equations is the integer in the last {..} label; parsing succeeds exactly when that many '}..;' equation bodies exist and each has '=', ':' and non-blank reactants; otherwise an exception escapes and nothing is returned. Equation k of the file gets key k in every output.", "quantifier": "every text", "why_tests_cant": "malformed inputs are unbounded in number", "anchors": ["Parse_eqn_file.py:extract_mechanism"]}
{"id": "C04", "title": "Rate text is the source text with whitespace removed", "statement": "rate_dict[k] is exactly the text of equation k between its first ':' and the closing ';', with all white space deleted and nothing else changed.", "quantifier": "every accepted text and every equation", "why_tests_cant": "any placement of blanks, tabs and newlines must be covered", "anchors": ["Parse_eqn_file.py:extract_mechanism (rate_dict)"]}
{"id": "C05", "title": "Reactant coefficients are summed over repeats", "statement": "loss_dict[s][k] is the sum of the coefficients of all occurrences of s on the left of equation k, and is absent when s does not occur there.", "quantifier": "every mechanism of parsed items", "why_tests_cant": "arbitrary repetition patterns", "anchors": ["Parse_eqn_file.py:extract_mechanism (loss_dict)"]}
{"id": "C06", "title": "Product coefficients are summed over repeats", "statement": "gain_dict[s][k] is the sum of the coefficients of all occurrences of s on the right of equation k, and absent when s does not occur there.", "quantifier": "every mechanism of parsed items", "why_tests_cant": "arbitrary repetition patterns and interaction with the last reactant", "anchors": ["Parse_eqn_file.py:extract_mechanism (gain_dict)"]}
{"id": "C07", "title": "Stoichiometric coefficients are split from names", "statement": "An item written as number immediately followed by a species name is read as that coefficient and that name; an item without number is read as coefficient 1 and the whole name.", "quantifier": "every decimal number and every species name", "why_tests_cant": "unbounded names and numbers", "anchors": ["Parse_eqn_file.py:extract_mechanism (re.findall on reactant/product)"]}
{"id": "C08", "title": "Layout independence", "statement": "Blanks, tabs and line breaks between tokens, comments between equations and the label text do not change the parsed mechanism.", "quantifier": "every layout of every mechanism", "why_tests_cant": "unbounded layouts", "anchors": ["Parse_eqn_file.py:extract_mechanism"]}
{"id": "C09", "title": "Parsing inverts writing", "statement": "Writing any well formed mechanism as KPP text and parsing it gives back its species, rate texts, reactant table and product table.", "quantifier": "every mechanism whose product lists satisfy the exact guard of C06", "why_tests_cant": "round trip over all mechanisms", "anchors": ["Parse_eqn_file.py:extract_mechanism"]}
{"id": "C10", "title": "Reactant product (numba) is the mass-action product", "statement": "The generated reactants(y,..) returns for each equation the product over its distinct reactants of y[s] to the power of the total coefficient of s.", "quantifier": "every parsed mechanism, every concentration vector", "why_tests_cant": "generated code differs per mechanism; tests run one", "anchors": ["Parse_eqn_file.py:write_reactants_indices"]}
{"id": "C11", "title": "Reactant product: Fortran equals numba", "statement": "For every equation with a non-hv reactant the generated Fortran subroutine returns the same value as the numba function for the same y; no other cell is written.", "quantifier": "every parsed mechanism, every y, every initial content of the output array (reactant coefficients representable in single precision, the kind of a Fortran literal)", "why_tests_cant": "two generators must agree on every mechanism", "anchors": ["Parse_eqn_file.py:write_reactants_indices_fortran", "Parse_eqn_file.py:write_reactants_indices"]}
{"id": "C12", "title": "dydt (numba) is gain minus loss", "statement": "The generated dydt(zeros,r) returns for each species sum_k (gain[s][k]-loss[s][k])*r[k].", "quantifier": "every loss/gain table, every rate vector", "why_tests_cant": "generated code differs per mechanism", "anchors": ["Parse_eqn_file.py:write_loss_gain_matrix (Loss_Gain_numba.py)"]}
{"id": "C13", "title": "dydt: Fortran equals numba", "statement": "The generated Fortran loss_gain(r) returns the same vector as the numba dydt(zeros,r).", "quantifier": "every loss/gain table, every rate vector", "why_tests_cant": "two generators must agree on every mechanism", "anchors": ["Parse_eqn_file.py:write_loss_gain_fortran", "Parse_eqn_file.py:write_loss_gain_matrix"]}
{"id": "C14", "title": "Bath gases never change", "statement": "The derivative of AIR, H2O and O2 is zero in the numba and Fortran versions whatever the mechanism.", "quantifier": "every mechanism and rate vector", "why_tests_cant": "all mechanisms", "anchors": ["Parse_eqn_file.py:write_loss_gain_matrix", "Parse_eqn_file.py:write_loss_gain_fortran"]}
{"id": "C15", "title": "Sparse loss/gain matrix agrees with dydt", "statement": "Multiplying the saved loss_gain matrix by the rate vector gives the dydt of the generated numba function.", "quantifier": "every loss/gain table and rate vector", "why_tests_cant": "all mechanisms", "anchors": ["Parse_eqn_file.py:write_loss_gain_matrix (lil_matrix)"]}
{"id": "C16", "title": "End to end mass-action kinetics", "statement": "From mechanism text to derivative: the right-hand side assembled from the generated numba functions equals sum_k (nu_prod-nu_reac) * k_k * prod y^nu_reac of the written mechanism.", "quantifier": "every well formed mechanism, rate vector and concentration vector", "why_tests_cant": "composition of parser and generators over all inputs", "anchors": ["Parse_eqn_file.py:extract_mechanism", "Parse_eqn_file.py:write_reactants_indices", "Parse_eqn_file.py:write_loss_gain_matrix", "ODE_solver.py:run_simulation.dydt_func"]}
{"id": "C17", "title": "Conserved quantities are conserved", "statement": "If a weight per species (atoms, mass, charge) balances in every equation and excluded bath gases have weight 0, the weighted sum of the derivatives is zero.", "quantifier": "every mechanism, weight, rates and concentrations", "why_tests_cant": "unbounded mechanisms and states", "anchors": ["ODE_solver.py:run_simulation.dydt_func", "Parse_eqn_file.py:write_loss_gain_matrix"]}
{"id": "C18", "title": "Concentrations cannot be driven negative", "statement": "If all concentrations and rates are nonnegative and y[s]=0 then the derivative of s is nonnegative (numba and Fortran).", "quantifier": "every parsed mechanism with nonnegative coefficients, every state on the boundary (Fortran: reactant coefficients representable in single precision)", "why_tests_cant": "all boundary states of all mechanisms", "anchors": ["ODE_solver.py:run_simulation.dydt_func"]}
{"id": "C19", "title": "Generated dydt code is syntactically complete", "statement": "Every assignment written to Loss_Gain_numba.py / Loss_Gain.f90 has a non-empty right-hand side, so that the generated module can be imported / compiled.", "quantifier": "every parsed mechanism", "why_tests_cant": "a malformed line appears only for particular mechanisms", "anchors": ["Parse_eqn_file.py:write_loss_gain_matrix", "Parse_eqn_file.py:write_loss_gain_fortran"]}
{"id": "C20", "title": "The generated Jacobian is the derivative of dydt", "statement": "jacobian(rates,y)[i,j] equals the partial derivative with respect to y[j] of component i of dydt at fixed rate coefficients.", "quantifier": "every parsed mechanism, all i, j, y, rates", "why_tests_cant": "derivative identity for all mechanisms and states", "anchors": ["Parse_eqn_file.py:write_gas_jacobian_numba", "Parse_eqn_file.py:write_gas_jacobian_fortran"]}
{"id": "C21", "title": "Jacobian sparsity", "statement": "jacobian[i,j] is assigned only if species j is a reactant of an equation that consumes or produces i, is assigned exactly once, and all other entries and all bath-gas rows are zero.", "quantifier": "every parsed mechanism, rates and state", "why_tests_cant": "all mechanisms", "anchors": ["Parse_eqn_file.py:write_gas_jacobian_numba"]}
{"id": "C22", "title": "Jacobian does not depend on set iteration order", "statement": "list(set(..)) order (hash randomisation) never changes the Jacobian values.", "quantifier": "every iteration order of every set, every mechanism", "why_tests_cant": "orders are chosen by the interpreter per run", "anchors": ["Parse_eqn_file.py:write_gas_jacobian_numba", "Parse_eqn_file.py:write_gas_jacobian_fortran"]}
{"id": "C23", "title": "Jacobian: Fortran equals numba", "statement": "The generated Fortran and numba Jacobians agree for the same y and rates.", "quantifier": "every mechanism, rates and state (reactant coefficients representable in single precision, the kind of a Fortran literal)", "why_tests_cant": "two generators must agree", "anchors": ["Parse_eqn_file.py:write_gas_jacobian_fortran", "Parse_eqn_file.py:write_gas_jacobian_numba"]}
{"id": "C24", "title": "OpenMP blocks compute the sequential result", "statement": "With openMP=True, for every number of cores and every assignment and interleaving of SINGLE blocks on threads, the generated Fortran routine returns what it returns without OpenMP.", "quantifier": "every core count, every schedule, every mechanism", "why_tests_cant": "schedules cannot be enumerated by tests", "anchors": ["Parse_eqn_file.py:write_reactants_indices_fortran", "Parse_eqn_file.py:write_loss_gain_fortran", "Parse_eqn_file.py:write_rate_file_fortran", "Parse_eqn_file.py:write_gas_jacobian_fortran"]}
{"id": "C25", "title": "OpenMP break points", "statement": "The break list derived from linspace(0,n,cores) is sorted, lies in [0,n], and together with the loop yields blocks that contain every iteration exactly once in order.", "quantifier": "every n and core count", "why_tests_cant": "arithmetic for all n and core counts", "anchors": ["Parse_eqn_file.py:write_reactants_indices_fortran (break_list)"]}
{"id": "C26", "title": "Photolysis brackets", "statement": "convert_rate_mcm_numba turns every J(..) into J[..] and changes no other bracket, keeping length and all other characters of the already substituted text.", "quantifier": "every rate text", "why_tests_cant": "arbitrary nesting", "anchors": ["rate_coeff_conversion.py:convert_rate_mcm_numba"]}
{"id": "C27", "title": "Exponent letters", "statement": "Converting a rate text rewrites Fortran exponents D to E such that each literal keeps its decimal value (nDm becomes nE+m).", "quantifier": "every literal", "why_tests_cant": "unbounded literals", "anchors": ["rate_coeff_conversion.py:convert_rate_mcm_numba", "rate_coeff_conversion.py:convert_rate_mcm_fortran"]}
{"id": "C28", "title": "Math function names", "statement": "All functions listed in the conversion table (dabs, dsqrt, dlog, LOG, EXP) are renamed to their target-language names.", "quantifier": "every rate text", "why_tests_cant": "only some texts contain each function", "anchors": ["rate_coeff_conversion.py:convert_rate_mcm", "rate_coeff_conversion.py:convert_rate_mcm_numba", "rate_coeff_conversion.py:convert_rate_mcm_fortran"]}
{"id": "C29", "title": "Plain Python rate conversion yields balanced calls", "statement": "convert_rate_mcm turns J(..) into J[..] while numpy function calls keep round brackets.", "quantifier": "every rate text", "why_tests_cant": "arbitrary numbers of calls", "anchors": ["rate_coeff_conversion.py:convert_rate_mcm"]}
{"id": "C30", "title": "Rate file assigns every equation once", "statement": "The generated rate routines assign rate_values for every equation key exactly once, at index k (numba, Python) or k+1 (Fortran), with the converted text of equation k.", "quantifier": "every rate dictionary", "why_tests_cant": "all mechanisms", "anchors": ["Parse_eqn_file.py:write_rate_file", "Parse_eqn_file.py:write_rate_file_numba", "Parse_eqn_file.py:write_rate_file_fortran"]}
{"id": "C31", "title": "Photolysis rates are nonnegative and vanish at night", "statement": "Every photolysis rate J[k] of the numba/Fortran modules is >=0, is 0 when the sun is below the horizon, and does not exceed its amplitude L.", "quantifier": "every time of day", "why_tests_cant": "all real times", "anchors": ["Parse_eqn_file.py:write_rate_file_numba", "Parse_eqn_file.py:write_rate_file_fortran"]}
{"id": "C32", "title": "Time of day: numba and Fortran agree, period one day", "statement": "The zenith computation of the numba version (int) and the Fortran version (floor) give the same hour fraction, which is periodic with 86400 s, for nonnegative fractional day.", "quantifier": "every start time and simulation time", "why_tests_cant": "all real times", "anchors": ["Parse_eqn_file.py:write_rate_file_numba", "Parse_eqn_file.py:write_rate_file_fortran"]}
{"id": "C33", "title": "RO2 sum counts each peroxy radical once", "statement": "The RO2 index file holds exactly the indices of the mechanism species whose name is in the RO2 list, each once; RO2 is the sum of their concentrations.", "quantifier": "every mechanism and state", "why_tests_cant": "all mechanisms", "anchors": ["Parse_eqn_file.py:write_RO2_indices", "ODE_solver.py:run_simulation"]}
{"id": "C34", "title": "Initial concentrations", "statement": "y0 has one entry per species; y0[i] is the given ppb value times 2.55e10 for the species named in species_initial_conc and 0 otherwise; an unknown species name aborts with KeyError before any integration.", "quantifier": "every species table and initial dictionary", "why_tests_cant": "all dictionaries", "anchors": ["ODE_solver.py:run_simulation", "f2py/ODE_solver.py:run_simulation"]}
{"id": "C35", "title": "Batch bookkeeping", "statement": "When simulation_time is n times batch_step the run performs n solver calls, output row k holds the state at (k+1)*batch_step, t_array is strictly increasing and ends at simulation_time.", "quantifier": "every n and batch_step, every solver", "why_tests_cant": "loop over unbounded counts", "anchors": ["ODE_solver.py:run_simulation"]}
{"id": "C36", "title": "Any simulation_time / batch_step pair completes", "statement": "For every positive simulation_time and batch_step the run finishes without exception and t_array covers simulation_time.", "quantifier": "every pair of positive numbers", "why_tests_cant": "float and integer corner cases", "anchors": ["ODE_solver.py:run_simulation"]}
{"id": "C37", "title": "Time of day advances through the run", "statement": "The rate evaluation in the k-th batch uses clock time start_time + total elapsed simulated time.", "quantifier": "every number of batches, every solver", "why_tests_cant": "history dependent", "anchors": ["ODE_solver.py:run_simulation.dydt_func"]}
{"id": "C38", "title": "Batching does not change the trajectory", "statement": "If the rates do not depend on the time of day, splitting a run into batches gives the same final state as one batch of the total length.", "quantifier": "every exact flow, every split", "why_tests_cant": "history dependent", "anchors": ["ODE_solver.py:run_simulation"]}
{"id": "C39", "title": "Partitioning conserves molecules", "statement": "In the derivative returned by dydt_partition the gas-phase change of each condensing species plus the sum of its changes over all size bins is zero.", "quantifier": "every state, every number of bins and species", "why_tests_cant": "all states and bin counts", "anchors": ["Parse_eqn_file.py:write_partitioning_section_fortran_ignore", "Parse_eqn_file.py:write_partitioning_section_fortran"]}
{"id": "C40", "title": "Partitioning touches only included species", "statement": "Gas species that are not in include_index get derivative 0 from partitioning; included position j couples to gas species include_index[j] and to slot j of every bin.", "quantifier": "every include_index, bins, state", "why_tests_cant": "index arithmetic for all sizes", "anchors": ["Parse_eqn_file.py:write_partitioning_section_fortran_ignore"]}
{"id": "C41", "title": "Direction of mass transfer", "statement": "For positive transfer coefficient a species condenses onto a bin iff its gas concentration exceeds the equilibrium concentration there, and evaporates iff it is below.", "quantifier": "every state with positive parameters", "why_tests_cant": "all real parameters", "anchors": ["Parse_eqn_file.py:write_partitioning_section_fortran_ignore"]}
{"id": "C42", "title": "State vector layout", "statement": "The gas block and the per-bin blocks of the aerosol state vector are disjoint, cover the whole vector, and the initial vector places gas, condensed and water values in the slots the derivative uses.", "quantifier": "every number of species, condensed species and bins", "why_tests_cant": "index arithmetic for all sizes", "anchors": ["Aerosol/f2py/ODE_solver.py:run_simulation", "Aerosol/f2py/Aerosol_simulation_f2py.py", "Parse_eqn_file.py:write_partitioning_section_fortran_ignore"]}
{"id": "C43", "title": "Include and ignore lists partition the species", "statement": "Pure_component1 puts every species index in exactly one of include_index and ignore_index, and ignore_index_fortran is the indicator of ignore_index; species without SMILES or (with ignore_vp) above the cutoff are ignored.", "quantifier": "every species table, SMILES table, vapour pressures and flags", "why_tests_cant": "all tables", "anchors": ["Aerosol/Property_calculation.py:Pure_component1"]}
{"id": "C44", "title": "Property arrays stay aligned after water is appended", "statement": "After shaving with include_index and appending water, position j of every property array describes species include_index[j], water being last with a fresh index.", "quantifier": "every table with ignore_vp True; mis-sized otherwise", "why_tests_cant": "all tables", "anchors": ["Aerosol/f2py/Aerosol_simulation_f2py.py"]}
{"id": "C45", "title": "Size distribution totals", "statement": "lognormal returns num_bins positive number concentrations summing to total_conc and strictly increasing sizes from lowersize to uppersize.", "quantifier": "every positive parameters", "why_tests_cant": "all real parameters", "anchors": ["Aerosol/Size_distributions.py:lognormal"]}
{"id": "C46", "title": "Fixed-yield species table", "statement": "extract_species numbers distinct SMILES 0..n-1 in order of first appearance, keeps the first concentration of each and keeps all arrays aligned.", "quantifier": "every input file", "why_tests_cant": "all files", "anchors": ["Parse_eqn_file.py:extract_species"]}
{"id": "C47", "title": "SMILES of a species come from its own record", "statement": "extract_smiles_species maps every species found in the XML to the SMILES of its own record, or leaves it out.", "quantifier": "every XML species list and mechanism", "why_tests_cant": "records without SMILES", "anchors": ["Parse_eqn_file.py:extract_smiles_species"]}
{"id": "C48", "title": "Cleaning removes stale generated files", "statement": "Before re-parsing, every stale generated artefact (npy, npz, pickle, eqn.txt, compiled numba cache, f90) is removed, nothing else is, and cleaning never fails.", "quantifier": "every directory content", "why_tests_cant": "all directory states", "anchors": ["Gas_simulation.py", "f2py/Gas_simulation_f2py.py", "Aerosol/f2py/Aerosol_simulation_f2py.py"]}
{"id": "C49", "title": "Reusing parsed files", "statement": "Running with files_exist=True after a completed parse run with the same mechanism passes the same species tables and equation count to the solver.", "quantifier": "every mechanism and directory history", "why_tests_cant": "history dependent", "anchors": ["Gas_simulation.py", "Aerosol/f2py/Aerosol_simulation_f2py.py", "Aerosol/f2py/Fixed_yield/Aerosol_sim_fixed_yield.py"]}
{"id": "C50", "title": "Operator splitting loop", "statement": "The split gas/partitioning loop alternates gas and partitioning phases and stores one output row per phase until simulation_time.", "quantifier": "every solver", "why_tests_cant": "loop over the whole run", "anchors": ["Aerosol/f2py/ODE_solver_opsplit.py"]}
{"id": "C51", "title": "Condensed mass plot uses the right slots", "statement": "stacked_bar reads, for each bin, the condensed slots of that bin, and the normalised contributions of each bin sum to 1.", "quantifier": "every state, bins, species", "why_tests_cant": "all sizes", "anchors": ["Aerosol/f2py/Fixed_yield/Plotting.py:stacked_bar", "Plotting.py:stacked_bar"]}
{"id": "C52", "title": "Rate constants are positive and finite", "statement": "The Troe and Arrhenius constants (KFPAN, KBPAN, KMTxx, ...) of the rate modules are positive for every positive temperature and water concentration.", "quantifier": "every temperature > 0 and H2O >= 0", "why_tests_cant": "all real temperatures", "anchors": ["Parse_eqn_file.py:write_rate_file_numba"]}
{"id": "C53", "title": "Water vapour input", "statement": "H2O passed to the solver is nonnegative, zero iff RH=0, linear in RH.", "quantifier": "every RH in [0,1], temperature above -238.3 C", "why_tests_cant": "all reals", "anchors": ["Gas_simulation.py"]}
{"id": "C54", "title": "Saved reactant matrix holds the written coefficients", "statement": "The reactants sparse matrix saved beside the generated code holds, at (equation, species), the total coefficient with which the species is written on the left-hand side, and zero elsewhere.", "quantifier": "every mechanism file, equation, species", "why_tests_cant": "all mechanisms; repeated reactants", "anchors": ["Parse_eqn_file.py:extract_mechanism", "Parse_eqn_file.py:write_reactants_indices"]}
{"id": "C55", "title": "Converted rate text means what the KPP text means", "statement": "The rate text written into the generated module, read by the target language, has the value the KPP rate expression denotes, for every temperature, water vapour, RO2 and photolysis rates.", "quantifier": "every rate expression, every environment", "why_tests_cant": "all expressions and all real inputs", "anchors": ["rate_coeff_conversion.py:convert_rate_mcm_numba", "rate_coeff_conversion.py:convert_rate_mcm_fortran"]}
{"id": "C56", "title": "Both rate modules define the same constants", "statement": "At every temperature, water vapour concentration and RO2, the Numba and the Fortran rate modules give every named rate constant the same value.", "quantifier": "every input, every constant", "why_tests_cant": "all real inputs, about 150 constants", "anchors": ["Parse_eqn_file.py:write_rate_file_numba", "Parse_eqn_file.py:write_rate_file_fortran"]}
{"id": "C57", "title": "Rate constants follow the MCM formulas", "statement": "Every pressure-dependent constant of the rate modules equals the Troe fall-off formula with the MCM low pressure limit, high pressure limit and broadening factor, and is positive and below both limits; the other constants equal their MCM expressions.", "quantifier": "every positive temperature, every water vapour", "why_tests_cant": "all real temperatures", "anchors": ["Parse_eqn_file.py:write_rate_file_numba", "Parse_eqn_file.py:write_rate_file_fortran"]}
{"id": "C58", "title": "Rate coefficients from mechanism file to array", "statement": "For a mechanism file, the array the generated evaluate_rates returns holds for every reaction the value of that reaction's own KPP rate expression with the MCM constants and photolysis rates, at every time, temperature, water vapour and RO2, in both languages and for every OpenMP schedule.", "quantifier": "every mechanism file, time, temperature, water vapour, RO2, schedule", "why_tests_cant": "all files, all real inputs, all interleavings", "anchors": ["Parse_eqn_file.py:extract_mechanism", "rate_coeff_conversion.py", "Parse_eqn_file.py:write_rate_file_numba", "Parse_eqn_file.py:write_rate_file_fortran"]}
{"id": "C59", "title": "The gas-phase right-hand side is the kinetics of the mechanism file", "statement": "For a mechanism text and a non-negative state, the vector the driver hands to the ODE solver is, species by species, the mass-action rate of change of the written mechanism, with every rate coefficient evaluated at the current time of day, temperature, water vapour and total peroxy radical; the bath gases stay constant. This holds for the Numba driver and for the Fortran driver with and without OpenMP, whatever the arrays held before.", "quantifier": "every mechanism, rate expression, time, temperature, water vapour, state, OpenMP division and interleaving", "why_tests_cant": "composition of parser, code generators, rate conversion and run-time over all mechanisms and states", "anchors": ["ODE_solver.py: dydt_func", "f2py/ODE_solver.py: dydt_func", "Parse_eqn_file.py: extract_mechanism, write_rate_file_numba, write_reactants_indices, write_loss_gain_matrix, write_RO2_indices", "rate_coeff_conversion.py"]}
{"id": "C60", "title": "Partitioning does not depend on the schedule", "statement": "Whatever number of threads runs the size-bin loop of dydt_partition and however they interleave, the returned sizes, water activities, total mass and derivative are those of the sequential loop.", "quantifier": "every number of bins and threads, every assignment of bins to threads, every interleaving, every state", "why_tests_cant": "schedules are not reproducible; the race needs a particular interleaving", "anchors": ["Parse_eqn_file.py:write_partitioning_section_fortran_ignore"]}
{"id": "C61", "title": "Reported aerosol quantities", "statement": "The total mass reported with the derivative is the mass of all condensed components except water and core, the reported water activity of a bin is the mole fraction of its water and lies in [0,1), and the reported size is the radius of spheres holding the bin's volume.", "quantifier": "every physical state, every number of bins and species", "why_tests_cant": "all real states and sizes", "anchors": ["Parse_eqn_file.py:write_partitioning_section_fortran_ignore", "Aerosol/f2py/ODE_solver.py:run_simulation"]}
{"id": "C62", "title": "The aerosol right-hand side conserves every species", "statement": "For a physical state the derivative passed to the solver of the aerosol model exists; for every partitioning species the change of its gas slot plus the changes of its condensed slots over all bins equals what the gas-phase chemistry alone gives, species that do not partition follow the chemistry alone, water is only exchanged, and every condensed slot grows by the condensation equation driven by the gas concentration of its own species.", "quantifier": "every mechanism, SMILES table, molecule properties, number of bins, state, gas-phase right-hand side", "why_tests_cant": "ranges over all mechanisms, states and sizes; tests cover a few states of one mechanism", "anchors": ["Aerosol/f2py/ODE_solver.py: dydt_func", "Aerosol/f2py/Aerosol_simulation_f2py.py", "Aerosol/Property_calculation.py: Pure_component1, Pure_component2"]}
{"id": "C63", "title": "The initial aerosol is in equilibrium with the relative humidity", "statement": "At the initial state built by the driver the reported water activity of every bin equals RH, the reported organic mass is zero, and the reported size cubed is the given bin size cubed (up to the literal used for pi) times one plus the volume of its water relative to its core.", "quantifier": "every mechanism, RH in [0,1), size distribution, core material, number of bins", "why_tests_cant": "ranges over all humidities, size distributions and mechanisms", "anchors": ["Aerosol/f2py/Aerosol_simulation_f2py.py", "Aerosol/f2py/ODE_solver.py: run_simulation", "Parse_eqn_file.py: write_partitioning_section_fortran_ignore"]}
{"id": "C64", "title": "In the aerosol model each species changes by its chemistry plus exchange that cancels", "statement": "With the gas-phase chemistry of a mechanism file inside the aerosol model, the derivative of the gas slot of a partitioning species plus those of all its condensed slots is the mass-action rate of change of the written mechanism at the current gas concentrations; a species that does not partition follows that rate alone; water vapour plus condensed water does not change.", "quantifier": "every mechanism, rate expression, time, state, SMILES table, molecule properties, number of bins", "why_tests_cant": "composition of the whole pipeline over all mechanisms, states and sizes", "anchors": ["Aerosol/f2py/ODE_solver.py: dydt_func", "Aerosol/f2py/Aerosol_simulation_f2py.py", "Parse_eqn_file.py", "Aerosol/Property_calculation.py"]}
{"id": "C65", "title": "Interrupted runs never mix two mechanisms", "statement": "However parse runs of different mechanisms and the saving of outputs follow one another in a directory, each killed after any number of its file operations, a later run with files_exist=True either raises or is given species tables, equation count, RO2 indices and generated modules that all come from one mechanism text.", "quantifier": "every history of runs, every crash point, every listing order, every mechanism", "why_tests_cant": "every crash point of every history", "anchors": ["Gas_simulation.py", "f2py/Gas_simulation_f2py.py", "Parse_eqn_file.py"]}
{"id": "C66", "title": "The fixed-yield model starts from the yields in the file", "statement": "From a product yield file (SMILES and yield per line) the fixed-yield driver builds one gas species per distinct SMILES, in order of first appearance, plus water last; each starts in the gas phase at its yield times the fixed total of volatile organic carbon, with nothing condensed; water vapour starts at the relative humidity given, condensed water at the equilibrium amount with each core; each component has the density, molar mass and vapour pressure of its own molecule.", "quantifier": "every yield file, molecule property tables, temperature, relative humidity other than 1, number of bins and cores", "why_tests_cant": "every file, number of products and number of bins", "anchors": ["Aerosol/f2py/Fixed_yield/Aerosol_sim_fixed_yield.py", "Aerosol/Property_calculation.py: Pure_component1", "Parse_eqn_file.py: extract_species"]}
{"id": "C67", "title": "The fixed-yield right-hand side only moves material between phases", "statement": "At every state with non-negative condensed amounts, in any order of visiting the bins, the derivative of the gas amount of a product (or water) plus those of its condensed amounts is zero, the mass and sizes recorded are those of the state, and each transfer is proportional to gas amount minus equilibrium amount; at the starting state exactly the products with positive yield condense; the relative humidity printed equals the one asked for up to 0.01 percent.", "quantifier": "every yield file, molecule properties, state, bin order, temperature, humidity", "why_tests_cant": "all states and sizes", "anchors": ["Aerosol/f2py/Fixed_yield/ODE_solver_fixedyield.py: dydt_func", "Parse_eqn_file.py: write_partitioning_section_fortran_ignore"]}
{"id": "C68", "title": "Stored trajectories conserve what the equations conserve", "statement": "With any integrator whose outputs are the start plus combinations of right-hand side values (Runge-Kutta, multistep, Euler), every row stored by run_simulation contains the same number of atoms of each element that every reaction of the mechanism balances (gas model), and the same gas plus condensed amount of each product and of water (fixed-yield model) as the starting state, across all batches.", "quantifier": "every mechanism, yield file, linear integrator, batch length, simulation time, row", "why_tests_cant": "all integrators and histories of batches", "anchors": ["ODE_solver.py: run_simulation", "Aerosol/f2py/Fixed_yield/ODE_solver_fixedyield.py: run_simulation", "Aerosol/f2py/ODE_solver.py: run_simulation"]}
{"id": "C69", "title": "The stored SOA mass and particle sizes belong to the stored state", "statement": "Row k of the SOA mass and size arrays saved by the aerosol drivers is the organic mass and the radii of the state in row k of the concentration array.", "quantifier": "every integrator, every run, every row", "why_tests_cant": "depends on where the integrator last evaluated the right-hand side, which no finite set of runs settles", "anchors": ["Aerosol/f2py/Fixed_yield/ODE_solver_fixedyield.py: run_simulation", "Aerosol/f2py/ODE_solver.py: run_simulation"]}
{"id": "C70", "title": "The Jacobian given to the solver is the derivative of the right-hand side given to it", "statement": "At every state with positive concentrations, entry (i,j) of the matrix returned by the Jacobian function handed to the integrator is the derivative of component i of the right-hand side function handed to it with respect to concentration j, at the same time.", "quantifier": "every mechanism, rate expressions, time, temperature, water, positive state, order of the species set", "why_tests_cant": "all states, mechanisms and rate expressions; a finite difference check samples one", "anchors": ["ODE_solver.py: jac, dydt_func", "Parse_eqn_file.py: write_gas_jacobian_numba"]}
{"id": "C71", "title": "Concentrations stay non-negative", "statement": "A solution of the differential equations that the gas-phase driver hands to its integrator, started from non-negative concentrations, is non-negative at all later times; with an integrator without error every stored row of a run, through all its batches, is non-negative.", "quantifier": "every mechanism, rate expressions, starting state, time span, batch length", "why_tests_cant": "all mechanisms, states and times; a run can only sample some", "anchors": ["ODE_solver.py: dydt_func, run_simulation", "Parse_eqn_file.py: write_reactants_indices, write_loss_gain_matrix"]}
{"id": "C72", "title": "No species exceeds what the starting material can make", "statement": "Along a solution of the equations handed to the integrator the total of any quantity that every reaction balances (atoms of an element) does not change, so the concentration of a species containing w units of it never exceeds the initial total divided by w.", "quantifier": "every mechanism, balanced quantity, starting state, time", "why_tests_cant": "all mechanisms, states and times", "anchors": ["ODE_solver.py: dydt_func, run_simulation", "Parse_eqn_file.py: write_loss_gain_matrix"]}
{"id": "C73", "title": "Gas and condensed amounts stay non-negative in the aerosol models", "statement": "A solution of the equations the aerosol drivers hand to their integrator (gas chemistry with gas-particle exchange, or fixed yields with exchange only), started from non-negative amounts, has no negative gas or condensed amount at any later time; with an integrator without error no stored row of a run has a negative entry, whatever order the parallel loops take at each call.", "quantifier": "every mechanism or yield file, molecule set, seed particles, starting state, time span, batch length, loop order", "why_tests_cant": "all states and times; a run can only sample some", "anchors": ["Aerosol/f2py/ODE_solver.py: dydt_func, run_simulation", "Aerosol/f2py/Fixed_yield/ODE_solver_fixedyield.py: dydt_func, run_simulation", "Parse_eqn_file.py: write_partitioning_section_fortran_ignore"]}
{"id": "C74", "title": "The aerosol models keep what the reactions balance, over both phases", "statement": "The amount of anything that every reaction balances (atoms of an element), counted over the gas and all size bins together, is the same in every row of the output of the aerosol driver as at the start, for any integrator that combines evaluations of the right-hand side linearly; along exact solutions it bounds every gas and condensed amount.", "quantifier": "every mechanism, balanced quantity, linear method, starting state, loop order, run length", "why_tests_cant": "all mechanisms, methods and runs", "anchors": ["Aerosol/f2py/ODE_solver.py: dydt_func, run_simulation", "Parse_eqn_file.py: write_loss_gain_fortran, write_partitioning_section_fortran_ignore"]}
{"id": "C75", "title": "The stored SOA mass and sizes of the aerosol driver belong to the stored state", "statement": "Row k of the stored SOA masses and particle sizes of the aerosol driver is the organic mass and the particle radii of row k of the stored states.", "quantifier": "every mechanism, integrator, starting state, row", "why_tests_cant": "it depends on where the integrator makes its last evaluation", "anchors": ["Aerosol/f2py/ODE_solver.py: dydt_func, run_simulation"]}
{"id": "C76", "title": "The aerosol driver hands its solver the chemistry of the right time of day plus exchange", "statement": "At every non-negative state the function the aerosol driver gives to its integrator returns a derivative in which each species, gas and particles together, changes by the production minus loss of the mechanism at the time of day start_time+t with the RO2 sum of that state, species that do not condense change by the chemistry alone, and water is only exchanged; whatever order the parallel loops take.", "quantifier": "every mechanism, molecule set, seed particles, time, non-negative state, loop order", "why_tests_cant": "all states, times of day and thread schedules", "anchors": ["Aerosol/f2py/ODE_solver.py: run_simulation, dydt_func"]}
{"id": "C77", "title": "Runs of the aerosol drivers continue batch by batch", "statement": "A run of an aerosol driver makes one solver call per batch, each from time 0 and from the state in which the previous call ended; row k of the stored states, SOA masses and sizes belongs to the end of batch k+1 and the stored time is (k+1)*batch_step; a run ends normally exactly when the whole number of batch steps in the simulation time, added one by one, reaches it, and in IndexError otherwise.", "quantifier": "every right-hand side, solver, starting state, simulation time and batch step", "why_tests_cant": "all solvers, run lengths and floating point step sizes", "anchors": ["Aerosol/f2py/ODE_solver.py: run_simulation", "Aerosol/f2py/Fixed_yield/ODE_solver_fixedyield.py: run_simulation"]}
{"id": "C78", "title": "The two gas-phase drivers solve the same problem", "statement": "At every state (concentrations of any sign) the f2py driver's right-hand side and Jacobian succeed and return exactly the values of the numba driver's, whatever the compiler's OpenMP schedule and whatever the output arrays held before; and the f2py Jacobian is, in every row, the derivative of the f2py right-hand side.", "quantifier": "All mechanism texts with unit coefficients whose products are distinct and do not contain the last reactant, all rate expressions with a value, all states, times, temperatures, schedules of the generated loops, previous array contents and rounding of single-precision literals", "why_tests_cant": "The two drivers run four generated modules each in different languages with different index bases and parallel loops; a test compares them on a few mechanisms at a few states under the schedules that happen to occur.", "anchors": ["f2py/ODE_solver.py: dydt_func, jacobian", "ODE_solver.py: dydt_func, jac", "Parse_eqn_file.py: write_rate_file_fortran, write_loss_gain_fortran, write_reactants_indices_fortran, write_gas_jacobian_fortran"]}
{"id": "C79", "title": "The generated source files say what the generator means", "statement": "Read by the rules of the language, each generated file is exactly one function with the expected name, arguments, declared array shapes, clearing statement and parallel directives, whose body is the generated list of assignments: brackets, continuation lines, separators, coefficients and indices all read back as written. A Fortran file is accepted exactly when none of its statement lines is longer than 132 characters.", "quantifier": "All parsed tables of any size, all ways Python may print the coefficients, any date text, with and without OpenMP and any break points, all six generators (reactants, dydt, Jacobian; numba and Fortran)", "why_tests_cant": "A line break, a missing bracket or a shape that differs only shows for mechanisms with the right number of terms; tests compile a few mechanisms.", "anchors": ["Parse_eqn_file.py: write_reactants_indices, write_reactants_indices_fortran, write_loss_gain_matrix, write_loss_gain_fortran, write_gas_jacobian_numba, write_gas_jacobian_fortran"]}
{"id": "C80", "title": "From the mechanism text through the generated text to kinetics", "statement": "Parsing a mechanism file, writing the generated source files, reading them as source code and calling the functions in them gives mass-action kinetics for every species; for the Fortran files under every OpenMP execution. The Jacobian functions in the files return what the generated programs return.", "quantifier": "All mechanism texts in the class of C16, all rate vectors and non-negative concentrations, all ways to print coefficients and dates, all OpenMP break lists and executions", "why_tests_cant": "It composes a parser, a code generator and two language semantics over all inputs.", "anchors": ["Parse_eqn_file.py: extract_mechanism, write_reactants_indices, write_loss_gain_matrix, write_reactants_indices_fortran, write_loss_gain_fortran, write_gas_jacobian_numba, write_gas_jacobian_fortran"]}
{"id": "C81", "title": "Generated Fortran lines stay within the compiler's limit", "statement": "The generated Fortran modules are accepted by the compiler whatever the size of the mechanism: no statement line is longer than 132 characters.", "quantifier": "All mechanism texts, numbers of species and reactions, printed widths of coefficients", "why_tests_cant": "Line width depends on the digits of indices and the number of terms; it fails only for particular large or many-body mechanisms.", "anchors": ["Parse_eqn_file.py: write_reactants_indices_fortran, write_loss_gain_fortran, write_gas_jacobian_fortran"]}
{"id": "C82", "title": "Rates of the usual form always have sensible values", "statement": "A rate coefficient built from numbers, TEMP, H2O, the MCM constants, EXP, powers, photolysis rates and RO2 by sums, products and division by positive terms has a value at every time, temperature above 0 K, water vapour and peroxy radical total; it is not negative, bounded, and changes at most proportionally with RO2. So, for mechanisms with such rates, evaluate_rates of both generated modules always returns one non-negative number per reaction, the gas right-hand side is defined at every non-negative state, and the concentrations of gas and aerosol runs stay non-negative, without any assumption on the values of the rates.", "quantifier": "All rate expressions of the class, of any size; all mechanism texts, times of day, temperatures above 0 K, water vapour and peroxy radical totals; all solutions and runs", "why_tests_cant": "The class of expressions is infinite and the claim is about all times of day and all states reached in a run.", "anchors": ["Parse_eqn_file.py: write_rate_file_numba, write_rate_file_fortran", "ODE_solver.py: dydt_func, run_simulation", "Aerosol/f2py/ODE_solver.py: dydt_func, run_simulation"]}
{"id": "C83", "title": "The rate files on disk, loaded and called, give the rate coefficients of the mechanism", "statement": "The text of Rate_coefficients_numba.py, read as a Python module, defines evaluate_rates(ttime,RO2,H2O,temp,rate_values,J) whose call returns, one number per reaction and in the order of the mechanism, the values of the rate expressions of the mechanism file. The text of Rate_coefficients.f90, read as free-form Fortran, with or without OpenMP directives and for every parallel execution, defines a subroutine with the arguments in the order the driver uses that returns the same numbers, provided no line has more than 132 columns. Loading the rate, reactant and loss/gain files and calling them as dydt_func does gives mass-action kinetics.", "quantifier": "All mechanism texts whose rates are expressions over MCM constants; all dates, times of day, temperatures above 0 K, water vapour contents, peroxy radical totals, previous array contents and parallel executions", "why_tests_cant": "Generated text depends on the mechanism without bound; a test compiles one file for one mechanism and cannot cover all expressions, counts of reactions and schedules.", "anchors": ["Parse_eqn_file.py: write_rate_file_numba, write_rate_file_fortran", "rate_coeff_conversion.py: convert_rate_mcm_numba, convert_rate_mcm_fortran", "ODE_solver.py: dydt_func", "f2py/ODE_solver.py: dydt_func"]}
{"id": "C84", "title": "The mechanism and the inputs determine the result: unique, stable, and the same for both gas-phase drivers", "statement": "For a mechanism with whole-number reactant coefficients the equations handed to the integrator have at most one solution from given initial concentrations, also across sunrise and sunset. The numba and the f2py driver have the same solution, for every execution of the parallel sections. Two integrators without error store the same times and rows. If some positive weight of the species is not increased by any reaction then the weighted total never grows along a solution, and solutions depend continuously on the initial concentrations: on [0,T] they differ by at most a constant times the initial difference.", "quantifier": "All mechanism texts with rates of the usual form; all initial concentrations, times of day, durations, temperatures above 0 K, water vapour contents, integrators, Jacobians and parallel executions", "why_tests_cant": "Comparing two integrators on one case says nothing about other mechanisms or inputs, and uniqueness is about all functions that satisfy the equations.", "anchors": ["ODE_solver.py: run_simulation, dydt_func", "f2py/ODE_solver.py: run_simulation, dydt_func", "Parse_eqn_file.py: write_reactants_indices, write_loss_gain_matrix, write_loss_gain_fortran"]}
{"id": "C85", "title": "There is a solution to compute: exactly one, for any length of run", "statement": "If some positive weight of the species (mass, say) is not increased by any reaction then from every non-negative initial state the equations handed to the integrator have exactly one solution over any length of time, across all sunrises and sunsets, and it stays non-negative; the same holds for the Fortran right-hand side under every execution of its parallel sections. The rows of a run are therefore determined: for every number of batches there is exactly one sequence of rows in which each is the exact solution one batch after the one before, and an integrator without error stores it. Without such a weight a solution need not exist: there is a mechanism, accepted by PyBox, whose concentrations run off to infinity in finite time.", "quantifier": "All mechanism texts with rates of the usual form and such a weight; all non-negative initial states, times of day, durations, numbers of batches, temperatures above 0 K, water vapour contents and parallel executions", "why_tests_cant": "A run shows numbers whether or not a solution exists, and existence is about every initial state and every length of time.", "anchors": ["ODE_solver.py: run_simulation, dydt_func", "f2py/ODE_solver.py: run_simulation, dydt_func", "Parse_eqn_file.py: write_rate_file_numba, write_reactants_indices, write_loss_gain_matrix, write_loss_gain_fortran"]}
{"id": "C86", "title": "Partitioning.f90 as written computes the physics of partitioning", "statement": "The file Partitioning.f90 that PyBox writes is accepted as Fortran, whatever the numbers of gases, components and bins, and a call of its subroutine with the arguments in the driver's order returns what the physics asks for, whatever the memory held before: the organic mass, the water activity and the radius of each bin, the growth of each component in each bin, the matching loss of each gas that condenses and nothing for other gases. The only scalars that the loop over bins assigns without making them private are index1, index2 and total_water_cond_mass.", "quantifier": "All numbers of gases, components and bins (with a sum below 10^20), lists of condensing gases, physical inputs, orders of the bins, contents of memory before the call and of the private copies", "why_tests_cant": "Tests compile one file for one mechanism and call it with one set of numbers; the text depends on the mechanism and the result must not depend on what undefined variables happen to hold.", "anchors": ["Parse_eqn_file.py: write_partitioning_section_fortran_ignore", "Aerosol/f2py/ODE_solver.py: dydt_func"]}
{"id": "C87", "title": "A quotient of integers in a rate means the same in both modules", "statement": "For a rate containing a quotient of two integer literals, a factor such as (1/2), the numba module and the Fortran module use the same value.", "quantifier": "All rate expressions e*(a/b) with a factor e of any form and integer literals a and b, all environments; whole mechanisms of such rates at all times, temperatures and compositions", "why_tests_cant": "Whether the two modules agree depends on the literals; a test of one literal says nothing about others, and the rates of the usual mechanisms mostly carry decimal points.", "anchors": ["rate_coeff_conversion.py:convert_rate_mcm_numba", "rate_coeff_conversion.py:convert_rate_mcm_fortran", "Parse_eqn_file.py: write_rate_file_numba", "Parse_eqn_file.py:write_rate_file_fortran"]}
{"id": "C88", "title": "The saved names file identifies every column of the saved concentrations", "statement": "Reading the file of names that is saved with the results gives, line by line, the species of each column of the saved matrix together with the number of the column: every species once, in column order, whatever characters its name contains.", "quantifier": "All mechanism files that parse; all lists of records of any characters for the CSV round trip", "why_tests_cant": "A test reads back the names of one mechanism; names with commas, quotes or line ends, and any number of species, are needed to see that no line is split, merged or shifted.", "anchors": ["ODE_solver.py:run_simulation", "f2py/ODE_solver.py:run_simulation"]}
{"id": "C89", "title": "Saved results survive later runs", "statement": "Results that a run has saved are still in the directory, unchanged, after any number of later runs that save under other names, even if those runs are killed.", "quantifier": "All file names, contents, directories and sequences of later runs, each stopped after any number of its steps", "why_tests_cant": "A test covers one sequence of runs; a result may be lost only after a particular later run or a kill at a particular step.", "anchors": ["ODE_solver.py:run_simulation", "f2py/ODE_solver.py:run_simulation", "Aerosol/f2py/ODE_solver.py:run_simulation", "Aerosol/f2py/Fixed_yield/ODE_solver_fixedyield.py:run_simulation", "Gas_simulation.py", "f2py/Gas_simulation_f2py.py", "Aerosol/f2py/Aerosol_simulation_f2py.py", "Aerosol/f2py/Fixed_yield/Aerosol_sim_fixed_yield.py"]}
{"id": "C90", "title": "The aerosol model computed by the generated Fortran files is the chemistry plus the exchange with the particles", "statement": "When the four Fortran files that the aerosol driver generates for a mechanism are compiled and its right-hand side is called at a non-negative state, the result is, for every species, gas and particles together, production minus loss at the time of day; water is only exchanged; each component of each particle grows by condensation at the radius that the call reports; and the attributes the call leaves behind (organic mass, radii, water activity, temperature, relative humidity) are the ones of the state.", "quantifier": "All mechanisms in MCM form, set-ups with any number of species, components and size bins, non-negative states, times, OpenMP options, orders of the parallel gas-phase loops and of the bins, and contents of memory before the call", "why_tests_cant": "A test compiles the files of one mechanism and compares one derivative; an index that is off, an array that is not cleared or an argument in the wrong place may show only for other sizes, states or memory contents.", "anchors": ["Aerosol/f2py/ODE_solver.py:dydt_func", "Aerosol/f2py/Aerosol_simulation_f2py.py:run_simulation", "Parse_eqn_file.py:write_rate_file_fortran", "Parse_eqn_file.py:write_reactants_indices_fortran", "Parse_eqn_file.py:write_loss_gain_fortran", "Parse_eqn_file.py:write_partitioning_section_fortran_ignore"]}
{"id": "C91", "title": "The aerosol models have exactly one solution to compute, whatever the threads do", "statement": "From every non-negative state the equations of the gas and particle model, and those of the fixed-yield model, have exactly one solution over any length of time; it stays non-negative, it is the same for every order in which the parallel loops work on reactions and size bins, and on [0,T] two solutions differ by at most a constant times their difference at the start. The rows of a run are therefore determined: for every number of batches there is exactly one sequence of rows in which each is the exact solution one batch after the one before, and an integrator without error stores it. For the gas and particle model this needs a positive weight of the species that no reaction increases.", "quantifier": "All yield files; all mechanism texts with rates of the usual form and such a weight; all set-ups with any number of species, components and size bins; all non-negative states, times of day, durations, numbers of batches, and orders of the parallel loops that may change at every call", "why_tests_cant": "A run shows numbers whether or not a solution exists, two runs with equal results say nothing about a third schedule, and existence is about every initial state and every length of time.", "anchors": ["Aerosol/f2py/ODE_solver.py:run_simulation", "Aerosol/f2py/ODE_solver.py:dydt_func", "Aerosol/f2py/Fixed_yield/ODE_solver_fixedyield.py:run_simulation", "Parse_eqn_file.py:write_partitioning_section_fortran_ignore"]}
{"id": "C92", "title": "Small errors of the integrator stay small in the results", "statement": "For runs of up to N batches from concentrations of up to A there is a constant C, which depends on the mechanism, the conditions, the batch length, N and A but not on the integrator, such that whenever the integrator's answer for every batch is non-negative and within delta of an exact solution from the state it was given, every stored row is within C times delta of the exact row, component by component, for every delta up to any fixed bound. So tightening the tolerance brings the whole output to the exact solution, for the gas-phase driver, the fixed-yield driver and the gas and particle driver, whatever order the parallel loops take.", "quantifier": "All mechanism texts with rates of the usual form and a weight that no reaction increases (all yield files for the fixed-yield model), all conditions, times of day, batch lengths, numbers of batches, bounds on the initial concentrations, integrators, and error sizes", "why_tests_cant": "A run compared with a finer run shows two numbers, not a bound that holds for every integrator, every error and every start; errors of one batch are the start of the next and could grow without limit.", "anchors": ["ODE_solver.py:run_simulation", "Aerosol/f2py/ODE_solver.py:run_simulation", "Aerosol/Fixed_yield/ODE_solver_fixedyield.py:run_simulation"]}
{"id": "C93", "title": "From the mechanism text to the output rows", "statement": "Take a mechanism as text, let Gas_simulation read it, write its three Python modules and import them, and run the batches with an integrator whose answer for every batch is within delta of an exact solution of the function it was given. Then there is one sequence of concentrations in which the first entry is the given mixing ratios times 2.55e10 molecules per cm3 (0 where none is given) and every later entry is reached from the one before it, in the time of one batch, by mass action with the rate coefficients as written in the mechanism (MCM constants, photolysis at the time of day, total peroxy radical). The concentration of every species in every output row is within C times delta of that sequence, where C does not depend on the integrator. If no rate depends on the sun, the sequence samples one solution over the whole simulation. The function handed to the integrator is itself the right-hand side of these equations, at the clock it is given.", "quantifier": "All mechanism texts with rates of the usual form, distinct reactants with whole-number coefficients and a weight that no reaction increases; all conditions, start times, batch lengths, numbers of batches, initial mixing ratios, integrators and error sizes", "why_tests_cant": "It ranges over all mechanisms and all integrators, and compares with exact solutions of differential equations, which no test can compute.", "anchors": ["Gas_simulation.py", "Parse_eqn_file.py", "ODE_solver.py:run_simulation"]}
{"id": "C94", "title": "From the mechanism text to the rows of the aerosol model", "statement": "Take a mechanism as text, let the aerosol driver read it, write its four Fortran files (rates, reactants, loss and gain, partitioning), compile them and run the batches with an integrator whose answer for every batch is within delta of an exact solution, of non-negative amounts, of the function it was given. Then there is exactly one sequence of states from the initial one in which every state is reached from the one before it, in the time of one batch, by mass action with the rate coefficients of the mechanism together with condensation onto particles of the size that their content implies, where what the particles gain the gas phase loses. Every output row is within C times delta of that sequence, where C depends on neither the integrator, nor the order in which the threads run the parallel loops, nor what the memory held before a call. The function handed to the integrator is itself the right-hand side of these equations, at the clock it is given.", "quantifier": "All mechanism texts with rates of the usual form, unit coefficients and a weight that no reaction increases; all molecule tables, size distributions, conditions, start times, batch lengths, numbers of batches, initial states, integrators, error sizes, thread orders and memory contents", "why_tests_cant": "It ranges over all mechanisms, integrators and schedules, and compares with exact solutions of differential equations, which no test can compute.", "anchors": ["Aerosol/f2py/Aerosol_simulation_f2py.py", "Aerosol/f2py/Parse_eqn_file.py", "Aerosol/f2py/ODE_solver.py:run_simulation"]}
{"id": "C95", "title": "Slightly negative concentrations do no harm", "statement": "Integrators return slightly negative concentrations, and the gas driver hands them back as the start of the next batch. Let the integrator be off by at most delta per batch, whatever the sign of its answers and of its starting point (as long as that is not below -eps). Then there is a bound D > 0 and a factor C such that for every delta below D all output rows are within C times delta of the exact concentrations that the mechanism leads to, which are not negative. The function handed to the integrator is itself the right-hand side of these equations, at the clock it is given.", "quantifier": "All mechanism texts with rates of the usual form and a weight that no reaction increases; all conditions, start times, batch lengths, numbers of batches, initial mixing ratios, eps > 0, and integrators with error below D", "why_tests_cant": "Whether small negative values are damped or amplified depends on the equations off the physical range; it must hold for every mechanism and every pattern of integrator errors, and is measured against exact solutions.", "anchors": ["Gas_simulation.py", "Parse_eqn_file.py", "ODE_solver.py:run_simulation"]}
{"id": "C96", "title": "The f2py gas driver, from the mechanism text to the rows, and next to the numba driver", "statement": "Give the f2py gas driver a mechanism text. Its three Fortran files, compiled as written, and an integrator off by at most delta per batch (its answers may be slightly negative) yield output rows within C times delta of the concentrations that the chemistry of the mechanism leads to, whatever the OpenMP threads do in each evaluation and whatever the output arrays held before, for all delta below some D > 0. The numba driver run on the same text, start and batches yields the same times, and rows that differ from those of the f2py driver by at most C times the two integrator errors. The function handed to the integrator is itself the right-hand side of these equations, at the clock it is given.", "quantifier": "All mechanism texts with unit coefficients, rates of the usual form and a weight that no reaction increases; all conditions, start times, batch lengths, numbers of batches, initial mixing ratios, OpenMP options, thread orders, memory contents, eps > 0 and integrators with error below D", "why_tests_cant": "Thread orders and uninitialised memory are not under the control of a test, mechanisms are unbounded, and closeness is to exact solutions; that the drivers agree on one mechanism says nothing about the next.", "anchors": ["f2py/Gas_simulation_f2py.py", "f2py/ODE_solver.py:run_simulation", "Parse_eqn_file.py", "Gas_simulation.py", "ODE_solver.py:run_simulation"]}
{"id": "C97", "title": "The fixed-yield driver, from the text of the yield file to the rows", "statement": "Give the fixed-yield aerosol driver the text of a yield file. The Partitioning.f90 it writes, compiled as written, and an integrator off by at most delta per batch yield output rows within C times delta of the states that condensation leads to from the starting state of the set-up, batch after batch: every component condenses in proportion to its excess over the equilibrium above the particles of each bin, and what the particles gain its gas phase loses. These states are the only ones. This holds whatever order the size bins are done in and whatever the memory held, in each evaluation. The function handed to the integrator is itself the right-hand side of these equations.", "quantifier": "All yield files with non-negative yields and sensible component properties; all temperatures, relative humidities below 1, seed distributions with any number of bins, batch lengths, numbers of batches, bin orders, memory contents and integrators with bounded error", "why_tests_cant": "Thread orders and uninitialised memory are not under the control of a test, yield files and bins are unbounded, and closeness is to exact solutions of a nonlinear system without closed form.", "anchors": ["Aerosol/f2py/Fixed_yield/Aerosol_sim_fixed_yield.py", "Aerosol/f2py/Fixed_yield/ODE_solver_fixedyield.py:run_simulation", "Parse_eqn_file.py:write_partitioning_section_fortran_ignore"]}
{"id": "C98", "title": "The stored SOA mass and particle sizes describe the stored rows as well as the integrator's last evaluation does", "statement": "Run the fixed-yield driver or the aerosol driver with the Fortran files it writes, compiled as written. If the state the integrator evaluates last in each batch has no negative concentrations and is within eps of the state it returns, then row j of the stored SOA mass is within K times eps of the organic mass of row j of the stored states, and the volume of the particles of each bin with the stored radius is within K times eps of that of row j. K depends only on the components and the number of bins. If the last evaluation is at the returned state, mass and radii are exact.", "quantifier": "All yield files and mechanisms in the MCM style, component properties, temperatures, seed distributions, numbers of bins, thread orders, memory contents, integrators, batch lengths, numbers of batches and rows", "why_tests_cant": "Where an integrator evaluates last depends on its step control; mechanisms, bins and thread orders are unbounded.", "anchors": ["Aerosol/f2py/Fixed_yield/ODE_solver_fixedyield.py:run_simulation", "Aerosol/f2py/ODE_solver.py:dydt_func, run_simulation", "Parse_eqn_file.py:write_partitioning_section_fortran_ignore"]}
{"id": "C99", "title": "The stored SOA mass and particle sizes are close to those of the exact solution", "statement": "Run the fixed-yield driver from the text of a yield file, or the aerosol driver from the text of a mechanism, with the Fortran files it writes, compiled as written. If the integrator is off by at most delta per batch and its last evaluation of each batch is within eps of its answer, then the SOA mass of row j, and the particle volume of each bin with the stored radius, are within K times eps plus C times delta of those of the exact state after j+1 batches, which is unique. K depends only on the components and the bins, C also on the bounds of the run, neither on the integrator.", "quantifier": "All yield files and mechanisms in the MCM style, component properties, temperatures, seed distributions, numbers of bins, thread orders, memory contents, integrators with bounded error, batch lengths, numbers of batches and rows", "why_tests_cant": "Closeness is to exact solutions of a nonlinear system without closed form, for all mechanisms, bins, thread orders and integrators.", "anchors": ["Aerosol/f2py/Fixed_yield/ODE_solver_fixedyield.py:run_simulation", "Aerosol/f2py/ODE_solver.py:dydt_func, run_simulation", "Parse_eqn_file.py:write_partitioning_section_fortran_ignore"]}
