{"id": "C01", "title": "Thread-specific storage behaves like one private map per thread", "statement": "After any sequence of key-create, set, get and cleanup calls by any threads, a get of a created key by a thread returns exactly the value that thread last set for that key and has not since cleaned up (NULL if none), and no operation on another key or by another thread changes it.", "quantifier": "every finite history of calls, every interleaving of threads, every key and value", "why_tests_cant": "the set of histories and interleavings is unbounded", "anchors": ["sources/mthread.c: MTHREAD_KEY_CREATE, MTHREAD_SETSPECIFIC, MTHREAD_GETSPECIFIC, MTHREAD_CLEANUPSPECIFIC"]}
{"id": "C02", "title": "A created key stays valid and is never handed out twice", "statement": "Key creation returns a key never returned before, fails with EAGAIN exactly when 512 keys exist, and once created a key remains usable (set succeeds) whatever sets to NULL and cleanups follow; the destructor registered for a key runs exactly once on each value present at cleanup and on no other value.", "quantifier": "every finite history of calls", "why_tests_cant": "histories are unbounded; key reuse only shows after long ones", "anchors": ["sources/mthread.c: MTHREAD_KEY_CREATE, MTHREAD_CLEANUPSPECIFIC"]}
{"id": "C03", "title": "Reading an out-of-range thread key is memory safe", "statement": "A get with a key outside the key table returns NULL without touching memory outside the table.", "quantifier": "every key value", "why_tests_cant": "out-of-bounds reads usually return something plausible in a test", "anchors": ["sources/mthread.c: MTHREAD_GETSPECIFIC"]}
{"id": "C04", "title": "Formula strings are parsed into the right stoichiometry", "statement": "For every chemical formula written as element symbols with optional decimal counts and one level of parenthesised groups with a multiplier, the parser returns for each element the sum over its occurrences of count times group multiplier.", "quantifier": "every well-formed formula, of any length", "why_tests_cant": "infinitely many formulas", "anchors": ["sources/melts_support.c: formulaToMwStoich"]}
{"id": "C05", "title": "Molecular weight equals stoichiometry times atomic weights", "statement": "Whenever the parser succeeds the molecular weight returned is the sum over elements of returned stoichiometry times atomic weight.", "quantifier": "every input string the parser accepts", "why_tests_cant": "infinitely many strings", "anchors": ["sources/melts_support.c: formulaToMwStoich"]}
{"id": "C06", "title": "Malformed formulas are rejected, not misread", "statement": "A string that is not a well-formed formula yields the failure value 0 and never a plausible weight or an out-of-bounds write.", "quantifier": "every string", "why_tests_cant": "infinitely many strings", "anchors": ["sources/melts_support.c: formulaToMwStoich"]}
{"id": "C07", "title": "Oxygen-buffer derivatives are the derivatives of the buffer curve", "statement": "For each oxygen buffer, at every T>0 and P, the functions returning d/dT, d/dP, d2/dT2 and d2/dP2 of log10 fO2 return the true partial derivatives of the value returned by the log10 fO2 function.", "quantifier": "all temperatures > 0 K, all pressures, all 20 buffer codes, all offsets", "why_tests_cant": "a continuum of inputs; numerical tests sample points and miss one-sided pressure ranges", "anchors": ["sources/gibbs.c: getlog10fo2, getdlog10fo2dt, getdlog10fo2dp, getd2log10fo2dt2, getd2log10fo2dp2"]}
{"id": "C08", "title": "Buffer offsets shift log fO2 by exactly the offset", "statement": "Selecting QFM+n (or a buffer with user offset d) gives at every T and P exactly the value of plain QFM (buffer with zero offset) plus n (plus d).", "quantifier": "all T, P, offsets", "why_tests_cant": "continuum", "anchors": ["sources/gibbs.c: getlog10fo2"]}
{"id": "C09", "title": "Solid Berman equation of state is thermodynamically consistent", "statement": "The volume, entropy, enthalpy, heat capacity and their T and P derivatives returned for a solid phase with the Berman EOS satisfy V=dG/dP, S=-dG/dT, H=G+TS, Cp=T dS/dT, and the returned dV/dT, dV/dP and second derivatives are those of V.", "quantifier": "all T>0, P, and all coefficient values", "why_tests_cant": "continuum; tests with tolerances miss consistent small terms", "anchors": ["sources/gibbs.c: intEOSsolid (EOS_BERMAN)"]}
{"id": "C10", "title": "Solid Vinet equation of state is thermodynamically consistent", "statement": "Same for the Vinet EOS, for any root the solver returns.", "quantifier": "all T>0, P, all coefficients with K0,K' valid and any root x of the EOS", "why_tests_cant": "continuum and an implicit solve", "anchors": ["sources/gibbs.c: intEOSsolid (EOS_VINET)"]}
{"id": "C11", "title": "Liquid equation of state (Kress) is thermodynamically consistent", "statement": "The volume returned for a liquid component is the pressure derivative of the free energy returned, S=-dG/dT, H=G+TS and the returned volume derivatives are those of the volume.", "quantifier": "all T>0, P, coefficients", "why_tests_cant": "continuum; violation is a constant of order 1e-9", "anchors": ["sources/gibbs.c: gibbs (liquid EOS_KRESS branch)"]}
{"id": "C12", "title": "Reference-state thermodynamics of solids are consistent in T", "statement": "For standard-state Cp models (Berman, Saxena, metals) the entropy and enthalpy are the T-integrals of Cp/T and Cp, dCp/dT is the derivative of Cp, and G=H-TS.", "quantifier": "all T>0 and all coefficients", "why_tests_cant": "continuum", "anchors": ["sources/gibbs.c: gibbs, fe_metal, ni_metal, fe_liquid, ni_liquid"]}
{"id": "C13", "title": "Landau/Holland-Powell contributions are consistent", "statement": "Volume derivatives returned by the Holland-Powell routine are the derivatives of the volume it returns.", "quantifier": "all T, P, coefficients", "why_tests_cant": "continuum", "anchors": ["sources/gibbs.c: HPproperties"]}
{"id": "C14", "title": "Solution-model derivatives are exact", "statement": "For a solid solution, the gradient, Hessian and third-derivative expressions of the free energy of mixing with respect to composition, temperature and pressure are the true derivatives of the free energy expression, on the open composition domain.", "quantifier": "all compositions in the open domain, all T>0, P", "why_tests_cant": "continuum with singular boundary; thousands of hand-written terms", "anchors": ["sources/feldspar.c: G, DGDR*, D2G*, D3G* and actFld, gmixFld, smixFld, vmixFld, cpmixFld"]}
{"id": "C15", "title": "End-member activities obey Euler and Gibbs-Duhem", "statement": "The mole-fraction-weighted sum of the returned end-member chemical potentials equals the returned molar free energy of mixing, and along any composition path the weighted sum of their changes is zero.", "quantifier": "all compositions, T, P", "why_tests_cant": "continuum", "anchors": ["sources/feldspar.c: actFld, gmixFld"]}
{"id": "C16", "title": "Composition conversions round-trip and are scale invariant", "statement": "Converting end-member moles to independent compositional variables and to mole fractions recovers the mole fractions, does not depend on the total amount, and the returned derivative matrices are the derivatives of that conversion.", "quantifier": "all mole vectors with positive total", "why_tests_cant": "continuum", "anchors": ["sources/feldspar.c: conFld", "conXxx in every solution-phase source file"]}
{"id": "C17", "title": "Adding a coexisting phase conserves every component", "statement": "Introducing a newly saturated solid, a second immiscible liquid or a second instance of a solid leaves the total amount of every liquid component in the system exactly unchanged.", "quantifier": "all states, all phases, all compositions", "why_tests_cant": "continuum and all phase assemblages", "anchors": ["sources/silmin.c: ADD_PHASE", "sources/check_coexisting_liquids.c: checkForCoexistingLiquids", "sources/check_coexisting_solids.c: checkForCoexistingSolids"]}
{"id": "C18", "title": "Dropping a phase conserves every component", "statement": "Removing an exhausted solid or liquid transfers all of its components to another phase, so system totals are unchanged.", "quantifier": "all states, any number of coexisting phases", "why_tests_cant": "depends on number of coexisting liquids; needs every state", "anchors": ["sources/silmin.c: DROP_PHASE"]}
{"id": "C19", "title": "Fractionation moves, never creates or destroys, matter", "statement": "Fractionating solids removes from the system exactly what it adds to the fractionated store, leaves at most the residual amount in each fractionated phase, and never touches a phase below the threshold; bulk composition falls by exactly the removed oxides.", "quantifier": "all states", "why_tests_cant": "continuum", "anchors": ["sources/silmin.c: UPDATE_SYSTEM fractionation"]}
{"id": "C20", "title": "Assimilation adds exactly the assimilant", "statement": "One assimilation step adds exactly the assimilant's oxides to the bulk composition and the same matter to the phases, so that phase totals still sum to the bulk.", "quantifier": "all states and assimilants, with and without liquid", "why_tests_cant": "continuum and branch combinations", "anchors": ["sources/silmin.c: UPDATE_SYSTEM assimilation", "src/melts_interface.cpp: AssimilateSetComposition"]}
{"id": "C21", "title": "Temperature/pressure paths terminate at the requested end", "statement": "A run from start to stop temperature with a positive increment visits finitely many states, each strictly between or at the ends and equally spaced, never passes the stop value, and ends; the direction matches the requested end points.", "quantifier": "all start, stop and increment values", "why_tests_cant": "unbounded loops over a continuum of parameters", "anchors": ["sources/silmin.c: UPDATE_SYSTEM temperature and pressure update"]}
{"id": "C22", "title": "Number of equilibrations per call matches the requested steps", "statement": "With n requested steps the equilibration call performs n+1 equilibrations if none fails, applies the increments exactly n times, stores one result per new step, and stops at the first failure reporting it.", "quantifier": "all step counts, all behaviours of the equilibrium solver, all earlier runs (stop requests: see C58)", "why_tests_cant": "the solver's behaviours are unbounded", "anchors": ["src/melts_interface.cpp: Equilibrate, SetIncrements, SetCalcSteps, StopEquilibration"]}
{"id": "C23", "title": "A saved input file reloads to the same run settings", "statement": "Writing the current settings to a .melts file and loading it restores composition, temperature, pressure, increments, oxygen buffer and offset, suppressed phases and modes.", "quantifier": "all settings whose numbers are on the printed decimal grid, all titles, all prior interface states", "why_tests_cant": "all combinations of settings and numbers", "anchors": ["src/melts_interface.cpp: SaveMeltsInputData, LoadFromFile"]}
{"id": "C24", "title": "A saved oxygen buffer with built-in offset reloads to the same fO2", "statement": "Saving with buffer QFM+n and loading gives the same log fO2 at every T and P.", "quantifier": "all buffer codes and offsets", "why_tests_cant": "all codes x offsets x T,P", "anchors": ["src/melts_interface.cpp: SaveMeltsInputData, LoadFromFile"]}
{"id": "C25", "title": "Saved assimilants reload with the same masses", "statement": "Writing assimilants and loading restores each phase mass, the liquid assimilant and the total assimilant mass.", "quantifier": "all assimilant sets", "why_tests_cant": "all combinations", "anchors": ["src/melts_interface.cpp: SaveMeltsInputData, LoadFromFile, AddAssimilant"]}
{"id": "C26", "title": "Loading a file does not depend on what was loaded before", "statement": "The settings after a load are a function of the file only.", "quantifier": "all prior states and files", "why_tests_cant": "all histories", "anchors": ["src/melts_interface.cpp: LoadFromFile, CreateSilminState"]}
{"id": "C27", "title": "Every exported number sits under its own column heading", "statement": "In the exported System sheet every data cell is in the column whose heading names it, and no two quantities share a column.", "quantifier": "all sets of phases present, fractionated and assimilated, liquid fractionated or not", "why_tests_cant": "exponentially many phase sets", "anchors": ["src/xlsx_writer.cpp: WriteToFile"]}
{"id": "C28", "title": "Householder transformations are orthogonal and annihilate", "statement": "Constructing and applying a Householder transformation preserves Euclidean norms, applying it twice restores the vector, and it zeroes the designated entries of its pivot vector.", "quantifier": "all vector lengths, pivots and contents", "why_tests_cant": "continuum, all sizes", "anchors": ["sources/lawson_hanson.c: householderRowRow, householderColCol, householderRowCol, householderColRow"]}
{"id": "C29", "title": "Cholesky factor and solve are correct", "statement": "When the modified Cholesky routine succeeds its factor times its transpose is the input matrix, and the back-substitution solves the linear system.", "quantifier": "all sizes and matrices", "why_tests_cant": "all sizes", "anchors": ["sources/nash.c: Choldcmp, Cholback"]}
{"id": "C30", "title": "The row-packing LU wrapper solves the original system", "statement": "Solving a system with null rows/columns through the packing wrapper yields a vector satisfying the original equations, with the permutation returned being the one applied.", "quantifier": "all sizes, null patterns and permutations", "why_tests_cant": "all sizes", "anchors": ["sources/melts_linalg.c"]}
{"id": "C31", "title": "The variable-metric minimiser never returns a worse point", "statement": "The function value at the point returned is no larger than at the starting point, and every accepted step satisfies the sufficient-decrease test.", "quantifier": "all objective functions (oracles), all start points, all iteration counts", "why_tests_cant": "objective is arbitrary", "anchors": ["sources/nash.c: vmmin, min1d"]}
{"id": "C32", "title": "Rational approximation is within the stated tolerance", "statement": "When the continued-fraction routine reports success the returned fraction is in lowest terms... and differs from the input by at most the requested error.", "quantifier": "all reals and tolerances", "why_tests_cant": "continuum", "anchors": ["sources/frac.c: frac"]}
{"id": "C33", "title": "Library node table is a faithful map", "statement": "Creating/looking up calculation nodes by index returns the same node for the same index and distinct nodes for distinct indices, for any call order.", "quantifier": "all sequences of node indices", "why_tests_cant": "histories unbounded", "anchors": ["sources/library.c: meltsprocess_ node list"]}
{"id": "C34", "title": "System property totals are sums over phases", "statement": "The system row of the property table returned by the process call equals, property by property, the sum of the phase rows.", "quantifier": "all assemblages", "why_tests_cant": "all assemblages", "anchors": ["sources/library.c: meltsprocess_"]}
{"id": "C35", "title": "System-property strings set exactly the named property", "statement": "Each documented property string sets the property it names and no other, and unknown strings change nothing.", "quantifier": "all strings", "why_tests_cant": "all strings", "anchors": ["sources/library.c: meltssetsystemproperty_"]}
{"id": "C36", "title": "Bulk composition supplied to the library is the composition equilibrated", "statement": "After a process call in any mode the phases' total oxides equal the composition supplied.", "quantifier": "all states and compositions", "why_tests_cant": "all histories", "anchors": ["sources/library.c: meltsprocess_"]}
{"id": "C37", "title": "A copy of the system state is equal and independent", "statement": "Copying a state yields a state with the same observable content, and later changes to one do not affect the other.", "quantifier": "all states incl. number of coexisting liquids", "why_tests_cant": "all states", "anchors": ["sources/silmin_support.c: copySilminStateStructure"]}
{"id": "C38", "title": "Saving an input file never overwrites an existing one", "statement": "Whatever files already exist, saving picks, after finitely many attempts, a file name made of the run title plus an optional number, and no file of that name exists.", "quantifier": "every run title and every finite set of existing files", "why_tests_cant": "a test tries a few directory contents; the claim is about every set of existing files, including adversarially numbered ones", "anchors": ["src/melts_interface.cpp: MeltsInterface::SaveMeltsInputData"]}
{"id": "C39", "title": "Loading any text file never aborts the program", "statement": "For every text the load returns normally (success or a reported failure); no file content makes the program terminate.", "quantifier": "every byte string as file content", "why_tests_cant": "the set of files is unbounded and the failing ones are odd corner cases", "anchors": ["src/melts_interface.cpp: MeltsInterface::LoadFromFile"]}
{"id": "C40", "title": "Free energy is continuous through phase transitions", "statement": "The standard-state free energy returned for a phase is a continuous function of temperature, including at the temperature of a lambda, Landau or glass transition of that phase.", "quantifier": "every phase with a transition, every pressure, every temperature > 0", "why_tests_cant": "continuity quantifies over all neighbourhoods of the transition temperature and all parameter sets; a sampled test misses a jump that is small against the total", "anchors": ["sources/gibbs.c: gibbs (2475-2519)", "sources/gibbs.c: HPproperties (708-843)"]}
{"id": "C41", "title": "With a liquid present, a new phase takes exactly what it holds", "statement": "When a liquid is present, introducing a saturated solid, a second liquid or a second instance of a solid leaves the total of every liquid component, of every oxide and the bulk composition exactly unchanged; the new solid holds a positive amount of at most the trial amount, and no other phase count changes.", "quantifier": "all tables, states, phases, trial compositions, and answers of the feasibility test", "why_tests_cant": "continuum of states; the halving loop can stop at any round", "anchors": ["sources/silmin.c: ADD_PHASE", "sources/check_coexisting_liquids.c", "sources/check_coexisting_solids.c"]}
{"id": "C42", "title": "With a liquid present, dropping exhausted phases loses nothing", "statement": "When a liquid is present, dropping exhausted solids (any number, any number of instances) and, with one or two liquids, exhausted liquids leaves system totals unchanged, removes exactly the exhausted instances, and on an oxygen fugacity path keeps phases and bulk in step.", "quantifier": "all tables, states with any number of solid instances, all redox routines", "why_tests_cant": "unbounded number of instances and compaction orders", "anchors": ["sources/silmin.c: DROP_PHASE"]}
{"id": "C43", "title": "Fractionation accounts for every mole", "statement": "Fractionating solids or liquids moves matter to the fractionated store so that phases plus store, bulk plus store, reported fractionated mass and the oxygen account all balance; each fractionated phase keeps the residual amount in its old proportions and phases below the threshold or excluded by kind are untouched. Clearing traces afterwards does nothing unless an oxide other than Fe2O3 is present in a trace amount.", "quantifier": "all tables, states, selections", "why_tests_cant": "continuum of states, unbounded instances", "anchors": ["sources/silmin.c: UPDATE_SYSTEM"]}
{"id": "C44", "title": "Assimilation adds exactly the assimilant", "statement": "One assimilation step adds exactly the oxides of the assimilant to the bulk composition and exactly the same oxides to the phases, with or without liquid.", "quantifier": "all tables, states, assimilants and fractions", "why_tests_cant": "continuum of states", "anchors": ["src/melts_interface.cpp: AssimilateSetComposition", "sources/silmin.c: UPDATE_SYSTEM assimilation"]}
{"id": "C45", "title": "A whole run stays mass balanced", "statement": "Starting from a balanced system with liquid, any sequence of adding, splitting and dropping phases, redox corrections, fractionation and assimilation, in any order and number, leaves the phases summing to the bulk composition for every oxide.", "quantifier": "all finite sequences of operations and all their parameters", "why_tests_cant": "unbounded histories", "anchors": ["sources/silmin.c", "src/melts_interface.cpp"]}
{"id": "C46", "title": "Conversion tables agree with the chemical formulas", "statement": "In each of the four model variants the tables converting solids and liquid components to oxides, oxides to liquid components and solids to liquid components conserve every chemical element; converting a solid to oxides directly or through liquid components gives the same result; oxides converted to liquid components and back are unchanged; the weight of a solid equals the weight of its oxides.", "quantifier": "all phases and components of the four shipped tables, all amounts", "why_tests_cant": "linear maps over all compositions; the tables are computed at run time by a solver", "anchors": ["sources/melts_support.c: InitComputeDataStruct"]}
{"id": "C47", "title": "The least-squares solver returns shortest least-squares solutions", "statement": "For a matrix with at least as many rows as columns and a tolerance tau >= 0 the solver returns, for every right-hand side, the shortest least-squares solution of a system whose matrix has every column within tau of the one passed in (exactly that matrix if the reported pseudorank is full), with the length of the residual.", "quantifier": "all sizes m >= n, all matrices of any rank, all right-hand sides and tolerances", "why_tests_cant": "holds for every matrix and rank, including the pivoting order", "anchors": ["sources/lawson_hanson.c: hfti"]}
{"id": "C48", "title": "Every quadratic step satisfies the equality constraints and is stationary on them", "statement": "For linearly independent equality constraints the solution vector reassembled after the projected least-squares problem satisfies every constraint, whatever the Hessian and its rank; if the projected system has full rank it is a stationary point of the quadratic on the constraint set, and a minimum if the quadratic is convex.", "quantifier": "all numbers of unknowns and constraints, all constraint matrices, Hessians, gradients and tolerances", "why_tests_cant": "all sizes and coefficients", "anchors": ["sources/equality_constraints.c: getEqualityConstraints (decomposition)", "sources/gradient_hessian.c: getProjGradientAndHessian (projection)", "sources/silmin.c: SOLVE_QUADRATIC, REASSEMBLE_SOLUTION"]}
{"id": "C49", "title": "The Lagrange multipliers reproduce the gradient", "statement": "When the gradient is a combination of the constraints, the multipliers computed for the nonlinear constraints are its coefficients.", "quantifier": "all sizes, constraints and gradients", "why_tests_cant": "all sizes and coefficients; the error does not show with one constraint", "anchors": ["sources/gradient_hessian.c: getProjGradientAndHessian (Lagrange multipliers)"]}
{"id": "C50", "title": "The Marquardt fit returns next to a point no worse than the start", "statement": "For computable starting residuals the fit always returns within the allowed evaluations; the minimum it reports is the sum of squares at a point no worse than the start, the point returned on success is within the tolerance of that point, and the difference solves the damped normal equations there.", "quantifier": "all residual and Jacobian functions, sizes, tolerances, iteration limits and starts", "why_tests_cant": "arbitrary callbacks and iteration histories; includes that the damped matrix is never singular", "anchors": ["sources/nash.c: modmrt, Choldcmp, Cholback", "sources/est_saturation_state.c: getAffinityAndComposition"]}
{"id": "C51", "title": "A minimisation started at a stationary point reports success", "statement": "When the gradient vanishes at the starting point the variable-metric minimiser returns that point with a success status.", "quantifier": "all functions, sizes and tolerances", "why_tests_cant": "all functions", "anchors": ["sources/nash.c: vmmin"]}
{"id": "C52", "title": "The line search leaves the system at the step it returns", "statement": "Whenever the one-dimensional search returns normally or because its evaluations ran out, the minimum value is set and the last evaluation of the potential was at the step length returned.", "quantifier": "all functions, steps, tolerances and limits", "why_tests_cant": "all functions and histories", "anchors": ["sources/nash.c: min1d", "sources/silmin.c: LINEAR_SEARCH"]}
{"id": "C53", "title": "Rational approximation returns a fraction in lowest terms", "statement": "For accepted arguments and a positive error the routine returns; the fraction is in lowest terms with positive denominator and its relative error is at most one and a half times the requested error; other arguments are rejected and leave the outputs unchanged.", "quantifier": "all numbers and errors", "why_tests_cant": "all real inputs, unbounded number of continued-fraction steps", "anchors": ["sources/frac.c: frac"]}
{"id": "C54", "title": "Library nodes are a faithful map when indices are close", "statement": "As long as no two node indices are 2^31 or more apart (for example all are non-negative), looking up an index returns the node made when that index was first used, and distinct indices get distinct nodes, whatever the order of calls.", "quantifier": "all sequences of node indices with pairwise differences below 2^31, all correct sorting and searching library routines", "why_tests_cant": "call histories are unbounded", "anchors": ["sources/library.c: compareNodes, meltsprocess_"]}
{"id": "C55", "title": "Reported phases add up", "statement": "The oxide masses the process call reports for the phases sum to those it reports for the system, the reported volume fractions sum to one, and each reported density is the phase's mass over its volume.", "quantifier": "all assemblages of liquids, solution phases with any number of instances, and pure phases", "why_tests_cant": "all assemblages", "anchors": ["sources/library.c: meltsprocess_, meltsgetoxide"]}
{"id": "C56", "title": "The process call writes only the caller's phase columns", "statement": "The process call changes only the columns of the caller's property array that belong to the reported phases; everything else in the array keeps its value.", "quantifier": "all assemblages and all initial array contents", "why_tests_cant": "out-of-range writes depend on array contents and sizes", "anchors": ["sources/library.c: meltsprocess_ (volume fraction loop)"]}
{"id": "C57", "title": "Supported property strings set what they name", "statement": "A supported property string for an oxygen buffer, a calculation mode or the suppression of a phase sets exactly that, whatever its capitalisation, and a text that starts like no keyword changes nothing.", "quantifier": "all capitalisations of the supported strings, all texts that start like no keyword, all states", "why_tests_cant": "all strings and states", "anchors": ["sources/library.c: meltssetsystemproperty_, setMeltsSystemProperties"]}
{"id": "C58", "title": "A stop request ends the calculation soon", "statement": "After StopEquilibration returns, the calculation in progress makes at most one more solver call and applies at most one more increment, and then returns, whenever the request arrives.", "quantifier": "all interleavings of the stop request with the calculating thread, all step counts, all solver behaviours", "why_tests_cant": "the request can arrive between any two machine steps of the calculation", "anchors": ["src/melts_interface.cpp: StopEquilibration, Equilibrate", "include/melts_interface.hpp: m_SilminEnd, m_CalcStepsRemaining"]}
{"id": "C59", "title": "A stop request never crashes the program", "statement": "StopEquilibration can be called at any time by another thread without undefined behaviour.", "quantifier": "all times relative to the run", "why_tests_cant": "depends on the schedule", "anchors": ["src/melts_interface.cpp: StopEquilibration 788-793, Equilibrate 829-845"]}
{"id": "C60", "title": "Constraints asked for are the constraints used and kept", "statement": "When an equilibration succeeds, the constant-enthalpy, -entropy and -volume switches are as the user set them, and the oxygen buffer is the one set or has been released because it could not be imposed; this holds in every session, also after an earlier run failed or was stopped.", "quantifier": "all sequences of solver calls, all numerical outcomes, all earlier runs", "why_tests_cant": "the solver switches the flags temporarily in three stages and keeps its place in static variables across runs", "anchors": ["sources/silmin.c: silmin 371-2203 (curStage, fo2PathOld)"]}
{"id": "C61", "title": "A reported result passed the saturation check, once per step", "statement": "A result is made available only directly after a saturation check that found no phase to add and none to split, and it is the state that check examined; a run of n steps that succeeds stores one result per step, and one more if it is the first run, whatever the solver meets.", "quantifier": "all call sequences and numerical outcomes, all step counts and increments", "why_tests_cant": "the number and order of solver steps is unbounded", "anchors": ["sources/silmin.c: VERIFY_SATURATION, OUTPUT_RESULTS, UPDATE_SYSTEM", "src/melts_interface.cpp: Equilibrate"]}
{"id": "C62", "title": "Each minimisation ends", "statement": "Between two saturation checks the solver makes at most 2856*(number of phases present + 1) calls, whatever the numerical outcomes, before it has converged or reports failure; and the table of past potentials is never indexed outside its bounds.", "quantifier": "all numerical outcomes (answer streams), all starting states", "why_tests_cant": "requires a termination measure over all outcome sequences", "anchors": ["sources/silmin.c: PROJECT_CONSTRAINTS .. DROP_PHASE, ITERMX, pTotalHistory"]}
{"id": "C63", "title": "A result's thermodynamic tables belong to its temperature and pressure", "statement": "Whenever a result is made available, the end-member properties used for it were evaluated at the temperature and pressure it reports.", "quantifier": "all sessions: runs, stops, changes of temperature and pressure, all numerical outcomes", "why_tests_cant": "depends on where a run was stopped and on which iterate is put back", "anchors": ["sources/silmin.c: CHANGE_TP 505-528, REASSEMBLE_SOLUTION 1157-1186, LINEAR_SEARCH 1312-1378", "src/melts_interface.cpp: Equilibrate, SetInitialTP"]}
{"id": "C64", "title": "Success at constant enthalpy means a converged minimisation with the enthalpy imposed", "statement": "If a run at constant enthalpy (entropy, volume) succeeds, then a minimisation in which that constraint was imposed met a convergence criterion; a minimisation that never converges is never reported as converged.", "quantifier": "all numerical outcomes", "why_tests_cant": "depends on the order of convergence events over three stages", "anchors": ["sources/silmin.c: REASSEMBLE_SOLUTION 1025-1236 (acceptable, bestState, curStage)"]}
{"id": "C65", "title": "Imposing an enthalpy, entropy or volume finds the temperature or pressure that has it", "statement": "After the reference enthalpy (volume) has been changed, the correction ends after at most fifty evaluations, and if the heat capacity (compressibility) varies by at most a factor 1+q, the temperature (pressure) left behind has the reference value to q times the stated tolerance or q^50 times the initial error; with constant heat capacity it has it exactly.", "quantifier": "all reference values, starting temperatures and heat capacity functions", "why_tests_cant": "convergence of an iteration for a continuum of functions and starting points", "anchors": ["sources/silmin_support.c: correctTforChangeInEnthalpy, correctTforChangeInEntropy, correctPforChangeInVolume"]}
{"id": "C66", "title": "Assimilation in portions adds the requested mass", "statement": "Assimilating a mass in n portions adds n equal portions and then stops, whatever else the run does; in machine arithmetic the number of portions added is also n.", "quantifier": "all masses, numbers of portions and runs", "why_tests_cant": "all runs; rounding depends on the number of portions", "anchors": ["sources/silmin.c: UPDATE_SYSTEM assimilation"]}
{"id": "C67", "title": "Increments of the graphical driver are applied once per step", "statement": "With increments of T and P the k-th equilibration is at T0+k*dT, P0+k*dP; with increments of enthalpy, entropy or volume the k-th is at reference value + k increments.", "quantifier": "all increments, starting states and behaviours of the solver between steps", "why_tests_cant": "all histories of steps", "anchors": ["src/melts_interface.cpp: SetIncrements"]}
{"id": "C68", "title": "The Liquid sheet of the export is exact", "statement": "The exported Liquid sheet holds, for every step, the mass and composition of the liquid, of the aggregate fractionated liquid (if any step fractionated liquid) and of the liquid assimilant (if any), each table under its own headings and beside the others, and nothing else.", "quantifier": "all histories of steps, with or without liquid, fractionated liquid and liquid assimilant", "why_tests_cant": "table positions depend on which kinds of liquid occur in any step", "anchors": ["src/xlsx_writer.cpp: WriteToFile"]}
{"id": "C69", "title": "The Phases sheet of the export is exact", "statement": "The exported Phases sheet lists, for every step, label, mass and formula of each phase in equilibrium, each phase in the cumulate and each assimilated phase, in three tables that do not overlap.", "quantifier": "all histories of steps and all numbers of phases", "why_tests_cant": "the position of a table depends on the widths of the ones before it over all steps", "anchors": ["src/xlsx_writer.cpp: WriteToFile"]}
{"id": "C70", "title": "The totals in every result are the sums over the listed phases", "statement": "In the result record of a step, mass, Gibbs energy, enthalpy, entropy, volume and heat capacity of the solids, of the system without and of the system with fractionated matter are the sums over the phases listed in the record; the total density is total mass over total volume; there is exactly one entry per liquid and per instance of a solid, in order, with mass, properties, composition or end-member percentages of what the state holds.", "quantifier": "all states, any number of liquids, solids, instances and fractionated phases, all thermodynamic tables", "why_tests_cant": "all assemblages", "anchors": ["include/melts_interface.hpp: SilminData::FillStructure"]}
{"id": "C71", "title": "The density reported for a phase is its mass over its volume", "statement": "For every phase in the result record the density equals mass divided by volume.", "quantifier": "all liquids, solids and fractionated phases of all states", "why_tests_cant": "all compositions", "anchors": ["include/melts_interface.hpp: SilminData::FillStructure"]}
{"id": "C72", "title": "The reported system mass is the mass of the bulk composition", "statement": "If the phases add up to the bulk composition (C45), the mass of the system in the result record is the sum of the grams of oxides in the same record.", "quantifier": "all balanced states, all four model variants with the tables computed at start-up", "why_tests_cant": "all states; depends on 300 formulas agreeing with each other", "anchors": ["include/melts_interface.hpp: SilminData::FillStructure", "sources/melts_support.c: InitComputeDataStruct"]}
{"id": "C73", "title": "Every result accounts for all matter fractionated so far", "statement": "The mass of the whole system in a result is the mass of the phases in equilibrium plus the mass of everything fractionated since the run began.", "quantifier": "all states and histories of the fractionation switches", "why_tests_cant": "depends on hidden static variables and the history of settings", "anchors": ["include/melts_interface.hpp: SilminData::FillStructure"]}
{"id": "C74", "title": "A result depends only on the state of the system", "statement": "Two states that agree in every allocated number give the same result record.", "quantifier": "all states, all contents of memory next to them", "why_tests_cant": "depends on what lies behind an array", "anchors": ["include/melts_interface.hpp: SilminData::FillStructure"]}
{"id": "C75", "title": "Setting the oxidation state of a liquid conserves matter", "statement": "Redistributing the iron of a liquid at a given temperature, pressure and oxygen fugacity leaves every other oxide and the total iron as they were, and a liquid with iron ends with both ferrous and ferric iron in the ratio that the calibration gives.", "quantifier": "all compositions, temperatures, pressures and fugacities", "why_tests_cant": "an identity in real variables over all compositions", "anchors": ["sources/liquid_v34.c: conLiq_v34", "sources/liquid_CO2.c: conLiq_CO2", "sources/liquid_CO2_H2O.c: conLiq_CO2_H2O", "sources/liquid.c: conLiq"]}
{"id": "C76", "title": "Oxygen fugacity and oxidation state are inverse to each other", "statement": "The fugacity computed from a liquid that was set to a fugacity is that fugacity; setting a liquid to its own fugacity changes nothing; setting twice is setting once; a higher fugacity gives more ferric iron.", "quantifier": "all compositions with iron, temperatures, pressures and fugacities", "why_tests_cant": "an identity in real variables over all compositions", "anchors": ["sources/liquid_v34.c: conLiq_v34", "sources/liquid_CO2.c: conLiq_CO2", "sources/liquid_CO2_H2O.c: conLiq_CO2_H2O"]}
{"id": "C77", "title": "The oxygen potential of a liquid agrees with its fugacity, and its reported derivatives are its derivatives", "statement": "The reported chemical potential of oxygen is RT ln fO2 of the fugacity computed from the composition, zero relative to the buffer after setting the liquid to it; the reported derivatives with respect to moles, temperature and pressure, first and second, are the derivatives of the reported potential, also across 50 kbar.", "quantifier": "all compositions with both kinds of iron, temperatures and pressures", "why_tests_cant": "derivatives at every point", "anchors": ["sources/liquid_v34.c: muO2Liq_v34", "sources/liquid_CO2.c: muO2Liq_CO2", "sources/liquid_CO2_H2O.c: muO2Liq_CO2_H2O"]}
{"id": "C78", "title": "A liquid with less ferric iron is reported at a lower oxygen fugacity", "statement": "Of two liquids that differ only in the oxidation of their iron the more oxidised is reported at the higher oxygen fugacity.", "quantifier": "all compositions with iron", "why_tests_cant": "an inequality over all compositions including the limit of no ferric iron", "anchors": ["sources/liquid_v34.c: conLiq_v34"]}
{"id": "C79", "title": "A step of the minimiser conserves every oxide", "statement": "Whatever the Hessian, the gradient and the step length, moving along the solution of the quadratic problem leaves the amount of every oxide in all phases together, and the recorded bulk composition, as they were; a system out of balance gets closer by the step length, and is in balance after a full step.", "quantifier": "all phase assemblages, compositions, Hessians, gradients and step lengths, with independent constraints", "why_tests_cant": "for every matrix the thermodynamic functions may produce", "anchors": ["sources/equality_constraints.c: getEqualityConstraints", "sources/silmin.c: REASSEMBLE_SOLUTION, LINEAR_SEARCH"]}
{"id": "C80", "title": "A step on an oxygen buffer exchanges nothing but oxygen", "statement": "With the oxygen fugacity imposed and a liquid present, a step of the minimiser, including the correction that puts the liquids back on the buffer, leaves the amount of every oxide but FeO and Fe2O3, and the total iron, as they were, and records the composition that the phases really have.", "quantifier": "all assemblages with a liquid, compositions with both kinds of iron, Hessians, gradients, step lengths and number of corrections", "why_tests_cant": "for every matrix and every number of inner iterations", "anchors": ["sources/equality_constraints.c: getEqualityConstraints", "sources/linear_search.c: linearSearch", "sources/silmin.c: REASSEMBLE_SOLUTION, LINEAR_SEARCH"]}
{"id": "C81", "title": "The constraint matrix written is the constraint matrix allotted", "statement": "For every system the rows and columns of the linear constraints that are written are those for which memory was allotted.", "quantifier": "all compositions, assemblages and kinds of path", "why_tests_cant": "memory outside an array is silently overwritten", "anchors": ["sources/equality_constraints.c: getEqualityConstraints"]}
{"id": "C82", "title": "A step of the minimiser keeps every solution the sum of its components", "statement": "A step changes neither the number of phases nor which components are absent, and the total of a solution that was the sum of its components still is.", "quantifier": "all assemblages, compositions, Hessians, gradients and step lengths", "why_tests_cant": "for every solution of the quadratic problem", "anchors": ["sources/silmin.c: REASSEMBLE_SOLUTION, LINEAR_SEARCH"]}
{"id": "C83", "title": "The liquid's mixing functions are one potential and its derivatives", "statement": "In the MELTS and pMELTS modes, for the liquid at any temperature, pressure and composition: the Gibbs energy of mixing is the enthalpy less temperature times the entropy; minus its temperature derivative is the entropy of mixing and its pressure derivative the volume of mixing; wherever silica is present and the component concerned is present, the reported first and second derivatives by composition of the Gibbs energy, entropy and volume are the true derivatives.", "quantifier": "all numbers of components, interaction parameters, temperatures, pressures and compositions", "why_tests_cant": "derivatives at every composition of an eighteen-dimensional simplex; tests compare finite differences at a few points", "anchors": ["sources/liquid_v34.c: gmixLiq_v34, hmixLiq_v34, smixLiq_v34, cpmixLiq_v34, vmixLiq_v34"]}
{"id": "C84", "title": "The liquid's chemical potentials and activities belong to its Gibbs energy", "statement": "The chemical potentials reported for the liquid add up, weighted by the mole fractions, to the Gibbs energy of mixing; each is the derivative of the total Gibbs energy of mixing by the moles of its component; the reported derivative of the Gibbs energy by a composition variable is the difference of two potentials; the potential of a present component is RT times the logarithm of its activity, the activity is positive, and the activity of an absent component is zero.", "quantifier": "all interaction parameters, temperatures, pressures and compositions", "why_tests_cant": "identities over a continuum of compositions and parameters", "anchors": ["sources/liquid_v34.c: actLiq_v34, gmixLiq_v34", "includes/param_struct_data_v34.h"]}
{"id": "C85", "title": "Moles of a liquid become mole fractions and back without loss", "statement": "The composition variables computed from the moles of a liquid give back exactly the mole fractions of all components; they pass the program's own validity test when no component is negative; and the reported first and second derivatives of the composition variables by the moles are the true ones.", "quantifier": "all liquids with a non-zero total", "why_tests_cant": "all compositions; the second derivatives form an 18 by 19 by 19 table", "anchors": ["sources/liquid_v34.c: conLiq_v34, testLiq_v34"]}
{"id": "C86", "title": "The liquid's activity derivatives are the derivatives of its activities", "statement": "The derivatives by composition reported for the activities of the liquid's components are the true derivatives, at every valid composition.", "quantifier": "all compositions, including those from which a component is absent", "why_tests_cant": "continuum of compositions; the boundary of the simplex is where tests seldom look", "anchors": ["sources/liquid_v34.c: actLiq_v34 THIRD"]}
{"id": "C87", "title": "A hotter or wetter liquid is not more viscous", "statement": "The viscosity reported for a silicate liquid does not rise with temperature, and does not rise when water is added to it at constant temperature.", "quantifier": "all silicate liquids, all temperatures, all amounts of water", "why_tests_cant": "monotonicity over all compositions", "anchors": ["sources/liquid_v34.c: visLiq_v34"]}
{"id": "C88", "title": "A more silicic liquid is not less viscous", "statement": "The viscosity reported does not fall when silica is added to a liquid at constant temperature, up to and including pure silica.", "quantifier": "all liquids, all temperatures below 6666 K", "why_tests_cant": "monotonicity over all compositions, with a limit at pure silica", "anchors": ["sources/liquid_v34.c: visLiq_v34"]}
{"id": "C89", "title": "From a property per mole to the property of a phase", "statement": "When a solution model's property per mole has correct first and second derivatives by its composition variables, the conversion to the total property of the phase as a function of the moles of its components gives the correct gradient and the correct Hessian.", "quantifier": "all consistent solution models, all numbers of components, all amounts, including phases from which components are absent", "why_tests_cant": "second derivatives over a continuum of compositions; errors in one term of the chain rule are visible only away from ideal or symmetric compositions", "anchors": ["sources/gradient_hessian.c: intenToExtenGradient, intenToExtenHessian"]}
{"id": "C90", "title": "The quadratic problem is the second order expansion of the Gibbs energy", "statement": "At given temperature and pressure, each minimisation step works with the true gradient and the true Hessian of the Gibbs energy of the whole system as a function of the moles of every component of every phase present, in the order in which the constraints list them.", "quantifier": "all phase assemblages (any number of liquids, of solid solutions and of coexisting copies of one, of pure solids), all compositions, all consistent solution models and standard state data, all temperatures and pressures", "why_tests_cant": "the assemblage determines the layout of the matrices; there are unboundedly many, and a misplaced entry only slows or misdirects convergence", "anchors": ["sources/gradient_hessian.c: getProjGradientAndHessian", "sources/equality_constraints.c"]}
{"id": "C91", "title": "Gradient and Hessian under an imposed enthalpy, entropy or volume", "statement": "With an imposed enthalpy (entropy, volume) each minimisation step works with the true gradient and Hessian of minus the entropy (the enthalpy, the Helmholtz energy) of the whole system, by the moles of all components and by the temperature (pressure for a volume) as last variable, including the mixed second derivatives, which are symmetric.", "quantifier": "the three kinds of imposed property; all assemblages, compositions, consistent solution models, temperatures and pressures", "why_tests_cant": "second and mixed derivatives over a continuum of states and unboundedly many assemblages", "anchors": ["sources/gradient_hessian.c: getProjGradientAndHessian"]}
{"id": "C92", "title": "A minimisation step at given temperature and pressure goes downhill and rests only at equilibrium", "statement": "At given temperature and pressure (no oxygen buffer, nothing imposed), let a step of the minimiser be taken from a mass-balanced state of any phase assemblage. The change of the amounts solves Newton's equations on every redistribution of matter: the derivative of the total Gibbs energy along the redistribution plus the Hessian applied to the change is zero. Hence the derivative of the Gibbs energy with respect to the step length at zero is minus the curvature along the step; if the energy is convex on the redistributions and the step changes anything, every sufficiently short step strictly lowers the total Gibbs energy; a state that a full step leaves as it is has zero derivative of the Gibbs energy along every redistribution of matter, and conversely. With zero tolerance, convexity alone guarantees that the linear solver reports the full rank that this needs.", "quantifier": "all tables, phase assemblages, numbers of liquids and solids with absent components anywhere, solution models whose derivatives are consistent, temperatures, pressures and step lengths", "why_tests_cant": "A test shows one minimisation that converged; that no state other than an equilibrium can stop the minimiser, and that each step is a descent direction, ranges over all assemblages and compositions.", "anchors": ["sources/gradient_hessian.c: getProjGradientAndHessian", "sources/silmin.c: the quadratic step 935-1040", "sources/equality_constraints.c: getEqualityConstraints", "sources/linear_search.c: linearSearch", "sources/householder.c: hfti"]}
{"id": "C93", "title": "Gibbs energy of mixing of phases with internal order", "statement": "For every solution phase with internal ordering (amphibole, orthorhombic amphibole, biotite after Tajcmanova, clinopyroxene, cummingtonite, melilite, nepheline, olivine, orthorhombic oxide, orthopyroxene, rhombohedral oxide, spinel), wherever the internal ordering state is an interior stationary state of the energy with nonsingular Hessian that varies continuously, the first, second and third composition derivatives returned by gmix are the exact total derivatives of the returned energy, the response of the ordering state included.", "quantifier": "the twelve phases; all temperatures, pressures, compositions and branches of interior stationary ordering states; all index triples", "why_tests_cant": "finite differences sample a point; the claim is equality of functions over a continuum, for hundreds of formulas, through an implicitly defined ordering state", "anchors": ["sources/amphibole.c: gmixAph", "sources/biotiteTaj.c: gmixBioTaj", "sources/clinopyroxene.c: gmixCpx", "sources/cummingtonite.c: gmixCum", "sources/melilite.c: gmixMel", "sources/nepheline.c: gmixNph", "sources/olivine.c: gmixOlv", "sources/ortho-oxide.c: gmixOox", "sources/orthopyroxene.c: gmixOpx", "sources/rhombohedral.c: gmixRhm", "sources/spinel.c: gmixSpn"]}
{"id": "C94", "title": "Entropy, enthalpy and heat capacity of phases with internal order", "statement": "For the same phases and states: minus the entropy returned is the temperature derivative of the Gibbs energy at equilibrium order, the enthalpy is g + T s, the heat capacity is T times the temperature derivative of the entropy (ordering contribution included), and the returned temperature and composition derivatives of heat capacity and entropy (second composition derivatives included) are exact.", "quantifier": "the twelve phases; all temperatures, pressures, compositions and branches of interior stationary ordering states; end-member properties that are themselves consistent", "why_tests_cant": "third total derivatives through an implicit ordering state over a continuum of conditions", "anchors": ["sources/cummingtonite.c: hmixCum, smixCum, cpmixCum", "sources/spinel.c: smixSpn, cpmixSpn", "sources/olivine.c: smixOlv, cpmixOlv"]}
{"id": "C95", "title": "Volume of phases with internal order", "statement": "For the same phases and states the volume returned is the pressure derivative of the Gibbs energy at equilibrium order, and all its returned first and second derivatives by temperature, pressure and composition, mixed ones included, are exact.", "quantifier": "the twelve phases; all temperatures, pressures, compositions and branches of interior stationary ordering states; end-member properties that are themselves consistent", "why_tests_cant": "third total derivatives through an implicit ordering state over a continuum of conditions", "anchors": ["sources/cummingtonite.c: vmixCum", "sources/spinel.c: vmixSpn", "sources/orthopyroxene.c: vmixOpx"]}
{"id": "C96", "title": "Derivatives of the ordering state", "statement": "For the same phases and states the first and second derivatives of the ordering parameters by composition, temperature and pressure that the ordering routine returns (its second to tenth outputs) are the exact derivatives of the stationary state.", "quantifier": "the twelve phases; all temperatures, pressures, compositions and branches of interior stationary ordering states; every ordering parameter and index pair", "why_tests_cant": "the state is only defined implicitly; its derivatives are compared over a continuum", "anchors": ["sources/cummingtonite.c: order", "sources/spinel.c: order", "sources/olivine.c: order", "sources/biotiteTaj.c: order", "sources/melts_linalg.c: melts_LU_solve"]}
{"id": "C97", "title": "Activities of phases with ordering parameters", "statement": "For the twelve solution phases with ordering parameters, wherever the ordering state is an interior nondegenerate stationary state, the activity of each component that the activity function returns equals exp(mu/RT) with mu the chemical potential it returns (relative to the pure component), and the derivative outputs are the exact derivatives of the activities by the composition variables.", "quantifier": "the twelve phases; all temperatures, pressures, compositions and branches of interior stationary ordering states; every component and composition variable", "why_tests_cant": "the ordering state is defined implicitly and the identity holds over a continuum", "anchors": ["sources/cummingtonite.c: actCum", "sources/melilite.c: actMel", "sources/spinel.c: actSpn", "sources/clinopyroxene.c: actCpx", "sources/olivine.c: actOlv"]}
{"id": "C98", "title": "Chemical potentials of phases with ordering parameters are partial molar quantities", "statement": "For the same phases and states, with the composition computed from mole numbers by the conversion function, the chemical potentials returned by the activity function are the partial derivatives of total moles times Gibbs energy of mixing by the mole numbers; their mole-fraction weighted sum is the Gibbs energy of mixing (Euler); and along any differentiable path of mole numbers at constant temperature and pressure the weighted sum of their derivatives is zero (Gibbs-Duhem).", "quantifier": "the twelve phases; all temperatures, pressures, mole numbers and paths of mole numbers in the region of interior stationary states", "why_tests_cant": "identities between derivatives over a continuum of compositions with an implicitly defined ordering state", "anchors": ["sources/melilite.c: actMel", "sources/melilite.c: conMel", "sources/melilite.c: gmixMel", "sources/spinel.c: actSpn", "sources/amphibole.c: actAph"]}
{"id": "C99", "title": "Formulas without parentheses are accepted exactly when well formed", "statement": "A nonempty string without parentheses is accepted by the formula parser if and only if it is a sequence of element symbols of the table with optional counts; and the parser terminates on every string.", "quantifier": "all strings without parentheses, all element tables without duplicates whose symbols start with a capital", "why_tests_cant": "infinitely many strings", "anchors": ["sources/melts_support.c: formulaToMwStoich"]}
{"id": "C100", "title": "Buffer derivatives are exact for every buffer, COH below 67201 bars", "statement": "For every oxygen buffer the temperature derivative reported is the derivative of log fO2, and its second derivative likewise; the pressure derivatives are exact for every buffer, for COH at pressures below 67201 bars.", "quantifier": "all buffers, temperatures above zero and pressures", "why_tests_cant": "a continuum of inputs; numerical tests sample points and miss one-sided pressure ranges", "anchors": ["sources/gibbs.c: getlog10fo2, getdlog10fo2dt, getdlog10fo2dp, getd2log10fo2dt2, getd2log10fo2dp2"]}
{"id": "C101", "title": "Liquid energies are consistent, and the volume where the quadratic term is zero", "statement": "For every liquid component H = G + TS, S = -dG/dT and Cp = T dS/dT; and V = dG/dP for each component without a quadratic pressure term in its volume.", "quantifier": "all liquid parameter sets, temperatures and pressures", "why_tests_cant": "continuum; violation is a constant of order 1e-9", "anchors": ["sources/gibbs.c: gibbs (liquid EOS_KRESS branch)"]}
{"id": "C102", "title": "A state saved on a plain buffer reloads to the same oxygen fugacity", "statement": "Saving a state whose oxygen path is none or one of the five plain buffers and loading the file gives a state on which a run computes the same log fO2 at every temperature and pressure, whatever was loaded before.", "quantifier": "all printable states on a plain buffer without assimilants, all previous states, temperatures and pressures", "why_tests_cant": "all codes x offsets x T,P", "anchors": ["src/melts_interface.cpp: SaveMeltsInputData, LoadFromFile"]}
{"id": "C103", "title": "Loading a file depends only on the text, the title and the path increments", "statement": "Two loads of the same text give the same result whenever the title and the five path increments of the states before agree, whatever else differs.", "quantifier": "all texts, all pairs of previous states", "why_tests_cant": "all histories", "anchors": ["src/melts_interface.cpp: LoadFromFile, CreateSilminState"]}
{"id": "C104", "title": "The System sheet is exact without a liquid assimilant", "statement": "Without a liquid assimilant the System sheet of the export has the expected header, one row per result with every number under its own heading and as many cells as headings, and nothing below.", "quantifier": "all tables of oxides and phases, all lists of results without liquid assimilant", "why_tests_cant": "exponentially many phase sets", "anchors": ["src/xlsx_writer.cpp: WriteToFile"]}
{"id": "C105", "title": "The LU wrapper solves systems without null rows, and packed systems without row exchanges", "statement": "For every matrix without null rows the wrapper returns the solution whatever rows the library exchanges; with null rows that one exchange packs, it returns the solution of the nonnull part when the library exchanges no rows.", "quantifier": "all sizes below 2^64, all matrices and right-hand sides", "why_tests_cant": "all sizes", "anchors": ["sources/melts_linalg.c"]}
{"id": "C106", "title": "System totals of the first seven properties are sums over phases", "statement": "In the report of the library call the system's Gibbs energy, enthalpy, entropy, volume, heat capacity, its temperature derivative and dV/dT are the sums over the phases listed; all eleven are when no solution phase is present.", "quantifier": "all systems and previous contents of the caller's buffer", "why_tests_cant": "all assemblages", "anchors": ["sources/library.c: meltsprocess_"]}
{"id": "C107", "title": "With liquid and without a buffer the composition supplied is the composition equilibrated", "statement": "After any history of library calls without a saturation call since, with liquid present and no oxygen buffer, the oxides in the system at the end of an equilibration are exactly the composition the caller supplied.", "quantifier": "all tables, histories, compositions and equilibration moves", "why_tests_cant": "all histories", "anchors": ["sources/library.c: meltsprocess_"]}
{"id": "C108", "title": "Copies of a state are equal, and independent of the original when fractionation records are tidy", "statement": "A new copy of a state has the same content and, when fractionation records exist only while fractionation is on, shares no memory block with the original; overwriting a state gives the same content when the numbers of liquids differ or are at most one, and shares nothing.", "quantifier": "all states, tables and sizes", "why_tests_cant": "all states", "anchors": ["sources/silmin_support.c: copySilminStateStructure"]}
{"id": "C109", "title": "With one constraint the Lagrange multiplier reproduces the gradient", "statement": "With a single constraint row of rank one and a gradient proportional to it, the multiplier computed is the factor of proportionality.", "quantifier": "all numbers of columns, constraint rows, gradients and previous contents", "why_tests_cant": "all sizes and coefficients; the error does not show with one constraint", "anchors": ["sources/gradient_hessian.c: getProjGradientAndHessian (Lagrange multipliers)"]}
{"id": "C110", "title": "The library call leaves the caller's other cells alone", "statement": "Of the caller's buffer beyond the columns of the phases reported, every cell but one keeps its value.", "quantifier": "all systems, buffers, columns and cells other than the volume cell just behind the last column", "why_tests_cant": "out-of-range writes depend on array contents and sizes", "anchors": ["sources/library.c: meltsprocess_ (volume fraction loop)"]}
{"id": "C111", "title": "A stop request outside the loop decrement ends the calculation within one more step", "statement": "A stop request that arrives at any time except between the read and the write of the loop counter ends the run within eleven machine steps, after at most one further call of the minimiser and one further increment.", "quantifier": "all reachable machine states other than the start and the middle of the decrement; all behaviours of the minimiser", "why_tests_cant": "the request can arrive between any two machine steps of the calculation", "anchors": ["src/melts_interface.cpp: StopEquilibration, Equilibrate", "include/melts_interface.hpp: m_SilminEnd, m_CalcStepsRemaining"]}
{"id": "C112", "title": "A stop request during a run never dereferences null", "statement": "While the run is on, the stop request finds the state it dereferences.", "quantifier": "all runs, all times after the first step and before the end", "why_tests_cant": "depends on the schedule", "anchors": ["src/melts_interface.cpp: StopEquilibration 788-793, Equilibrate 829-845"]}
{"id": "C113", "title": "At prescribed temperature and pressure the tables belong to the result's conditions", "statement": "In sessions at prescribed temperature and pressure that are not interrupted, whenever the minimiser hands back a result the thermodynamic tables are those of the result's temperature and pressure.", "quantifier": "all sessions, iteration numbers and answers of the numerical parts", "why_tests_cant": "depends on where a run was stopped and on which iterate is put back", "anchors": ["sources/silmin.c: CHANGE_TP 505-528, REASSEMBLE_SOLUTION 1157-1186, LINEAR_SEARCH 1312-1378", "src/melts_interface.cpp: Equilibrate, SetInitialTP"]}
{"id": "C114", "title": "A minimisation that never converged never reports success", "statement": "A quadratic minimisation started without an acceptable earlier iterate, none of whose iterations converges, either goes on or ends with the status for too many iterations, never with success.", "quantifier": "all sequences of calls and answers of the numerical parts", "why_tests_cant": "depends on the order of convergence events over three stages", "anchors": ["sources/silmin.c: REASSEMBLE_SOLUTION 1025-1236 (acceptable, bestState, curStage)"]}
{"id": "C115", "title": "The Phases sheet is exact unless the cumulate table is wider than the first", "statement": "When fractionated phases never need more columns than the first table, or there are no assimilants, the Phases sheet is exactly the three tables side by side.", "quantifier": "all tables and lists of results of that shape", "why_tests_cant": "the position of a table depends on the widths of the ones before it over all steps", "anchors": ["src/xlsx_writer.cpp: WriteToFile"]}
{"id": "C116", "title": "With all fractionation switches on every result accounts for the matter fractionated", "statement": "With all three switches on, the system mass reported is the mass without fractionates plus the mass of everything fractionated so far.", "quantifier": "all tables, counters and states with consistent weights", "why_tests_cant": "depends on hidden static variables and the history of settings", "anchors": ["include/melts_interface.hpp: SilminData::FillStructure"]}
{"id": "C117", "title": "All of a result but the extra bulk entry depends only on the state", "statement": "Two states that agree except for memory behind the bulk composition give the same result record, except for the entries of the bulk composition beyond the number of oxides.", "quantifier": "all states, indices and contents of the memory behind the array", "why_tests_cant": "depends on what lies behind an array", "anchors": ["include/melts_interface.hpp: SilminData::FillStructure"]}
{"id": "C118", "title": "Between liquids that hold ferric iron, the more oxidised is reported at the higher fO2", "statement": "If a liquid has ferric iron and another has the same oxides but more of its iron ferric, the second is reported at a strictly higher oxygen fugacity.", "quantifier": "all temperatures, pressures and compositions", "why_tests_cant": "an inequality over all compositions including the limit of no ferric iron", "anchors": ["sources/liquid_v34.c: conLiq_v34"]}
{"id": "C119", "title": "The liquid's activity derivatives are exact for every component present", "statement": "For every liquid component that is present, the derivative of its activity reported by the liquid's activity function is the exact derivative by each composition variable.", "quantifier": "all proper compositions, temperatures above zero and pressures, all indices", "why_tests_cant": "continuum of compositions; the boundary of the simplex is where tests seldom look", "anchors": ["sources/liquid_v34.c: actLiq_v34 THIRD"]}
{"id": "C120", "title": "Viscosity falls with temperature and water and rises with silica for liquids of the table's oxides", "statement": "The viscosity reported never rises with temperature; adding the oxide with the least coefficient among those present never raises it; adding silica to a liquid that holds something else never lowers it.", "quantifier": "all silicate compositions, amounts added and temperatures up to 6666 K", "why_tests_cant": "monotonicity over all compositions", "anchors": ["sources/liquid_v34.c: visLiq_v34"]}
{"id": "C121", "title": "Buffer offsets are exact on plain buffers", "statement": "The built-in offset of a QFM+n path and a user offset on a plain buffer shift log fO2 by exactly the offset at every temperature and pressure.", "quantifier": "all offsets, plain buffers, temperatures and pressures", "why_tests_cant": "continuum", "anchors": ["sources/gibbs.c: getlog10fo2"]}
{"id": "C122", "title": "Holland-Powell properties are consistent for every call the program makes", "statement": "For parameter sets without Landau volume, which are the ones the program passes, energies, volume and all volume derivatives of the Holland-Powell routine are thermodynamically consistent.", "quantifier": "all parameter sets, temperatures and pressures where the expressions are defined", "why_tests_cant": "continuum", "anchors": ["sources/gibbs.c: HPproperties"]}
{"id": "C123", "title": "Derivatives of the fifteen solutions without ordering parameters are exact", "statement": "For feldspar, garnet, biotite, hornblende, leucite, majorite, olivine-sx, perovskite, ringwoodite, wadsleyite, wustite, ilmenite, alloy-liquid, alloy-solid and kalsilite every derivative output of the mixing and activity functions is the exact derivative wherever the site fractions are clear of their clamps.", "quantifier": "the fifteen phases; all temperatures, pressures, compositions clear of the clamps and indices", "why_tests_cant": "continuum with singular boundary; thousands of hand-written terms", "anchors": ["sources/feldspar.c: G, DGDR*, D2G*, D3G* and actFld, gmixFld, smixFld, vmixFld, cpmixFld"]}
{"id": "C124", "title": "Potentials of the fifteen solutions without ordering parameters are partial molar quantities", "statement": "For the same fifteen phases the chemical potentials are the mole derivatives of the total energy of mixing, obey Euler's relation and the Gibbs-Duhem equation along every differentiable path of mole numbers.", "quantifier": "the fifteen phases; all temperatures, pressures, mole numbers and paths", "why_tests_cant": "continuum", "anchors": ["sources/feldspar.c: actFld, gmixFld"]}
{"id": "C125", "title": "Minimisers end, and the minimum they report is attained and no worse than the start", "statement": "The one-dimensional and variable-metric minimisers return for every objective; the one-dimensional one returns a point no worse than the start; the variable-metric one reports a value attained at the returned point or within twice the tolerance of it and no worse than at the start, and each accepted step decreases the objective sufficiently.", "quantifier": "all objectives, gradients, starts and tolerances", "why_tests_cant": "objective is arbitrary", "anchors": ["sources/nash.c: vmmin, min1d"]}
{"id": "C126", "title": "Gibbs energy of solids is continuous through lambda transitions", "statement": "At every pressure the Gibbs energy of a solid with a Berman heat capacity, with or without a lambda transition, is continuous in temperature.", "quantifier": "all parameter sets, temperatures above zero and pressures", "why_tests_cant": "continuity quantifies over all neighbourhoods of the transition temperature and all parameter sets; a sampled test misses a jump that is small against the total", "anchors": ["sources/gibbs.c: gibbs (2475-2519)", "sources/gibbs.c: HPproperties (708-843)"]}
{"id": "C127", "title": "After a success the constraints asked for are used and kept", "statement": "An equilibration started after a success or at program start that ends in success keeps every constraint flag, and its oxygen path is the one asked for or none.", "quantifier": "all sequences of minimiser calls and answers of the numerical parts", "why_tests_cant": "the solver switches the flags temporarily in three stages and keeps its place in static variables across runs", "anchors": ["sources/silmin.c: silmin 371-2203 (curStage, fo2PathOld)"]}
{"id": "C128", "title": "In exact arithmetic assimilation in portions adds the requested mass", "statement": "In exact arithmetic, after k steps of a path with a portions, min(k,a)/a of the requested mass has been assimilated.", "quantifier": "all requested masses, numbers of portions and steps", "why_tests_cant": "all runs; rounding depends on the number of portions", "anchors": ["sources/silmin.c: UPDATE_SYSTEM assimilation"]}
{"id": "C129", "title": "With both kinds of iron the constraint matrix written is the one allotted", "statement": "When both kinds of iron are in the system, or no buffer is imposed, the rows written to the constraint matrix are exactly those counted for its allocation, and the columns written are within those counted.", "quantifier": "all tables, states and imposed constraints", "why_tests_cant": "memory outside an array is silently overwritten", "anchors": ["sources/equality_constraints.c: getEqualityConstraints"]}
{"id": "C130", "title": "In-range thread keys are read safely", "statement": "Reading the value of any thread key in the range of the table reads only memory of the table.", "quantifier": "all histories of key creation, deletion and writes; all in-range keys", "why_tests_cant": "out-of-bounds reads usually return something plausible in a test", "anchors": ["sources/mthread.c: MTHREAD_GETSPECIFIC"]}
{"id": "C131", "title": "The affinity of a phase is its energy minus the potentials of its components in the liquid", "statement": "After a saturation test, every allowed absent pure phase all of whose components the liquid holds has as affinity its Gibbs energy minus the sum of stoichiometry times chemical potential of its components; a phase with a component the liquid lacks, a suppressed phase, a phase present already and a phase that went in and out twice have affinity zero; a solution is judged by the same numbers for each of its end-members.", "quantifier": "all phase tables, liquids, potentials, lists of suppressed phases", "why_tests_cant": "the loop leaves at the first missing component and steps over the components of solutions; a wrong index shows only for some combinations of suppressed phases and missing components", "anchors": ["sources/evaluate_saturation.c: evaluateSaturationState"]}
{"id": "C132", "title": "Supersaturation is reported exactly when an allowed absent phase has negative affinity", "statement": "The saturation test answers yes if and only if some phase that is allowed, absent and not excluded for cycling, or an absent allowed liquid, has negative affinity; with everything suppressed it never does; suppressing other phases does not change the affinity of a pure phase.", "quantifier": "all phase tables, liquids, potentials, lists of suppressed phases, answers of the affinity routines", "why_tests_cant": "an equivalence over all states; a missed phase shows only when it is the only supersaturated one", "anchors": ["sources/evaluate_saturation.c: evaluateSaturationState"]}
{"id": "C133", "title": "On an oxygen buffer saturation is judged at the oxygen potential of the buffer", "statement": "On a buffer the potentials used satisfy Fe2SiO4 + 1/2 O2 = Fe2O3 + SiO2 with oxygen at the imposed fugacity, and all but the potential of Fe2O3 are those of the liquid; without a buffer all are those of the liquid.", "quantifier": "all potentials, temperatures, fugacities and modes", "why_tests_cant": "for all potentials; a sign error cancels in tests near equilibrium", "anchors": ["sources/evaluate_saturation.c: evaluateSaturationState 177-207"]}
{"id": "C134", "title": "A liquidus reported is a bracketed one", "statement": "A search for the liquidus that starts afresh and reports success ends with two saturation tests at temperatures exactly 0.1953125 degrees apart with opposite answers, the second at the temperature and on the liquid it reports. Otherwise it reports solids or several liquids (and has changed nothing), or that its first step of 50 degrees left the range 500 to 2500 K.", "quantifier": "all systems, all answers of the saturation test at all temperatures", "why_tests_cant": "the answers of the saturation test need not be monotone in temperature; all sequences of answers are possible", "anchors": ["sources/liquidus.c: liquidus"]}
{"id": "C135", "title": "A successful search for the liquidus leaves the given system at the temperature found", "statement": "The state left is the system given, with the iron of its liquid redistributed to the buffer at the temperature reported; the temperatures tried leave no trace; tables and fugacity are those of that temperature; every oxide but those of iron and all the iron are conserved, and the bulk composition changes by what the liquid changes.", "quantifier": "all systems, buffers and answers of the saturation test", "why_tests_cant": "path independence over all sequences of trial temperatures", "anchors": ["sources/liquidus.c: liquidus (CHANGE_TP)", "sources/liquid_v34.c: conLiq_v34"]}
{"id": "C136", "title": "The search for the liquidus ends exactly when a 50 degree scan meets a change", "statement": "From a fresh start within the limits the search returns if and only if the saturation answer changes at some whole number m of 50 degree steps in the direction of the first; then it makes at most m+17 tests and succeeds. In particular it never returns when all phases are suppressed.", "quantifier": "all systems and all answers of the saturation test", "why_tests_cant": "termination and non-termination", "anchors": ["sources/liquidus.c: liquidus (UPDATE_SYSTEM)", "sources/evaluate_saturation.c"]}
{"id": "C137", "title": "The liquidus temperature is right to 0.2 degrees", "statement": "If a liquid is supersaturated below a temperature TL and not above it, the search from any start whose first step is within the limits returns success at a temperature within 0.1953125 degrees of TL after at most 18 + |T-TL|/50 saturation tests.", "quantifier": "all liquids with a threshold, all starting temperatures", "why_tests_cant": "all thresholds and starts; the worst case needs the threshold at a grid point", "anchors": ["sources/liquidus.c: liquidus"]}
{"id": "C138", "title": "The search for the liquidus stays between 500 and 2500 K", "statement": "No temperature outside 500 to 2500 K is tested or reported as a liquidus.", "quantifier": "all systems and starting temperatures", "why_tests_cant": "all sequences of answers", "anchors": ["sources/liquidus.c: liquidus (UPDATE_SYSTEM)"]}
{"id": "C139", "title": "A search for the liquidus does not depend on earlier ones", "statement": "The result of a search depends on the system alone, not on searches made before in the same process.", "quantifier": "all sequences of searches", "why_tests_cant": "the search keeps its place in static variables; all histories", "anchors": ["sources/liquidus.c: liquidus (curStep, tState, tInterval, hasSupersaturation)"]}
{"id": "C140", "title": "A wet liquidus is a liquidus of the system in equilibrium with its fluid at that temperature", "statement": "When the search for the wet liquidus reports success, the system was equilibrated with the fluid only at a temperature at most half a degree from the one reported, and the search for the liquidus from there bracketed the temperature reported; the list of allowed phases and the temperature increment are the caller's, and start and end temperature are the one reported.", "quantifier": "all systems, all behaviours of the equilibration and the saturation test", "why_tests_cant": "up to fifty rounds of two iterative searches", "anchors": ["sources/liquidus.c: findWetLiquidus"]}
{"id": "C141", "title": "The search for the wet liquidus tells when it failed", "statement": "The value returned is false exactly when the wet liquidus was found.", "quantifier": "all systems, all behaviours of the equilibration and the saturation test", "why_tests_cant": "the failing branches need a failing equilibration", "anchors": ["sources/liquidus.c: findWetLiquidus"]}
{"id": "C142", "title": "The search for the wet liquidus gives back the list of allowed phases", "statement": "After the call the list of allowed phases is the caller's.", "quantifier": "all systems, all behaviours of the equilibration and the saturation test", "why_tests_cant": "the failing branches need a failing equilibration", "anchors": ["sources/liquidus.c: findWetLiquidus"]}
{"id": "C143", "title": "After a success or a refusal the next search for the liquidus is a fresh one", "statement": "After a search that succeeded or was refused because of solids or several liquids, any further search makes the same tests and gives the same result as the first one of a program.", "quantifier": "all systems, all answers", "why_tests_cant": "static variables; all histories", "anchors": ["sources/liquidus.c: liquidus"]}
{"id": "C144", "title": "When the equilibrations succeed the list of allowed phases comes back", "statement": "Unless an equilibration fails, the list of allowed phases and the temperature increment after the search for the wet liquidus are the caller's, whether or not it is found.", "quantifier": "all systems, all behaviours of the saturation test", "why_tests_cant": "all outcomes", "anchors": ["sources/liquidus.c: findWetLiquidus"]}
{"id": "C145", "title": "A second liquid is never split off a stable liquid", "statement": "In a closed system, if no part of any liquid present can separate into another liquid with a lower total Gibbs energy, checkForCoexistingLiquids returns FALSE and leaves the liquids as they are.", "quantifier": "all compositions with silica, temperatures, pressures, interaction parameters and standard potentials; all runs of the minimiser", "why_tests_cant": "ranges over all liquid compositions and all splits of them", "anchors": ["sources/check_coexisting_liquids.c: checkForCoexistingLiquids, fminfn", "sources/nash.c: vmmin", "sources/liquid_v34.c: gmixLiq_v34"]}
{"id": "C146", "title": "The function minimised decides stability against unmixing", "statement": "If the function that checkForCoexistingLiquids minimises is nowhere negative, no division of the liquid into any number of liquids has a lower total Gibbs energy.", "quantifier": "all compositions, all divisions into any number of liquids", "why_tests_cant": "quantifies over all finite divisions of the liquid", "anchors": ["sources/check_coexisting_liquids.c: fminfn"]}
{"id": "C147", "title": "Adding a second liquid conserves every component", "statement": "When checkForCoexistingLiquids adds a liquid there is one liquid more, the total amount of every component is unchanged, the new liquid has MASSIN moles, has none of the components absent from the liquid found unstable, and (closed system) no amount below -1e-10 moles.", "quantifier": "all systems with liquids containing silica; all runs of the minimiser", "why_tests_cant": "all compositions and all runs of the search", "anchors": ["sources/check_coexisting_liquids.c: checkForCoexistingLiquids"]}
{"id": "C148", "title": "The search for a second liquid uses the true gradient", "statement": "In a closed system the gradient passed to the minimiser is, in every free variable, the derivative of the function passed to it, also when components are absent and the variables are rotated to keep them absent.", "quantifier": "all compositions in which the components present exceed the rounding threshold, all sets of absent components that do not include silica", "why_tests_cant": "derivatives at all points for all sets of absent components", "anchors": ["sources/check_coexisting_liquids.c: fminfn, fmingr"]}
{"id": "C149", "title": "The test for a second liquid is a function of the system", "statement": "checkForCoexistingLiquids ends, and its answer and the liquids it leaves depend only on temperature, pressure, liquid mass, fO2 path and the liquids: nothing left in its static arrays by an earlier call matters.", "quantifier": "all systems, all contents of the static arrays", "why_tests_cant": "all histories of earlier calls", "anchors": ["sources/check_coexisting_liquids.c: checkForCoexistingLiquids"]}
{"id": "C150", "title": "A stable solid solution is not split", "statement": "If no instance of a solid solution present can lower its total Gibbs energy by dividing into two instances of compositions the program accepts, checkForCoexistingSolids adds nothing, reports nothing and changes nothing.", "quantifier": "all assemblages whose solid instances contain all their components, all temperatures and pressures, all phase models that are functions of linear composition variables", "why_tests_cant": "all compositions, and all divisions of each", "anchors": ["sources/check_coexisting_solids.c: checkForCoexistingSolids"]}
{"id": "C151", "title": "The gap a solid is tested for is the criterion of stability", "statement": "If the function minimised when a solid is tested for unmixing is nowhere negative on the compositions the program accepts, no division of the solid into any number of instances of accepted compositions has a lower Gibbs energy.", "quantifier": "all amounts of the solid, all finite divisions", "why_tests_cant": "all divisions", "anchors": ["sources/check_coexisting_solids.c: fminfn"]}
{"id": "C152", "title": "The test for unmixed solids adds at most one instance of a phase that is there", "statement": "checkForCoexistingSolids adds to each phase at most one instance, none to an absent phase, none to orthopyroxene, none to feldspar beyond two and clinopyroxene beyond three, and answers true exactly when it added something.", "quantifier": "all systems, all phase models, all runs of the minimiser", "why_tests_cant": "all systems and runs", "anchors": ["sources/check_coexisting_solids.c: checkForCoexistingSolids"]}
{"id": "C153", "title": "Splitting a solid conserves the bulk composition", "statement": "Whatever checkForCoexistingSolids adds, the total amount of every liquid component in liquids and solids is unchanged, and the number of liquids and the presence of liquid are unchanged.", "quantifier": "all systems, all phase models, all runs of the minimiser", "why_tests_cant": "all systems and runs", "anchors": ["sources/check_coexisting_solids.c: checkForCoexistingSolids"]}
{"id": "C154", "title": "A new solid instance is taken from the liquid without overdrawing it", "statement": "If there is liquid, each new instance has at most MASSIN moles with the composition found by the search, the instances tested are unchanged, and no component of the first liquid is negative afterwards when an instance has been added.", "quantifier": "all systems with liquid, all runs of the minimiser", "why_tests_cant": "all systems and runs", "anchors": ["sources/check_coexisting_solids.c: checkForCoexistingSolids"]}
{"id": "C155", "title": "The test for unmixed solids is a function of the system", "statement": "The answer of checkForCoexistingSolids and the system it leaves depend on nothing left in its static arrays by earlier calls; it ends whenever there is no liquid, and with liquid unless the first liquid lacks a component that a new instance needs.", "quantifier": "all systems, all contents of the static arrays", "why_tests_cant": "all histories; termination for all inputs", "anchors": ["sources/check_coexisting_solids.c: checkForCoexistingSolids"]}
{"id": "C156", "title": "Without liquid, a new instance is taken from the instance found unstable and leaves it nonnegative", "statement": "When there is no liquid, checkForCoexistingSolids takes the matter of the new instance from the instance that was found unstable and leaves no negative amounts.", "quantifier": "all subsolidus systems with nonnegative amounts", "why_tests_cant": "all systems", "anchors": ["sources/check_coexisting_solids.c: checkForCoexistingSolids"]}
{"id": "C157", "title": "The test for unmixed solids always ends", "statement": "checkForCoexistingSolids returns for every system with nonnegative amounts.", "quantifier": "all systems with nonnegative amounts", "why_tests_cant": "termination for all inputs", "anchors": ["sources/check_coexisting_solids.c: checkForCoexistingSolids"]}
{"id": "C158", "title": "For the solid solutions without ordering parameters, stability is the tangent-plane criterion and a stable instance is never split", "statement": "For each of the fifteen solid solutions without ordering parameters: an amount of it is stable against division into two accepted instances exactly when its energy of mixing lies nowhere below its tangent plane; and if it is stable, the search for a second instance finds nothing.", "quantifier": "all fifteen phases, all interior compositions, temperatures, pressures and standard potentials", "why_tests_cant": "all compositions and divisions", "anchors": ["sources/check_coexisting_solids.c: fminfn, checkForCoexistingSolids", "sources/feldspar.c: gmixFld", "sources/garnet.c: gmixGrn"]}
{"id": "C159", "title": "The compression found for a Vinet solid is the solution of its equation of state", "statement": "For fayalite, diamond and nepheline at 298.15 to 3000 K and graphite at 298.15 to 2000 K, and 0 to 50 kbar, the Newton loop ends by its residual test, its result is within 1e-16 of an exact solution that depends continuously on temperature and pressure, and the properties computed from that solution are thermodynamically consistent; the reported volume is right to four parts in 1e16.", "quantifier": "all temperatures and pressures of the range, the four shipped parameter sets, all heat-capacity coefficients", "why_tests_cant": "convergence of an iteration over a continuum", "anchors": ["sources/gibbs.c: intEOSsolid (EOS_VINET)", "includes/sol_struct_data.h"]}
{"id": "C160", "title": "The equation of state of every shipped Vinet solid has a solution at every temperature the program allows", "statement": "For each of fayalite, diamond, graphite and nepheline there is a positive compression that satisfies the equation of state at all temperatures up to the 3000 K at which the program stops.", "quantifier": "all temperatures from 298.15 to 3000 K", "why_tests_cant": "existence over a continuum", "anchors": ["sources/gibbs.c: intEOSsolid (EOS_VINET)", "includes/sol_struct_data.h: graphite"]}
{"id": "C161", "title": "A composition reported for an undersaturated solution phase is in exchange equilibrium", "statement": "When getAffinityAndComposition succeeds, its composition and affinity lie within (nr x 1e-6 + rounding, 1e-3 J) of a composition that the phase accepts and an affinity such that for every end-member not excluded, affinity = mu_i + RT ln a_i to within 0.1221 J/mol.", "quantifier": "all solution phases, temperatures, pressures, sets of excluded end-members and chemical potentials; any activity model and any eigenvector routine", "why_tests_cant": "the result comes from an iterative least-squares solver with two restarts; tests sample only a few phases and potentials", "anchors": ["sources/est_saturation_state.c: getAffinityAndComposition, func, grad, computeSolnWithinSolvus", "sources/nash.c: modmrt"]}
{"id": "C162", "title": "For an ideal solution the saturation state is computed exactly", "statement": "If the activities of a phase equal its mole fractions and no end-member is excluded, getAffinityAndComposition succeeds and returns x_i = exp(-mu_i/RT)/Z and affinity -RT ln Z with Z the sum of exp(-mu_i/RT), provided the phase accepts that composition.", "quantifier": "all numbers of end-members, temperatures, pressures and chemical potentials", "why_tests_cant": "closed form over all potentials and any number of end-members", "anchors": ["sources/est_saturation_state.c: initialGuess, getAffinityAndComposition"]}
{"id": "C163", "title": "Excluded end-members stay out of the reported composition", "statement": "In any composition that getAffinityAndComposition reports, each end-member excluded by the caller has a mole fraction of at most a rounding-size multiple of DBL_EPSILON, for phases whose mole fractions are linear in the composition variables; this includes the fifteen solid solutions without ordering parameters.", "quantifier": "all phases with linear mole fractions, temperatures, pressures, excluded sets, potentials and solver paths", "why_tests_cant": "the constraint is carried by Householder transformations through every iteration of a nonlinear solver", "anchors": ["sources/est_saturation_state.c: getAffinityAndComposition, func, projectConstraints"]}
{"id": "C164", "title": "The saturation state is a function of the arguments", "statement": "getAffinityAndComposition returns for all arguments, and two calls with the same arguments give the same result whatever earlier calls left in its static arrays.", "quantifier": "all arguments and all contents of the static arrays", "why_tests_cant": "termination of nested iterative searches and independence of all earlier call histories", "anchors": ["sources/est_saturation_state.c: getAffinityAndComposition, computeSolnWithinSolvus", "sources/nash.c: min1d, modmrt"]}
{"id": "C165", "title": "The second attempt searches along the direction in which the mixture is least stable", "statement": "The matrix whose direction of least curvature is followed after a failed first attempt is a positive multiple of the Hessian of the energy of mixing, so that this direction is the one in which the mixture is least stable.", "quantifier": "all Hessians of the energy of mixing", "why_tests_cant": "depends on the signs and the order of the entries of the Hessian", "anchors": ["sources/est_saturation_state.c: computeSolnWithinSolvus (line 514)"]}
{"id": "C166", "title": "On an oxygen buffer the step uses the gradient and Hessian of the open-system energy", "statement": "With one liquid, at fixed T and P or at fixed volume, when an fO2 path is set, the gradient and the Hessian computed for a minimisation step are the first and second derivatives, by the moles in every column (and by the pressure at fixed volume), of the energy of the system less the moles of oxygen in it times the chemical potential of oxygen in the liquid.", "quantifier": "all phase tables, compositions, states with one liquid, consistent solution models, oxygen potentials and stoichiometries", "why_tests_cant": "every entry of a matrix whose layout depends on which phases and components are present must be right", "anchors": ["sources/gradient_hessian.c: getProjGradientAndHessian (lines 517-788, 826-918, 1064-1200)"]}
{"id": "C167", "title": "The subsolidus Hessian on an oxygen buffer is that of the energy", "statement": "Without a liquid, on an fO2 path, the Hessian computed for a step is that of the energy less the moles of oxygen times the oxygen potential of the solid assemblage.", "quantifier": "all states without a liquid on an fO2 path", "why_tests_cant": "a wrong column index only shows with a solution of two or more components present", "anchors": ["sources/gradient_hessian.c: getProjGradientAndHessian (lines 840-843, 1076-1078, 1092-1094, 1105, 1120, 1122-1127)"]}
{"id": "C168", "title": "With coexisting liquids on an oxygen buffer the Hessian is the derivative of the gradient", "statement": "With two or more liquids on an fO2 path, the Hessian computed for a step is the derivative of the gradient computed for it.", "quantifier": "all states with several liquids on an fO2 path", "why_tests_cant": "coexisting liquids on a buffered path are rare, and only convergence suffers", "anchors": ["sources/gradient_hessian.c: getProjGradientAndHessian (lines 690-747)"]}
{"id": "C169", "title": "At imposed enthalpy or entropy on an oxygen buffer the Hessian is the derivative of the gradient", "statement": "With a liquid at imposed enthalpy or entropy on an fO2 path, the Hessian computed for a step is the derivative of the gradient computed for it.", "quantifier": "all states with a liquid at imposed enthalpy or entropy on an fO2 path", "why_tests_cant": "the two are filled from different oxygen potentials, which agree only at the solution", "anchors": ["sources/gradient_hessian.c: getProjGradientAndHessian (lines 700-747)"]}
{"id": "C170", "title": "The test for a second liquid leaves no search out and takes the most distant composition found", "statement": "When checkForCoexistingLiquids answers FALSE with liquid present, the search from every liquid towards every component in it has failed; when it answers TRUE the new liquid has, among the acceptable compositions found from the first liquid that gave any, the one most distant from that liquid.", "quantifier": "all systems and all runs of the minimiser", "why_tests_cant": "all systems and runs", "anchors": ["sources/check_coexisting_liquids.c: checkForCoexistingLiquids"]}
{"id": "C171", "title": "The oxygen fugacity reported for an assemblage of solids is that of the assemblage, whatever was computed before", "statement": "Without a liquid, when the solids are in equilibrium with each other and a reaction oxidising FeO to Fe2O3 can be written among the components present, subsolidusmuO2(FIRST) returns TRUE and 2 mu(Fe2O3) - 4 mu(FeO) - g(O2), with mu the potentials of the oxides that the solids agree on, and the log fO2 reported is that over RT ln 10: neither depends on which balanced reaction the program finds or on a reaction it kept from an earlier call.", "quantifier": "all tables, assemblages, temperatures, pressures and activity models; all histories of earlier calls; all singular value decompositions of the matrix", "why_tests_cant": "the reaction depends on amounts and on the history of calls; infinitely many of both", "anchors": ["sources/subSolidusMuO2.c: subsolidusmuO2 (lines 192-396)", "sources/silmin_support.c: updateBulkADB (lines 1185-1189)"]}
{"id": "C172", "title": "An oxygen potential is only reported for an assemblage that has one", "statement": "Whenever subsolidusmuO2(FIRST) returns TRUE, its value is the oxygen potential of the assemblage; and when it fails, no fugacity is reported.", "quantifier": "all assemblages of solids in equilibrium", "why_tests_cant": "all assemblages", "anchors": ["sources/subSolidusMuO2.c: subsolidusmuO2 (lines 264-330)", "sources/silmin_support.c: updateBulkADB (lines 1185-1189)"]}
{"id": "C173", "title": "The oxygen potential of an assemblage of solids is a function of its state", "statement": "subsolidusmuO2(FIRST) returns the same value for the same state, whatever it was called with before, also away from equilibrium.", "quantifier": "all states and all histories of calls", "why_tests_cant": "all histories", "anchors": ["sources/subSolidusMuO2.c: subsolidusmuO2 (lines 243-346)"]}
{"id": "C174", "title": "Bringing solids to an oxygen buffer moves oxygen only", "statement": "subsolidusmuO2(0, &muO2) without a liquid keeps, in the solids, every oxide other than FeO and Fe2O3 and the total iron, and writes nothing but the amounts of the solids and the bulk composition. If it returns TRUE, the bulk composition is that of the solids, no oxide and no amount is negative and every solution is admissible (unless nothing was changed), and the oxygen potential of the assemblage, if it is in equilibrium, is the one asked for to within sqrt(DBL_EPSILON).", "quantifier": "all assemblages in which iron can be oxidised, all histories, targets, step lengths and numbers of steps", "why_tests_cant": "all runs of two nested loops of unbounded length", "anchors": ["sources/subSolidusMuO2.c: subsolidusmuO2 (lines 351-474)"]}
{"id": "C175", "title": "A query about an unknown phase reports failure", "statement": "getMeltsPhaseProperties, getMeltsMolarProperties, getMeltsEndMemberProperties and getMeltsOxideProperties set failure to TRUE when the name given is not a phase.", "quantifier": "all names, compositions and conditions", "why_tests_cant": "all names; the flag looks right in every successful test", "anchors": ["sources/library.c: getMeltsPhaseProperties (1681-1701), getMeltsMolarProperties (1891-1909), getMeltsEndMemberProperties (2115-2147), getMeltsOxideProperties (2251-2290)"]}
{"id": "C176", "title": "A query writes its own cells and nothing else", "statement": "A property query about an unknown phase leaves the arrays and the count as they were; any query changes only the first cells of the array it is given: eleven and one per component, or four per end member or oxide.", "quantifier": "all names, compositions, conditions and memory contents", "why_tests_cant": "all memory contents", "anchors": ["sources/library.c: meltsgetphaseproperties_ (1435-1675), meltsgetmolarproperties_ (1713-1885), meltsgetendmemberproperties_ (1928-2103), meltsgetoxideproperties_ (2166-2240)"]}
{"id": "C177", "title": "Properties of a phase are extensive, potentials intensive", "statement": "With no oxygen path set, k times the grams give k times each of the eleven properties and the same chemical potentials.", "quantifier": "all k > 0, compositions, temperatures and pressures, the liquid, pure phases and solutions", "why_tests_cant": "real-valued scale and composition", "anchors": ["sources/library.c: meltsgetphaseproperties_ (1435-1675)"]}
{"id": "C178", "title": "The reported properties of a phase are mutually consistent", "statement": "At fixed grams the reported S, V, Cp, dCp/dT and the five volume derivatives are the derivatives of the reported G that their names say, and G = H - TS, with volumes in cc and energies in joules.", "quantifier": "all compositions, temperatures and pressures away from the clamps of site fractions and lambda transitions", "why_tests_cant": "derivatives at every point", "anchors": ["sources/library.c: meltsgetphaseproperties_ (1435-1675)"]}
{"id": "C179", "title": "The reported Gibbs energy is the sum of amounts times potentials", "statement": "The Gibbs energy reported for grams of a phase is the sum over its components of their moles times the chemical potential reported for them.", "quantifier": "all compositions, temperatures and pressures", "why_tests_cant": "real-valued composition", "anchors": ["sources/library.c: meltsgetphaseproperties_ (1435-1675)"]}
{"id": "C180", "title": "The molar query is the phase query per mole", "statement": "getMeltsMolarProperties of the moles of components in given grams returns the eleven properties of getMeltsPhaseProperties divided by the total moles, and the same potentials.", "quantifier": "all compositions, temperatures, pressures and phases", "why_tests_cant": "real-valued composition", "anchors": ["sources/library.c: meltsgetmolarproperties_ (1713-1885), meltsgetphaseproperties_ (1435-1675)"]}
{"id": "C181", "title": "The pyroxene recalculation keeps the cations", "statement": "The end members computed from the elements of a pyroxene hold the same Ca, Na, Ti and Mg, as much Fe as Fe and Mn, as much Al as Al and Cr; and the same Si exactly when ferric iron by charge balance lies between none and all of the iron, and then ferrous and ferric iron are those of the balance.", "quantifier": "all element contents with nonnegative iron", "why_tests_cant": "all real compositions with two clamps", "anchors": ["sources/library.c: meltsgetphaseproperties_ (1558-1586), meltsgetendmemberproperties_ (2037-2065)"]}
{"id": "C182", "title": "A liquid query on an oxygen path is about the iron given", "statement": "With an oxygen path set the properties reported for grams of liquid are those of a liquid with the same iron (and silicon), only its ferric-ferrous ratio changed.", "quantifier": "all compositions, temperatures, pressures and fugacities", "why_tests_cant": "all compositions and fugacities", "anchors": ["sources/library.c: meltsgetphaseproperties_ (1467-1470)", "sources/liquid_CO2_H2O.c: conLiq_CO2_H2O (2789-2806)"]}
{"id": "C183", "title": "End-member fractions, activities and potentials belong together", "statement": "In the end-member query the fractions add up to one and, for every end member present, mu = mu0 + RT ln a.", "quantifier": "all phases, compositions, temperatures and pressures", "why_tests_cant": "all compositions", "anchors": ["sources/library.c: meltsgetendmemberproperties_ (1928-2103)"]}
{"id": "C184", "title": "Oxide fractions, activities and potentials belong together", "statement": "In the oxide query the fractions add up to one, fractions times potentials add up to the Gibbs energy per mole of liquid components, and for every oxide that is a component mu = mu0 + RT ln a.", "quantifier": "all liquid compositions, temperatures and pressures", "why_tests_cant": "all compositions", "anchors": ["sources/library.c: meltsgetoxideproperties_ (2166-2240)"]}
{"id": "C185", "title": "Grams of oxides of a mixture of end members give back the mixture", "statement": "For every solution in the tables, entering a nonnegative mixture of its end members as grams of oxides gives back the moles of the end members.", "quantifier": "all solutions of all four modes, all mixtures", "why_tests_cant": "all real mixtures", "anchors": ["sources/hornblende.c: conHrn (243-272)", "sources/library.c: meltsgetphaseproperties_ (1544-1592)"]}
{"id": "C186", "title": "Grams of oxides give back the mixture for solutions other than hornblende", "statement": "For every solution in the tables except hornblende, entering a nonnegative mixture of its end members as grams of oxides gives back the moles of the end members; every solution has such a conversion.", "quantifier": "all other solutions of all four modes, all mixtures", "why_tests_cant": "all real mixtures", "anchors": ["sources/olivine.c, garnet.c, melilite.c, cummingtonite.c, amphibole.c, biotite.c, feldspar.c, nepheline.c, kalsilite.c, leucite.c, spinel.c, rhomsghiorso.c, rhombohedral.c, ortho-oxide.c, fluidPhase.c, alloy-solid.c, alloy-liquid.c: con functions (inpMask FIRST)", "sources/melts_support.c: InitComputeDataStruct (288-290)"]}
{"id": "C187", "title": "The shared library returns the oxides entered", "statement": "In the shared library a phase query reports, for any grams of oxides entered, the composition of the phase it computed properties of: the grams of oxides reported add up to the mass reported.", "quantifier": "all phases, all grams of oxides", "why_tests_cant": "all compositions, also those a phase cannot have", "anchors": ["sources/library.c: meltsgetphaseproperties_ (1435-1675, TESTDYNAMICLIB)"]}
{"id": "C188", "title": "Compositions a phase can have come back", "statement": "In the shared library a phase query returns exactly the grams of oxides entered for any liquid, any amount of a pure phase, and any nonnegative mixture of the end members of a solution other than hornblende; they add up to the mass.", "quantifier": "all liquids, pure phases and mixtures, four modes", "why_tests_cant": "all real compositions", "anchors": ["sources/library.c: meltsgetphaseproperties_ (1505-1515, 1555-1560, 1636-1645)"]}
{"id": "C189", "title": "Mass, density and molar weight belong together", "statement": "In the shared library a phase query reports as mass the sum of the grams entered; density times volume is the mass, and molar weight times the moles of components is the mass.", "quantifier": "all phases and inputs", "why_tests_cant": "all inputs", "anchors": ["sources/library.c: meltsgetphaseproperties_ (1650-1672)"]}
{"id": "C190", "title": "The molar query describes one mole", "statement": "The molar query of the shared library reports oxides that add up to its mass and to the molar weight, which is the mean of the formula weights of the end members weighted by their moles; density times volume is that mass; the phase query gives the same molar weight for the same mixture.", "quantifier": "all compositions", "why_tests_cant": "all real compositions", "anchors": ["sources/library.c: meltsgetmolarproperties_ (1713-1885)"]}
{"id": "C191", "title": "Activities of end members of solids in the shared library", "statement": "For every end member present in a solid solution, the shared library reports an activity a > 0 and potentials with mu = mu0 + RT ln a.", "quantifier": "all solid solutions, compositions, temperatures and pressures", "why_tests_cant": "all real compositions", "anchors": ["sources/library.c: meltsgetendmemberproperties_ (2045-2103)", "sources/melilite.c: actMel (2080-2110)", "sources/clinopyroxene.c, orthopyroxene.c, spinel.c, rhombohedral.c, ortho-oxide.c: activities with mask 0"]}
{"id": "C192", "title": "The CaCO3 species of liquids with carbon dioxide", "statement": "With CaCO3 as a species, the fractions reported still add up to one, the species hold the same elements as the components entered, mu(CaCO3) + mu(SiO2) = mu(CaSiO3) + mu(CO2), and mu = mu0 + RT ln a holds for CaCO3.", "quantifier": "all liquids, temperatures, pressures and extents of the reaction", "why_tests_cant": "all real compositions", "anchors": ["sources/library.c: meltsgetendmemberproperties_ (1974-2010)"]}
{"id": "C193", "title": "Weights of end members", "statement": "The weights the shared library reports for end members are their formula weights.", "quantifier": "all phases of all modes, the liquid included", "why_tests_cant": "it is a statement about tables computed at run time by a linear solve", "anchors": ["sources/library.c: meltsgetweightsandformulas_ (359-410)"]}
{"id": "C194", "title": "Names handed out", "statement": "The calls that return the names of oxides and phases write every name into its own blank-padded field of the caller's array and nothing outside the room the caller said there is; names come back when the blanks are removed.", "quantifier": "all field widths, counts and memory contents", "why_tests_cant": "all widths and counts", "anchors": ["sources/library.c: getMeltsOxideNames, getMeltsPhaseNames (159-308)"]}
{"id": "C195", "title": "Phases are found by name", "statement": "A query finds every phase of the calculation mode by its label (and the liquid by \"liquid\") at its place in the tables, whatever sort and search the C library uses; any other name is reported as unknown; the names and indices the library hands out are accepted back.", "quantifier": "all modes, all names, all library sorts and searches", "why_tests_cant": "all strings", "anchors": ["sources/library.c: comparePhases, initializePhaseList (328-357), meltsgetphasenames_ (257-274), lookups (366-371, 1443-1447, 1721-1725, 1938-1942, 2179-2183)"]}
{"id": "C196", "title": "Viscosity depends on the proportions of oxides only", "statement": "Multiplying all grams of oxides by the same factor leaves the viscosity unchanged in both models.", "quantifier": "all compositions, temperatures and factors", "why_tests_cant": "all real compositions", "anchors": ["sources/library.c: viscosityFromGRD, viscosityFromShaw (473-566)"]}
{"id": "C197", "title": "Viscosity does not depend on the oxidation state of iron", "statement": "Two compositions with the same moles of iron and otherwise the same oxides have the same viscosity in both models.", "quantifier": "all compositions and temperatures", "why_tests_cant": "all real compositions", "anchors": ["sources/library.c: viscosityFromGRD, viscosityFromShaw (473-566)"]}
{"id": "C198", "title": "Viscosity falls as temperature rises", "statement": "For any oxides, the viscosity of either model is smaller at a higher temperature.", "quantifier": "all compositions and pairs of temperatures", "why_tests_cant": "all real compositions and temperatures", "anchors": ["sources/library.c: viscosityFromGRD, viscosityFromShaw (473-566)"]}
{"id": "C199", "title": "What the viscosity call returns", "statement": "The viscosity call returns a viscosity, a positive number, for either model; and it clears the failure flag when there is one.", "quantifier": "all compositions, temperatures and model names", "why_tests_cant": "all compositions", "anchors": ["sources/library.c: getMeltsViscosity (572-594)"]}
{"id": "C200", "title": "Stability without liquid", "statement": "In a system without liquid whose solids are in equilibrium, what the saturation test says of a pure phase made of the solids that are there is the energy of making a mole of it out of them: negative exactly when the assemblage is not stable against it. It does not depend on which singular value decomposition was found.", "quantifier": "all assemblages with at least as many end members as liquid components, all energies, all decompositions", "why_tests_cant": "the potentials of nineteen liquid components come out of a least squares problem whose solution need not be unique; that all solutions give the same answer is a fact about every assemblage", "anchors": ["sources/evaluate_saturation.c: evaluateSaturationState (210-350)"]}
{"id": "C201", "title": "Stability of what the liquid cannot be written with", "statement": "The answer of C200 holds whatever the oxides of the system: a system without silica is tested like any other.", "quantifier": "all bulk compositions and assemblages", "why_tests_cant": "all bulk compositions", "anchors": ["sources/evaluate_saturation.c: evaluateSaturationState (244-298, 309-345)"]}
{"id": "C202", "title": "Too few solids to know the potentials", "statement": "When there are fewer end members than components the saturation test still answers by its input: two runs with the same system agree.", "quantifier": "all assemblages with fewer end members than available liquid components", "why_tests_cant": "depends on what the allocator returns", "anchors": ["sources/evaluate_saturation.c: evaluateSaturationState (276-298)"]}
{"id": "C203", "title": "What the configured object shows is what the engine holds", "statement": "After InitializeMelts, whatever sequence of InitializeMelts, SetMode, SetInitialTP, SetFO2Path, SetFO2Offset, SetComposition, Normalize and RedistributeFeOx calls is made (accepted or refused) and nothing has been run, once a composition is set the engine holds, as one liquid and no solids, exactly the grams of each oxide that the object's composition shows; the bulk composition agrees with the phases and the liquid mass is the sum of the grams. The last composition entered wins and no other setting is touched.", "quantifier": "all finite sequences of configuration calls, all compositions, temperatures, pressures, paths and offsets, all shipped model versions", "why_tests_cant": "a test makes one sequence of calls with one composition; the property quantifies over all sequences and all real compositions", "anchors": ["src/melts_interface.cpp: MeltsInterface::SetComposition, Normalize, RedistributeFeOx, InitializeMelts, CreateSilminState"]}
{"id": "C204", "title": "Entering a composition replaces the contents of the system", "statement": "SetComposition on an object makes the system consist of exactly the composition entered, also when a calculation has been run on the object before.", "quantifier": "all compositions and all earlier contents", "why_tests_cant": "tests set a composition on a fresh object; the failure needs solids left from an earlier run", "anchors": ["src/melts_interface.cpp: MeltsInterface::SetComposition"]}
{"id": "C205", "title": "Normalising keeps proportions and gives 100", "statement": "With normalising on, Normalize of any composition set leaves every oxide multiplied by the same factor, makes the entries sum to 100, changes no setting, and a second call changes nothing; it is refused before a composition is set and changes nothing when switched off. Every composition is normalised to numbers.", "quantifier": "all compositions (arrays of 20 reals)", "why_tests_cant": "tests use positive compositions; the all-zero composition divides by zero", "anchors": ["src/melts_interface.cpp: MeltsInterface::Normalize"]}
{"id": "C206", "title": "Redistributing iron reaches the fugacity and keeps the matter", "statement": "RedistributeFeOx, when a composition, an fO2 path 1..19, a nonzero temperature and pressure are set, keeps the proportions of all other oxides and of total iron to them, leaves FeO and Fe2O3 both positive, makes the sum 100 when normalising is on and changes nothing else otherwise, and the liquid then held by the engine has exactly the oxygen fugacity it computed the buffer to be (same value from the oxygen-potential routine). Otherwise it is refused and nothing changes.", "quantifier": "all compositions without negative entries and with some iron, all T, P, paths, model versions", "why_tests_cant": "the speciation is a transcendental function of composition, T, P; tests sample a few", "anchors": ["src/melts_interface.cpp: MeltsInterface::RedistributeFeOx", "sources/liquid_v34.c: conLiq_v34", "sources/gibbs.c: getlog10fo2"]}
{"id": "C207", "title": "Iron is redistributed at the buffer and offset the user set", "statement": "RedistributeFeOx(buffer) sets the iron to the requested buffer shifted by the offset the user has set for it.", "quantifier": "all buffers, offsets, T, P and compositions", "why_tests_cant": "needs a nonzero offset on an object that is not running: getlog10fo2 reads the offset from a global pointer that is NULL then; the argument is never read", "anchors": ["src/melts_interface.cpp: MeltsInterface::RedistributeFeOx", "sources/gibbs.c: getlog10fo2"]}
{"id": "C208", "title": "Run settings are consistent and refusals change nothing", "statement": "In every reachable configuration at most one of isenthalpic, isentropic, isochoric is on, and SetMode turns on exactly the one asked for (none for any other number). An fO2 path 0..19 is accepted, becomes the path, and switches the oxygen constraint on exactly when it is not 0, without touching matter; other paths, and offsets without a path, are refused; a refused call of any kind leaves the object exactly as it was.", "quantifier": "all configuration sequences and all argument values", "why_tests_cant": "infinitely many sequences and integer arguments", "anchors": ["src/melts_interface.cpp: SetMode, SetFO2Path, SetFO2Offset, SetInitialTP"]}
{"id": "C209", "title": "The model version shown is the one calculated with", "statement": "After InitializeMelts(v) the version the object reports, the phase tables in force and the calculation mode used by every property routine belong to the same model; an unsupported number reverts all of them to MELTS 1.0.", "quantifier": "all integers v", "why_tests_cant": "tests use 1..4; unsupported numbers leave the calculation mode behind", "anchors": ["src/melts_interface.cpp: MeltsInterface::InitializeMelts"]}
{"id": "C210", "title": "Initialising forgets everything", "statement": "After InitializeMelts the system is empty (no oxide, no phase, no constraint on energy, volume or oxygen, no composition or temperature set), and two objects with any two histories are left with the same contents and settings except for the normalise-on-save switch and the displayed total.", "quantifier": "all pairs of earlier histories and all versions", "why_tests_cant": "quantifies over all earlier states", "anchors": ["src/melts_interface.cpp: InitializeMelts, CreateSilminState"]}
{"id": "C211", "title": "What is assimilated is what was entered", "statement": "After any sequence of ClearAllAssimilants and AddAssimilant calls that describe some matter, a full assimilation step adds to the system exactly the moles of every oxide those calls describe (solids added up, each liquid replacing the liquid before), its mass rises by exactly the grams entered, and a system that was balanced stays balanced.", "quantifier": "all call sequences, all modes' tables, all systems with a liquid cell", "why_tests_cant": "all compositions, numbers and orders of the calls", "anchors": ["src/melts_interface.cpp: AddAssimilant, ClearAllAssimilants", "sources/silmin.c: ASSIM_PADMIN"]}
{"id": "C212", "title": "Assimilated solids bring their own enthalpy, entropy and volume", "statement": "When only solids are assimilated and the percentages of the end members sum to 100, the enthalpy (entropy, volume) InitAssimilantTData attaches to the step is that of the phases that are added: the pure properties of each row times its moles, plus the mixing property of each solution at its moles.", "quantifier": "all sequences of solids, any property functions of the phases that are proportional to the amount of matter (mixing)", "why_tests_cant": "all compositions and numbers of calls", "anchors": ["src/melts_interface.cpp: InitAssimilantTData"]}
{"id": "C213", "title": "Assimilated liquid brings its own enthalpy, entropy and volume", "statement": "When a liquid is assimilated, the enthalpy (entropy, volume) attached to the step is a function of what was entered and the temperature.", "quantifier": "all call sequences with a liquid", "why_tests_cant": "depends on the contents of uninitialised memory", "anchors": ["src/melts_interface.cpp: InitAssimilantTData (a second, uninitialised totalMoles shadows the first in the liquid block)"]}
{"id": "C214", "title": "Mass counted is matter added", "statement": "Every call of AddAssimilant that adds to the mass of the step adds matter of that mass to what is assimilated.", "quantifier": "all phase numbers and percentages", "why_tests_cant": "all arguments", "anchors": ["src/melts_interface.cpp: AddAssimilant"]}
{"id": "C215", "title": "The shared library's fractionation moves matter, never makes or loses it", "statement": "meltsprocess with fractionation switched on takes from the phases (and the bulk composition, and the oxygen account) exactly what it puts in the fractionated store, oxide by oxide and gram by gram; a balanced system stays balanced and no phase is added or dropped.", "quantifier": "all tables, states and choices of phases that take part; solids and liquids", "why_tests_cant": "all states and phase counts", "anchors": ["sources/library.c: doBatchFractionation"]}
{"id": "C216", "title": "Fractionating never takes from the store", "statement": "Fractionation never lowers the moles of any phase in the fractionated store.", "quantifier": "all states", "why_tests_cant": "fails only for phases between the drop threshold and the residual amount", "anchors": ["sources/silmin.c: FRACTIONATION_SOLID", "sources/library.c: doBatchFractionation"]}
{"id": "C217", "title": "The reference enthalpy, entropy or volume keeps up with fractionation", "statement": "In an isenthalpic (isentropic, isochoric) run the reference enthalpy (entropy, volume) falls by exactly the enthalpy (entropy, volume), mixing included, of the matter fractionated, so that a reference equal to the enthalpy of the phases stays equal to it; or it has come to be exactly zero, which stands for unset.", "quantifier": "all states, all property functions whose mixing part depends on the proportions only, both programs", "why_tests_cant": "all compositions and phases", "anchors": ["sources/library.c: doBatchFractionation", "sources/silmin.c: FRACTIONATION_SOLID, FRACTIONATION_LIQUID"]}
{"id": "C218", "title": "Both programs fractionate alike", "statement": "When every phase present holds at least the residual amount, the graphical program and the shared library leave the same phases, store and reference after fractionation.", "quantifier": "all such states, all choices of phases", "why_tests_cant": "all states", "anchors": ["sources/library.c: doBatchFractionation", "sources/silmin.c: FRACTIONATION_SOLID, FRACTIONATION_LIQUID"]}
{"id": "C219", "title": "What the node is left with after a fractionating library call", "statement": "After a library call that keeps enthalpy, entropy or volume, the reference left in the node is the enthalpy, entropy or volume of the phases the node still holds, whether or not the call fractionated.", "quantifier": "all phase tables, all states, every output setting and choice of fractionated phases", "why_tests_cant": "all states and tables; the two statements that disagree are 20 lines apart and both look right alone", "anchors": ["sources/library.c: meltsprocess_ (final conditions)", "sources/library.c: doBatchFractionation"]}
{"id": "C220", "title": "Plotted curves hold the masses of the steps", "statement": "Whatever has been run, stopped, reset and looked at, every phase curve of the Plot tab holds, point by point, the total mass of its phase in the corresponding step (and is shown exactly when the phase occurs), the temperatures and melt compositions likewise; a look after a finished calculation shows every step.", "quantifier": "all histories of runs, stops, resets and looks; all steps and phase tables", "why_tests_cant": "the plot data are built up incrementally from what was there at the last look", "anchors": ["src/imgui_opengl_melts_version.cpp: Plot tab, ClearPlotData"]}
{"id": "C221", "title": "Drawing never reads beyond the plot data", "statement": "Whenever the Plot tab is drawn, every vector handed to the plotting routine holds at least as many numbers as it is told to read, and drawing does not throw.", "quantifier": "all histories of runs, stops, resets and looks, all interleavings of the calculating thread with the window", "why_tests_cant": "depends on whether the calculating thread saves a step after the Stop button", "anchors": ["src/imgui_opengl_melts_version.cpp: Equilibration popup, Plot tab", "src/melts_interface.cpp: Equilibrate, StopEquilibration"]}
{"id": "C222", "title": "Names of phases match the version in use", "statement": "After a version has been chosen the list of phase names has one entry per phase of that version, in order, so the k-th curve of the plot carries the name of its phase; the map of names likewise.", "quantifier": "all sequences of version choices", "why_tests_cant": "only wrong after a history of more than one choice", "anchors": ["src/melts_interface.cpp: InitializeMelts, GetPhaseNames", "src/imgui_opengl_melts_version.cpp: Plot tab"]}
{"id": "C223", "title": "The Suppress menu excludes exactly the ticked phases", "statement": "Pressing Suppress excludes exactly the ticked phases and no other, whatever was excluded before; Reset includes all; after a file is loaded the ticks are what the file switched off and the exclusions stay; the boxes suffice for every version.", "quantifier": "all phase tables of at most 42 phases, all selections and earlier exclusions, every version", "why_tests_cant": "all selections; three different numberings of the phases meet", "anchors": ["src/melts_interface.cpp: SetSuppressedPhases, ClearSuppressedPhases", "src/imgui_opengl_melts_version.cpp: Suppress phases", "include/imgui_opengl.hpp: m_Suppressed"]}
{"id": "C224", "title": "Each assimilant line of a saved file restores the row it was written for", "statement": "A .melts file saved by the application lists one line for every phase and end member of the assimilant; loading that file gives back, for each of them, the amount or mole percent its own line states, even though two entries of the table of solids may share a name.", "quantifier": "every table of solids, every file text, every assimilant, every row of the table", "why_tests_cant": "the reading of a line depends on every other label of the table and on every other line of the file; that no file at all restores a row is a statement over all texts", "anchors": ["src/melts_interface.cpp: SaveMeltsInputData 1033-1047, LoadFromFile 1246-1307", "sources/sol_struct_data.h: labels of meltsSolids, meltsFluidSolids"]}
{"id": "C225", "title": "The summary of assimilants that is saved is what the engine was told", "statement": "After any sequence of typing amounts and compositions, pressing Add solid and clearing, the mass and the end-member mole percents the assimilant window keeps for each phase (and writes to the .melts file) are the mass and the mole percents of that phase the engine will add at each step, and the kept masses sum to the mass per step.", "quantifier": "every table of solids, every sequence of entries and additions, every phase and end member", "why_tests_cant": "the two records are updated by different formulas at every press of a button; that they agree is an invariant over all sequences of presses and all compositions", "anchors": ["src/imgui_opengl_melts_version.cpp: Set Assimilants 896-985", "src/melts_interface.cpp: AddAssimilant 460-519"]}
{"id": "C226", "title": "Adding one solid does not change what was typed for another", "statement": "Pressing Add solid for one phase may normalise that phase's own end-member percentages; the amounts and percentages typed for every other phase stay as typed.", "quantifier": "every table of solids, every content of the fields, every two phases", "why_tests_cant": "which field is touched depends on the layout of the whole table of phases and on the number of end members of the selected one", "anchors": ["src/imgui_opengl_melts_version.cpp: Add solid 953-985"]}
{"id": "C227", "title": "Only one calculation runs at a time", "statement": "Whatever is pressed and in whatever order calculations end, the program never has two equilibration calculations running at once on the shared state.", "quantifier": "every sequence of user actions and every schedule of the calculating threads", "why_tests_cant": "it depends on when the scheduler lets a stopped calculation end relative to later presses", "anchors": ["src/imgui_opengl_melts_version.cpp: Equilibrate and Stop 1103-1173", "include/imgui_opengl.hpp: m_Future 48"]}
{"id": "C228", "title": "The mode and increments shown are those applied", "statement": "At every moment the calculation mode shown and the increments entered for it are the ones the next steps use, and the increments of quantities the mode does not prescribe are zero.", "quantifier": "every sequence of folding, choosing, typing, clearing, resetting and loading", "why_tests_cant": "what is applied is left over from the last frame in which the settings were unfolded, so it depends on the whole history of the window", "anchors": ["src/imgui_opengl_melts_version.cpp: 480-529, 594-608, 702-724, 788-853, 1218-1229", "src/melts_interface.cpp: CreateSilminState 159-240, SetMode 288-312, SetIncrements 698-719"]}
{"id": "C229", "title": "The title in use is the title entered", "statement": "A title typed, or loaded from a file, is used unchanged for the run and its files; one with a forbidden character never replaces the title in use; Reset state restores the default title.", "quantifier": "every title of any length", "why_tests_cant": "the title passes through a buffer of fixed size, so the property is about all lengths and contents", "anchors": ["src/imgui_opengl_melts_version.cpp: 34-42, 571-587, 595-596", "src/melts_interface.cpp: LoadFromFile 1096-1098"]}
{"id": "C230", "title": "The system is not replaced while a calculation uses it", "statement": "Resetting, loading a file or saving a new composition is possible only when no calculation is running on the state it destroys.", "quantifier": "every sequence of user actions and every schedule of the calculating threads", "why_tests_cant": "whether the stopped calculation has ended when the state is destroyed is up to the scheduler", "anchors": ["src/imgui_opengl_melts_version.cpp: 480-529, 594-608, 702-714, 1126-1173", "src/melts_interface.cpp: CreateSilminState 159-162"]}
{"id": "C231", "title": "Settings given as an array act as the settings given one by one", "statement": "The call that sets several properties does what setting each of them alone does, in order, whatever the width of the fields, the position in the array and what is in memory.", "quantifier": "all arrays of texts, all field widths, all contents of the memory before the call", "why_tests_cant": "what is read after a text is memory that a test does not control, and the widths and texts are unbounded", "anchors": ["sources/library.c: setMeltsSystemProperties 1392-1430", "sources/library.c: meltssetsystemproperty_ 1321-1389"]}
{"id": "C232", "title": "After a liquidus call the object shows the system the search left", "statement": "After Liquidus or WetLiquidus, found or not, the composition shown is the one the engine holds, all of it as one liquid, in grams of the oxides the search left; the start temperature is that of the search and the pressure is unchanged.", "quantifier": "all configured objects, all outcomes of the search", "why_tests_cant": "every composition, and every way the search can end", "anchors": ["src/melts_interface.cpp: Liquidus 846-873", "src/melts_interface.cpp: WetLiquidus 876-904"]}
{"id": "C233", "title": "The liquidus temperature shown is that of the system shown", "statement": "GetLiquidusT gives a temperature only if a search succeeded since InitializeMelts, and it is the liquidus temperature of the composition and pressure shown; a liquidus call tells whether it failed.", "quantifier": "all sequences of calls on the object, all outcomes of the searches", "why_tests_cant": "the temperature is remembered over arbitrary later calls: all histories", "anchors": ["src/melts_interface.cpp: Liquidus 846-873", "src/melts_interface.cpp: CreateSilminState 224", "src/imgui_opengl_melts_version.cpp: 1189-1192"]}
