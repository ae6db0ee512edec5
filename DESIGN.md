# Machine-checked model of MAGMA (xMELTS / easyMelts) in Coq 8.16

Source: /repo (read as text, never built). Model: /verif/rocq/theories. Every definition of a
`*Model.v` file cites the file and lines it models and states its simplifications.

## Layout

For each subsystem X:

* `XModel.v`  – Gallina transcription of the C/C++ code, with citations (no proofs).
* `XSpec.v`   – the independent specification (only where the statement needs more than standard mathematics).
* `XProofs.v` and other names – lemmas.
* `XProps.v`  – the theorems named after the properties (`C01_...`), and concrete cases that meet their hypotheses.

Generated files (`Tables.v`, `ElemTable.v`, `InitCert.v`, `SolnData.v`, `ConData.v`) come from the
scripts in `tools/` (`gen_tables.py`, `gen_cert.py`, `gen_soln.py` with `csoln.py`/`cexec.py`); they are
data of the model (what the C tables and functions contain) or certificates that are re-checked in Coq.

A property found false of the code is kept in full in `properties.jsonl`, refuted by a theorem
`Cnn_refuted_...` that exhibits the failing input, and its true part is proved (suffix `_partial` when the
theorem is weaker than the property, no suffix when it is a complete statement of its own, often listed
again as a separate property). In MANIFEST.json such a property is "partial" with a note starting FALSE.

Arithmetic: `double` is modelled by exact real numbers (`R`) in the numerical modules, by `Q`/`Qc`/`Z` in
text and bookkeeping modules. Rounding, overflow and NaN are NOT modelled, except in `C66_refuted_...`
(IEEE doubles of the standard library's SpecFloat) and where a NaN is an explicit `None`. Memory errors
are modelled as an explicit outcome (`UB`) or as a stated read/write outside the caller's array where an
index can leave an array.

## Plan per property

| id | what is modelled | how it is proved |
|----|------------------|------------------|
| C01 C02 C03 | `Tsd*`: key table, per-thread slots, history of calls | invariant `count = 1 + #non-null slots`, refinement to a history specification; C03 refuted (read precedes bound check) |
| C04 C05 C06 | `Formula*`: character loop of formulaToMwStoich | round trip against an AST renderer; loop invariants; rejection and refutations |
| C07 C08 | `Fo2*`: buffer curves as real functions | Coquelicot `is_derive`; P-derivative of COH refuted |
| C09–C13 C40 | `Eos*`, `Hp*`: closed forms of gibbs.c | `is_derive` for all T, P and coefficients; implicit-function lemma for Vinet and Holland–Powell volumes |
| C14 C15 C16 | `Sym*`, `Soln*`, `Con*`: solution phases as expressions, generated from the C | verified symbolic derivative checker and normal form, reflection |
| C17–C20 C41–C45 | `Mass*`: phase amounts as finite vectors, ADD_PHASE, DROP_PHASE, UPDATE_SYSTEM, assimilation | conservation by induction over components, phases, instances; refutations |
| C21 C65 C66 C67 | `Path*`: path stepping, corrections, increments | induction over steps; IEEE counterexample |
| C22 C58 C59 | `Equil*`: MeltsInterface::Equilibrate with an arbitrary solver and a concurrent stop request | induction over the loop, all interleavings of the request |
| C23–C26 C38 C39 | `MeltsFile*`: writer and reader at character level | round trip; refutations |
| C27 C68 C69 | `Xlsx*`: the three sheets as maps from cells to the last write | row-shape invariants of the write loops; refutations |
| C28 C47 C48 C49 | `Hh*`, `Hfti*`, `Quad*` (lawson_hanson.c, quadratic step of silmin.c) | induction over pivots; orthogonality; refutation of the multipliers |
| C29 C31 C50 C51 C52 | `Chol*`, `Nash*`, `Vmmin*`, `Marq*` (nash.c) | induction on sizes, invariants over unbounded iteration; refutations |
| C30 | `Lu*` (melts_linalg.c) | packing permutation algebra; refutations |
| C32 C53 | `Frac*` (frac.c) | loop invariants; refutation of the stated tolerance |
| C33 C54 | `Node*` (library.c node table) | refinement to a finite map for every sorting qsort |
| C34 C55 C56 | `Report*` (library.c property table) | sums over phases, frame conditions; refutations |
| C35 C57 | `PropStr*` (settings strings) | character-level case analysis |
| C36 | `Supply*` (library composition intake) | algebra over the state of `Mass*` |
| C37 | `Copy*` (copySilminStateStructure with block identities) | loop invariants; refutations |
| C46 | `Init*` (InitComputeDataStruct) over the shipped tables | certificates (right inverses) checked by computation, for every solver answer |
| C60–C64 | `Silmin*`: control flow of silmin() with arbitrary numerical answers | inductive invariants over resumable calls; termination measures; refutations |
| C70–C74 | `Fill*`: the results record handed to the interface and the export | sums over phases; refutation of the liquid density |
| C75–C78 | `Redox*`: conLiq (iron) and muO2Liq of the four liquid models | algebra of exp and ln; derivatives with Coquelicot; refutation at zero ferric iron |
| C79–C82 | `Step*`: constraint rows, reading back the solution, the move, correction to the buffer | columns as a list of variables matched to the read-back order; linearity of amounts; refutation of the row count |
| C83–C86 | `Liq*`: liquid_v34.c, mixing model of the liquid in the MELTS and pMELTS modes, any number of components | Coquelicot derivatives along one variable; symmetric-form lemmas for the pair sums; Euler's theorem through the row sums; refutation at an absent component |
| C87–C88 | `Vis*`: visLiq_v34 (Shaw) | closed form of the slope; monotonicity by cross-multiplication; refutations with the program's table |
| C89–C91 | `Hess*`: gradient_hessian.c 206-500, 789-830, 918-1200, any assemblage, four kinds of problem | loop invariants over a list of phases give every entry of the matrices; chain rule for extensive properties; solution models abstract, `HessLiq` instantiates the liquid |
| C92 | `Desc*`, `FullRank`: the step (C79, C48) with the matrices of C90 | the constrained quadratic solution is stationary (C48), the gradient is that of C90 along any line of amounts, so the slope along the step is minus its curvature; full pseudorank from definiteness on the null space |
| C93–C96 | `Ord*`: the eleven files with ordering parameters; formulas generated (`tools/gen_ord.py`), loops of order() and the mixing functions once for any phase | symbolic checks by reflection; the implicit function theorem along each coordinate for a continuous stationary branch; each output is a total derivative |
| C97, C98 | `OrdAct*`, `OrdPath`: the activity functions of the same files; tables fr, gs, dfrdr generated (`tools/gen_ordact.py`), loops once | each row of fr is end-member composition minus r (checked by reflection against the conversion functions), the implicit function theorem along any path of compositions, then the algebra of partial molar quantities |
| C99–C130 | the true parts of properties that the code violates in full (or that were proved for some phases only), as properties of their own: C99 of C06, C100 of C07, C101 of C11, C102 of C24, C103 of C26, C104 of C27, C105 of C30, C106 of C34, C107 of C36, C108 of C37, C109 of C49, C110 of C56, C111 of C58, C112 of C59, C113 of C63, C114 of C64, C115 of C69, C116 of C73, C117 of C74, C118 of C78, C119 of C86, C120 of C87, C121 of C08, C122 of C13, C123 of C14, C124 of C15, C125 of C31, C126 of C40, C127 of C60, C128 of C66, C129 of C81, C130 of C03 | same models; theorems of the original property without its refuted cases |
| C131–C133 | `SatModel`: evaluateSaturationState; potentials of the liquid and affinity routines of solutions are parameters | invariant of the scan over the phase table (`SatProps`); C133 algebra |
| C134–C139, C143 | `LiquidusModel`: liquidus() as the state machine it is, with conLiq of `RedoxModel` and an arbitrary saturation test | four calls make a round (`LiquidusProofs`), induction over the rounds of a finished search; the redox step forgets earlier temperatures, so tests depend on the temperature only; termination by stages (16 tests after the first change); C138, C139 are false of the code, counterexamples proved |
| C140–C142, C144 | `WetModel`: findWetLiquidus with arbitrary equilibration | induction over the rounds (`WetProps`); C141, C142 are false of the code, counterexamples proved |
| C145–C149 | `CoexModel`: check_coexisting_liquids.c in full for the liquid of liquid_v34.c (Householder rotation to the free variables, vmmin of `NashModel`, choice and addition); the redox correction on an fO2 path is an arbitrary function | Gibbs energy of a division in `CoexSpec`; derivative of the energy along the division (`CoexProofs`), rotation keeps absent components absent (`CoexFrame`), theorems in `CoexProps`, `CoexMore`, `CoexGrad` |
| C150–C158 | `CoexSolModel`: check_coexisting_solids.c 205-457 in full; a solid solution is a record of the functions the code calls (composition conversion, test, energy of mixing and its gradient), instantiated by the fifteen phases without ordering parameters in `CoexSolPhase` | stability in `CoexSolSpec`; tangent plane by the derivative along a division (`CoexSolProofs`); bookkeeping by invariants over the phase table (`CoexSolMore`, `CoexSolDet`); C156, C157 are false of the code, counterexamples proved in `CoexSolCase` |
| C159, C160 | `EosModel` (the loop of gibbs.c 485-491), `VinetSolve`, `VinetProps`: parameters of the four shipped solids | the residual is increasing and concave on an interval around 1 (bounds on exp), so Newton iterates rise to the root geometrically (`VinetNewton`); root by the intermediate value theorem, Lipschitz in T and P, then C10; C160 is false of the code, counterexample proved |
| C161–C165 | `EstModel`: est_saturation_state.c 185-765 (getAffinityAndComposition with func, grad, initialGuess and computeSolnWithinSolvus); the phase is a record of arbitrary functions, rqmcg an arbitrary function; `EstProofs`, `EstProps`, `EstIdeal`, `EstNull`, `EstPhase`, `EstFun`, `EstCase` | C161 from C50 (modmrt) and the orthogonality of the Householder frame; C162: the start is a root, modmrt stays on it (Cholesky of a positive definite matrix); C163: the frame makes the constraint rows triangular, so only the fixed variables matter, instantiated for the fifteen phases by showing their mole fractions affine; C164: termination measure for the shrinking step and determinism of every search; C165 refuted: line 514 lacks fabs, so the scale can be negative or zero |
| C166–C169 | `OxyModel`: gradient_hessian.c 517-788, 826-918, 1064-1200 on an fO2 path, four modes, with and without a liquid; muO2Liq and subSolidusmuO2 are arbitrary functions with given derivatives | `OxySpec` defines the open-system energy; `OxyBase`, `OxyFill`: the matrices are those of `HessModel` plus explicit oxygen terms (simulation of the two fillings); derivatives in `OxyProofs`, `OxyProps`; C167–C169 are false of the code, counterexamples in `OxyCase` |
| C170 | `CoexModel` as for C145 | induction over the scan of the liquids (`CoexKept`); the solid analogues are C152_searched and C154_most_distant (`CoexSolKept`) |
| C171–C174 | `SubModel`: subSolidusMuO2.c 192-474 without a liquid (oxides, components, weighted matrix, truncated SVD solve, reuse of the last reaction, mask FIRST, mask 0), silmin_support.c 1185-1189; the SVD is any set of factors | `SubSpec`: balanced reaction, equilibrium, oxygen potential, SVD contract, caches that calls can leave; `SubProofs`: the pseudo-inverse solves a solvable system, cache invariant; `SubRun`: what the trial loops conserve, by induction on runs; C172, C173 are false of the code (`SubCase`) |
| C175–C184 | `QryModel`: library.c 1435-2290 (phase, molar, end-member and oxide queries, their wrappers), mixing functions and standard states as fields of a record | `QrySpec`: what is read from the caller's array, mutual consistency of eleven numbers, proportions; `QryProps`: general statements; `QryTable`: liquid_v34 and the fifteen solutions without order parameters put in, conversions from elements keep proportions; `QryLiquid`: tables as computed, oxygen path, end members, oxides; `QryOrd`: the twelve solutions with order parameters; `QryEos`: Berman standard states; `QryPyr`: pyroxenes |
| C185–C186 | `ElmModel`: convert(FIRST, SECOND) of every solution in the tables | `ElmProps`, `ElmTable`: atoms of a mixture of end members, back to the mixture; `ElmData` is the list of solutions with their formulas, checked against the tables |
| C187–C193 | `DynModel`: library.c 359-410, 1435-2103 with TESTDYNAMICLIB (the shared library: the only target that compiles library.c, and only with that macro, line 387 being a syntax error without it); `QryModel` has the other branches | `DynProps` (oxides, mass, density, molar weight), `DynMem` (feldspar and MgO, activities, CaCO3), `DynWeights` (formula weights; columns of oxToLiq computed from `InitCert`) |
| C194–C195 | `NameModel`: library.c 159-308, 328-371 (names written and padded, the sorted list of phases, lookup); qsort and bsearch are any functions meeting the C standard (`NameSpec`) | `NameProps`: induction over names and characters; labels of the four modes by computation |
| C196–C199 | `GrdModel`: library.c 473-594 (viscosity) | `GrdProps` |
| C200–C202 | `AbsModel`: evaluate_saturation.c 210-301 (potentials of the liquid components when there is no liquid), joined to `SatModel`; the decomposition is any that is one (`SubSpec.svdOf`) or, where GSL refuses, unwritten memory | `AbsProps`: the solution reproduces the potentials on the row space; what is made of the same oxides is made of the same components (C46). `AbsCase`: quartz, corundum, sillimanite; calcite and aragonite without silica, on the fluid tables |
| C203–C210 | `IfaceModel`: melts_interface.cpp 92-157, 165-240, 288-417, 610-641: the object of the graphical program (version, settings, composition, normalising, iron set to the buffer) on top of `SupplyModel.supplyFresh`, `RedoxModel.toRedox`, `Fo2Model.log10fo2` | `IfaceProps`: an invariant over all sequences of configuration calls; scale invariance of the oxygen fugacity. `IfaceCase`: on the shipped tables |
| C211–C214 | `AsmModel`: melts_interface.cpp 425-603: assimilants entered (ClearAllAssimilants, AddAssimilant) and their thermodynamic totals (InitAssimilantTData), on top of `MassModel.assimilate` | `AsmProps`: what is assimilated is what was entered, in moles of each oxide and in grams; solids bring their own enthalpy, entropy and volume; false of liquids (uninitialised divisor) and of calls that describe no matter. `AsmCase`: on the shipped tables |
| C215–C218 | `LibFracModel`: library.c 2505-2717 (doBatchFractionation) beside silmin.c 1727-1960, with the reference enthalpy, entropy or volume | `LibFracProps`: matter moved and never made in either program, the reference keeps up with the phases, both programs alike above the residual amount; the library can take from the store (false of the code) |
| C219 | `LibEnd`: library.c 1127-1178, the tail of meltsprocess in modes 2-4 | same file: the reference left is the content of the phases left only when the tail does not fractionate; otherwise off by exactly what was taken (false of the code) |
| C220–C221 | `PlotModel`: imgui_opengl_melts_version.cpp 363-375, 1125-1172, 1443-1716 (plot data, Equilibrate and Stop buttons) | `PlotProps`: invariant over histories of runs, stops, resets and looks; reading past the vectors after Stop (false of the code) |
| C222–C223 | `MenuModel`: melts_interface.cpp 109-151, 236-267, 907-914; imgui_opengl_melts_version.cpp 424-437, 516-535, 1062-1098 | `MenuProps`: the ticked phases are the excluded ones; names after a second choice of version (false of the code) |
| C224 | `MeltsFileModel` | `FileLabel`: a saved assimilant's lines are read by the first row with the label (false of the code: many rows come back from no file) |
| C225–C226 | `DlgModel`: imgui_opengl_melts_version.cpp 896-985 over `AsmModel` | `DlgProps`, `DlgCase`: the window's record of assimilants against the engine's, over all sequences of entries; the fields of other phases (both false of the code in part) |
| C227–C230 | `WinModel`: imgui_opengl_melts_version.cpp 480-529, 571-608, 702-724, 788-853, 1103-1173 | `WinProps`: invariants over all sequences of user actions and thread ends; each is false of the code in part |
| C231 | `PropArrModel`: library.c 1392-1430, character by character, over PropStrModel | `PropArrProps`: induction over the copy and over the array; false without two trailing blanks |
| C232, C233 | `LiqCallModel`: melts_interface.cpp 846-904 and 224, over IfaceModel, the search an argument | `LiqCallProps`: by IfaceProps' lemma on SetComposition; induction over the calls from the last. C232 (wet) and C233 are false of the code |

`tools/mutate.py` replays seeded bugs; every attempt is a line of `seeded/LOG.jsonl`.

## What is modelled

* sources/library.c: property queries 1435-2290. sources/subSolidusMuO2.c 192-474 (no liquid), sources/silmin_support.c 1185-1189. The branch inpMask == FIRST of the con functions of all solutions in the tables.
* sources/mthread.c 47-170; sources/melts_support.c 265-500, 746-833; sources/frac.c; sources/melts_linalg.c (packing LU wrapper); sources/lawson_hanson.c (Householder H1/H2 variants, hfti); sources/nash.c 123-468 (min1d, vmmin, modmrt, Cholesky).
* sources/gibbs.c: oxygen buffers 212-365, Berman and Saxena heat capacities, Berman and Vinet volumes, Kress liquid volume, Landau and Holland–Powell (708-843), lambda transitions.
* The solution phases: conversion functions of all 28 solid, fluid and alloy solutions; activities, Gibbs energy, enthalpy, entropy, heat capacity and volume functions of the fifteen without ordering parameters, and those of the twelve with ordering parameters (the formulas and the derivatives of the ordering state; the end-member functions pureXxx are arbitrary consistent functions).
* sources/silmin.c: the control flow of the whole function (371-2203), ADD_PHASE, DROP_PHASE, UPDATE_SYSTEM bookkeeping, the solution of the quadratic step, path stepping, REASSEMBLE_SOLUTION and the move of LINEAR_SEARCH. sources/equality_constraints.c 165-310. sources/linear_search.c 218-222, 276-290, 320-332. sources/silmin_support.c: copySilminStateStructure 410-735, addOrDropLiquid, correction loops. sources/check_coexisting_liquids.c and check_coexisting_solids.c.
* sources/liquid_v34.c: all of it. sources/gradient_hessian.c 206-1275 (500-517 apart).
* sources/library.c: node table, composition intake of meltsprocess_ and meltssaturationstate_, property table 866-1125, settings strings 1321-1389.
* src/melts_interface.cpp: Equilibrate and stop, SetIncrements, AssimilateSetComposition, save/load of .melts files. src/xlsx_writer.cpp: all of WriteToFile. include/melts_interface.hpp: SilminData::FillStructure.
* Also, as the rows of C180-C230 say in detail: sources/library.c 159-410 and 473-594 (saturation, in both variants of TESTDYNAMICLIB: QryModel.v and ReportModel.v are the variant without it, DynModel.v the one with it), 2505-2717; sources/evaluate_saturation.c 210-301; src/melts_interface.cpp 92-157, 165-240, 288-641, 907-914.
* The parts of src/imgui_opengl_melts_version.cpp that act on the state of a calculation, not the drawing: 363-437, 480-535, 571-608, 702-724, 788-853, 896-985, 1062-1173.

## What is not modelled

* Floating-point rounding (except C66), performance, memory allocation failure, the drawing of the GUI, threads other than those of C58, C59, C227 and C230.
* The multiplier terms of sources/gradient_hessian.c 1276-1400; the rows of equality_constraints.c for imposed properties (their use is C79); est_saturation_state.c 1-184 (allocation) ; liquid.c, liquid_CO2.c and liquid_CO2_H2O.c mixing and speciation (their redox part is C75–C78; liquid_v34.c is modelled); the fluid equations of state (water.c, fluidPhase); subSolidusMuO2.c; read_write.c; the command-line program.
* The Newton loop of order() in the phases with ordering parameters (the stationary state it looks for is a hypothesis of C93–C98), their end-member functions pureXxx and the exclusion criteria of their activity functions, and rhomsghiorso.c. olivine.c's singular value decomposition and biotiteTaj.c's 1x1 gaussj are taken to solve the system.
* External libraries (GSL, libxlsxwriter, libc) are represented by what their manuals promise, stated at each use.

## Trusted base

* Coq 8.16.1's kernel (and `vm_compute`, part of it), rechecked by coqchk.
* The axioms that `Print Assumptions` lists, per theorem, in `ASSUMPTIONS.md` (generated by `tools/assumptions.py`): nothing but the standard library's `ClassicalDedekindReals.sig_forall_dec`, `ClassicalDedekindReals.sig_not_dec`, `FunctionalExtensionality.functional_extensionality_dep` and `Classical_Prop.classic`. No axiom, Parameter or section-less Variable of our own.
* The reading of the C/C++ source, and for the generated files the scripts that read it (`tools/`).
