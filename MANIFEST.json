{
 "claims": [
  {
   "property": "C01",
   "status": "proved",
   "theorems": [
    "C01_tsd_refines_history_spec",
    "C01_get_returns_last_set",
    "C01_isolation"
   ],
   "note": "Every history of calls by every set of threads; slot table and counts modelled, refined to a history spec."
  },
  {
   "property": "C02",
   "status": "proved",
   "theorems": [
    "C02_keys_never_reused",
    "C02_create_fails_iff_full",
    "C02_key_stays_valid",
    "C02_cleanup_destroys_held_values",
    "C02_once_runs_once"
   ],
   "note": "Every history of calls."
  },
  {
   "property": "C03",
   "status": "partial",
   "theorems": [
    "C03_get_out_of_range_refuted",
    "C03_in_range_safe"
   ],
   "note": "FALSE of the code in full: the table is read before the bound check; in-range keys proved safe."
  },
  {
   "property": "C04",
   "status": "proved",
   "theorems": [
    "C04_formula_stoichiometry",
    "C04_shipped_formulas_parse"
   ],
   "note": "Every formula of the AST rendered to text."
  },
  {
   "property": "C05",
   "status": "proved",
   "theorems": [
    "C05_weight_is_stoich_times_atomic_weights"
   ],
   "note": "Every string on which the parser succeeds."
  },
  {
   "property": "C06",
   "status": "partial",
   "theorems": [
    "C06_no_parentheses_accepts_only_formulas_partial",
    "C06_parser_terminates",
    "C06_malformed_rejected_refuted"
   ],
   "note": "FALSE of the code in full (malformed parenthesised strings accepted); true for strings without parentheses."
  },
  {
   "property": "C07",
   "status": "partial",
   "theorems": [
    "C07_buffer_dT_exact",
    "C07_buffer_dP_exact_partial",
    "C07_COH_dP_refuted",
    "C07_none_dP_refuted"
   ],
   "note": "T-derivatives exact for all buffers; P-derivatives exact except COH and none, for which the property is refuted."
  },
  {
   "property": "C08",
   "status": "partial",
   "theorems": [
    "C08_offsets",
    "C08_user_offset_on_QFMn_refuted"
   ],
   "note": "Built-in offsets and user offsets exact; FALSE for a user offset on top of QFM+n (ignored)."
  },
  {
   "property": "C09",
   "status": "proved",
   "theorems": [
    "C09_solid_berman_consistent"
   ],
   "note": "All coefficients, T>0 off the lambda temperature, all P."
  },
  {
   "property": "C10",
   "status": "proved",
   "theorems": [
    "C10_solid_vinet_consistent",
    "C10_branches_exist",
    "C10_newton",
    "C10_nonvacuous",
    "C159_compression"
   ],
   "note": "For every exact root, continuous in T and P. The loop stops at a residual instead: C159 bounds the distance to the root for the shipped solids."
  },
  {
   "property": "C100",
   "status": "proved",
   "theorems": [
    "C100_buffer_dP",
    "C07_buffer_dT_exact"
   ],
   "note": "True part of C07."
  },
  {
   "property": "C101",
   "status": "proved",
   "theorems": [
    "C101_liquid_volume",
    "C11_liquid_energies"
   ],
   "note": "True part of C11."
  },
  {
   "property": "C102",
   "status": "proved",
   "theorems": [
    "C102_plain_buffer_reloads"
   ],
   "note": "True part of C24."
  },
  {
   "property": "C103",
   "status": "proved",
   "theorems": [
    "C103_load_depends_only_on_increments"
   ],
   "note": "True part of C26."
  },
  {
   "property": "C104",
   "status": "proved",
   "theorems": [
    "C104_system_sheet",
    "C27_case"
   ],
   "note": "True part of C27."
  },
  {
   "property": "C105",
   "status": "proved",
   "theorems": [
    "C105_packed",
    "C30_no_null_rows"
   ],
   "note": "True part of C30."
  },
  {
   "property": "C106",
   "status": "proved",
   "theorems": [
    "C106_first_seven",
    "C106_all_without_solutions"
   ],
   "note": "True part of C34."
  },
  {
   "property": "C107",
   "status": "proved",
   "theorems": [
    "C107_supplied",
    "C107_equilibrated",
    "C107_every_call"
   ],
   "note": "True part of C36."
  },
  {
   "property": "C108",
   "status": "proved",
   "theorems": [
    "C108_new_copy_independent",
    "C108_overwrite_same",
    "C37_new_copy_same",
    "C37_overwrite_independent"
   ],
   "note": "True part of C37."
  },
  {
   "property": "C109",
   "status": "proved",
   "theorems": [
    "C109_multiplier"
   ],
   "note": "True part of C49."
  },
  {
   "property": "C11",
   "status": "partial",
   "theorems": [
    "C11_liquid_energies",
    "C11_liquid_volume_partial",
    "C11_liquid_volume_refuted"
   ],
   "note": "FALSE of the code in full: V differs from dG/dP by d2v/dp2 /2 for every liquid component with a quadratic term; the rest proved."
  },
  {
   "property": "C110",
   "status": "proved",
   "theorems": [
    "C110_rest_untouched"
   ],
   "note": "True part of C56."
  },
  {
   "property": "C111",
   "status": "proved",
   "theorems": [
    "C111_stop"
   ],
   "note": "True part of C58."
  },
  {
   "property": "C112",
   "status": "proved",
   "theorems": [
    "C112_stop_during_run"
   ],
   "note": "True part of C59."
  },
  {
   "property": "C113",
   "status": "proved",
   "theorems": [
    "C113_data_belong",
    "C63_case"
   ],
   "note": "True part of C63."
  },
  {
   "property": "C114",
   "status": "proved",
   "theorems": [
    "C114_no_false_convergence"
   ],
   "note": "True part of C64."
  },
  {
   "property": "C115",
   "status": "proved",
   "theorems": [
    "C115_phases_sheet"
   ],
   "note": "True part of C69."
  },
  {
   "property": "C116",
   "status": "proved",
   "theorems": [
    "C116_fractionated",
    "C73_case"
   ],
   "note": "True part of C73."
  },
  {
   "property": "C117",
   "status": "proved",
   "theorems": [
    "C117_rest_of_record"
   ],
   "note": "True part of C74."
  },
  {
   "property": "C118",
   "status": "proved",
   "theorems": [
    "C118_more_oxidised",
    "C78_no_ferric"
   ],
   "note": "True part of C78."
  },
  {
   "property": "C119",
   "status": "proved",
   "theorems": [
    "C119_dact",
    "C86_witness"
   ],
   "note": "True part of C86."
  },
  {
   "property": "C12",
   "status": "proved",
   "theorems": [
    "C12_reference_state_consistent",
    "C12_reference_values"
   ],
   "note": "Berman and Saxena heat capacities."
  },
  {
   "property": "C120",
   "status": "proved",
   "theorems": [
    "C120_water",
    "C120_silica",
    "C87_temperature",
    "C87_witness",
    "C88_witness"
   ],
   "note": "True part of C87 and C88."
  },
  {
   "property": "C121",
   "status": "proved",
   "theorems": [
    "C08_offsets"
   ],
   "note": "True part of C08."
  },
  {
   "property": "C122",
   "status": "proved",
   "theorems": [
    "C13_HP_consistent",
    "C13_biotites_consistent"
   ],
   "note": "True part of C13."
  },
  {
   "property": "C123",
   "status": "proved",
   "theorems": [
    "C14_gmix",
    "C14_smix_hmix_cpmix",
    "C14_vmix",
    "C14_activities"
   ],
   "note": "Restriction of C14; with ordering parameters see C93-C97."
  },
  {
   "property": "C124",
   "status": "proved",
   "theorems": [
    "C15_potentials_are_partials",
    "C15_euler",
    "C15_gibbs_duhem"
   ],
   "note": "Restriction of C15; with ordering parameters see C98."
  },
  {
   "property": "C125",
   "status": "proved",
   "theorems": [
    "C31_min1d_returns",
    "C31_min1d_no_worse",
    "C31_min1d_success",
    "C31_min1d_bad_initial",
    "C31_vmmin_returns",
    "C31_vmmin_reported_minimum",
    "C31_vmmin_sufficient_decrease",
    "C31_vmmin_metric"
   ],
   "note": "True part of C31."
  },
  {
   "property": "C126",
   "status": "proved",
   "theorems": [
    "C40_lambda_continuous"
   ],
   "note": "True part of C40."
  },
  {
   "property": "C127",
   "status": "proved",
   "theorems": [
    "C60_constraints_survive",
    "C60_buffer_survives",
    "C60_case"
   ],
   "note": "True part of C60."
  },
  {
   "property": "C128",
   "status": "proved",
   "theorems": [
    "C66_portions",
    "C66_four_portions"
   ],
   "note": "True part of C66."
  },
  {
   "property": "C129",
   "status": "proved",
   "theorems": [
    "C81_rows",
    "C81_columns"
   ],
   "note": "True part of C81."
  },
  {
   "property": "C13",
   "status": "partial",
   "theorems": [
    "C13_HP_consistent",
    "C13_HP_landau_volume_partial",
    "C13_HP_landau_dVdP_refuted",
    "C13_biotites_consistent"
   ],
   "note": "Proved for every call the program makes (Landau volume zero); the routine's dV/dP is FALSE for a nonzero Landau volume."
  },
  {
   "property": "C130",
   "status": "proved",
   "theorems": [
    "C03_in_range_safe"
   ],
   "note": "True part of C03."
  },
  {
   "property": "C131",
   "status": "proved",
   "theorems": [
    "C131_pure_phase",
    "C131_solution",
    "C131_not_examined",
    "C132_case"
   ],
   "note": "Potentials of the liquid and the affinity routines of solutions are arbitrary."
  },
  {
   "property": "C132",
   "status": "proved",
   "theorems": [
    "C132_answer",
    "C132_all_suppressed",
    "C132_independent",
    "C132_case"
   ],
   "note": ""
  },
  {
   "property": "C133",
   "status": "proved",
   "theorems": [
    "C133_equilibrium",
    "C133_others",
    "C133_no_buffer",
    "C133_ferric",
    "C132_case"
   ],
   "note": ""
  },
  {
   "property": "C134",
   "status": "proved",
   "theorems": [
    "C134_outcomes",
    "C134_bracket",
    "C137_case"
   ],
   "note": ""
  },
  {
   "property": "C135",
   "status": "proved",
   "theorems": [
    "C135_state",
    "C135_matter",
    "C135_fugacity",
    "C137_case"
   ],
   "note": "For tables whose conversions are inverse to each other (C46)."
  },
  {
   "property": "C136",
   "status": "proved",
   "theorems": [
    "C136_ends",
    "C136_never",
    "C136_suppressed",
    "C137_case"
   ],
   "note": "The search is not bounded: C136_never and C136_suppressed show that it may run for ever."
  },
  {
   "property": "C137",
   "status": "proved",
   "theorems": [
    "C137_accuracy",
    "C137_case"
   ],
   "note": ""
  },
  {
   "property": "C138",
   "status": "partial",
   "theorems": [
    "C138_outside",
    "C134_outcomes"
   ],
   "note": "FALSE of the code: the limits are checked at the first step only; a liquidus above 2600 K or below 400 K is searched and reported. The first step does stop at the limits."
  },
  {
   "property": "C139",
   "status": "partial",
   "theorems": [
    "C139_not_fresh",
    "C139_after_limit",
    "C139_fresh"
   ],
   "note": "FALSE of the code after a search stopped at a limit: the next one moves the temperature 50 degrees on before any check. True otherwise (C143)."
  },
  {
   "property": "C14",
   "status": "partial",
   "theorems": [
    "C14_gmix",
    "C14_smix_hmix_cpmix",
    "C14_vmix",
    "C14_activities"
   ],
   "note": "proved for the fifteen solution phases without ordering parameters (feldspar, garnet, biotite, hornblende, leucite, majorite, olivine-sx, perovskite, ringwoodite, wadsleyite, wustite, ilmenite, alloy-liquid, alloy-solid, kalsilite): every derivative output of gmix, smix, cpmix, vmix and act is the exact derivative wherever the site fractions are clear of their clamps; gmix, hmix, smix, cpmix and vmix of the twelve phases with ordering parameters are C93-C96, their activities C97"
  },
  {
   "property": "C140",
   "status": "proved",
   "theorems": [
    "C140_meaning",
    "C140_bracket",
    "C140_case"
   ],
   "note": "The equilibration is arbitrary."
  },
  {
   "property": "C141",
   "status": "partial",
   "theorems": [
    "C141_flag_missing",
    "C141_flag_missing_search",
    "C141_flag_true",
    "C142_case"
   ],
   "note": "FALSE of the code: when an equilibration or a search fails the answer is still no failure. A failure answered is one."
  },
  {
   "property": "C142",
   "status": "partial",
   "theorems": [
    "C142_lost",
    "C142_case",
    "C142_restored"
   ],
   "note": "FALSE of the code: when an equilibration fails every phase but the fluid stays suppressed. True otherwise (C144)."
  },
  {
   "property": "C143",
   "status": "proved",
   "theorems": [
    "C139_fresh"
   ],
   "note": "True part of C139."
  },
  {
   "property": "C144",
   "status": "proved",
   "theorems": [
    "C142_restored",
    "C140_case"
   ],
   "note": "True part of C142."
  },
  {
   "property": "C145",
   "status": "proved",
   "theorems": [
    "C145_stable_liquids_are_kept",
    "C145_case"
   ],
   "note": "Closed system (no fO2 path). On a path the function minimised is taken at the redox-corrected composition; not claimed."
  },
  {
   "property": "C146",
   "status": "proved",
   "theorems": [
    "C146_tangent_plane",
    "C146_stable",
    "C145_case"
   ],
   "note": ""
  },
  {
   "property": "C147",
   "status": "proved",
   "theorems": [
    "C147_balance",
    "C147_case",
    "C147_absent",
    "C147_nearly_nonnegative",
    "C147_nonnegative_to_1e_10"
   ],
   "note": "The amounts left in the first liquid may become negative: the code takes MASSIN moles of the new composition from it whatever it holds."
  },
  {
   "property": "C148",
   "status": "proved",
   "theorems": [
    "C148_gradient",
    "C148_case"
   ],
   "note": "Closed system."
  },
  {
   "property": "C149",
   "status": "proved",
   "theorems": [
    "C149_result"
   ],
   "note": ""
  },
  {
   "property": "C15",
   "status": "partial",
   "theorems": [
    "C15_potentials_are_partials",
    "C15_euler",
    "C15_gibbs_duhem"
   ],
   "note": "proved for the same fifteen phases: potentials are the mole derivatives of total mixing energy, Euler and Gibbs-Duhem; for phases with ordering parameters see C98"
  },
  {
   "property": "C150",
   "status": "proved",
   "theorems": [
    "C150_stable_solids_are_kept",
    "C150_case"
   ],
   "note": ""
  },
  {
   "property": "C151",
   "status": "proved",
   "theorems": [
    "C151_tangent_plane",
    "C151_stable",
    "C158_case"
   ],
   "note": ""
  },
  {
   "property": "C152",
   "status": "proved",
   "theorems": [
    "C152_searched",
    "C152_counts",
    "C152_case"
   ],
   "note": ""
  },
  {
   "property": "C153",
   "status": "proved",
   "theorems": [
    "C153_conserved",
    "C152_case"
   ],
   "note": ""
  },
  {
   "property": "C154",
   "status": "proved",
   "theorems": [
    "C154_most_distant",
    "C154_liquid_supplies",
    "C154_new_instance",
    "C152_case"
   ],
   "note": ""
  },
  {
   "property": "C155",
   "status": "proved",
   "theorems": [
    "C155_result_unique",
    "C155_result_or_lack",
    "C155_result_without_liquid",
    "C152_case"
   ],
   "note": ""
  },
  {
   "property": "C156",
   "status": "partial",
   "theorems": [
    "C156_refuted"
   ],
   "note": "FALSE of the code: the matter is taken from the last instance of the phase whichever was found unstable, MASSIN moles of it whatever it holds; its amount can become negative."
  },
  {
   "property": "C157",
   "status": "partial",
   "theorems": [
    "C157_refuted"
   ],
   "note": "FALSE of the code: if the first liquid has none of a component the new instance needs, the loop that halves the amount never ends. C155 says when it ends."
  },
  {
   "property": "C158",
   "status": "proved",
   "theorems": [
    "C158_phases_tangent_plane",
    "C158_phases_kept",
    "C158_case"
   ],
   "note": ""
  },
  {
   "property": "C159",
   "status": "proved",
   "theorems": [
    "C159_compression",
    "C159_volume"
   ],
   "note": "Exact arithmetic in the loop."
  },
  {
   "property": "C16",
   "status": "proved",
   "theorems": [
    "C16_fractions",
    "C16_round_trip",
    "C16_snap_thresholds",
    "C16_round_trip_back",
    "C16_scale_invariant",
    "C16_derivatives",
    "C16_derivatives_back",
    "C16_empty"
   ],
   "note": "all twenty-eight solid, fluid and alloy conversion functions; exact except that feldspar and olivine set fractions below sqrt(DBL_EPSILON) / DBL_EPSILON to zero, as stated"
  },
  {
   "property": "C160",
   "status": "partial",
   "theorems": [
    "C160_refuted"
   ],
   "note": "FALSE of the code: at 3000 K and 1 bar the equation of graphite has no positive solution, so whatever the loop returns after 500 passes satisfies nothing. True to 2000 K for graphite and to 3000 K for the others (C159)."
  },
  {
   "property": "C161",
   "status": "proved",
   "theorems": [
    "C161_answer_balanced",
    "C161_case"
   ],
   "note": ""
  },
  {
   "property": "C162",
   "status": "proved",
   "theorems": [
    "C162_ideal_exact",
    "C162_case"
   ],
   "note": ""
  },
  {
   "property": "C163",
   "status": "proved",
   "theorems": [
    "C163_excluded_absent",
    "C163_phases_excluded",
    "C163_case"
   ],
   "note": ""
  },
  {
   "property": "C164",
   "status": "proved",
   "theorems": [
    "C164_returns",
    "C164_function"
   ],
   "note": ""
  },
  {
   "property": "C165",
   "status": "partial",
   "theorems": [
    "C165_direction_refuted",
    "C165_scale_zero_refuted",
    "C165_direction_partial"
   ],
   "note": "FALSE of the code: est_saturation_state.c 514 takes the entry, not its magnitude, as the scale. For the Hessian diag(1,-3) the matrix is divided by -3 and the direction of least curvature becomes the most stable one; for diag(-3,0) it is divided by 0. Proved: it holds when no entry is negative."
  },
  {
   "property": "C166",
   "status": "proved",
   "theorems": [
    "C166_gradient",
    "C166_hessian",
    "C166_pressure_gradient",
    "C166_pressure_hessian",
    "C166_pressure_mixed",
    "C166_witness",
    "C166_melts",
    "C166_melts_witness"
   ],
   "note": "For every table, state and consistent model; C166_melts is the liquid of liquid_v34.c with its own muO2Liq. C166_hessian holds in all four modes."
  },
  {
   "property": "C167",
   "status": "partial",
   "theorems": [
    "C167_refuted"
   ],
   "note": "FALSE of the code: the column written for the second and later components of a solid solution is that of the first, and at fixed T and P the last column is left out."
  },
  {
   "property": "C168",
   "status": "partial",
   "theorems": [
    "C168_refuted"
   ],
   "note": "FALSE of the code: the terms between different liquids are not filled."
  },
  {
   "property": "C169",
   "status": "partial",
   "theorems": [
    "C169_refuted"
   ],
   "note": "FALSE of the code: the gradient uses the potential of the buffer, the Hessian still has the derivatives of the potential of the liquid."
  },
  {
   "property": "C17",
   "status": "partial",
   "theorems": [
    "C17_no_liquid_partial",
    "C17_add_liquid_partial",
    "C17_refuted_without_liquid"
   ],
   "note": "FALSE of the code in full: without liquid, the failure of the solver is ignored for a one-component phase, which is then added from nothing. True with liquid (C41), and without liquid under an exact solver for solutions."
  },
  {
   "property": "C170",
   "status": "proved",
   "theorems": [
    "C170_searched",
    "C170_most_distant",
    "C147_case"
   ],
   "note": "C147_case is a call that answers TRUE."
  },
  {
   "property": "C171",
   "status": "proved",
   "theorems": [
    "C171_oxygen_potential",
    "C171_reported",
    "C171_case"
   ],
   "note": "Activities not below 1e-16 and singular values not between 0 and 1e-8 are hypotheses; gsl_linalg_SV_decomp is any decomposition."
  },
  {
   "property": "C172",
   "status": "partial",
   "theorems": [
    "C172_refuted",
    "C172_without_iron_refuted"
   ],
   "note": "FALSE of the code: a least-squares reaction that does not balance is used as if it did and TRUE is returned; without iron FALSE is ignored and an fO2 of 1 bar is reported."
  },
  {
   "property": "C173",
   "status": "partial",
   "theorems": [
    "C173_refuted"
   ],
   "note": "FALSE of the code: the reaction kept from an earlier call is used again."
  },
  {
   "property": "C174",
   "status": "proved",
   "theorems": [
    "C174_buffered",
    "C174_case"
   ],
   "note": "C174_case is a run that takes a step."
  },
  {
   "property": "C175",
   "status": "partial",
   "theorems": [
    "C175_refuted"
   ],
   "note": "FALSE of the code: each wrapper tests its own pointer, so failure is always FALSE."
  },
  {
   "property": "C176",
   "status": "proved",
   "theorems": [
    "C176_unknown",
    "C176_frame"
   ],
   "note": ""
  },
  {
   "property": "C177",
   "status": "partial",
   "theorems": [
    "C177_extensive",
    "C177_solution",
    "C177_liquid",
    "C177_conversions",
    "C177_ordered",
    "C177_spinel_refuted",
    "C177_case"
   ],
   "note": "FALSE of the code for spinel with a charge excess: ferric iron is set to DBL_EPSILON moles whatever the amount. True for the liquid, pure phases and the solutions with any other conversion, with and without order parameters."
  },
  {
   "property": "C178",
   "status": "partial",
   "theorems": [
    "C178_solution",
    "C178_liquid",
    "C178_pure",
    "C178_mineral",
    "C178_mineral_solution",
    "C178_ordered",
    "C178_ordered_case",
    "C177_case"
   ],
   "note": "The liquid of liquid_v34.c, pure phases, the fifteen solutions without and the twelve with order parameters; the fluid and the liquids with CO2 are missing."
  },
  {
   "property": "C179",
   "status": "partial",
   "theorems": [
    "C179_solution",
    "C179_liquid",
    "C179_ordered",
    "C178_ordered_case",
    "C177_case"
   ],
   "note": "The liquid of liquid_v34.c, the fifteen solutions without and the twelve with order parameters; the fluid and the liquids with CO2 are missing."
  },
  {
   "property": "C18",
   "status": "partial",
   "theorems": [
    "C18_last_liquid_partial",
    "C18_refuted_three_liquids",
    "C18_refuted_last_liquid"
   ],
   "note": "FALSE of the code in full: with three liquids one is counted twice; the last liquid takes its water with it. True part in C42."
  },
  {
   "property": "C180",
   "status": "proved",
   "theorems": [
    "C180_molar",
    "C180_pure"
   ],
   "note": ""
  },
  {
   "property": "C181",
   "status": "proved",
   "theorems": [
    "C181_cations",
    "C181_valence",
    "C181_case"
   ],
   "note": ""
  },
  {
   "property": "C182",
   "status": "partial",
   "theorems": [
    "C182_iron",
    "C182_refuted"
   ],
   "note": "FALSE of the code: the routine for oxides is applied to liquid components, Fe2SiO4 taken for FeO."
  },
  {
   "property": "C183",
   "status": "partial",
   "theorems": [
    "C183_fractions",
    "C183_pure",
    "C183_liquid",
    "C183_refuted"
   ],
   "note": "FALSE of the code for solid solutions: the activity reported is always 0. True for the liquid and pure phases."
  },
  {
   "property": "C184",
   "status": "partial",
   "theorems": [
    "C184_sums",
    "C184_oxide",
    "C184_liquid_recovered",
    "C184_refuted",
    "C184_case"
   ],
   "note": "FALSE of the code: the potential of an oxide is multiplied by the moles of oxides per mole of liquid components. The two sums are proved."
  },
  {
   "property": "C185",
   "status": "partial",
   "theorems": [
    "C185_hornblende",
    "C185_refuted"
   ],
   "note": "FALSE of the code: hornblende.c takes moles of Mg for moles of pargasite, four times too much."
  },
  {
   "property": "C186",
   "status": "proved",
   "theorems": [
    "C186_amounts_recovered",
    "C186_all_have_one",
    "C186_case"
   ],
   "note": ""
  },
  {
   "property": "C187",
   "status": "partial",
   "theorems": [
    "C187_refuted"
   ],
   "note": "FALSE of the code: one gram of MgO entered for feldspar is reported as a mass of one gram with no oxide at all. What does come back is C188."
  },
  {
   "property": "C188",
   "status": "proved",
   "theorems": [
    "C188_liquid",
    "C188_pure",
    "C188_pure_phases",
    "C188_solution",
    "C188_mass"
   ],
   "note": "Hornblende left out as in C186 (its conversion is in C181-C186's notes)."
  },
  {
   "property": "C189",
   "status": "proved",
   "theorems": [
    "C189_density",
    "C189_molar_weight"
   ],
   "note": ""
  },
  {
   "property": "C19",
   "status": "partial",
   "theorems": [
    "C19_refuted_traces",
    "C43_fractionate_solids"
   ],
   "note": "FALSE of the code in full: clearing a trace oxide removes other oxides of the same component from the phases but not from the bulk. True part in C43."
  },
  {
   "property": "C190",
   "status": "proved",
   "theorems": [
    "C190_molar_mass",
    "C190_solution",
    "C190_same_weight"
   ],
   "note": ""
  },
  {
   "property": "C191",
   "status": "partial",
   "theorems": [
    "C191_refuted",
    "C191_which",
    "C191_case",
    "C191_solution",
    "C191_ordered"
   ],
   "note": "FALSE of the code for six phases: activity(0, ...) is not divided by that of the pure end member while the potential is relative to it. Holds for the fifteen solutions without and the six others with order parameters."
  },
  {
   "property": "C192",
   "status": "proved",
   "theorems": [
    "C192_fractions",
    "C192_elements",
    "C192_species",
    "C192_case"
   ],
   "note": "The extent of the reaction, actLiq(0, ...), is any function."
  },
  {
   "property": "C193",
   "status": "partial",
   "theorems": [
    "C193_solution",
    "C193_pure",
    "C193_refuted",
    "C193_refuted_beyond",
    "C193_case"
   ],
   "note": "FALSE of the code for the liquid: columns of the inverse conversion are summed (CaSiO3 gets a negative weight) and the species past the components read beyond the rows. Solids are right."
  },
  {
   "property": "C194",
   "status": "partial",
   "theorems": [
    "C194_refuted",
    "C194_short_refuted",
    "C194_names",
    "C194_recovered",
    "C194_phases"
   ],
   "note": "FALSE of the code: with room for fewer names than there are it writes past the room (and past what it allocated), and fields of fewer than 13 characters can make names the same. With room for all, every name arrives."
  },
  {
   "property": "C195",
   "status": "partial",
   "theorems": [
    "C195_refuted",
    "C195_padded_refuted",
    "C195_found",
    "C195_unknown",
    "C195_indices",
    "C195_case"
   ],
   "note": "FALSE of the code for names of more than 13 characters (written past the end of the key), among them every name as getMeltsPhaseNames pads it; for shorter names it holds. C195_case is a sort and a search as the C standard wants them."
  },
  {
   "property": "C196",
   "status": "proved",
   "theorems": [
    "C196_grd",
    "C196_shaw",
    "C196_case"
   ],
   "note": "The amounts are not all zero."
  },
  {
   "property": "C197",
   "status": "proved",
   "theorems": [
    "C197_grd",
    "C197_shaw",
    "C196_case"
   ],
   "note": ""
  },
  {
   "property": "C198",
   "status": "partial",
   "theorems": [
    "C198_refuted",
    "C198_shaw",
    "C198_grd",
    "C198_grd_positive",
    "C196_case"
   ],
   "note": "FALSE of the code for compositions with B < 0, such as alumina; holds for Shaw's model and where B > 0 above C."
  },
  {
   "property": "C199",
   "status": "partial",
   "theorems": [
    "C199_refuted",
    "C199_flag",
    "C196_case"
   ],
   "note": "FALSE of the code: Shaw's model answers with the logarithm, which is negative for silica, where the other answers with the viscosity."
  },
  {
   "property": "C20",
   "status": "partial",
   "theorems": [
    "C44_assimilate",
    "C20_refuted_total"
   ],
   "note": "Oxides and bulk proved (C44); FALSE for the recorded total of a solution assimilated without liquid, which is not updated."
  },
  {
   "property": "C200",
   "status": "proved",
   "theorems": [
    "C200_endmember",
    "C200_pure_phase",
    "C200_case"
   ],
   "note": "For assemblages written with components all of whose oxides are in the system (C201) and with enough end members (C202)."
  },
  {
   "property": "C201",
   "status": "partial",
   "theorems": [
    "C201_refuted",
    "C200_pure_phase"
   ],
   "note": "FALSE of the code: calcite in CaO-CO2 is written with CaSiO3, SiO2 is not there, and aragonite is reported neutral whatever its energy. True where the solids are written with available components (C200)."
  },
  {
   "property": "C202",
   "status": "partial",
   "theorems": [
    "C202_refuted",
    "C202_case"
   ],
   "note": "FALSE of the code: GSL refuses the decomposition, the program goes on with unwritten memory, and any number can come out."
  },
  {
   "property": "C203",
   "status": "proved",
   "theorems": [
    "C203_shows",
    "C203_last",
    "C203_shipped",
    "C207_case"
   ],
   "note": "For objects on which nothing has been run since InitializeMelts (see C204 for the others)."
  },
  {
   "property": "C204",
   "status": "partial",
   "theorems": [
    "C204_refuted"
   ],
   "note": "FALSE of the code: SetComposition does not clear the solids, which are then there in addition to the composition shown."
  },
  {
   "property": "C205",
   "status": "partial",
   "theorems": [
    "C205_normalised",
    "C205_off",
    "C205_refused",
    "C205_refuted"
   ],
   "note": "FALSE of the code for a composition of zeros: the division by their sum leaves no numbers. For any composition with a nonzero sum it is proved."
  },
  {
   "property": "C206",
   "status": "proved",
   "theorems": [
    "C206_redistributed",
    "C206_nonnegative",
    "C206_potential",
    "C206_refused",
    "C206_shipped",
    "C207_case"
   ],
   "note": "The fugacity is that of the buffer the routine computed (bufferValue); C207 says which one that is."
  },
  {
   "property": "C207",
   "status": "partial",
   "theorems": [
    "C207_refuted_argument",
    "C207_refuted_offset",
    "C207_without_offset_partial",
    "C207_case"
   ],
   "note": "FALSE of the code: the argument is never read, and the offset is left out because the global pointer it is read through is NULL outside a run."
  },
  {
   "property": "C208",
   "status": "proved",
   "theorems": [
    "C208_mode",
    "C208_one_mode",
    "C208_path",
    "C208_path_refused",
    "C208_offset",
    "C208_offset_refused",
    "C208_refusals"
   ],
   "note": ""
  },
  {
   "property": "C209",
   "status": "partial",
   "theorems": [
    "C209_supported",
    "C209_refuted"
   ],
   "note": "FALSE of the code for unsupported numbers: version and tables revert to MELTS 1.0, the calculation mode does not. Proved for 1..4."
  },
  {
   "property": "C21",
   "status": "proved",
   "theorems": [
    "C21_temperatures",
    "C21_pressures",
    "C21_run_ends",
    "C21_enthalpies",
    "C21_entropies",
    "C21_volumes",
    "C21_refuted_increment",
    "C21_refuted_enthalpy_sign",
    "C21_case",
    "C21_enthalpy_case"
   ],
   "note": "The driver inside silmin(), exact arithmetic, any equilibration in between. For increments that are not positive (outside the property) the run is shown never to end."
  },
  {
   "property": "C210",
   "status": "proved",
   "theorems": [
    "C210_forgets",
    "C210_empty"
   ],
   "note": ""
  },
  {
   "property": "C211",
   "status": "proved",
   "theorems": [
    "C211_oxides",
    "C211_grams",
    "C211_mass",
    "C211_assimilated",
    "C211_shipped",
    "C211_case"
   ],
   "note": ""
  },
  {
   "property": "C212",
   "status": "proved",
   "theorems": [
    "C212_solids",
    "C212_case"
   ],
   "note": "Property functions of solutions enter as functions proportional to the amount of matter."
  },
  {
   "property": "C213",
   "status": "partial",
   "theorems": [
    "C213_refuted"
   ],
   "note": "FALSE of the code: the liquid's composition is divided by a second totalMoles (566-567) that shadows the first and is never initialised; two contents of that memory give two enthalpies."
  },
  {
   "property": "C214",
   "status": "partial",
   "theorems": [
    "C214_refuted_oxide",
    "C214_refuted_solution"
   ],
   "note": "FALSE of the code: a phase number past the table, or a solution whose percentages are all zero, adds to the mass of the step and no matter."
  },
  {
   "property": "C215",
   "status": "proved",
   "theorems": [
    "C215_solids",
    "C215_liquids",
    "C215_balanced",
    "C217_case"
   ],
   "note": ""
  },
  {
   "property": "C216",
   "status": "partial",
   "theorems": [
    "C216_refuted",
    "C216_graphical"
   ],
   "note": "FALSE of the shared library: library.c lacks silmin.c's test for less than MASSIN moles, so a phase between the drop threshold and the residual amount is topped up from the store, which goes negative. True of the graphical program (C216_graphical)."
  },
  {
   "property": "C217",
   "status": "proved",
   "theorems": [
    "C217_solids",
    "C217_liquids",
    "C217_case"
   ],
   "note": "Property functions enter as functions of the moles; mixing per mole depends on the proportions only."
  },
  {
   "property": "C218",
   "status": "proved",
   "theorems": [
    "C218_solids",
    "C218_liquids",
    "C217_case"
   ],
   "note": ""
  },
  {
   "property": "C219",
   "status": "partial",
   "theorems": [
    "C219_partial",
    "C219_off",
    "C219_refuted"
   ],
   "note": "FALSE of the code: with output 1 the fractionation lowers the reference and the final conditions then overwrite it with the total before fractionation (C219_refuted; C219_off gives the error for every table and state). Holds when the tail of the call does not fractionate (C219_partial)."
  },
  {
   "property": "C22",
   "status": "proved",
   "theorems": [
    "C22_run",
    "C22_saved",
    "C22_one_result_per_step",
    "C22_run_ends",
    "C22_case",
    "C61_results_of_a_run"
   ],
   "note": "All solver behaviours; the run ends if every equilibration does. Stop requests are C58."
  },
  {
   "property": "C220",
   "status": "proved",
   "theorems": [
    "C220",
    "C220_fresh",
    "C220_case"
   ],
   "note": ""
  },
  {
   "property": "C221",
   "status": "partial",
   "theorems": [
    "C221_partial",
    "C221_refuted",
    "C221_throws"
   ],
   "note": "FALSE of the code: the thread can save one more step after the Stop button, and the next frame reads one number past every vector (C221_refuted); if none had been saved, the frame throws (C221_throws). Holds of histories without the Stop button (C221_partial)."
  },
  {
   "property": "C222",
   "status": "partial",
   "theorems": [
    "C222_partial",
    "C222_first",
    "C222_map",
    "C222_refuted"
   ],
   "note": "FALSE of the code: m_PhasesVec is appended to, so after a second choice of version the list is too long and names the wrong phases (C222_refuted). Holds for the first choice (C222_first), which is the only one the shipped menu offers; the map is always right (C222_map)."
  },
  {
   "property": "C223",
   "status": "proved",
   "theorems": [
    "C223",
    "C223_reset",
    "C223_load",
    "C223_room",
    "C223_tight"
   ],
   "note": ""
  },
  {
   "property": "C224",
   "status": "partial",
   "theorems": [
    "C224_partial",
    "C224_never",
    "C224_shipped",
    "C224_refuted"
   ],
   "note": "FALSE of the code: a line is read by the first row with its label, so clinopyroxene's diopside, nepheline's end members, the pure phase fayalite and a dozen more come back from no file (C224_never, C224_shipped), and the 0.00 of a later namesake wipes an earlier row: olivine's fayalite, pure corundum (C224_refuted). Proved: a line sets the first row with its label and no other"
  },
  {
   "property": "C225",
   "status": "partial",
   "theorems": [
    "C225_partial",
    "C225_shipped",
    "C225_percent_partial",
    "C225_percent_case",
    "C225_refuted",
    "C225_olivine"
   ],
   "note": "FALSE of the code for mole percents: repeated additions of a solution are averaged by mass in the window, by moles in the engine (C225_refuted, C225_olivine). Proved: masses agree and sum to the mass per step after every sequence; percents agree when every addition of the phase had one mean molar weight"
  },
  {
   "property": "C226",
   "status": "partial",
   "theorems": [
    "C226_partial",
    "C226_refuted",
    "C226_next",
    "C226_sphene"
   ],
   "note": "FALSE of the code: adding a pure phase rewrites the field of the next row as 100 (3 g typed for sphene become 100 g after fayalite is added). Proved: adding a solution, or a pure phase whose next field is 0, leaves the fields of all other phases"
  },
  {
   "property": "C227",
   "status": "partial",
   "theorems": [
    "C227_partial",
    "C227_patient_partial",
    "C227_two",
    "C227_refuted"
   ],
   "note": "FALSE of the code: Stop closes the window without waiting, and std::async starts the next thread before the assignment to m_Future waits for the old one. Proved: never more than two, and then the window is blocked; at most one without Stop, or if each stopped calculation ends before the next press"
  },
  {
   "property": "C228",
   "status": "partial",
   "theorems": [
    "C228_partial",
    "C228_folded_partial",
    "C228_typed",
    "C228_refuted",
    "C228_case"
   ],
   "note": "FALSE of the code: Reset state with the settings folded shows isothermal while step_inc keeps the enthalpy increment. Proved: in force whenever the settings are unfolded, and at every moment if there is no reset and files set one mode and its increments"
  },
  {
   "property": "C229",
   "status": "partial",
   "theorems": [
    "C229_partial",
    "C229_illegal",
    "C229_in_use",
    "C229_reset_partial",
    "C229_refuted"
   ],
   "note": "FALSE of the code: titles over 31 bytes are cut on loading, and a title under five bytes resets to a part of the default. Proved: titles up to 31 bytes pass unchanged, forbidden ones never replace the one in use"
  },
  {
   "property": "C23",
   "status": "proved",
   "theorems": [
    "C23_save_load_roundtrip"
   ],
   "note": "Character-level writer and reader. Holds for buffers 0..5, no assimilant, decimals on the printed grid, T>=0 C."
  },
  {
   "property": "C230",
   "status": "partial",
   "theorems": [
    "C230_partial",
    "C230_refuted"
   ],
   "note": "FALSE of the code: after Stop the state can be destroyed under the running calculation. Proved: never without Stop"
  },
  {
   "property": "C231",
   "status": "partial",
   "theorems": [
    "C231_partial",
    "C231_suppress",
    "C231_refuted",
    "C231_refuted_one_blank",
    "C231_case",
    "C231_case_runs"
   ],
   "note": "FALSE of the code: a text not followed by two blanks in its field is read on into other memory, or keeps its blank and is ignored. Proved: with two blanks, for every array and every memory"
  },
  {
   "property": "C232",
   "status": "partial",
   "theorems": [
    "C232_partial",
    "C232_case",
    "C232_refuted_wet",
    "C232_wet_case"
   ],
   "note": "FALSE of the code after WetLiquidus: the fluid the search equilibrated with stays beside a liquid made of all the grams shown (liquidus.c sets solidMass to zero, not solidComp). Proved when the search makes no phases, as liquidus() does"
  },
  {
   "property": "C233",
   "status": "partial",
   "theorems": [
    "C233_origin_partial",
    "C233_refuted_composition",
    "C233_refuted_failure",
    "C233_case"
   ],
   "note": "FALSE of the code: entering another composition keeps the temperature, and a failed search answers true and keeps it too. Proved: where a temperature shown comes from, over all histories"
  },
  {
   "property": "C24",
   "status": "partial",
   "theorems": [
    "C24_plain_buffers_partial",
    "C24_builtin_offset_refuted",
    "C24_builtin_offset_lost"
   ],
   "note": "FALSE of the code for every QFM+n buffer (reloads as plain QFM); true for plain buffers."
  },
  {
   "property": "C25",
   "status": "partial",
   "theorems": [
    "C25_oxide_assimilants_never_restored",
    "C25_assimilant_mass_refuted"
   ],
   "note": "FALSE of the code: no file restores a liquid-assimilant oxide, and total mass is doubled for a solid assimilant."
  },
  {
   "property": "C26",
   "status": "partial",
   "theorems": [
    "C26_load_depends_only_on_increments_partial",
    "C26_load_history_independent_refuted"
   ],
   "note": "FALSE in full (increments survive a load); the true part is proved."
  },
  {
   "property": "C27",
   "status": "partial",
   "theorems": [
    "C27_system_partial",
    "C27_refuted_liquid_assimilant",
    "C27_case"
   ],
   "note": "FALSE of the code with a liquid assimilant: its mass overwrites the number one column to the left. Without one the System sheet is exactly the expected table."
  },
  {
   "property": "C28",
   "status": "proved",
   "theorems": [
    "C28_householder_annihilates",
    "C28_householder_orthogonal",
    "C28_householder_guard"
   ],
   "note": "All four routines (row/column variants), all sizes, pivots and contents; exact arithmetic."
  },
  {
   "property": "C29",
   "status": "proved",
   "theorems": [
    "C29_cholesky_factor",
    "C29_cholesky_succeeds_iff",
    "C29_cholesky_solve",
    "C29_case"
   ],
   "note": "All sizes and matrices; success exactly on the positive definite ones."
  },
  {
   "property": "C30",
   "status": "partial",
   "theorems": [
    "C30_no_null_rows",
    "C30_packed_partial",
    "C30_single_partial",
    "C30_refuted_row_exchange",
    "C30_refuted_null_row_first",
    "C30_refuted_two_null_rows_last"
   ],
   "note": "FALSE in full: any row exchange inside a packed block is lost, a null row above two equations leaves the block singular, two null rows below two equations are counted three times. Proved: every size without null rows whatever the pivoting; null rows that one exchange packs, provided the library exchanges no rows; a single equation."
  },
  {
   "property": "C31",
   "status": "partial",
   "theorems": [
    "C31_min1d_returns",
    "C31_min1d_no_worse",
    "C31_min1d_success",
    "C31_min1d_bad_initial",
    "C31_vmmin_returns",
    "C31_vmmin_reported_minimum",
    "C31_vmmin_sufficient_decrease",
    "C31_vmmin_metric",
    "C31_vmmin_returned_point_can_be_worse"
   ],
   "note": "True for min1d. FALSE of vmmin as stated: its last move, shorter than the tolerance, is not evaluated; the minimum reported and every accepted step are as stated."
  },
  {
   "property": "C32",
   "status": "partial",
   "theorems": [
    "C32_frac_partial",
    "C32_frac_exceeds_error"
   ],
   "note": "FALSE as documented: the error is rounded to one digit before the second test; a bound of 1.5 times the error is proved (C53)."
  },
  {
   "property": "C33",
   "status": "partial",
   "theorems": [
    "C54_nodes_are_a_map",
    "C33_refuted_far_apart_indices"
   ],
   "note": "FALSE for indices 2^31 or more apart (the comparison subtracts in int); proved otherwise (C54)."
  },
  {
   "property": "C34",
   "status": "partial",
   "theorems": [
    "C34_first_seven_partial",
    "C34_all_eleven_without_solutions_partial",
    "C34_refuted"
   ],
   "note": "FALSE for the pressure and mixed derivatives: the total adds dV/dT in their place. First seven proved; all eleven when no solution phase is present."
  },
  {
   "property": "C35",
   "status": "partial",
   "theorems": [
    "C57_buffer_strings",
    "C57_mode_strings",
    "C57_suppress_phase",
    "C57_unknown",
    "C35_refuted_documented_strings",
    "C35_refuted_unknown_strings"
   ],
   "note": "FALSE: documented strings that do nothing, and malformed ones that set something; the true part is C57."
  },
  {
   "property": "C36",
   "status": "partial",
   "theorems": [
    "C36_supplied_partial",
    "C36_equilibrated_partial",
    "C36_every_call_partial",
    "C36_refuted_after_saturation_call",
    "C36_refuted_without_liquid"
   ],
   "note": "Proved with liquid present, without an oxygen buffer and without a saturation call in between; FALSE after a saturation call (liquid reset to the whole bulk while the solids stay) and for zero-net-mass changes without liquid."
  },
  {
   "property": "C37",
   "status": "partial",
   "theorems": [
    "C37_new_copy_same",
    "C37_new_copy_independent_partial",
    "C37_overwrite_same_partial",
    "C37_overwrite_independent",
    "C37_refuted_second_liquid",
    "C37_refuted_new_copy_shares"
   ],
   "note": "FALSE in full: overwriting a state that has as many liquids copies only the first one; a new copy made while fractionation is off shares the fractionation records. Everything else proved for all states and tables."
  },
  {
   "property": "C38",
   "status": "proved",
   "theorems": [
    "C38_save_name_found",
    "C38_save_never_overwrites"
   ],
   "note": "Termination and freshness of the file name search."
  },
  {
   "property": "C39",
   "status": "partial",
   "theorems": [
    "C39_load_never_aborts_refuted"
   ],
   "note": "FALSE of the code: witness text 'Title:' raises std::out_of_range."
  },
  {
   "property": "C40",
   "status": "partial",
   "theorems": [
    "C40_lambda_continuous",
    "C40_hematite_refuted"
   ],
   "note": "Lambda transitions proved; FALSE for the hematite part of ferri-eastonite at 955 K."
  },
  {
   "property": "C41",
   "status": "proved",
   "theorems": [
    "C41_add_solid",
    "C41_second_liquid",
    "C41_second_solid"
   ],
   "note": "All tables with the stated layout; any answer of the feasibility test."
  },
  {
   "property": "C42",
   "status": "proved",
   "theorems": [
    "C42_drop_solids",
    "C42_drop_solids_fo2",
    "C42_drop_liquids"
   ],
   "note": "Any number of solids and instances; at most two liquids, as stated."
  },
  {
   "property": "C43",
   "status": "proved",
   "theorems": [
    "C43_fractionate_solids",
    "C43_fractionate_liquids",
    "C43_no_traces",
    "C43_which_phases"
   ],
   "note": "All states."
  },
  {
   "property": "C44",
   "status": "proved",
   "theorems": [
    "C44_assimilate"
   ],
   "note": "All states; without liquid, absent phases hold nothing (as after allocation or dropping)."
  },
  {
   "property": "C45",
   "status": "proved",
   "theorems": [
    "C45_runs_balanced"
   ],
   "note": "Induction over runs."
  },
  {
   "property": "C46",
   "status": "proved",
   "theorems": [
    "C46_elements",
    "C46_tables_consistent",
    "C46_runs_balanced",
    "C46_tables_exist",
    "C46_tables_unique"
   ],
   "note": "For every answer of the least-squares solver; the tables as shipped."
  },
  {
   "property": "C47",
   "status": "proved",
   "theorems": [
    "C47_hfti_least_squares",
    "C47_hfti_exact"
   ],
   "note": "All m >= n, all ranks, tau >= 0; exact arithmetic."
  },
  {
   "property": "C48",
   "status": "proved",
   "theorems": [
    "C48_quadStep_satisfies_constraints",
    "C48_quadStep_stationary",
    "C48_quadStep_minimises"
   ],
   "note": "All sizes with linearly independent constraints; the code that fills the matrices is not part of this model."
  },
  {
   "property": "C49",
   "status": "partial",
   "theorems": [
    "C49_multipliers_one_partial",
    "C49_multipliers_wrong"
   ],
   "note": "FALSE of the code for two or more constraints: the back-substitution reads the upper instead of the lower triangle. True for one constraint."
  },
  {
   "property": "C50",
   "status": "proved",
   "theorems": [
    "C50_marquardt_returns",
    "C50_marquardt_result",
    "C50_marquardt_bad_initial",
    "C50_case"
   ],
   "note": "Arbitrary callbacks; exact arithmetic."
  },
  {
   "property": "C51",
   "status": "partial",
   "theorems": [
    "C51_vmmin_fails_at_stationary_start",
    "C51_case"
   ],
   "note": "FALSE of the code: with a zero gradient at the start the routine repeats until the iteration cap and reports failure."
  },
  {
   "property": "C52",
   "status": "partial",
   "theorems": [
    "C31_min1d_success",
    "C52_min1d_exceeded",
    "C52_min1d_exceeded_elsewhere"
   ],
   "note": "True on success; FALSE when the evaluations run out: the minimum is never set and the last evaluation is elsewhere."
  },
  {
   "property": "C53",
   "status": "proved",
   "theorems": [
    "C32_frac_partial",
    "C32_frac_returns",
    "C32_frac_rejects",
    "C32_frac_exceeds_error"
   ],
   "note": "Unbounded integers, exact arithmetic."
  },
  {
   "property": "C54",
   "status": "proved",
   "theorems": [
    "C54_nodes_are_a_map",
    "C54_nonnegative_indices",
    "C54_same_index_same_node",
    "C54_case"
   ],
   "note": "For every qsort that sorts and every bsearch that is right on sorted arrays."
  },
  {
   "property": "C55",
   "status": "proved",
   "theorems": [
    "C55_oxides",
    "C55_volume_fractions",
    "C55_density",
    "C55_case"
   ],
   "note": "All assemblages."
  },
  {
   "property": "C56",
   "status": "partial",
   "theorems": [
    "C56_rest_untouched_partial",
    "C56_refuted"
   ],
   "note": "FALSE: one cell behind the last column is divided by the total volume; every other cell is proved untouched."
  },
  {
   "property": "C57",
   "status": "proved",
   "theorems": [
    "C57_buffer_strings",
    "C57_mode_strings",
    "C57_suppress_phase",
    "C57_suppress_none_liquid",
    "C57_unknown",
    "C57_unknown_buffer_ignored",
    "C57_shipped_tables",
    "C57_case"
   ],
   "note": "All capitalisations; all texts that start like no keyword."
  },
  {
   "property": "C58",
   "status": "partial",
   "theorems": [
    "C58_stop_partial",
    "C58_refuted_lost_stop"
   ],
   "note": "FALSE of the code when the request falls between the read and the write of the loop decrement: it is lost. Proved for every other time."
  },
  {
   "property": "C59",
   "status": "partial",
   "theorems": [
    "C59_refuted_stop_after_end",
    "C59_stop_during_run_partial"
   ],
   "note": "FALSE of the code: after the run has ended the request reads through a null pointer. True while the run is on."
  },
  {
   "property": "C60",
   "status": "partial",
   "theorems": [
    "C60_constraints_survive",
    "C60_buffer_survives",
    "C60_case",
    "C60_refuted_after_failure"
   ],
   "note": "Proved for every equilibration that starts after a success or at program start; FALSE after a failure in the middle of a staged minimisation: the next run is computed on the old buffer and leaves enthalpy held constant."
  },
  {
   "property": "C61",
   "status": "proved",
   "theorems": [
    "C61_result_was_checked",
    "C61_results_of_a_run",
    "C61_case"
   ],
   "note": "Control flow of silmin() with arbitrary numerical answers, under the modelled driver."
  },
  {
   "property": "C62",
   "status": "proved",
   "theorems": [
    "C62_minimisation_starts",
    "C62_minimisation_ends",
    "C62_history_index",
    "C62_case"
   ],
   "note": "All answer streams."
  },
  {
   "property": "C63",
   "status": "partial",
   "theorems": [
    "C63_data_belong_partial",
    "C63_case",
    "C63_refuted_constant_enthalpy",
    "C63_refuted_resumed"
   ],
   "note": "Proved for sessions at prescribed T and P that are not interrupted; FALSE at constant enthalpy when the best iterate is put back, and FALSE when a stopped run is resumed at another T and stopped again."
  },
  {
   "property": "C64",
   "status": "partial",
   "theorems": [
    "C64_no_false_convergence_partial",
    "C64_refuted_constant_enthalpy"
   ],
   "note": "FALSE on a buffered path at constant enthalpy: when the stage with the enthalpy imposed does not converge, the iterate of the stage before is put back and the run succeeds. A minimisation that starts afresh is never falsely converged."
  },
  {
   "property": "C65",
   "status": "proved",
   "theorems": [
    "C65_correction_ends",
    "C65_correction_accurate",
    "C65_correction_exact"
   ],
   "note": "Enthalpy and volume at fixed composition; the bound on iterations also for entropy and under an oxygen buffer. Exact arithmetic."
  },
  {
   "property": "C66",
   "status": "partial",
   "theorems": [
    "C66_portions",
    "C66_refuted_eleventh_portion",
    "C66_four_portions"
   ],
   "note": "True in exact arithmetic; FALSE in IEEE doubles: 1 g in ten portions makes eleven (model of the standard library's SpecFloat)."
  },
  {
   "property": "C67",
   "status": "proved",
   "theorems": [
    "C67_prescribed",
    "C67_imposed",
    "C67_correction_wins"
   ],
   "note": "All solver behaviours that keep prescribed values."
  },
  {
   "property": "C68",
   "status": "proved",
   "theorems": [
    "C68_liquid"
   ],
   "note": "All histories; a sheet is the map from cells to what was last written."
  },
  {
   "property": "C69",
   "status": "partial",
   "theorems": [
    "C69_phases_partial",
    "C69_refuted_overlap"
   ],
   "note": "FALSE of the code when the cumulate table is wider than the first: the assimilant table is written over it. Otherwise exact."
  },
  {
   "property": "C70",
   "status": "proved",
   "theorems": [
    "C70_totals",
    "C70_entries",
    "C70_liquid_entry",
    "C70_solid_entry",
    "C70_fractionated_entries"
   ],
   "note": "All states; the mixing functions and end-member tables are arbitrary."
  },
  {
   "property": "C71",
   "status": "partial",
   "theorems": [
    "C71_refuted_liquid_density",
    "C71_refuted_fractionated_density",
    "C70_solid_entry"
   ],
   "note": "FALSE for liquids: mass times volume is reported; right only for exactly 10 cc. True for every solid and for the totals (C70)."
  },
  {
   "property": "C72",
   "status": "proved",
   "theorems": [
    "C72_mass_balance",
    "C72_mass_balance_shipped"
   ],
   "note": "All balanced states; balance itself is C45."
  },
  {
   "property": "C73",
   "status": "partial",
   "theorems": [
    "C73_fractionated_partial",
    "C73_refuted_fluid_forgotten",
    "C73_refuted_switched_off",
    "C73_case"
   ],
   "note": "FALSE after the switches are changed during a session; true while all switches are on."
  },
  {
   "property": "C74",
   "status": "partial",
   "theorems": [
    "C74_refuted_reads_past_bulk",
    "C74_rest_partial"
   ],
   "note": "FALSE: twenty entries of a nineteen-entry array are read, and the last one is part of the record. Everything else in the record is proved to depend only on the state."
  },
  {
   "property": "C75",
   "status": "proved",
   "theorems": [
    "C75_other_oxides",
    "C75_iron",
    "C75_ratio",
    "C75_witness"
   ],
   "note": "The four calibrations are one function of the coefficients and of the 50 kbar cap."
  },
  {
   "property": "C76",
   "status": "proved",
   "theorems": [
    "C76_round_trip",
    "C76_own_fO2",
    "C76_idempotent",
    "C76_monotone",
    "C75_witness"
   ],
   "note": "Compositions with iron."
  },
  {
   "property": "C77",
   "status": "proved",
   "theorems": [
    "C77_same_fO2",
    "C77_on_buffer",
    "C77_dm",
    "C77_d2m",
    "C77_d2mt",
    "C77_d2mp",
    "C77_no_jump",
    "C77_dt",
    "C77_dp",
    "C77_d2t2",
    "C77_d2tp",
    "C77_d2p2",
    "C77_witness"
   ],
   "note": "Where both kinds of iron are positive."
  },
  {
   "property": "C78",
   "status": "partial",
   "theorems": [
    "C78_more_oxidised_partial",
    "C78_no_ferric",
    "C78_refuted"
   ],
   "note": "FALSE of the code: a liquid without ferric iron is reported at log fO2 = 0, above liquids that have some. True between liquids that both have ferric iron."
  },
  {
   "property": "C79",
   "status": "proved",
   "theorems": [
    "C79_conserves",
    "C79_imbalance",
    "C79_full_step",
    "C79_imposed",
    "C79_regular",
    "C79_witness"
   ],
   "note": "Independent constraints; C79_regular shows that a liquid with all components of the system's oxides is enough at prescribed T and P."
  },
  {
   "property": "C80",
   "status": "proved",
   "theorems": [
    "C80_conserves",
    "C80_balanced",
    "C80_bulk",
    "toRedox_moves",
    "C80_witness"
   ],
   "note": "Independent constraints, both kinds of iron in the system, a liquid present (the sub-solidus correction is not modelled)."
  },
  {
   "property": "C81",
   "status": "partial",
   "theorems": [
    "C81_rows",
    "C81_columns",
    "C81_refuted"
   ],
   "note": "FALSE of the code: an iron-free system on an oxygen buffer writes one row more than allotted. Proved whenever both kinds of iron are in the system or there is no buffer."
  },
  {
   "property": "C82",
   "status": "proved",
   "theorems": [
    "C82_phases",
    "C82_totals",
    "C82_totals_kept",
    "C82_absent_solid",
    "C82_absent_liquid",
    "C79_witness"
   ],
   "note": "All solutions of the quadratic problem. On a buffer the correction may create a liquid component."
  },
  {
   "property": "C83",
   "status": "proved",
   "theorems": [
    "C83_gibbs",
    "C83_entropy",
    "C83_volume",
    "C83_dgmix",
    "C83_dsmix",
    "C83_dvmix",
    "C83_d2gmix",
    "C83_d2smix",
    "C83_d2vmix",
    "C83_witness"
   ],
   "note": "For any number of components and any parameters."
  },
  {
   "property": "C84",
   "status": "proved",
   "theorems": [
    "C84_euler",
    "C84_partial_molar",
    "C84_tangent",
    "C84_activity",
    "C84_absent",
    "C83_witness"
   ],
   "note": ""
  },
  {
   "property": "C85",
   "status": "proved",
   "theorems": [
    "C85_fractions",
    "C85_proper",
    "C85_dr",
    "C85_d2r"
   ],
   "note": ""
  },
  {
   "property": "C86",
   "status": "partial",
   "theorems": [
    "C86_dact_partial",
    "C86_refuted",
    "C86_witness"
   ],
   "note": "FALSE of the code for a component that is absent: its derivative by its own amount is reported as zero, the true one is positive. Proved for every present component."
  },
  {
   "property": "C87",
   "status": "partial",
   "theorems": [
    "C87_temperature",
    "C87_water_partial",
    "C87_refuted",
    "C87_witness"
   ],
   "note": "FALSE of the code: oxides the table leaves out (MnO and others) count as having coefficient zero, so water raises the viscosity of a silica-manganese liquid. Temperature part proved outright; water part proved for liquids of the table's oxides, up to 6666 K."
  },
  {
   "property": "C88",
   "status": "partial",
   "theorems": [
    "C88_silica_partial",
    "C88_refuted",
    "C88_witness"
   ],
   "note": "FALSE of the code at pure silica, which is reported with slope zero. Proved for every liquid that holds something besides silica."
  },
  {
   "property": "C89",
   "status": "proved",
   "theorems": [
    "C89_gradient",
    "C89_hessian",
    "C89_witness"
   ],
   "note": "For every consistent solution model; C90_liquid shows the liquid of liquid_v34.c to be one."
  },
  {
   "property": "C90",
   "status": "proved",
   "theorems": [
    "C90_gradient",
    "C90_hessian",
    "C90_liquid",
    "C90_witness"
   ],
   "note": "Without an oxygen buffer. Consistency of the solution models is a hypothesis, proved for the liquid (C90_liquid)."
  },
  {
   "property": "C91",
   "status": "proved",
   "theorems": [
    "C91_gradient",
    "C91_hessian",
    "C91_last_gradient",
    "C91_last_hessian",
    "C91_mixed",
    "C90_liquid",
    "C91_witness"
   ],
   "note": "Without an oxygen buffer; the terms of the Lagrange multipliers are added later and are not part of this."
  },
  {
   "property": "C92",
   "status": "proved",
   "theorems": [
    "C92_newton",
    "C92_slope",
    "C92_downhill",
    "C92_equilibrium",
    "C92_stays",
    "C92_rank",
    "liq_directional",
    "C92_witness"
   ],
   "note": "Temperature and pressure given, no oxygen buffer. The linear search itself (which step length is taken) is not part of it."
  },
  {
   "property": "C93",
   "status": "proved",
   "theorems": [
    "C93_gmix_ordered",
    "C93_case"
   ],
   "note": "'Interior stationary state' is the record ordered of OrdSpec.v: continuity, stationarity, nonsingular Hessian, sites clear of clamps. That the Newton loop finds such a state is assumed, not proved; C93_case shows that melilite above 1600 K meets it."
  },
  {
   "property": "C94",
   "status": "proved",
   "theorems": [
    "C94_smix_hmix_cpmix_ordered",
    "C93_case"
   ],
   "note": "'Interior stationary state' is the record ordered of OrdSpec.v: continuity, stationarity, nonsingular Hessian, sites clear of clamps. That the Newton loop finds such a state is assumed, not proved; C93_case shows that melilite above 1600 K meets it."
  },
  {
   "property": "C95",
   "status": "proved",
   "theorems": [
    "C95_vmix_ordered",
    "C93_case"
   ],
   "note": "'Interior stationary state' is the record ordered of OrdSpec.v: continuity, stationarity, nonsingular Hessian, sites clear of clamps. That the Newton loop finds such a state is assumed, not proved; C93_case shows that melilite above 1600 K meets it."
  },
  {
   "property": "C96",
   "status": "proved",
   "theorems": [
    "C96_order_derivatives",
    "C93_case"
   ],
   "note": "'Interior stationary state' is the record ordered of OrdSpec.v: continuity, stationarity, nonsingular Hessian, sites clear of clamps. That the Newton loop finds such a state is assumed, not proved; C93_case shows that melilite above 1600 K meets it."
  },
  {
   "property": "C97",
   "status": "proved",
   "theorems": [
    "C97_activities",
    "C97_case"
   ],
   "note": "Hypotheses as for C93, and that the end-member function gives a0 = exp(mu0/RT) (pureXxx is not modelled). The exclusion criteria (mask FOURTH) are not modelled. C97_case: melilite at 1700 K."
  },
  {
   "property": "C98",
   "status": "proved",
   "theorems": [
    "C98_potentials_are_partials",
    "C98_euler",
    "C98_gibbs_duhem",
    "C97_case"
   ],
   "note": "Hypotheses as for C93, and (follows, OrdActSpec.v) that the state is continuous along continuous paths of compositions. C97_case: melilite at 1700 K."
  },
  {
   "property": "C99",
   "status": "proved",
   "theorems": [
    "C99_accepts_only_formulas",
    "C06_parser_terminates"
   ],
   "note": "True part of C06."
  }
 ]
}