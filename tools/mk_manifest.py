#!/usr/bin/env python3
"""Write MANIFEST.json from the table below."""
import json, os
C = []
def claim(p, status, theorems, note):
    C.append(dict(property=p, status=status, theorems=theorems, note=note))

claim("C01", "proved", ["C01_tsd_refines_history_spec", "C01_get_returns_last_set", "C01_isolation"],
      "Every history of calls by every set of threads; slot table and counts modelled, refined to a history spec.")
claim("C02", "proved", ["C02_keys_never_reused", "C02_create_fails_iff_full", "C02_key_stays_valid", "C02_cleanup_destroys_held_values", "C02_once_runs_once"],
      "Every history of calls.")
claim("C03", "partial", ["C03_get_out_of_range_refuted", "C03_in_range_safe"],
      "FALSE of the code in full: the table is read before the bound check; in-range keys proved safe.")
claim("C04", "proved", ["C04_formula_stoichiometry", "C04_shipped_formulas_parse"], "Every formula of the AST rendered to text.")
claim("C05", "proved", ["C05_weight_is_stoich_times_atomic_weights"], "Every string on which the parser succeeds.")
claim("C06", "partial", ["C06_no_parentheses_accepts_only_formulas_partial", "C06_parser_terminates", "C06_malformed_rejected_refuted"],
      "FALSE of the code in full (malformed parenthesised strings accepted); true for strings without parentheses.")
claim("C07", "partial", ["C07_buffer_dT_exact", "C07_buffer_dP_exact_partial", "C07_COH_dP_refuted", "C07_none_dP_refuted"],
      "T-derivatives exact for all buffers; P-derivatives exact except COH and none, for which the property is refuted.")
claim("C08", "partial", ["C08_offsets", "C08_user_offset_on_QFMn_refuted"],
      "Built-in offsets and user offsets exact; FALSE for a user offset on top of QFM+n (ignored).")
claim("C09", "proved", ["C09_solid_berman_consistent"], "All coefficients, T>0 off the lambda temperature, all P.")
claim("C10", "proved", ["C10_solid_vinet_consistent", "C10_branches_exist", "C10_newton", "C10_nonvacuous", "C159_compression"],
      "For every exact root, continuous in T and P. The loop stops at a residual instead: C159 bounds the distance to the root for the shipped solids.")
claim("C11", "partial", ["C11_liquid_energies", "C11_liquid_volume_partial", "C11_liquid_volume_refuted"],
      "FALSE of the code in full: V differs from dG/dP by d2v/dp2 /2 for every liquid component with a quadratic term; the rest proved.")
claim("C12", "proved", ["C12_reference_state_consistent", "C12_reference_values"], "Berman and Saxena heat capacities.")
claim("C13", "partial", ["C13_HP_consistent", "C13_HP_landau_volume_partial", "C13_HP_landau_dVdP_refuted", "C13_biotites_consistent"],
      "Proved for every call the program makes (Landau volume zero); the routine's dV/dP is FALSE for a nonzero Landau volume.")
claim("C40", "partial", ["C40_lambda_continuous", "C40_hematite_refuted"], "Lambda transitions proved; FALSE for the hematite part of ferri-eastonite at 955 K.")
claim("C23", "proved", ["C23_save_load_roundtrip"],
      "Character-level writer and reader. Holds for buffers 0..5, no assimilant, decimals on the printed grid, T>=0 C.")
claim("C24", "partial", ["C24_plain_buffers_partial", "C24_builtin_offset_refuted", "C24_builtin_offset_lost"],
      "FALSE of the code for every QFM+n buffer (reloads as plain QFM); true for plain buffers.")
claim("C25", "partial", ["C25_oxide_assimilants_never_restored", "C25_assimilant_mass_refuted"],
      "FALSE of the code: no file restores a liquid-assimilant oxide, and total mass is doubled for a solid assimilant.")
claim("C26", "partial", ["C26_load_depends_only_on_increments_partial", "C26_load_history_independent_refuted"],
      "FALSE in full (increments survive a load); the true part is proved.")
claim("C38", "proved", ["C38_save_name_found", "C38_save_never_overwrites"], "Termination and freshness of the file name search.")
claim("C39", "partial", ["C39_load_never_aborts_refuted"], "FALSE of the code: witness text 'Title:' raises std::out_of_range.")
claim("C14", "partial", ["C14_gmix", "C14_smix_hmix_cpmix", "C14_vmix", "C14_activities"],
  "proved for the fifteen solution phases without ordering parameters (feldspar, garnet, biotite, hornblende, leucite, majorite, olivine-sx, perovskite, ringwoodite, wadsleyite, wustite, ilmenite, alloy-liquid, alloy-solid, kalsilite): every derivative output of gmix, smix, cpmix, vmix and act is the exact derivative wherever the site fractions are clear of their clamps; gmix, hmix, smix, cpmix and vmix of the twelve phases with ordering parameters are C93-C96, their activities C97")
claim("C15", "partial", ["C15_potentials_are_partials", "C15_euler", "C15_gibbs_duhem"],
  "proved for the same fifteen phases: potentials are the mole derivatives of total mixing energy, Euler and Gibbs-Duhem; for phases with ordering parameters see C98")
claim("C16", "proved", ["C16_fractions", "C16_round_trip", "C16_snap_thresholds", "C16_round_trip_back", "C16_scale_invariant", "C16_derivatives", "C16_derivatives_back", "C16_empty"],
  "all twenty-eight solid, fluid and alloy conversion functions; exact except that feldspar and olivine set fractions below sqrt(DBL_EPSILON) / DBL_EPSILON to zero, as stated")
claim("C17", "partial", ["C17_no_liquid_partial", "C17_add_liquid_partial", "C17_refuted_without_liquid"],
      "FALSE of the code in full: without liquid, the failure of the solver is ignored for a one-component phase, which is then added from nothing. True with liquid (C41), and without liquid under an exact solver for solutions.")
claim("C18", "partial", ["C18_last_liquid_partial", "C18_refuted_three_liquids", "C18_refuted_last_liquid"],
      "FALSE of the code in full: with three liquids one is counted twice; the last liquid takes its water with it. True part in C42.")
claim("C19", "partial", ["C19_refuted_traces", "C43_fractionate_solids"],
      "FALSE of the code in full: clearing a trace oxide removes other oxides of the same component from the phases but not from the bulk. True part in C43.")
claim("C20", "partial", ["C44_assimilate", "C20_refuted_total"],
      "Oxides and bulk proved (C44); FALSE for the recorded total of a solution assimilated without liquid, which is not updated.")
claim("C41", "proved", ["C41_add_solid", "C41_second_liquid", "C41_second_solid"], "All tables with the stated layout; any answer of the feasibility test.")
claim("C42", "proved", ["C42_drop_solids", "C42_drop_solids_fo2", "C42_drop_liquids"], "Any number of solids and instances; at most two liquids, as stated.")
claim("C43", "proved", ["C43_fractionate_solids", "C43_fractionate_liquids", "C43_no_traces", "C43_which_phases"], "All states.")
claim("C44", "proved", ["C44_assimilate"], "All states; without liquid, absent phases hold nothing (as after allocation or dropping).")
claim("C45", "proved", ["C45_runs_balanced"], "Induction over runs.")
claim("C28", "proved", ["C28_householder_annihilates", "C28_householder_orthogonal", "C28_householder_guard"], "All four routines (row/column variants), all sizes, pivots and contents; exact arithmetic.")
claim("C47", "proved", ["C47_hfti_least_squares", "C47_hfti_exact"], "All m >= n, all ranks, tau >= 0; exact arithmetic.")
claim("C48", "proved", ["C48_quadStep_satisfies_constraints", "C48_quadStep_stationary", "C48_quadStep_minimises"], "All sizes with linearly independent constraints; the code that fills the matrices is not part of this model.")
claim("C49", "partial", ["C49_multipliers_one_partial", "C49_multipliers_wrong"], "FALSE of the code for two or more constraints: the back-substitution reads the upper instead of the lower triangle. True for one constraint.")
claim("C29", "proved", ["C29_cholesky_factor", "C29_cholesky_succeeds_iff", "C29_cholesky_solve", "C29_case"], "All sizes and matrices; success exactly on the positive definite ones.")
claim("C31", "partial", ["C31_min1d_returns", "C31_min1d_no_worse", "C31_min1d_success", "C31_min1d_bad_initial", "C31_vmmin_returns", "C31_vmmin_reported_minimum", "C31_vmmin_sufficient_decrease", "C31_vmmin_metric", "C31_vmmin_returned_point_can_be_worse"],
      "True for min1d. FALSE of vmmin as stated: its last move, shorter than the tolerance, is not evaluated; the minimum reported and every accepted step are as stated.")
claim("C50", "proved", ["C50_marquardt_returns", "C50_marquardt_result", "C50_marquardt_bad_initial", "C50_case"], "Arbitrary callbacks; exact arithmetic.")
claim("C51", "partial", ["C51_vmmin_fails_at_stationary_start", "C51_case"], "FALSE of the code: with a zero gradient at the start the routine repeats until the iteration cap and reports failure.")
claim("C52", "partial", ["C31_min1d_success", "C52_min1d_exceeded", "C52_min1d_exceeded_elsewhere"], "True on success; FALSE when the evaluations run out: the minimum is never set and the last evaluation is elsewhere.")
claim("C32", "partial", ["C32_frac_partial", "C32_frac_exceeds_error"], "FALSE as documented: the error is rounded to one digit before the second test; a bound of 1.5 times the error is proved (C53).")
claim("C53", "proved", ["C32_frac_partial", "C32_frac_returns", "C32_frac_rejects", "C32_frac_exceeds_error"], "Unbounded integers, exact arithmetic.")
claim("C33", "partial", ["C54_nodes_are_a_map", "C33_refuted_far_apart_indices"], "FALSE for indices 2^31 or more apart (the comparison subtracts in int); proved otherwise (C54).")
claim("C54", "proved", ["C54_nodes_are_a_map", "C54_nonnegative_indices", "C54_same_index_same_node", "C54_case"], "For every qsort that sorts and every bsearch that is right on sorted arrays.")
claim("C36", "partial", ["C36_supplied_partial", "C36_equilibrated_partial", "C36_every_call_partial", "C36_refuted_after_saturation_call", "C36_refuted_without_liquid"],
  "Proved with liquid present, without an oxygen buffer and without a saturation call in between; FALSE after a saturation call (liquid reset to the whole bulk while the solids stay) and for zero-net-mass changes without liquid.")
claim("C34", "partial", ["C34_first_seven_partial", "C34_all_eleven_without_solutions_partial", "C34_refuted"], "FALSE for the pressure and mixed derivatives: the total adds dV/dT in their place. First seven proved; all eleven when no solution phase is present.")
claim("C55", "proved", ["C55_oxides", "C55_volume_fractions", "C55_density", "C55_case"], "All assemblages.")
claim("C56", "partial", ["C56_rest_untouched_partial", "C56_refuted"], "FALSE: one cell behind the last column is divided by the total volume; every other cell is proved untouched.")
claim("C30", "partial", ["C30_no_null_rows", "C30_packed_partial", "C30_single_partial", "C30_refuted_row_exchange", "C30_refuted_null_row_first", "C30_refuted_two_null_rows_last"], "FALSE in full: any row exchange inside a packed block is lost, a null row above two equations leaves the block singular, two null rows below two equations are counted three times. Proved: every size without null rows whatever the pivoting; null rows that one exchange packs, provided the library exchanges no rows; a single equation.")
claim("C37", "partial", ["C37_new_copy_same", "C37_new_copy_independent_partial", "C37_overwrite_same_partial", "C37_overwrite_independent", "C37_refuted_second_liquid", "C37_refuted_new_copy_shares"], "FALSE in full: overwriting a state that has as many liquids copies only the first one; a new copy made while fractionation is off shares the fractionation records. Everything else proved for all states and tables.")
claim("C35", "partial", ["C57_buffer_strings", "C57_mode_strings", "C57_suppress_phase", "C57_unknown", "C35_refuted_documented_strings", "C35_refuted_unknown_strings"], "FALSE: documented strings that do nothing, and malformed ones that set something; the true part is C57.")
claim("C57", "proved", ["C57_buffer_strings", "C57_mode_strings", "C57_suppress_phase", "C57_suppress_none_liquid", "C57_unknown", "C57_unknown_buffer_ignored", "C57_shipped_tables", "C57_case"], "All capitalisations; all texts that start like no keyword.")
claim("C21", "proved", ["C21_temperatures", "C21_pressures", "C21_run_ends", "C21_enthalpies", "C21_entropies", "C21_volumes", "C21_refuted_increment", "C21_refuted_enthalpy_sign", "C21_case", "C21_enthalpy_case"],
      "The driver inside silmin(), exact arithmetic, any equilibration in between. For increments that are not positive (outside the property) the run is shown never to end.")
claim("C65", "proved", ["C65_correction_ends", "C65_correction_accurate", "C65_correction_exact"], "Enthalpy and volume at fixed composition; the bound on iterations also for entropy and under an oxygen buffer. Exact arithmetic.")
claim("C66", "partial", ["C66_portions", "C66_refuted_eleventh_portion", "C66_four_portions"], "True in exact arithmetic; FALSE in IEEE doubles: 1 g in ten portions makes eleven (model of the standard library's SpecFloat).")
claim("C67", "proved", ["C67_prescribed", "C67_imposed", "C67_correction_wins"], "All solver behaviours that keep prescribed values.")
claim("C27", "partial", ["C27_system_partial", "C27_refuted_liquid_assimilant", "C27_case"], "FALSE of the code with a liquid assimilant: its mass overwrites the number one column to the left. Without one the System sheet is exactly the expected table.")
claim("C68", "proved", ["C68_liquid"], "All histories; a sheet is the map from cells to what was last written.")
claim("C69", "partial", ["C69_phases_partial", "C69_refuted_overlap"], "FALSE of the code when the cumulate table is wider than the first: the assimilant table is written over it. Otherwise exact.")
claim("C70", "proved", ["C70_totals", "C70_entries", "C70_liquid_entry", "C70_solid_entry", "C70_fractionated_entries"], "All states; the mixing functions and end-member tables are arbitrary.")
claim("C71", "partial", ["C71_refuted_liquid_density", "C71_refuted_fractionated_density", "C70_solid_entry"], "FALSE for liquids: mass times volume is reported; right only for exactly 10 cc. True for every solid and for the totals (C70).")
claim("C72", "proved", ["C72_mass_balance", "C72_mass_balance_shipped"], "All balanced states; balance itself is C45.")
claim("C73", "partial", ["C73_fractionated_partial", "C73_refuted_fluid_forgotten", "C73_refuted_switched_off", "C73_case"], "FALSE after the switches are changed during a session; true while all switches are on.")
claim("C74", "partial", ["C74_refuted_reads_past_bulk", "C74_rest_partial"], "FALSE: twenty entries of a nineteen-entry array are read, and the last one is part of the record. Everything else in the record is proved to depend only on the state.")
claim("C75", "proved", ["C75_other_oxides", "C75_iron", "C75_ratio", "C75_witness"], "The four calibrations are one function of the coefficients and of the 50 kbar cap.")
claim("C76", "proved", ["C76_round_trip", "C76_own_fO2", "C76_idempotent", "C76_monotone", "C75_witness"], "Compositions with iron.")
claim("C77", "proved", ["C77_same_fO2", "C77_on_buffer", "C77_dm", "C77_d2m", "C77_d2mt", "C77_d2mp", "C77_no_jump", "C77_dt", "C77_dp", "C77_d2t2", "C77_d2tp", "C77_d2p2", "C77_witness"], "Where both kinds of iron are positive.")
claim("C78", "partial", ["C78_more_oxidised_partial", "C78_no_ferric", "C78_refuted"], "FALSE of the code: a liquid without ferric iron is reported at log fO2 = 0, above liquids that have some. True between liquids that both have ferric iron.")
claim("C79", "proved", ["C79_conserves", "C79_imbalance", "C79_full_step", "C79_imposed", "C79_regular", "C79_witness"], "Independent constraints; C79_regular shows that a liquid with all components of the system's oxides is enough at prescribed T and P.")
claim("C80", "proved", ["C80_conserves", "C80_balanced", "C80_bulk", "toRedox_moves", "C80_witness"], "Independent constraints, both kinds of iron in the system, a liquid present (the sub-solidus correction is not modelled).")
claim("C81", "partial", ["C81_rows", "C81_columns", "C81_refuted"], "FALSE of the code: an iron-free system on an oxygen buffer writes one row more than allotted. Proved whenever both kinds of iron are in the system or there is no buffer.")
claim("C82", "proved", ["C82_phases", "C82_totals", "C82_totals_kept", "C82_absent_solid", "C82_absent_liquid", "C79_witness"], "All solutions of the quadratic problem. On a buffer the correction may create a liquid component.")
claim("C83", "proved", ["C83_gibbs", "C83_entropy", "C83_volume", "C83_dgmix", "C83_dsmix", "C83_dvmix", "C83_d2gmix", "C83_d2smix", "C83_d2vmix", "C83_witness"], "For any number of components and any parameters.")
claim("C84", "proved", ["C84_euler", "C84_partial_molar", "C84_tangent", "C84_activity", "C84_absent", "C83_witness"], "")
claim("C85", "proved", ["C85_fractions", "C85_proper", "C85_dr", "C85_d2r"], "")
claim("C86", "partial", ["C86_dact_partial", "C86_refuted", "C86_witness"], "FALSE of the code for a component that is absent: its derivative by its own amount is reported as zero, the true one is positive. Proved for every present component.")
claim("C87", "partial", ["C87_temperature", "C87_water_partial", "C87_refuted", "C87_witness"], "FALSE of the code: oxides the table leaves out (MnO and others) count as having coefficient zero, so water raises the viscosity of a silica-manganese liquid. Temperature part proved outright; water part proved for liquids of the table's oxides, up to 6666 K.")
claim("C88", "partial", ["C88_silica_partial", "C88_refuted", "C88_witness"], "FALSE of the code at pure silica, which is reported with slope zero. Proved for every liquid that holds something besides silica.")
claim("C89", "proved", ["C89_gradient", "C89_hessian", "C89_witness"], "For every consistent solution model; C90_liquid shows the liquid of liquid_v34.c to be one.")
claim("C90", "proved", ["C90_gradient", "C90_hessian", "C90_liquid", "C90_witness"], "Without an oxygen buffer. Consistency of the solution models is a hypothesis, proved for the liquid (C90_liquid).")
claim("C91", "proved", ["C91_gradient", "C91_hessian", "C91_last_gradient", "C91_last_hessian", "C91_mixed", "C90_liquid", "C91_witness"], "Without an oxygen buffer; the terms of the Lagrange multipliers are added later and are not part of this.")
claim("C92", "proved", ["C92_newton", "C92_slope", "C92_downhill", "C92_equilibrium", "C92_stays", "C92_rank", "liq_directional", "C92_witness"], "Temperature and pressure given, no oxygen buffer. The linear search itself (which step length is taken) is not part of it.")
claim("C93", "proved", ["C93_gmix_ordered", "C93_case"], "'Interior stationary state' is the record ordered of OrdSpec.v: continuity, stationarity, nonsingular Hessian, sites clear of clamps. That the Newton loop finds such a state is assumed, not proved; C93_case shows that melilite above 1600 K meets it.")
claim("C94", "proved", ["C94_smix_hmix_cpmix_ordered", "C93_case"], "'Interior stationary state' is the record ordered of OrdSpec.v: continuity, stationarity, nonsingular Hessian, sites clear of clamps. That the Newton loop finds such a state is assumed, not proved; C93_case shows that melilite above 1600 K meets it.")
claim("C95", "proved", ["C95_vmix_ordered", "C93_case"], "'Interior stationary state' is the record ordered of OrdSpec.v: continuity, stationarity, nonsingular Hessian, sites clear of clamps. That the Newton loop finds such a state is assumed, not proved; C93_case shows that melilite above 1600 K meets it.")
claim("C96", "proved", ["C96_order_derivatives", "C93_case"], "'Interior stationary state' is the record ordered of OrdSpec.v: continuity, stationarity, nonsingular Hessian, sites clear of clamps. That the Newton loop finds such a state is assumed, not proved; C93_case shows that melilite above 1600 K meets it.")
claim("C97", "proved", ["C97_activities", "C97_case"], "Hypotheses as for C93, and that the end-member function gives a0 = exp(mu0/RT) (pureXxx is not modelled). The exclusion criteria (mask FOURTH) are not modelled. C97_case: melilite at 1700 K.")
claim("C98", "proved", ["C98_potentials_are_partials", "C98_euler", "C98_gibbs_duhem", "C97_case"], "Hypotheses as for C93, and (follows, OrdActSpec.v) that the state is continuous along continuous paths of compositions. C97_case: melilite at 1700 K.")
# true parts of properties that the code violates in full
claim("C99", "proved", ["C99_accepts_only_formulas", "C06_parser_terminates"], "True part of C06.")
claim("C100", "proved", ["C100_buffer_dP", "C07_buffer_dT_exact"], "True part of C07.")
claim("C101", "proved", ["C101_liquid_volume", "C11_liquid_energies"], "True part of C11.")
claim("C102", "proved", ["C102_plain_buffer_reloads"], "True part of C24.")
claim("C103", "proved", ["C103_load_depends_only_on_increments"], "True part of C26.")
claim("C104", "proved", ["C104_system_sheet", "C27_case"], "True part of C27.")
claim("C105", "proved", ["C105_packed", "C30_no_null_rows"], "True part of C30.")
claim("C106", "proved", ["C106_first_seven", "C106_all_without_solutions"], "True part of C34.")
claim("C107", "proved", ["C107_supplied", "C107_equilibrated", "C107_every_call"], "True part of C36.")
claim("C108", "proved", ["C108_new_copy_independent", "C108_overwrite_same", "C37_new_copy_same", "C37_overwrite_independent"], "True part of C37.")
claim("C109", "proved", ["C109_multiplier"], "True part of C49.")
claim("C110", "proved", ["C110_rest_untouched"], "True part of C56.")
claim("C111", "proved", ["C111_stop"], "True part of C58.")
claim("C112", "proved", ["C112_stop_during_run"], "True part of C59.")
claim("C113", "proved", ["C113_data_belong", "C63_case"], "True part of C63.")
claim("C114", "proved", ["C114_no_false_convergence"], "True part of C64.")
claim("C115", "proved", ["C115_phases_sheet"], "True part of C69.")
claim("C116", "proved", ["C116_fractionated", "C73_case"], "True part of C73.")
claim("C117", "proved", ["C117_rest_of_record"], "True part of C74.")
claim("C118", "proved", ["C118_more_oxidised", "C78_no_ferric"], "True part of C78.")
claim("C119", "proved", ["C119_dact", "C86_witness"], "True part of C86.")
claim("C120", "proved", ["C120_water", "C120_silica", "C87_temperature", "C87_witness", "C88_witness"], "True part of C87 and C88.")
claim("C121", "proved", ["C08_offsets"], "True part of C08.")
claim("C122", "proved", ["C13_HP_consistent", "C13_biotites_consistent"], "True part of C13.")
claim("C123", "proved", ["C14_gmix", "C14_smix_hmix_cpmix", "C14_vmix", "C14_activities"], "Restriction of C14; with ordering parameters see C93-C97.")
claim("C124", "proved", ["C15_potentials_are_partials", "C15_euler", "C15_gibbs_duhem"], "Restriction of C15; with ordering parameters see C98.")
claim("C125", "proved", ["C31_min1d_returns", "C31_min1d_no_worse", "C31_min1d_success", "C31_min1d_bad_initial", "C31_vmmin_returns", "C31_vmmin_reported_minimum", "C31_vmmin_sufficient_decrease", "C31_vmmin_metric"], "True part of C31.")
claim("C126", "proved", ["C40_lambda_continuous"], "True part of C40.")
claim("C127", "proved", ["C60_constraints_survive", "C60_buffer_survives", "C60_case"], "True part of C60.")
claim("C128", "proved", ["C66_portions", "C66_four_portions"], "True part of C66.")
claim("C129", "proved", ["C81_rows", "C81_columns"], "True part of C81.")
claim("C130", "proved", ["C03_in_range_safe"], "True part of C03.")
claim("C131", "proved", ["C131_pure_phase", "C131_solution", "C131_not_examined", "C132_case"], "Potentials of the liquid and the affinity routines of solutions are arbitrary.")
claim("C132", "proved", ["C132_answer", "C132_all_suppressed", "C132_independent", "C132_case"], "")
claim("C133", "proved", ["C133_equilibrium", "C133_others", "C133_no_buffer", "C133_ferric", "C132_case"], "")
claim("C134", "proved", ["C134_outcomes", "C134_bracket", "C137_case"], "")
claim("C135", "proved", ["C135_state", "C135_matter", "C135_fugacity", "C137_case"], "For tables whose conversions are inverse to each other (C46).")
claim("C136", "proved", ["C136_ends", "C136_never", "C136_suppressed", "C137_case"], "The search is not bounded: C136_never and C136_suppressed show that it may run for ever.")
claim("C137", "proved", ["C137_accuracy", "C137_case"], "")
claim("C138", "partial", ["C138_outside", "C134_outcomes"], "FALSE of the code: the limits are checked at the first step only; a liquidus above 2600 K or below 400 K is searched and reported. The first step does stop at the limits.")
claim("C139", "partial", ["C139_not_fresh", "C139_after_limit", "C139_fresh"], "FALSE of the code after a search stopped at a limit: the next one moves the temperature 50 degrees on before any check. True otherwise (C143).")
claim("C140", "proved", ["C140_meaning", "C140_bracket", "C140_case"], "The equilibration is arbitrary.")
claim("C141", "partial", ["C141_flag_missing", "C141_flag_missing_search", "C141_flag_true", "C142_case"], "FALSE of the code: when an equilibration or a search fails the answer is still no failure. A failure answered is one.")
claim("C142", "partial", ["C142_lost", "C142_case", "C142_restored"], "FALSE of the code: when an equilibration fails every phase but the fluid stays suppressed. True otherwise (C144).")
claim("C143", "proved", ["C139_fresh"], "True part of C139.")
claim("C144", "proved", ["C142_restored", "C140_case"], "True part of C142.")
claim("C145", "proved", ["C145_stable_liquids_are_kept", "C145_case"], "Closed system (no fO2 path). On a path the function minimised is taken at the redox-corrected composition; not claimed.")
claim("C146", "proved", ["C146_tangent_plane", "C146_stable", "C145_case"], "")
claim("C147", "proved", ["C147_balance", 'C147_case', "C147_absent", "C147_nearly_nonnegative", "C147_nonnegative_to_1e_10"], "The amounts left in the first liquid may become negative: the code takes MASSIN moles of the new composition from it whatever it holds.")
claim("C148", "proved", ["C148_gradient", "C148_case"], "Closed system.")
claim("C149", "proved", ["C149_result"], "")
claim("C150", "proved", ["C150_stable_solids_are_kept", "C150_case"], "")
claim("C151", "proved", ["C151_tangent_plane", "C151_stable", "C158_case"], "")
claim("C152", "proved", ["C152_searched", "C152_counts", "C152_case"], "")
claim("C153", "proved", ["C153_conserved", "C152_case"], "")
claim("C154", "proved", ["C154_most_distant", "C154_liquid_supplies", "C154_new_instance", "C152_case"], "")
claim("C155", "proved", ["C155_result_unique", "C155_result_or_lack", "C155_result_without_liquid", "C152_case"], "")
claim("C156", "partial", ["C156_refuted"], "FALSE of the code: the matter is taken from the last instance of the phase whichever was found unstable, MASSIN moles of it whatever it holds; its amount can become negative.")
claim("C157", "partial", ["C157_refuted"], "FALSE of the code: if the first liquid has none of a component the new instance needs, the loop that halves the amount never ends. C155 says when it ends.")
claim("C158", "proved", ["C158_phases_tangent_plane", "C158_phases_kept", "C158_case"], "")
claim("C159", "proved", ["C159_compression", "C159_volume"], "Exact arithmetic in the loop.")
claim("C160", "partial", ["C160_refuted"], "FALSE of the code: at 3000 K and 1 bar the equation of graphite has no positive solution, so whatever the loop returns after 500 passes satisfies nothing. True to 2000 K for graphite and to 3000 K for the others (C159).")
claim("C161", "proved", ["C161_answer_balanced", "C161_case"], "")
claim("C162", "proved", ["C162_ideal_exact", "C162_case"], "")
claim("C163", "proved", ["C163_excluded_absent", "C163_phases_excluded", "C163_case"], "")
claim("C164", "proved", ["C164_returns", "C164_function"], "")
claim("C165", "partial", ["C165_direction_refuted", "C165_scale_zero_refuted", "C165_direction_partial"], "FALSE of the code: est_saturation_state.c 514 takes the entry, not its magnitude, as the scale. For the Hessian diag(1,-3) the matrix is divided by -3 and the direction of least curvature becomes the most stable one; for diag(-3,0) it is divided by 0. Proved: it holds when no entry is negative.")
claim("C22", "proved", ["C22_run", "C22_saved", "C22_one_result_per_step", "C22_run_ends", "C22_case", "C61_results_of_a_run"], "All solver behaviours; the run ends if every equilibration does. Stop requests are C58.")
claim("C58", "partial", ["C58_stop_partial", "C58_refuted_lost_stop"], "FALSE of the code when the request falls between the read and the write of the loop decrement: it is lost. Proved for every other time.")
claim("C59", "partial", ["C59_refuted_stop_after_end", "C59_stop_during_run_partial"], "FALSE of the code: after the run has ended the request reads through a null pointer. True while the run is on.")
claim("C60", "partial", ["C60_constraints_survive", "C60_buffer_survives", "C60_case", "C60_refuted_after_failure"], "Proved for every equilibration that starts after a success or at program start; FALSE after a failure in the middle of a staged minimisation: the next run is computed on the old buffer and leaves enthalpy held constant.")
claim("C61", "proved", ["C61_result_was_checked", "C61_results_of_a_run", "C61_case"], "Control flow of silmin() with arbitrary numerical answers, under the modelled driver.")
claim("C62", "proved", ["C62_minimisation_starts", "C62_minimisation_ends", "C62_history_index", "C62_case"], "All answer streams.")
claim("C63", "partial", ["C63_data_belong_partial", "C63_case", "C63_refuted_constant_enthalpy", "C63_refuted_resumed"], "Proved for sessions at prescribed T and P that are not interrupted; FALSE at constant enthalpy when the best iterate is put back, and FALSE when a stopped run is resumed at another T and stopped again.")
claim("C64", "partial", ["C64_no_false_convergence_partial", "C64_refuted_constant_enthalpy"], "FALSE on a buffered path at constant enthalpy: when the stage with the enthalpy imposed does not converge, the iterate of the stage before is put back and the run succeeds. A minimisation that starts afresh is never falsely converged.")
claim("C46", "proved", ["C46_elements", "C46_tables_consistent", "C46_runs_balanced", "C46_tables_exist", "C46_tables_unique"], "For every answer of the least-squares solver; the tables as shipped.")
claim("C166", "proved", ["C166_gradient", "C166_hessian", "C166_pressure_gradient", "C166_pressure_hessian", "C166_pressure_mixed", "C166_witness", "C166_melts", "C166_melts_witness"], "For every table, state and consistent model; C166_melts is the liquid of liquid_v34.c with its own muO2Liq. C166_hessian holds in all four modes.")
claim("C167", "partial", ["C167_refuted"], "FALSE of the code: the column written for the second and later components of a solid solution is that of the first, and at fixed T and P the last column is left out.")
claim("C168", "partial", ["C168_refuted"], "FALSE of the code: the terms between different liquids are not filled.")
claim("C169", "partial", ["C169_refuted"], "FALSE of the code: the gradient uses the potential of the buffer, the Hessian still has the derivatives of the potential of the liquid.")
claim("C170", "proved", ["C170_searched", "C170_most_distant", "C147_case"], "C147_case is a call that answers TRUE.")

claim("C171", "proved", ["C171_oxygen_potential", "C171_reported", "C171_case"], "Activities not below 1e-16 and singular values not between 0 and 1e-8 are hypotheses; gsl_linalg_SV_decomp is any decomposition.")
claim("C172", "partial", ["C172_refuted", "C172_without_iron_refuted"], "FALSE of the code: a least-squares reaction that does not balance is used as if it did and TRUE is returned; without iron FALSE is ignored and an fO2 of 1 bar is reported.")
claim("C173", "partial", ["C173_refuted"], "FALSE of the code: the reaction kept from an earlier call is used again.")
claim("C174", "proved", ["C174_buffered", "C174_case"], "C174_case is a run that takes a step.")
claim("C175", "partial", ["C175_refuted"], "FALSE of the code: each wrapper tests its own pointer, so failure is always FALSE.")
claim("C176", "proved", ["C176_unknown", "C176_frame"], "")
claim("C177", "partial", ["C177_extensive", "C177_solution", "C177_liquid", "C177_conversions", "C177_ordered", "C177_spinel_refuted", "C177_case"], "FALSE of the code for spinel with a charge excess: ferric iron is set to DBL_EPSILON moles whatever the amount. True for the liquid, pure phases and the solutions with any other conversion, with and without order parameters.")
claim("C178", "partial", ["C178_solution", "C178_liquid", "C178_pure", "C178_mineral", "C178_mineral_solution", "C178_ordered", "C178_ordered_case", "C177_case"], "The liquid of liquid_v34.c, pure phases, the fifteen solutions without and the twelve with order parameters; the fluid and the liquids with CO2 are missing.")
claim("C179", "partial", ["C179_solution", "C179_liquid", "C179_ordered", "C178_ordered_case", "C177_case"], "The liquid of liquid_v34.c, the fifteen solutions without and the twelve with order parameters; the fluid and the liquids with CO2 are missing.")
claim("C180", "proved", ["C180_molar", "C180_pure"], "")
claim("C181", "proved", ["C181_cations", "C181_valence", "C181_case"], "")
claim("C182", "partial", ["C182_iron", "C182_refuted"], "FALSE of the code: the routine for oxides is applied to liquid components, Fe2SiO4 taken for FeO.")
claim("C183", "partial", ["C183_fractions", "C183_pure", "C183_liquid", "C183_refuted"], "FALSE of the code for solid solutions: the activity reported is always 0. True for the liquid and pure phases.")
claim("C184", "partial", ["C184_sums", "C184_oxide", "C184_liquid_recovered", "C184_refuted", "C184_case"], "FALSE of the code: the potential of an oxide is multiplied by the moles of oxides per mole of liquid components. The two sums are proved.")
claim("C185", "partial", ["C185_hornblende", "C185_refuted"], "FALSE of the code: hornblende.c takes moles of Mg for moles of pargasite, four times too much.")
claim("C186", "proved", ["C186_amounts_recovered", "C186_all_have_one", "C186_case"], "")
claim("C187", "partial", ["C187_refuted"], "FALSE of the code: one gram of MgO entered for feldspar is reported as a mass of one gram with no oxide at all. What does come back is C188.")
claim("C188", "proved", ["C188_liquid", "C188_pure", "C188_pure_phases", "C188_solution", "C188_mass"], "Hornblende left out as in C186 (its conversion is in C181-C186's notes).")
claim("C189", "proved", ["C189_density", "C189_molar_weight"], "")
claim("C190", "proved", ["C190_molar_mass", "C190_solution", "C190_same_weight"], "")
claim("C191", "partial", ["C191_refuted", "C191_which", "C191_case", "C191_solution", "C191_ordered"], "FALSE of the code for six phases: activity(0, ...) is not divided by that of the pure end member while the potential is relative to it. Holds for the fifteen solutions without and the six others with order parameters.")
claim("C192", "proved", ["C192_fractions", "C192_elements", "C192_species", "C192_case"], "The extent of the reaction, actLiq(0, ...), is any function.")
claim("C193", "partial", ["C193_solution", "C193_pure", "C193_refuted", "C193_refuted_beyond", "C193_case"], "FALSE of the code for the liquid: columns of the inverse conversion are summed (CaSiO3 gets a negative weight) and the species past the components read beyond the rows. Solids are right.")
claim("C194", "partial", ["C194_refuted", "C194_short_refuted", "C194_names", "C194_recovered", "C194_phases"], "FALSE of the code: with room for fewer names than there are it writes past the room (and past what it allocated), and fields of fewer than 13 characters can make names the same. With room for all, every name arrives.")
claim("C195", "partial", ["C195_refuted", "C195_padded_refuted", "C195_found", "C195_unknown", "C195_indices", "C195_case"], "FALSE of the code for names of more than 13 characters (written past the end of the key), among them every name as getMeltsPhaseNames pads it; for shorter names it holds. C195_case is a sort and a search as the C standard wants them.")
claim("C196", "proved", ["C196_grd", "C196_shaw", "C196_case"], "The amounts are not all zero.")
claim("C197", "proved", ["C197_grd", "C197_shaw", "C196_case"], "")
claim("C198", "partial", ["C198_refuted", "C198_shaw", "C198_grd", "C198_grd_positive", "C196_case"], "FALSE of the code for compositions with B < 0, such as alumina; holds for Shaw's model and where B > 0 above C.")
claim("C199", "partial", ["C199_refuted", "C199_flag", "C196_case"], "FALSE of the code: Shaw's model answers with the logarithm, which is negative for silica, where the other answers with the viscosity.")
claim("C200", "proved", ["C200_endmember", "C200_pure_phase", "C200_case"], "For assemblages written with components all of whose oxides are in the system (C201) and with enough end members (C202).")
claim("C201", "partial", ["C201_refuted", "C200_pure_phase"], "FALSE of the code: calcite in CaO-CO2 is written with CaSiO3, SiO2 is not there, and aragonite is reported neutral whatever its energy. True where the solids are written with available components (C200).")
claim("C202", "partial", ["C202_refuted", "C202_case"], "FALSE of the code: GSL refuses the decomposition, the program goes on with unwritten memory, and any number can come out.")

claim("C203", "proved", ["C203_shows", "C203_last", "C203_shipped", "C207_case"], "For objects on which nothing has been run since InitializeMelts (see C204 for the others).")
claim("C204", "partial", ["C204_refuted"], "FALSE of the code: SetComposition does not clear the solids, which are then there in addition to the composition shown.")
claim("C205", "partial", ["C205_normalised", "C205_off", "C205_refused", "C205_refuted"], "FALSE of the code for a composition of zeros: the division by their sum leaves no numbers. For any composition with a nonzero sum it is proved.")
claim("C206", "proved", ["C206_redistributed", "C206_nonnegative", "C206_potential", "C206_refused", "C206_shipped", "C207_case"], "The fugacity is that of the buffer the routine computed (bufferValue); C207 says which one that is.")
claim("C207", "partial", ["C207_refuted_argument", "C207_refuted_offset", "C207_without_offset_partial", "C207_case"], "FALSE of the code: the argument is never read, and the offset is left out because the global pointer it is read through is NULL outside a run.")
claim("C208", "proved", ["C208_mode", "C208_one_mode", "C208_path", "C208_path_refused", "C208_offset", "C208_offset_refused", "C208_refusals"], "")
claim("C209", "partial", ["C209_supported", "C209_refuted"], "FALSE of the code for unsupported numbers: version and tables revert to MELTS 1.0, the calculation mode does not. Proved for 1..4.")
claim("C210", "proved", ["C210_forgets", "C210_empty"], "")

claim("C211", "proved", ["C211_oxides", "C211_grams", "C211_mass", "C211_assimilated", "C211_shipped", "C211_case"], "")
claim("C212", "proved", ["C212_solids", "C212_case"], "Property functions of solutions enter as functions proportional to the amount of matter.")
claim("C213", "partial", ["C213_refuted"], "FALSE of the code: the liquid's composition is divided by a second totalMoles (566-567) that shadows the first and is never initialised; two contents of that memory give two enthalpies.")
claim("C214", "partial", ["C214_refuted_oxide", "C214_refuted_solution"], "FALSE of the code: a phase number past the table, or a solution whose percentages are all zero, adds to the mass of the step and no matter.")

claim("C215", "proved", ["C215_solids", "C215_liquids", "C215_balanced", "C217_case"], "")
claim("C216", "partial", ["C216_refuted", "C216_graphical"], "FALSE of the shared library: library.c lacks silmin.c's test for less than MASSIN moles, so a phase between the drop threshold and the residual amount is topped up from the store, which goes negative. True of the graphical program (C216_graphical).")
claim("C217", "proved", ["C217_solids", "C217_liquids", "C217_case"], "Property functions enter as functions of the moles; mixing per mole depends on the proportions only.")
claim("C218", "proved", ["C218_solids", "C218_liquids", "C217_case"], "")
claim("C219", "partial", ["C219_partial", "C219_off", "C219_refuted"], "FALSE of the code: with output 1 the fractionation lowers the reference and the final conditions then overwrite it with the total before fractionation (C219_refuted; C219_off gives the error for every table and state). Holds when the tail of the call does not fractionate (C219_partial).")
claim("C220", "proved", ["C220", "C220_fresh", "C220_case"], "")
claim("C221", "partial", ["C221_partial", "C221_refuted", "C221_throws"], "FALSE of the code: the thread can save one more step after the Stop button, and the next frame reads one number past every vector (C221_refuted); if none had been saved, the frame throws (C221_throws). Holds of histories without the Stop button (C221_partial).")
claim("C222", "partial", ["C222_partial", "C222_first", "C222_map", "C222_refuted"], "FALSE of the code: m_PhasesVec is appended to, so after a second choice of version the list is too long and names the wrong phases (C222_refuted). Holds for the first choice (C222_first), which is the only one the shipped menu offers; the map is always right (C222_map).")
claim("C223", "proved", ["C223", "C223_reset", "C223_load", "C223_room", "C223_tight"], "")
claim("C224", "partial", ["C224_partial", "C224_never", "C224_shipped", "C224_refuted"], "FALSE of the code: a line is read by the first row with its label, so clinopyroxene's diopside, nepheline's end members, the pure phase fayalite and a dozen more come back from no file (C224_never, C224_shipped), and the 0.00 of a later namesake wipes an earlier row: olivine's fayalite, pure corundum (C224_refuted). Proved: a line sets the first row with its label and no other")
claim("C225", "partial", ["C225_partial", "C225_shipped", "C225_percent_partial", "C225_percent_case", "C225_refuted", "C225_olivine"], "FALSE of the code for mole percents: repeated additions of a solution are averaged by mass in the window, by moles in the engine (C225_refuted, C225_olivine). Proved: masses agree and sum to the mass per step after every sequence; percents agree when every addition of the phase had one mean molar weight")
claim("C226", "partial", ["C226_partial", "C226_refuted", "C226_next", "C226_sphene"], "FALSE of the code: adding a pure phase rewrites the field of the next row as 100 (3 g typed for sphene become 100 g after fayalite is added). Proved: adding a solution, or a pure phase whose next field is 0, leaves the fields of all other phases")
claim("C227", "partial", ["C227_partial", "C227_patient_partial", "C227_two", "C227_refuted"], "FALSE of the code: Stop closes the window without waiting, and std::async starts the next thread before the assignment to m_Future waits for the old one. Proved: never more than two, and then the window is blocked; at most one without Stop, or if each stopped calculation ends before the next press")
claim("C228", "partial", ["C228_partial", "C228_folded_partial", "C228_typed", "C228_refuted", "C228_case"], "FALSE of the code: Reset state with the settings folded shows isothermal while step_inc keeps the enthalpy increment. Proved: in force whenever the settings are unfolded, and at every moment if there is no reset and files set one mode and its increments")
claim("C229", "partial", ["C229_partial", "C229_illegal", "C229_in_use", "C229_reset_partial", "C229_refuted"], "FALSE of the code: titles over 31 bytes are cut on loading, and a title under five bytes resets to a part of the default. Proved: titles up to 31 bytes pass unchanged, forbidden ones never replace the one in use")
claim("C230", "partial", ["C230_partial", "C230_refuted"], "FALSE of the code: after Stop the state can be destroyed under the running calculation. Proved: never without Stop")

claim("C231", "partial", ["C231_partial", "C231_suppress", "C231_refuted", "C231_refuted_one_blank", "C231_case", "C231_case_runs"], "FALSE of the code: a text not followed by two blanks in its field is read on into other memory, or keeps its blank and is ignored. Proved: with two blanks, for every array and every memory")
claim("C232", "partial", ["C232_partial", "C232_case", "C232_refuted_wet", "C232_wet_case"], "FALSE of the code after WetLiquidus: the fluid the search equilibrated with stays beside a liquid made of all the grams shown (liquidus.c sets solidMass to zero, not solidComp). Proved when the search makes no phases, as liquidus() does")
claim("C233", "partial", ["C233_origin_partial", "C233_refuted_composition", "C233_refuted_failure", "C233_case"], "FALSE of the code: entering another composition keeps the temperature, and a failed search answers true and keeps it too. Proved: where a temperature shown comes from, over all histories")
root = os.path.dirname(os.path.dirname(os.path.abspath(__file__)))
ids = [json.loads(l)["id"] for l in open(os.path.join(root, "properties.jsonl"))]
have = {c["property"] for c in C}
for i in ids:
    if i not in have:
        claim(i, "partial", [], "not yet proved")
C.sort(key=lambda c: c["property"])
json.dump({"claims": C}, open(os.path.join(root, "MANIFEST.json"), "w"), indent=1)
