# What Print Assumptions lists, theorem by theorem

Generated by tools/assumptions.py from the compiled theories.

## Closed under the global context (no axioms)

DynMem.C191_which, EquilProps.C111_stop, EquilProps.C112_stop_during_run, EquilProps.C22_case, EquilProps.C22_one_result_per_step, EquilProps.C22_run, EquilProps.C22_run_ends, EquilProps.C22_saved, EquilProps.C58_refuted_lost_stop, EquilProps.C58_stop_partial, EquilProps.C59_refuted_stop_after_end, EquilProps.C59_stop_during_run_partial, FileLabel.C224_never, FileLabel.C224_partial, FileLabel.C224_refuted, FileLabel.C224_shipped, FormulaProps.C04_formula_stoichiometry, FormulaProps.C04_shipped_formulas_parse, FormulaProps.C05_weight_is_stoich_times_atomic_weights, FormulaProps.C06_malformed_rejected_refuted, FormulaProps.C06_no_parentheses_accepts_only_formulas_partial, FormulaProps.C06_parser_terminates, FormulaProps.C99_accepts_only_formulas, IfaceProps.C208_mode, IfaceProps.C208_offset, IfaceProps.C208_offset_refused, IfaceProps.C208_path_refused, MassProps.C43_which_phases, MeltsFileProps.C103_load_depends_only_on_increments, MeltsFileProps.C23_save_load_roundtrip, MeltsFileProps.C24_builtin_offset_lost, MeltsFileProps.C25_assimilant_mass_refuted, MeltsFileProps.C25_oxide_assimilants_never_restored, MeltsFileProps.C26_load_depends_only_on_increments_partial, MeltsFileProps.C26_load_history_independent_refuted, MeltsFileProps.C38_save_name_found, MeltsFileProps.C38_save_never_overwrites, MeltsFileProps.C39_load_never_aborts_refuted, MenuProps.C222_first, MenuProps.C222_map, MenuProps.C222_refuted, MenuProps.C223, MenuProps.C223_load, MenuProps.C223_reset, MenuProps.C223_room, MenuProps.C223_tight, NameProps.C194_names, NameProps.C194_phases, NameProps.C194_recovered, NameProps.C194_refuted, NameProps.C194_short_refuted, NameProps.C195_case, NameProps.C195_found, NameProps.C195_indices, NameProps.C195_padded_refuted, NameProps.C195_refuted, NameProps.C195_unknown, NodeProps.C33_refuted_far_apart_indices, NodeProps.C54_case, NodeProps.C54_nodes_are_a_map, NodeProps.C54_nonnegative_indices, NodeProps.C54_same_index_same_node, PathProps.C66_four_portions, PathProps.C66_refuted_eleventh_portion, PlotProps.C222_partial, PropArrProps.C231_case, PropArrProps.C231_case_runs, PropArrProps.C231_partial, PropArrProps.C231_refuted, PropArrProps.C231_refuted_one_blank, PropArrProps.C231_suppress, PropStrProps.C35_refuted_documented_strings, PropStrProps.C35_refuted_unknown_strings, PropStrProps.C57_buffer_strings, PropStrProps.C57_case, PropStrProps.C57_mode_strings, PropStrProps.C57_shipped_tables, PropStrProps.C57_suppress_none_liquid, PropStrProps.C57_suppress_phase, PropStrProps.C57_unknown, PropStrProps.C57_unknown_buffer_ignored, QryLiquid.C184_case, SilminData.C113_data_belong, SilminData.C114_no_false_convergence, SilminData.C63_case, SilminData.C63_data_belong_partial, SilminData.C63_refuted_constant_enthalpy, SilminData.C63_refuted_resumed, SilminData.C64_no_false_convergence_partial, SilminData.C64_refuted_constant_enthalpy, SilminEnd.C62_case, SilminEnd.C62_history_index, SilminEnd.C62_minimisation_ends, SilminEnd.C62_minimisation_starts, SilminProps.C60_buffer_survives, SilminProps.C60_case, SilminProps.C60_constraints_survive, SilminProps.C60_refuted_after_failure, SilminRun.C61_case, SilminRun.C61_result_was_checked, SilminRun.C61_results_of_a_run, TsdProps.C01_get_returns_last_set, TsdProps.C01_isolation, TsdProps.C01_tsd_refines_history_spec, TsdProps.C02_cleanup_destroys_held_values, TsdProps.C02_create_fails_iff_full, TsdProps.C02_key_stays_valid, TsdProps.C02_keys_never_reused, TsdProps.C02_once_runs_once, TsdProps.C03_get_out_of_range_refuted, TsdProps.C03_in_range_safe, WinProps.C227_partial, WinProps.C227_patient_partial, WinProps.C227_refuted, WinProps.C227_two, WinProps.C229_illegal, WinProps.C229_in_use, WinProps.C229_partial, WinProps.C229_refuted, WinProps.C229_reset_partial, WinProps.C230_partial, WinProps.C230_refuted

## `ClassicalDedekindReals.sig_forall_dec`

CopyProps.C108_new_copy_independent, CopyProps.C108_overwrite_same, CopyProps.C37_new_copy_independent_partial, CopyProps.C37_new_copy_same, CopyProps.C37_overwrite_independent, CopyProps.C37_overwrite_same_partial, CopyProps.C37_refuted_new_copy_shares, IfaceProps.C208_path, IfaceProps.C209_refuted, IfaceProps.C209_supported, IfaceProps.C210_forgets, PlotProps.C221_refuted, PlotProps.C221_throws, XlsxProps.C115_phases_sheet, XlsxProps.C27_case, XlsxProps.C27_refuted_liquid_assimilant, XlsxProps.C68_liquid, XlsxProps.C69_phases_partial

## `ClassicalDedekindReals.sig_forall_dec`, `FunctionalExtensionality.functional_extensionality_dep`

AbsProps.C202_refuted, AsmProps.C211_assimilated, AsmProps.C211_grams, AsmProps.C211_mass, AsmProps.C211_oxides, AsmProps.C212_solids, AsmProps.C213_refuted, AsmProps.C214_refuted_oxide, AsmProps.C214_refuted_solution, CoexSolProps.C151_stable, CoexSolProps.C151_tangent_plane, CopyProps.C37_refuted_second_liquid, DlgProps.C225_partial, DlgProps.C225_percent_partial, DlgProps.C225_refuted, DlgProps.C226_next, DlgProps.C226_partial, DlgProps.C226_refuted, DynProps.C188_mass, DynProps.C189_density, DynProps.C189_molar_weight, DynProps.C190_molar_mass, EstCase.C165_direction_partial, EstCase.C165_direction_refuted, EstCase.C165_scale_zero_refuted, FillProps.C70_liquid_entry, FillProps.C70_solid_entry, FillProps.C71_refuted_liquid_density, Fo2Props.C08_offsets, Fo2Props.C08_user_offset_on_QFMn_refuted, Fo2Props.C102_plain_buffer_reloads, Fo2Props.C24_builtin_offset_refuted, Fo2Props.C24_plain_buffers_partial, FracProps.C32_frac_exceeds_error, FracProps.C32_frac_partial, FracProps.C32_frac_rejects, FracProps.C32_frac_returns, IfaceProps.C204_refuted, IfaceProps.C205_normalised, IfaceProps.C205_off, IfaceProps.C205_refused, IfaceProps.C205_refuted, IfaceProps.C210_empty, LibEnd.C219_off, LibEnd.C219_partial, LibEnd.C219_refuted, LibFracProps.C215_balanced, LibFracProps.C215_liquids, LibFracProps.C215_solids, LibFracProps.C216_graphical, LibFracProps.C216_refuted, LibFracProps.C217_case, LibFracProps.C217_liquids, LibFracProps.C217_solids, LibFracProps.C218_liquids, LibFracProps.C218_solids, LiqCallProps.C232_case, LiqCallProps.C232_partial, LiqCallProps.C232_refuted_wet, LiqCallProps.C232_wet_case, LiqCallProps.C233_refuted_failure, LiqProps.C85_fractions, LiqProps.C85_proper, LuProps.C105_packed, LuProps.C30_no_null_rows, LuProps.C30_packed_partial, LuProps.C30_refuted_null_row_first, LuProps.C30_refuted_row_exchange, LuProps.C30_refuted_two_null_rows_last, LuProps.C30_single_partial, MassCases.C17_add_liquid_partial, MassCases.C17_no_liquid_partial, MassCases.C17_refuted_without_liquid, MassCases.C18_last_liquid_partial, MassCases.C18_refuted_last_liquid, MassCases.C18_refuted_three_liquids, MassCases.C19_refuted_traces, MassCases.C20_refuted_total, MassProps.C41_add_solid, MassProps.C41_second_liquid, MassProps.C41_second_solid, MassProps.C42_drop_liquids, MassProps.C42_drop_solids, MassProps.C42_drop_solids_fo2, MassProps.C43_fractionate_liquids, MassProps.C43_fractionate_solids, MassProps.C43_no_traces, MassProps.C44_assimilate, MassProps.C45_runs_balanced, NashProps.C31_vmmin_metric, NashProps.C31_vmmin_reported_minimum, NashProps.C31_vmmin_returned_point_can_be_worse, NashProps.C31_vmmin_returns, NashProps.C31_vmmin_sufficient_decrease, NashProps.C51_case, NashProps.C51_vmmin_fails_at_stationary_start, PathProps.C21_case, PathProps.C21_enthalpies, PathProps.C21_enthalpy_case, PathProps.C21_entropies, PathProps.C21_pressures, PathProps.C21_refuted_enthalpy_sign, PathProps.C21_refuted_increment, PathProps.C21_run_ends, PathProps.C21_temperatures, PathProps.C21_volumes, PathProps.C65_correction_ends, PathProps.C66_portions, PathProps.C67_correction_wins, PathProps.C67_imposed, PathProps.C67_prescribed, PlotProps.C220, PlotProps.C220_case, PlotProps.C220_fresh, PlotProps.C221_partial, QryLiquid.C183_fractions, QryProps.C177_extensive, QryProps.C178_pure, QryProps.C180_molar, QryProps.C180_pure, QryPyr.C181_case, QryPyr.C181_cations, QryPyr.C181_valence, RedoxProps.C77_d2mp, ReportProps.C106_all_without_solutions, ReportProps.C106_first_seven, ReportProps.C110_rest_untouched, ReportProps.C34_all_eleven_without_solutions_partial, ReportProps.C34_first_seven_partial, ReportProps.C34_refuted, ReportProps.C55_case, ReportProps.C55_density, ReportProps.C55_oxides, ReportProps.C55_volume_fractions, ReportProps.C56_refuted, ReportProps.C56_rest_untouched_partial, SatProps.C131_not_examined, SatProps.C131_pure_phase, SatProps.C131_solution, SatProps.C132_all_suppressed, SatProps.C132_answer, SatProps.C132_case, SatProps.C132_independent, SatProps.C133_equilibrium, SatProps.C133_ferric, SatProps.C133_no_buffer, SatProps.C133_others, SolnProps.C16_snap_thresholds, StepProps.C79_regular, StepProps.C79_witness, StepProps.C81_columns, StepProps.C81_refuted, StepProps.C81_rows, SupplyProps.C107_equilibrated, SupplyProps.C107_every_call, SupplyProps.C107_supplied, SupplyProps.C36_equilibrated_partial, SupplyProps.C36_every_call_partial, SupplyProps.C36_refuted_after_saturation_call, SupplyProps.C36_refuted_without_liquid, SupplyProps.C36_supplied_partial, WinProps.C228_case, WinProps.C228_folded_partial, WinProps.C228_partial, WinProps.C228_refuted, WinProps.C228_typed, XlsxProps.C104_system_sheet, XlsxProps.C27_system_partial, XlsxProps.C69_refuted_overlap

## `ClassicalDedekindReals.sig_forall_dec`, `ClassicalDedekindReals.sig_not_dec`, `FunctionalExtensionality.functional_extensionality_dep`

AbsCase.C200_case, AbsCase.C201_refuted, AbsCase.C202_case, AbsProps.C200_endmember, AbsProps.C200_pure_phase, AsmCase.C211_case, AsmCase.C211_shipped, AsmCase.C212_case, CoexSolDet.C155_result_or_lack, CoexSolDet.C155_result_unique, CoexSolDet.C155_result_without_liquid, CoexSolKept.C152_searched, CoexSolKept.C154_most_distant, CoexSolMore.C152_counts, CoexSolMore.C153_conserved, CoexSolMore.C154_liquid_supplies, CoexSolMore.C154_new_instance, CoexSolProps.C150_stable_solids_are_kept, DescProps.C92_rank, DlgCase.C225_olivine, DlgCase.C225_percent_case, DlgCase.C225_shipped, DlgCase.C226_sphene, DynMem.C187_refuted, DynMem.C188_pure_phases, DynMem.C192_fractions, DynProps.C188_liquid, DynProps.C188_pure, DynProps.C188_solution, DynProps.C190_same_weight, DynProps.C190_solution, DynWeights.C192_case, DynWeights.C192_elements, DynWeights.C193_case, DynWeights.C193_pure, DynWeights.C193_refuted, DynWeights.C193_refuted_beyond, DynWeights.C193_solution, ElmTable.C185_hornblende, ElmTable.C185_refuted, ElmTable.C186_all_have_one, ElmTable.C186_amounts_recovered, ElmTable.C186_case, Fo2Props.C07_none_dP_refuted, GrdProps.C196_case, InitProps.C46_elements, InitProps.C46_runs_balanced, InitProps.C46_tables_consistent, InitProps.C46_tables_exist, InitProps.C46_tables_unique, LaProps.C109_multiplier, LaProps.C28_householder_annihilates, LaProps.C28_householder_guard, LaProps.C28_householder_orthogonal, LaProps.C47_hfti_exact, LaProps.C47_hfti_least_squares, LaProps.C48_quadStep_minimises, LaProps.C48_quadStep_satisfies_constraints, LaProps.C48_quadStep_stationary, LaProps.C49_multipliers_one_partial, LaProps.C49_multipliers_wrong, LiqProps.C84_absent, NashProps.C29_case, NashProps.C29_cholesky_factor, NashProps.C29_cholesky_solve, NashProps.C29_cholesky_succeeds_iff, NashProps.C31_min1d_bad_initial, NashProps.C31_min1d_no_worse, NashProps.C31_min1d_returns, NashProps.C31_min1d_success, NashProps.C50_case, NashProps.C50_marquardt_bad_initial, NashProps.C50_marquardt_result, NashProps.C50_marquardt_returns, NashProps.C52_min1d_exceeded, NashProps.C52_min1d_exceeded_elsewhere, QryLiquid.C184_liquid_recovered, QryLiquid.C184_sums, QryProps.C175_refuted, QryProps.C176_frame, QryProps.C176_unknown, QryTable.C177_conversions, QryTable.C177_spinel_refuted, StepProps.C79_conserves, StepProps.C79_full_step, StepProps.C79_imbalance, StepProps.C79_imposed, StepProps.C80_balanced, StepProps.C80_bulk, StepProps.C80_conserves, StepProps.C82_absent_liquid, StepProps.C82_absent_solid, StepProps.C82_phases, StepProps.C82_totals, StepProps.C82_totals_kept

## `ClassicalDedekindReals.sig_forall_dec`, `ClassicalDedekindReals.sig_not_dec`, `Classical_Prop.classic`, `FunctionalExtensionality.functional_extensionality_dep`

CoexCase.C147_case, CoexGrad.C145_case, CoexGrad.C148_case, CoexGrad.C148_gradient, CoexGrad.C149_result, CoexKept.C170_most_distant, CoexKept.C170_searched, CoexMore.C147_absent, CoexMore.C147_balance, CoexMore.C147_nearly_nonnegative, CoexMore.C147_nonnegative_to_1e_10, CoexProps.C145_stable_liquids_are_kept, CoexProps.C146_stable, CoexProps.C146_tangent_plane, CoexSolCase.C150_case, CoexSolCase.C152_case, CoexSolCase.C156_refuted, CoexSolCase.C157_refuted, CoexSolPhase.C158_case, CoexSolPhase.C158_phases_kept, CoexSolPhase.C158_phases_tangent_plane, DescLiq.C92_witness, DescLiq.liq_directional, DescProps.C92_downhill, DescProps.C92_equilibrium, DescProps.C92_newton, DescProps.C92_slope, DescProps.C92_stays, DynMem.C191_case, DynMem.C191_ordered, DynMem.C191_refuted, DynMem.C191_solution, DynMem.C192_species, EosProps.C09_solid_berman_consistent, EosProps.C101_liquid_volume, EosProps.C10_branches_exist, EosProps.C10_newton, EosProps.C10_nonvacuous, EosProps.C10_solid_vinet_consistent, EosProps.C11_liquid_energies, EosProps.C11_liquid_volume_partial, EosProps.C11_liquid_volume_refuted, EosProps.C12_reference_state_consistent, EosProps.C12_reference_values, EosProps.C13_HP_consistent, EosProps.C13_HP_landau_dVdP_refuted, EosProps.C13_HP_landau_volume_partial, EosProps.C13_biotites_consistent, EosProps.C40_hematite_refuted, EosProps.C40_lambda_continuous, EstCase.C161_case, EstCase.C162_case, EstCase.C163_case, EstFun.C164_function, EstFun.C164_returns, EstIdeal.C162_ideal_exact, EstNull.C163_excluded_absent, EstPhase.C163_phases_excluded, EstProps.C161_answer_balanced, FillFrac.C70_fractionated_entries, FillProps.C116_fractionated, FillProps.C117_rest_of_record, FillProps.C70_entries, FillProps.C70_totals, FillProps.C71_refuted_fractionated_density, FillProps.C72_mass_balance, FillProps.C72_mass_balance_shipped, FillProps.C73_case, FillProps.C73_fractionated_partial, FillProps.C73_refuted_fluid_forgotten, FillProps.C73_refuted_switched_off, FillProps.C74_refuted_reads_past_bulk, FillProps.C74_rest_partial, Fo2Props.C07_COH_dP_refuted, Fo2Props.C07_buffer_dP_exact_partial, Fo2Props.C07_buffer_dT_exact, Fo2Props.C100_buffer_dP, GrdProps.C196_grd, GrdProps.C196_shaw, GrdProps.C197_grd, GrdProps.C197_shaw, GrdProps.C198_grd, GrdProps.C198_grd_positive, GrdProps.C198_refuted, GrdProps.C198_shaw, GrdProps.C199_flag, GrdProps.C199_refuted, HessInst.C89_witness, HessInst.C90_liquid, HessInst.C90_witness, HessInst.C91_witness, HessProps.C89_gradient, HessProps.C89_hessian, HessProps.C90_gradient, HessProps.C90_hessian, HessProps.C91_gradient, HessProps.C91_hessian, HessProps.C91_last_gradient, HessProps.C91_last_hessian, HessProps.C91_mixed, IfaceCase.C203_shipped, IfaceCase.C206_shipped, IfaceProps.C203_last, IfaceProps.C203_shows, IfaceProps.C206_nonnegative, IfaceProps.C206_potential, IfaceProps.C206_redistributed, IfaceProps.C206_refused, IfaceProps.C207_case, IfaceProps.C207_refuted_argument, IfaceProps.C207_refuted_offset, IfaceProps.C207_without_offset_partial, IfaceProps.C208_one_mode, IfaceProps.C208_refusals, LiqCallProps.C233_case, LiqCallProps.C233_origin_partial, LiqCallProps.C233_refuted_composition, LiqProps.C119_dact, LiqProps.C83_d2gmix, LiqProps.C83_d2smix, LiqProps.C83_d2vmix, LiqProps.C83_dgmix, LiqProps.C83_dsmix, LiqProps.C83_dvmix, LiqProps.C83_entropy, LiqProps.C83_gibbs, LiqProps.C83_volume, LiqProps.C83_witness, LiqProps.C84_activity, LiqProps.C84_euler, LiqProps.C84_partial_molar, LiqProps.C84_tangent, LiqProps.C85_d2r, LiqProps.C85_dr, LiqProps.C86_dact_partial, LiqProps.C86_refuted, LiqProps.C86_witness, LiquidusProps.C134_bracket, LiquidusProps.C134_outcomes, LiquidusProps.C135_fugacity, LiquidusProps.C135_matter, LiquidusProps.C135_state, LiquidusProps.C136_ends, LiquidusProps.C136_never, LiquidusProps.C136_suppressed, LiquidusProps.C137_accuracy, LiquidusProps.C137_case, LiquidusProps.C138_outside, LiquidusProps.C139_after_limit, LiquidusProps.C139_fresh, LiquidusProps.C139_not_fresh, OrdActCase.C97_case, OrdActProps.C97_activities, OrdActProps.C98_euler, OrdActProps.C98_gibbs_duhem, OrdActProps.C98_potentials_are_partials, OrdCase.C93_case, OrdProps.C93_gmix_ordered, OrdProps.C94_smix_hmix_cpmix_ordered, OrdProps.C95_vmix_ordered, OrdProps.C96_order_derivatives, OxyCase.C166_witness, OxyCase.C167_refuted, OxyCase.C168_refuted, OxyCase.C169_refuted, OxyLiq.C166_melts, OxyLiq.C166_melts_witness, OxyProps.C166_gradient, OxyProps.C166_hessian, OxyProps.C166_pressure_gradient, OxyProps.C166_pressure_hessian, OxyProps.C166_pressure_mixed, PathProps.C65_correction_accurate, PathProps.C65_correction_exact, QryEos.C178_mineral, QryEos.C178_mineral_solution, QryLiquid.C177_case, QryLiquid.C182_iron, QryLiquid.C182_refuted, QryLiquid.C183_liquid, QryLiquid.C183_pure, QryLiquid.C183_refuted, QryLiquid.C184_oxide, QryLiquid.C184_refuted, QryOrd.C177_ordered, QryOrd.C178_ordered, QryOrd.C178_ordered_case, QryOrd.C179_ordered, QryTable.C177_liquid, QryTable.C177_solution, QryTable.C178_liquid, QryTable.C178_solution, QryTable.C179_liquid, QryTable.C179_solution, RedoxProps.C118_more_oxidised, RedoxProps.C75_iron, RedoxProps.C75_other_oxides, RedoxProps.C75_ratio, RedoxProps.C75_witness, RedoxProps.C76_idempotent, RedoxProps.C76_monotone, RedoxProps.C76_own_fO2, RedoxProps.C76_round_trip, RedoxProps.C77_d2m, RedoxProps.C77_d2mt, RedoxProps.C77_d2p2, RedoxProps.C77_d2t2, RedoxProps.C77_d2tp, RedoxProps.C77_dm, RedoxProps.C77_dp, RedoxProps.C77_dt, RedoxProps.C77_no_jump, RedoxProps.C77_on_buffer, RedoxProps.C77_same_fO2, RedoxProps.C77_witness, RedoxProps.C78_more_oxidised_partial, RedoxProps.C78_no_ferric, RedoxProps.C78_refuted, SolnProps.C14_activities, SolnProps.C14_gmix, SolnProps.C14_smix_hmix_cpmix, SolnProps.C14_vmix, SolnProps.C15_euler, SolnProps.C15_gibbs_duhem, SolnProps.C15_potentials_are_partials, SolnProps.C16_derivatives, SolnProps.C16_derivatives_back, SolnProps.C16_empty, SolnProps.C16_fractions, SolnProps.C16_round_trip, SolnProps.C16_round_trip_back, SolnProps.C16_scale_invariant, StepProps.C80_witness, StepProps.toRedox_moves, SubCase.C171_case, SubCase.C172_refuted, SubCase.C172_without_iron_refuted, SubCase.C173_refuted, SubCase.C174_case, SubProps.C171_oxygen_potential, SubProps.C171_reported, SubProps.C174_buffered, VinetProps.C159_compression, VinetProps.C159_volume, VinetProps.C160_refuted, VisProps.C120_silica, VisProps.C120_water, VisProps.C87_refuted, VisProps.C87_temperature, VisProps.C87_water_partial, VisProps.C87_witness, VisProps.C88_refuted, VisProps.C88_silica_partial, VisProps.C88_witness, WetProps.C140_bracket, WetProps.C140_case, WetProps.C140_meaning, WetProps.C141_flag_missing, WetProps.C141_flag_missing_search, WetProps.C141_flag_true, WetProps.C142_case, WetProps.C142_lost, WetProps.C142_restored
