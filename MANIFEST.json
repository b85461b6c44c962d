{
 "claims": [
  {
   "property": "C01",
   "status": "proved",
   "theorems": [
    "C01_read_freezes_value"
   ],
   "note": "Full protocol of component.hxx over an arbitrary key type; any history."
  },
  {
   "property": "C02",
   "status": "partial",
   "theorems": [
    "C02_domain_read_stable_partial",
    "C02_domain_read_stable_refuted"
   ],
   "note": "Proved for writes other than setBoundary; refuted in general because setBoundary can replace the whole field after a no-boundary read."
  },
  {
   "property": "C03",
   "status": "proved",
   "theorems": [
    "C03_sources_accumulate",
    "C03_order_of_components_is_irrelevant"
   ],
   "note": "setBoundary and set on a fresh or unread entry; see C02/C04 for the exceptions."
  },
  {
   "property": "C04",
   "status": "partial",
   "theorems": [
    "C04_rejected_call_keeps_all_values",
    "C04_presence_answer_stays_true",
    "C04_presence_noboundary_partial",
    "C04_presence_noboundary_refuted"
   ],
   "note": "No-boundary presence query: setBoundary can create a value afterwards (refuted)."
  },
  {
   "property": "C05",
   "status": "proved",
   "theorems": [
    "C05_order_of_calls",
    "C05_finally_sees_final_state"
   ],
   "note": "Components' transforms are run in the order of the list, each on the state left by the one before, and every finally after all transforms, for every number of components."
  },
  {
   "property": "C06",
   "status": "proved",
   "theorems": [
    "C06_components_created_are_those_listed",
    "C06_listed_names_are_unique",
    "C06_requested_components_are_unique",
    "C06_padded_list_round_trip"
   ],
   "note": "Parsing of the components list and of the type lists: every section becomes components in the order written."
  },
  {
   "property": "C07",
   "status": "proved",
   "theorems": [
    "C07_evaluations_are_independent",
    "C07_no_read_marks_at_start"
   ],
   "note": "Each evaluation starts from a state without the previous evaluation's values; proved for every sequence of evaluations."
  },
  {
   "property": "C08",
   "status": "partial",
   "theorems": [
    "C08_accepted_assignments_partial",
    "C08_one_equals_sign_refuted",
    "C08_copies_right_to_left_partial",
    "C08_listed_order_refuted",
    "C08_copy_respects_read_marks_refuted"
   ],
   "note": "Accepted assignments copy right to left; assignments are applied in alphabetical, not listed, order (refuted), and several '=' signs are accepted in corner cases (refuted)."
  },
  {
   "property": "C09",
   "status": "proved",
   "theorems": [
    "C09_collisions_conserve_momentum",
    "C09_collisions_finish"
   ],
   "note": "Whole transform over any number of species; finishing condition also proved."
  },
  {
   "property": "C10",
   "status": "proved",
   "theorems": [
    "C10_collisions_conserve_energy",
    "C10_exchange_without_friction_heating",
    "C10_friction_never_cools",
    "C10_heat_flows_from_hot_to_cold"
   ],
   "note": "Total energy includes v.momentum_source."
  },
  {
   "property": "C11",
   "status": "proved",
   "theorems": [
    "C11_momentum_balance_of_rates",
    "C11_rates_non_negative",
    "C11_frequencies_add_up",
    "C11_each_pair_at_most_once",
    "C11_each_pair_at_least_once"
   ],
   "note": "Electron beams and electron/negative-ion pairs are skipped by the code."
  },
  {
   "property": "C12",
   "status": "partial",
   "theorems": [
    "C12_switches_honoured_partial",
    "C12_no_rate_no_source",
    "C12_ion_neutral_switch_refuted",
    "C12_neutral_neutral_switch_refuted"
   ],
   "note": "ion_neutral is not consulted when the ion sorts before the neutral (refuted); zero-charge species counts as charged (refuted)."
  },
  {
   "property": "C13",
   "status": "proved",
   "theorems": [
    "C13_thermal_force_conserves_momentum",
    "C13_electron_force",
    "C13_ion_forces"
   ],
   "note": "Whole transform over any number of species; the parallel gradients are arbitrary inputs. The force of each pair is also given explicitly."
  },
  {
   "property": "C14",
   "status": "proved",
   "theorems": [
    "C14_particles_and_charge",
    "C14_rate"
   ],
   "note": "Any species names and charges; the cell average is that of C60."
  },
  {
   "property": "C15",
   "status": "partial",
   "theorems": [
    "C15_momentum_and_energy",
    "C15_potential_energy_refuted"
   ],
   "note": "Heavy-species momentum and total energy proved; electron energy proved to be heating*radiation_multiplier minus radiation, which refutes the documented meaning of the radiation multiplier when it is not 1."
  },
  {
   "property": "C16",
   "status": "partial",
   "theorems": [
    "C16_particles_charge_momentum",
    "C16_energy_defect",
    "C16_energy_refuted"
   ],
   "note": "Particles, charge, momentum and thermal energy proved. Total (thermal + kinetic) energy is refuted: the frictional heating is missing; the defect is given exactly."
  },
  {
   "property": "C17",
   "status": "partial",
   "theorems": [
    "C17_momentum_and_energy",
    "C17_particles",
    "C17_isotopes_momentum_and_energy",
    "C17_option_refuted",
    "C17_effective_temperature"
   ],
   "note": "Proved for same and different isotopes including aliasing. The momentum option is refuted: it stops the ions, not the atoms, from gaining momentum."
  },
  {
   "property": "C18",
   "status": "proved",
   "theorems": [
    "C18_charge_exchange",
    "C18_energy_defect"
   ],
   "note": "Charge imbalance is rate times the imbalance of the charges (no check in the code); kinetic energy defect given exactly."
  },
  {
   "property": "C19",
   "status": "proved",
   "theorems": [
    "C19_lookup_is_total",
    "C19_between_surrounding_values",
    "C19_nodes_reproduced",
    "C19_bilinear_data_reproduced",
    "C19_edge_values"
   ],
   "note": "std::lower_bound is modelled by its result on a sorted vector."
  },
  {
   "property": "C20",
   "status": "partial",
   "theorems": [
    "C20_evaluates_the_fit",
    "C20_edge_values",
    "C20_tables_of_the_code",
    "C20_rectangular_refuted"
   ],
   "note": "Proved for square tables, which all tables of the code are; refuted for rectangular ones, whose loop bounds are exchanged."
  },
  {
   "property": "C21",
   "status": "proved",
   "theorems": [
    "C21_divergence_of_face_fluxes",
    "C21_integral_is_end_flux",
    "C21_closed_line",
    "C21_periodic_line",
    "C21_flow_diagnostic",
    "C21_empty_cell_not_drained",
    "C21_C22_uniform_flow"
   ],
   "note": "Over real arithmetic, any limiter, any metric and any number of cells; grid lines along y at fixed x, z."
  },
  {
   "property": "C22",
   "status": "proved",
   "theorems": [
    "C22_divergence_of_face_fluxes",
    "C22_integral_is_end_flux",
    "C22_closed_line",
    "C22_periodic_line"
   ],
   "note": "As C21; the flow diagnostic of Div_par_fvv does not exist in the code."
  },
  {
   "property": "C23",
   "status": "partial",
   "theorems": [
    "C23_limiters_create_no_extrema",
    "C23_second_order_on_linear_profiles",
    "C23_limiters_mirror_symmetric",
    "C23_superbee_as_documented",
    "C23_superbee_refuted",
    "C23_superbee_average_refuted",
    "C23_fromm_linear"
   ],
   "note": "Superbee is refuted: in the operators it reads uninitialised values and in cellAverage it degenerates to first order; the documented formula is proved when its fields are initialised."
  },
  {
   "property": "C24",
   "status": "proved",
   "theorems": [
    "C24_conduction_is_divergence",
    "C24_conduction_conserves",
    "C24_no_flux_through_closed_ends",
    "C24_conduction_constant",
    "C24_conduction_dissipates",
    "C24_conduction_periodic",
    "C24_conduction_flow_diagnostic",
    "C24_index_diffusion_is_divergence",
    "C24_index_diffusion_conserves",
    "C24_index_diffusion_constant",
    "C24_index_diffusion_dissipates"
   ],
   "note": "Both parallel diffusion operators. Dissipation and conservation on closed and periodic lines."
  },
  {
   "property": "C25",
   "status": "partial",
   "theorems": [
    "C25_hyperdiffusion_conserves_partial",
    "C25_hyperdiffusion_conserves_refuted",
    "C25_independent_of_y_index_refuted",
    "C25_integral_general",
    "C25_third_derivative",
    "C25_boundary_third_derivative",
    "C25_boundary_third_derivative_refuted"
   ],
   "note": "Proved on one processor in X; refuted across processors (the boundary test uses j == mesh->xstart and both edge rules apply on interior processor boundaries)."
  },
  {
   "property": "C26",
   "status": "partial",
   "theorems": [
    "C26_sound_speed_across_processors_refuted",
    "C26_conduction_split",
    "C26_any_split_of_Div_par_mod",
    "C26_any_split_of_Div_par_fvv",
    "C26_two_guard_cells_needed"
   ],
   "note": "Any list of processor sizes, at least two guard cells; with one guard cell the operators read outside the arrays."
  },
  {
   "property": "C27",
   "status": "partial",
   "theorems": [
    "C27_divergence_of_face_fluxes",
    "C27_divergence_of_face_fluxes_with_g",
    "C27_integral_is_radial_flux",
    "C27_integral_is_radial_flux_with_g",
    "C27_closed_boundary",
    "C27_closed_boundary_with_g",
    "C27_processors",
    "C27_divergence_of_flow",
    "C27_divergence_free_partial",
    "C27_divergence_free_refuted",
    "C27_poloidal_x",
    "C27_poloidal_y",
    "C27_poloidal_outflow"
   ],
   "note": "Both X-Z operators: divergence of face fluxes in every cell, integral, closed boundary, any split between processors; poloidal X and Y parts in flux form. The flow is free of divergence for uniform J; for varying J the exact divergence is given and the claim refuted. Not modelled: staggered fields, conversions between field-aligned and orthogonal fields."
  },
  {
   "property": "C28",
   "status": "partial",
   "theorems": [
    "C28_flows_conserve",
    "C28_upwind_conserve",
    "C28_limit_conserves",
    "C28_flow_diagnostics_partial",
    "C28_upwind_flow_diagnostics_partial",
    "C28_top_flow_diagnostic_refuted",
    "C28_constants",
    "C28_versions_agree_partial",
    "C28_versions_agree_refuted",
    "C28_limit_direction_partial",
    "C28_limit_direction_refuted",
    "C28_flows_direction",
    "C28_z_gradient",
    "C28_z_limit"
   ],
   "note": "Integrals for the central, upwind and limited operators for every transform that keeps sums over Z. Flow diagnostics exact below the top row; the flow through the top face is in no element of flow_ylow (refuted). Upwind and limited versions lack J g33 in Z (refuted). Limited version: direction of the field added (refuted). Axisymmetric metric only."
  },
  {
   "property": "C29",
   "status": "partial",
   "theorems": [
    "C29_kinetic_energy_balance",
    "C29_excess_nonnegative",
    "C29_heating_equals_dissipation_refuted",
    "C29_heating_nonnegative_partial",
    "C29_heating_nonnegative_MC_refuted",
    "C29_heating_at_closed_ends",
    "C29_heating_nonnegative_at_ends_refuted",
    "C29_free_boundary_balance_refuted",
    "C29_diagnostic_refuted",
    "C29_kinetic_flow",
    "C29_heating_is_energy"
   ],
   "note": "Exact balance with the excess term proved; equality with dissipation, sign, free-boundary balance and the diagnostic factor 3/0.2 refuted."
  },
  {
   "property": "C30",
   "status": "partial",
   "theorems": [
    "C30_limits_after_update_partial",
    "C30_limits_always_partial",
    "C30_initial_value_refuted",
    "C30_changed_limits_refuted"
   ],
   "note": "Every history of evaluations and restarts. Initial value and limits changed at a restart are not checked (refuted)."
  },
  {
   "property": "C31",
   "status": "partial",
   "theorems": [
    "C31_buffers",
    "C31_size_zero_refuted",
    "C31_negative_size_refuted"
   ],
   "note": "Every history, sizes 1 to 2^31-1. Size 0 erases from an empty vector and negative sizes are unbounded (refuted)."
  },
  {
   "property": "C32",
   "status": "proved",
   "theorems": [
    "C32_least_squares",
    "C32_exact_on_a_line",
    "C32_zero_when_times_coincide"
   ],
   "note": "Lists of any length over the reals."
  },
  {
   "property": "C33",
   "status": "partial",
   "theorems": [
    "C33_on_the_field_line",
    "C33_between_the_cells",
    "C33_no_crossing_refuted",
    "C33_fully_detached_refuted"
   ],
   "note": "Every profile, positive dy. No crossing gives the last cell centre rather than the target, and a fully detached plasma gives the target (refuted)."
  },
  {
   "property": "C34",
   "status": "partial",
   "theorems": [
    "C34_trapezium",
    "C34_repeated_evaluation",
    "C34_positive",
    "C34_back_and_forth_refuted",
    "C34_same_on_all_processors",
    "C34_target_temperature_refuted",
    "C34_density_source_energy"
   ],
   "note": "Every sequence. Back-and-forth evaluation inflates the integral; control_target_temperature on two processors uses an unset multiplier (refuted)."
  },
  {
   "property": "C35",
   "status": "partial",
   "theorems": [
    "C35_detachment_partial",
    "C35_derivative_refuted",
    "C35_fresh_run_refuted",
    "C35_one_pi_controller_partial",
    "C35_two_pi_controllers_refuted"
   ],
   "note": "Detachment controller without derivative term and single PI controllers. Derivative buffers not saved; shared static flag restores only the first PI controller; first-step handling is switched off on fresh runs (refuted)."
  },
  {
   "property": "C36",
   "status": "partial",
   "theorems": [
    "C36_extrapolation_between_zero_and_last_cell",
    "C36_sheath_value_between_zero_and_last_cell",
    "C36_exponential_mode_grows_refuted",
    "C36_exponential_mode_not_negative",
    "C36_linear_mode_negative_refuted"
   ],
   "note": "Range proved for SheathBoundary, SheathBoundaryInsulating and mode 0 of SheathBoundarySimple. Refuted for SheathBoundarySimple's default ExponentialFree (grows outwards) and LinearFree (negative)."
  },
  {
   "property": "C37",
   "status": "partial",
   "theorems": [
    "C37_simple_sheath_no_current_lower",
    "C37_simple_sheath_no_current_upper",
    "C37_simple_sheath_supersonic_ions_refuted",
    "C37_full_sheath_no_current_flat_partial",
    "C37_full_sheath_no_current_pure_partial",
    "C37_full_sheath_glancing_refuted",
    "C37_full_sheath_falling_temperature_refuted"
   ],
   "note": "Simple sheath: any number of ions at both ends, provided the ion charge flux is positive and below electron saturation; refuted above saturation (supersonic ions). SheathBoundary: partial theorems (no gradients, or one singly charged ion with non-falling temperatures); refuted for sin_alpha<1 and for Te falling towards the sheath."
  },
  {
   "property": "C38",
   "status": "partial",
   "theorems": [
    "C38_insulating_no_current_single_charge",
    "C38_insulating_no_current_pure",
    "C38_insulating_ions_at_speed_of_sound",
    "C38_insulating_double_charge_refuted",
    "C38_insulating_two_species_refuted"
   ],
   "note": "Momentum balance for any number of singly charged ions, velocity balance for one species of the electrons' density, ions at the sound speed; refuted for charge 2 and for two species."
  },
  {
   "property": "C39",
   "status": "partial",
   "theorems": [
    "C39_insulating_ion_heat_upper",
    "C39_speed_at_the_sheath",
    "C39_simple_electron_heat",
    "C39_simple_ion_heat",
    "C39_simple_sheath_heats_refuted",
    "C39_full_sheath_never_heats",
    "C39_full_electron_heat",
    "C39_full_ion_heat",
    "C39_insulating_electron_heat_lower",
    "C39_insulating_electron_heat_upper_refuted"
   ],
   "note": "Total heat flux gamma n T v proved for simple sheath electrons and ions, SheathBoundary electrons (unless clamped) and insulating electrons at the lower end; SheathBoundary never heats. Refuted: simple sheath can heat; insulating electrons at the upper end use the wrong velocity."
  },
  {
   "property": "C40",
   "status": "partial",
   "theorems": [
    "C40_simple_sheath_mirrored",
    "C40_full_sheath_mirrored",
    "C40_insulating_sheath_refuted",
    "C40_insulating_ion_speed_refuted"
   ],
   "note": "Proved for simple and full sheaths; refuted for the insulating one (electron energy, ion speed in thin plasma)."
  },
  {
   "property": "C41",
   "status": "partial",
   "theorems": [
    "C41_lower_end",
    "C41_upper_end",
    "C41_no_flux_through_the_end",
    "C41_line_conserved",
    "C41_momentum_by_default_refuted"
   ],
   "note": "Zero flux and zero gradient at enabled ends, conservation of the line for every limiter, proved when the boundary flux is fixed; with fix_momentum_boundary_flux at its default false momentum leaks (refuted)."
  },
  {
   "property": "C42",
   "status": "proved",
   "theorems": [
    "C42_radial_walls",
    "C42_targets",
    "C42_targets_pass_no_neutrals",
    "C42_walls",
    "C42_wall_area",
    "C42_wall_takes_heat_iff",
    "C42_wall_takes_heat"
   ],
   "note": "Energy balance of lines with either end enabled, radial walls, wall area, sign of the heat. The guard cells of radial walls are taken as given."
  },
  {
   "property": "C43",
   "status": "partial",
   "theorems": [
    "C43_radial_walls",
    "C43_pumped_cells",
    "C43_targets",
    "C43_targets_at_most_what_arrives",
    "C43_ions_lost_arrive",
    "C43_dx_varying_refuted",
    "C43_walls",
    "C43_pump",
    "C43_pump_energy_refuted"
   ],
   "note": "Targets for any list of channels, radial walls and pump per channel. Balance with the ions lost needs dx, dz constant along the line (refuted otherwise); a perfect pump returns energy (refuted)."
  },
  {
   "property": "C44",
   "status": "partial",
   "theorems": [
    "C44_channels_partial",
    "C44_same_switches_partial",
    "C44_own_switches_refuted",
    "C44_flags_unset_refuted",
    "C44_own_flow_refuted"
   ],
   "note": "Multipliers and energies are per species; switches are members overwritten by each species (refuted), and the radial flow members are stale for a species without its own flow (refuted)."
  },
  {
   "property": "C45",
   "status": "partial",
   "theorems": [
    "C45_density",
    "C45_pressure",
    "C45_relaxation",
    "C45_energy",
    "C45_energy_with_average_refuted",
    "C45_average_boundary",
    "C45_momentum"
   ],
   "note": "Floors of density, pressure, temperature, momentum for every evolved real value, and the sign of the relaxation term; refuted for EvolveEnergy with neumann_boundary_average_z, where the floor precedes the boundary condition."
  },
  {
   "property": "C46",
   "status": "partial",
   "theorems": [
    "C46_heat_flux_limited",
    "C46_conductivity",
    "C46_cold_plasma_refuted",
    "C46_flux_through_faces_refuted",
    "C46_viscous_stress_limited",
    "C46_vanished_pressure_refuted",
    "C46_guard_cells"
   ],
   "note": "Bound, sign, harmonic mean and collisional limit of the limited heat flux and viscous stress at a cell centre; refuted for the flux through faces, for cold plasma (1e-10 floor) and for the viscosity at zero pressure (0/0)."
  },
  {
   "property": "C47",
   "status": "partial",
   "theorems": [
    "C47_roundtrip",
    "C47_roundtrip_back",
    "C47_boundary_energy",
    "C47_energy_rate",
    "C47_sources_agree_iff",
    "C47_particle_source_refuted",
    "C47_work_at_a_point",
    "C47_work_on_a_line",
    "C47_work_p_div_v"
   ],
   "note": "Round trip both ways, guard cell energy, work terms at a point and integrated over a closed line for both forms; sources agree iff A V^2 Sn = 0, so refuted with a particle source."
  },
  {
   "property": "C48",
   "status": "proved",
   "theorems": [
    "C48_quasineutral"
   ],
   "note": "Any list of species with distinct names; charge neutrality iff the density needed is non-negative."
  },
  {
   "property": "C49",
   "status": "proved",
   "theorems": [
    "C49_zero_current",
    "C49_zero_current_defined"
   ],
   "note": "Any list of species; current zero at or above the density floor, never increased below; when it throws."
  },
  {
   "property": "C50",
   "status": "proved",
   "theorems": [
    "C50_force_balance",
    "C50_nothing_else_changes"
   ],
   "note": "Any list of species; Grad_par(Pe) is an arbitrary input."
  },
  {
   "property": "C51",
   "status": "partial",
   "theorems": [
    "C51_accepted_entries_partial",
    "C51_accepted_lists",
    "C51_one_at_sign_refuted",
    "C51_densities",
    "C51_listed_twice_refuted"
   ],
   "note": "strsplit and trim of BOUT++ are modelled (not in the repository), stringToReal is an arbitrary function; refuted: a second '@' at the end is accepted; a species listed twice."
  },
  {
   "property": "C52",
   "status": "partial",
   "theorems": [
    "C52_sound_speed",
    "C52_default_options",
    "C52_default_options_refuted",
    "C52_thermal_speed",
    "C52_in_the_domain"
   ],
   "note": "Refuted with the default fastest_wave_factor of 0; holds for a factor of at least one inside the domain."
  },
  {
   "property": "C53",
   "status": "partial",
   "theorems": [
    "C53_ambipolar",
    "C53_neutrals",
    "C53_coefficient",
    "C53_conduction_refuted",
    "C53_pressure_of_charged",
    "C53_conduction_with_collisions",
    "C53_conduction_at_zero_refuted"
   ],
   "note": "For every linear operator in place of FV::Div_a_Grad_perp (BOUT++). Refuted: custom_D = 0 calculates D without conduction."
  },
  {
   "property": "C54",
   "status": "proved",
   "theorems": [
    "C54_still_a_metric",
    "C54_lengths_areas_volumes",
    "C54_scale_consistent",
    "C54_curvature"
   ],
   "note": "All components at one arbitrary point, every positive rho_s0 and Bnorm; coord->geometry() (Christoffel symbols, in BOUT++) is not modelled."
  },
  {
   "property": "C55",
   "status": "proved",
   "theorems": [
    "C55_consistent",
    "C55_equals_normalised",
    "C55_volume_sign"
   ],
   "note": "Every point and whole grids for the sign of Bp; the volume is positive exactly if dx*Bp > 0."
  },
  {
   "property": "C56",
   "status": "partial",
   "theorems": [
    "C56_curves_nonnegative",
    "C56_radiation_cools",
    "C56_units",
    "C56_unphysical_zero",
    "C56_unphysical_cell_refuted",
    "C56_no_core",
    "C56_radiated_power",
    "C56_carbon_power"
   ],
   "note": "Every registered curve at every temperature, every fraction and normalisation; refuted: with the cell average a cell whose density is negative may still radiate because its face value is positive."
  },
  {
   "property": "C57",
   "status": "proved",
   "theorems": [
    "C57_scaling",
    "C57_time_scale",
    "C57_steady_states",
    "C57_time_of_conduction"
   ],
   "note": "Any number of cells; the maximum is over all cells of all processors."
  },
  {
   "property": "C58",
   "status": "partial",
   "theorems": [
    "C58_one_step",
    "C58_between",
    "C58_any_steps",
    "C58_bounded",
    "C58_solver_value",
    "C58_core_average",
    "C58_core_average_refuted",
    "C58_between_refuted"
   ],
   "note": "Each update is the exact solution of the relaxation; any sequence of steps depends only on elapsed time while the mean stays; bounded for any times and solutions; the solver is given the face value. Refuted: the core average divides by LocalNy (guard cells included); the old value is read at z=0 only, so for a boundary varying in z the new value need not lie between."
  },
  {
   "property": "C59",
   "status": "partial",
   "theorems": [
    "C59_decay_values",
    "C59_decay_keeps_domain",
    "C59_decay_continues_refuted",
    "C59_decay_negative_dx_refuted",
    "C59_decay_in_y_refuted",
    "C59_average_face"
   ],
   "note": "Values, sign and unchanged domain for every field, grid and length; refuted: the decay stops at the first guard cell, grows for negative dx, and uses the radial cell size at Y boundaries."
  },
  {
   "property": "C60",
   "status": "partial",
   "theorems": [
    "C60_average_within_samples",
    "C60_average_exact_for_linear",
    "C60_average_exact_for_products_of_linear_profiles",
    "C60_average_non_negative",
    "C60_weights_sum_to_one_iff",
    "C60_constants_refuted"
   ],
   "note": "Weights sum to one only if Jm + Jp = 2 J; refuted otherwise."
  },
  {
   "property": "C61",
   "status": "partial",
   "theorems": [
    "C61_diffusion_limits",
    "C61_wall_density_low",
    "C61_wall_density_high",
    "C61_wall_guard_refuted",
    "C61_no_diffusion_through_walls",
    "C61_no_radial_diffusion",
    "C61_particles",
    "C61_momentum",
    "C61_heat",
    "C61_viscous_energy",
    "C61_viscosity_slows",
    "C61_empty_cell",
    "C61_viscosity_mass_refuted",
    "C61_hold",
    "C61_hold_conserves_refuted",
    "C61_sound_speed"
   ],
   "note": "Limits on the diffusion coefficient, wall density, no diffusion through walls (along, across and radially), particle, momentum and heat balance of a line between walls, viscous energy pointwise and its sign, empty cells. Refuted: guard density can be negative; mass enters viscosity twice; holding ddt at zero below the floor creates particles. BOUT++ Div_par, Grad_par enter as arbitrary operators."
  },
  {
   "property": "C62",
   "status": "partial",
   "theorems": [
    "C62_consistent",
    "C62_ampere",
    "C62_ampere_refuted",
    "C62_neutral",
    "C62_keeps",
    "C62_definite",
    "C62_defined"
   ],
   "note": "NV = A max(N,1e-5) V preserved, neutrals unchanged, Ampere's law with corrected momenta above the density floor; below the floor it is refuted. The Laplacian solver is part of BOUT++ and enters as its equation."
  },
  {
   "property": "C63",
   "status": "partial",
   "theorems": [
    "C63_parallel_viscosity",
    "C63_electron_viscosity_refuted",
    "C63_perpendicular_viscosity",
    "C63_perpendicular_pointwise_refuted",
    "C63_stress_limited",
    "C63_total_stress_partial",
    "C63_total_stress_refuted",
    "C63_stress_boundary_partial",
    "C63_stress_boundary_refuted",
    "C63_exb_transfer",
    "C63_exb_transfer_refuted",
    "C63_braginskii_coefficients"
   ],
   "note": "Parallel ion viscosity on a line with stress-free ends (the operator is modelled by Hermes' own Div_par_K_Grad_par_mod, BOUT++'s not being in the repository); refuted: electron viscosity, perpendicular part pointwise, total stress, boundary with one guard cell, integer 1/3."
  },
  {
   "property": "C64",
   "status": "partial",
   "theorems": [
    "C64_momentum_flows",
    "C64_powers",
    "C64_derived_constants",
    "C64_conversion_factors",
    "C64_conversion_factors_refuted",
    "C64_settings_normalised",
    "C64_ampere_coefficient",
    "C64_alfven_speed",
    "C64_cross_section",
    "C64_energy_flow_factors_refuted",
    "C64_momentum_flow_saved_refuted"
   ],
   "note": "Tables of all conversion attributes written by the components checked against dimensions for every positive normalisation; refuted for three entries, the integer quotients 5/2 and 3/2 in neutral_mixed, and a momentum flow name."
  },
  {
   "property": "C65",
   "status": "partial",
   "theorems": [
    "C65_pump",
    "C65_closure_current",
    "C65_closure_sinks",
    "C65_closure_sinks_neutral",
    "C65_closure_heat",
    "C65_neutrals_lost_refuted",
    "C65_closure_heat",
    "C65_closure_current"
   ],
   "note": "Pump and sheath closure; refuted: the closure's sinks remove neutrals."
  },
  {
   "property": "C66",
   "status": "partial",
   "theorems": [
    "C66_perp_index_diffusion_conserves",
    "C66_perp_index_diffusion_constant",
    "C66_closed_radial_boundary_refuted",
    "C66_isotropic_refuted",
    "C66_z_diffusion_conserves",
    "C66_z_diffusion_dissipates",
    "C66_z_hyperdiffusion_conserves",
    "C66_z_hyperdiffusion_dissipates"
   ],
   "note": "Conservation proved; xflux is ignored and X is twice as strong as Z (refuted)."
  },
  {
   "property": "C67",
   "status": "proved",
   "theorems": [
    "C67_laplacian_conserves",
    "C67_laplacian_constant"
   ],
   "note": "dx constant along y and dy constant along x."
  },
  {
   "property": "C68",
   "status": "partial",
   "theorems": [
    "C68_exb_empty_cell",
    "C68_exb_poloidal_refuted",
    "C68_limited_diffusion_radially",
    "C68_limited_diffusion_poloidally_refuted"
   ],
   "note": "X-Z ExB and radial limited diffusion proved (parallel advection: C21_empty_cell_not_drained); refuted for the poloidal ExB part even with positive set, and for the limited diffusion in Y."
  },
  {
   "property": "C69",
   "status": "partial",
   "theorems": [
    "C69_energy_at_targets_partial",
    "C69_inflow_refuted"
   ],
   "note": "Bounds hold for plasma flowing out with at least the re-emission energy; inflowing plasma gives negative neutral energy (refuted)."
  },
  {
   "property": "C70",
   "status": "proved",
   "theorems": [
    "C70_low_density_diffusion"
   ],
   "note": "Coefficient of the diffusion at low density."
  },
  {
   "property": "C71",
   "status": "partial",
   "theorems": [
    "C71_fits_join_low",
    "C71_fits_join_high_partial",
    "C71_xenon_refuted",
    "C71_tungsten_refuted",
    "C71_simplified_straight",
    "C71_simplified_refuted"
   ],
   "note": "Kernel-checked numerical bounds at both ends of each fit (NumericProofs, RadiationFits). 12 of 14 ends agree; refuted: xenon at 1300 eV falls below 1e-43, tungsten at 1500 eV below 1e-198, while the constants used just above are about 1e-31 (coefficients printed with too few digits for the degree); the simplified argon curves jump at 0.52 eV."
  },
  {
   "property": "C72",
   "status": "partial",
   "theorems": [
    "C72_ionisation_conserves",
    "C72_ionisation_rate",
    "C72_ionisation_energy_refuted",
    "C72_ionisation_energy_loss",
    "C72_solkit_conserves",
    "C72_solkit_friction",
    "C72_solkit_energy_refuted",
    "C72_charge_exchange_rate",
    "C72_ionisation_per_particle",
    "C72_solkit_low_density"
   ],
   "note": "All balances at every state; refuted: both components lose kinetic energy which heats nothing. The rate for te <= 0 (log of a non-positive number) is not meaningful in the code."
  },
  {
   "property": "C73",
   "status": "partial",
   "theorems": [
    "C73_zero_current",
    "C73_only_then",
    "C73_deuterium_refuted",
    "C73_face_value"
   ],
   "note": "Holds for hydrogen with Ti = Te and only where Te + Ti = 2 A Te; refuted for deuterium, which the comments name. Face value proved for any Te."
  },
  {
   "property": "C74",
   "status": "partial",
   "theorems": [
    "C74_between",
    "C74_forward",
    "C74_history_refuted"
   ],
   "note": "Between and elapsed-time law for non-decreasing times; refuted when a trial step is evaluated at an earlier time and repeated (last_time moves back)."
  },
  {
   "property": "C75",
   "status": "partial",
   "theorems": [
    "C75_independent",
    "C75_without_walls_refuted"
   ],
   "note": "Proved for lines with walls (any mesh split); refuted where an end of the domain has sheath_ydown/sheath_yup = false."
  },
  {
   "property": "C76",
   "status": "partial",
   "theorems": [
    "C76_untouched",
    "C76_isothermal",
    "C76_current",
    "C76_wall_partial",
    "C76_wall_refuted"
   ],
   "note": "Operators (FV::Div_f_v, Grad) are arguments assumed linear. Selection, isothermal transport and the current of the gradient form are proved; the drift velocity at the sheath face is zero iff guard cell and last cell have the same temperature (refuted in general: T falls towards the sheath)."
  },
  {
   "property": "C77",
   "status": "partial",
   "theorems": [
    "C77_neutral",
    "C77_defined",
    "C77_boussinesq_partial",
    "C77_boussinesq_refuted",
    "C77_non_boussinesq_throws",
    "C77_isothermal"
   ],
   "note": "Proved without the Boussinesq approximation for mass densities above the floor, assuming FV::Div_a_Grad_perp is linear in its coefficient and the Laplacian inverts it. With the (default) Boussinesq approximation the current is scaled by real over assumed mass density: refuted by deuterium at half the reference density. Switching off only boussinesq always throws because diamagnetic_polarisation defaults to true."
  },
  {
   "property": "C78",
   "status": "partial",
   "theorems": [
    "C78_exchange",
    "C78_periodic",
    "C78_wall_current_refuted"
   ],
   "note": "Proved for one coordinate direction with second order central differences (BOUT++'s DDX and Div as used there). Refuted: at a wall the vorticity equation keeps a diamagnetic current which the drift of the species (diamagnetic_drift.cxx) sets to zero, since Vorticity does not change the curvature in the guard cell."
  },
  {
   "property": "C79",
   "status": "partial",
   "theorems": [
    "C79_steady_partial",
    "C79_Pi_hat",
    "C79_steady_refuted",
    "C79_rate",
    "C79_defaults_refuted",
    "C79_heat",
    "C79_heat_refuted",
    "C79_neutral_heat_refuted"
   ],
   "note": "Proved if every charged species with pressure has charge 1 (electrons must not have pressure); refuted with electrons, whose pressure enters with the wrong sign because the charge is left out. The defaults 1 and 10 contradict 'lambda_1 > lambda_2 > 1'; the energy from the polarisation current is 3/2 of that of PolarisationDrift and is also given to species of charge 0."
  },
  {
   "property": "C80",
   "status": "partial",
   "theorems": [
    "C80_friction",
    "C80_empty_refuted",
    "C80_sheath",
    "C80_core"
   ],
   "note": "Proved; without charged particles (or with zero density) the mean is 0/0 (refuted)."
  },
  {
   "property": "C81",
   "status": "partial",
   "theorems": [
    "C81_no_target_flux",
    "C81_uniform_temperature",
    "C81_uniform_velocity",
    "C81_axisymmetric",
    "C81_no_new_maximum_partial",
    "C81_no_new_maximum_refuted",
    "C81_energy_refuted"
   ],
   "note": "Totals, uniform temperature and velocity, and independence of z are proved. No new maximum of T is proved for orthogonal grids (partial) and refuted for field-aligned grids, where Y fluxes carry the mean of T on both sides; energy is refuted: viscous work does not become heat."
  },
  {
   "property": "C82",
   "status": "partial",
   "theorems": [
    "C82_down_pressure",
    "C82_particles_conserved",
    "C82_isobaric",
    "C82_isothermal",
    "C82_uniform_flow",
    "C82_energy",
    "C82_viscosity_partial",
    "C82_viscosity_refuted",
    "C82_viscous_heating_refuted",
    "C82_switch_refuted"
   ],
   "note": "Direction of flow, conservation of particles, isobaric, isothermal and uniform flow cases and the energy balance are proved for all inputs. The viscosity is right for mass 1 only (partial/refuted), there is no viscous heating (refuted), and thermal_conduction=false is ignored because the option name is misspelt (refuted)."
  },
  {
   "property": "C83",
   "status": "proved",
   "theorems": [
    "C83_SI",
    "C83_order",
    "C83_down_density"
   ],
   "note": "Proved for all species lists and normalisations."
  },
  {
   "property": "C84",
   "status": "partial",
   "theorems": [
    "C84_braginskii",
    "C84_downhill_partial",
    "C84_downhill_refuted"
   ],
   "note": "Coefficient proved equal to Braginskii's for all inputs. Heat flows from hot to cold above 1 eV and below 1e25 m^-3 (partial); below 0.01 eV at 1e20 m^-3 it flows from cold to hot because the Coulomb logarithm is negative (refuted)."
  },
  {
   "property": "C85",
   "status": "partial",
   "theorems": [
    "C85_conserves_partial",
    "C85_weighted",
    "C85_conserves_refuted",
    "C85_documented_partial",
    "C85_documented_refuted",
    "C85_momentum_refuted",
    "C85_isothermal_refuted"
   ],
   "note": "Conservation holds for constant pitch (partial; a pitch-weighted integral is conserved in general) and is refuted for varying pitch. The code has D/Theta^2 and, for momentum, AA nu where D/Theta and nu are documented (refuted), and diffuses particles without their energy (refuted)."
  },
  {
   "property": "C86",
   "status": "partial",
   "theorems": [
    "C86_pressure",
    "C86_same_temperature",
    "C86_stays_equal_refuted",
    "C86_momentum",
    "C86_order",
    "C86_together"
   ],
   "note": "Proved at one grid point for the five components; the copy of a temperature by set_temperature does not follow later boundary conditions (C86_stays_equal_refuted)."
  },
  {
   "property": "C87",
   "status": "proved",
   "theorems": [
    "C87_formulas_balance",
    "C87_names_distinct",
    "C87_sources_follow_formula",
    "C87_species_names",
    "C87_all_levels",
    "C87_energies",
    "C87_reverse_heating",
    "C87_shipped_tables"
   ],
   "note": "Proved for the registration tables as transcribed from the headers and the axes and shapes of the shipped json files; the coefficients in those files are arbitrary."
  },
  {
   "property": "C88",
   "status": "partial",
   "theorems": [
    "C88_electron_electron",
    "C88_electron_ion",
    "C88_ion_ion",
    "C88_logarithm_joins",
    "C88_cold_refuted",
    "C88_opposite_charges_refuted",
    "C88_opposite_charges",
    "C88_neutral",
    "C88_electron_neutral",
    "C88_neutral_reciprocal",
    "C88_friction_coefficient"
   ],
   "note": "Refuted: continuity at 0.1 eV (constant logarithm 10 below), and that the logarithm exists between ions of opposite charge. The NRL logarithms are met within the rounding of the constants (0.01 for electrons, 0.1 for ions), which is part of the statements."
  },
  {
   "property": "C89",
   "status": "partial",
   "theorems": [
    "C89_integral_and_crossings",
    "C89_position_form",
    "C89_velocity_form",
    "C89_forms_differ",
    "C89_crossing_through_zero_refuted",
    "C89_density_answer",
    "C89_temperature_answer",
    "C89_on_target"
   ],
   "note": "Refuted: a crossing by way of an error of exactly zero is counted. The two forms of the controller differ by the rectangle against the trapezium rule, as stated. Histories of a fresh run without restart file; restarts are in C35."
  },
  {
   "property": "C90",
   "status": "partial",
   "theorems": [
    "C90_energy_equation",
    "C90_electric_work_refuted",
    "C90_total_momentum",
    "C90_particles_on_a_line",
    "C90_energy_on_a_line"
   ],
   "note": "Refuted: EvolveEnergy leaves out the work of the parallel electric field which EvolveMomentum applies. The values of the operators are derivatives of smooth profiles at the point (no discretisation error), without ExB drift; the closed line uses the discrete operators."
  },
  {
   "property": "C91",
   "status": "proved",
   "theorems": [
    "C91_hydrogen_ionisation_energy",
    "C91_hydrogen_ionisation_cools",
    "C91_hydrogen_ionisation_rises",
    "C91_hydrogen_ionisation_falls",
    "C91_hydrogen_recombination_falls",
    "C91_hydrogen_recombination_density"
   ],
   "note": "All statements hold for all real temperatures and densities (clipped as in the code); positivity of polynomials is decided by a checker proved correct in PolyCheck.v."
  },
  {
   "property": "C92",
   "status": "partial",
   "theorems": [
    "C92_helium_ionisation_energy_partial",
    "C92_helium_ionisation_energy_refuted",
    "C92_helium_ionisation_rises",
    "C92_helium_ionisation_falls",
    "C92_helium_recombination_falls_partial",
    "C92_helium_recombination_cold_refuted",
    "C92_charge_exchange_rises_partial",
    "C92_charge_exchange_cold_refuted",
    "C92_legacy_ionisation_rises",
    "C92_legacy_ionisation_agrees_partial",
    "C92_legacy_ionisation_cold_refuted"
   ],
   "note": "Refuted in cold gas: helium ionisation (energy below the potential at 0.1 eV), helium recombination (collapses at 0.1 eV), charge exchange (rises below 0.06 eV) and the legacy ionisation rate (10^8 times the AMJUEL one at 0.1 eV). The partial theorems give the ranges in which the statements hold."
  },
  {
   "property": "C93",
   "status": "partial",
   "theorems": [
    "C93_there_and_back",
    "C93_lengths",
    "C93_gradients",
    "C93_split_refuted",
    "C93_guard_cells_refuted",
    "C93_inside_is_set",
    "C93_outflow",
    "C93_outflow_temperature_refuted",
    "C93_published",
    "C93_pressure_above_floors",
    "C93_pressure_refuted",
    "C93_cylindrical",
    "C93_energy",
    "C93_target",
    "C93_targets_elsewhere",
    "C93_targets_mirror",
    "C93_target_speed_refuted",
    "C93_sources",
    "C93_no_sources",
    "C93_density_stops",
    "C93_momentum_refuted",
    "C93_momentum_twice"
   ],
   "note": "Refuted parts: the transformation depends on the division among processors (one-sided differences at each processor's ends) and is unset in guard cells between processors; the temperature in an outflow guard cell is that of before the boundary; the published pressure is not density times temperature below a floor; the target loss uses sqrt(T) whatever the mass; momentum of lost particles is counted twice. BOUT++ operators are arbitrary inputs."
  },
  {
   "property": "C94",
   "status": "partial",
   "theorems": [
    "C94_snb",
    "C94_restore_refuted"
   ],
   "note": "Refuted part: dy stays multiplied by rho_s0 if divHeatFlux throws. The heat flux itself belongs to BOUT++ and is an arbitrary function."
  },
  {
   "property": "C95",
   "status": "partial",
   "theorems": [
    "C95_disabled",
    "C95_pressure",
    "C95_well_posed",
    "C95_density_refuted",
    "C95_scale_refuted",
    "C95_log_refuted",
    "C95_log_untouched",
    "C95_energy_untouched",
    "C95_energy_refuted",
    "C95_energy_coefficient_refuted",
    "C95_neutral",
    "C95_neutral_pressure_refuted",
    "C95_linear"
   ],
   "note": "Refuted parts: with varying density or scaling the pressure preconditioner is not an implicit step of conduction; with evolve_log it acts on a time derivative nobody reads; that of evolve_energy acts on ddt(P), not on the evolving energy, and its coefficient lacks 2/3; neutral pressure diffuses with 5/3 Dnn but is preconditioned with Dnn. The solvers belong to BOUT++ and enter as arbitrary functions or through the equation they solve."
  },
  {
   "property": "C96",
   "status": "partial",
   "theorems": [
    "C96_potential",
    "C96_outer_cells",
    "C96_reduction",
    "C96_scales",
    "C96_defined",
    "C96_currents",
    "C96_currents_order",
    "C96_conserves",
    "C96_hyper_z",
    "C96_vort_dissipation",
    "C96_phi_dissipation",
    "C96_sheath_partial",
    "C96_sheath_refuted",
    "C96_sheath_energy_partial",
    "C96_sheath_energy_refuted",
    "C96_relax_partial",
    "C96_relax_refuted"
   ],
   "note": "Refuted parts: with one cell between two targets the upper sheath term overwrites the lower; the sheath term adds energy where the potential changes sign between the last cell and the target; the charge is missing in the ion pressure term of relax_potential. Operators of BOUT++ are arbitrary or linear arguments."
  },
  {
   "property": "C97",
   "status": "partial",
   "theorems": [
    "C97_monotone",
    "C97_inwards",
    "C97_linear",
    "C97_cubic",
    "C97_shared_face",
    "C97_mirror",
    "C97_negate",
    "C97_shift",
    "C97_scale_partial",
    "C97_scale_refuted",
    "C97_positive_refuted"
   ],
   "note": "Refuted parts: the threshold 1e-10 for second derivatives is an absolute number, so at extrema the result depends on the units; data which are nowhere negative may get a negative face value. XPPM is not selected as the code stands."
  },
  {
   "property": "C98",
   "status": "partial",
   "theorems": [
    "C98_metric_throws",
    "C98_metric_choice",
    "C98_core",
    "C98_core_exact",
    "C98_density",
    "C98_pressure",
    "C98_energy_partial",
    "C98_neutral_partial",
    "C98_throws",
    "C98_same_heating",
    "C98_energy_time_refuted",
    "C98_neutral_refuted",
    "C98_mesh_name_refuted",
    "C98_log_start",
    "C98_log_defined",
    "C98_log_restart",
    "C98_log_default_refuted",
    "C98_floors"
   ],
   "note": "Refuted parts: evolve_energy ignores source_time_dependent although the manual promises it for any source; neutral_mixed ignores it and source_only_in_core as well; the manual names the field in the grid file S<name>_src while N<name>_src is read; with evolve_log and no profile the logarithm starts at minus infinity. Expressions of the input file are taken as evaluated."
  },
  {
   "property": "C99",
   "status": "partial",
   "theorems": [
    "C99_binary64",
    "C99_unit",
    "C99_exact",
    "C99_exact_edges",
    "C99_faces_positive",
    "C99_faces_empty",
    "C99_faces_const",
    "C99_faces_near_partial",
    "C99_extremum_refuted",
    "C99_transport_partial",
    "C99_transport_refuted",
    "C99_sources",
    "C99_order_partial",
    "C99_two_sources",
    "C99_order_refuted",
    "C99_exchange"
   ],
   "note": "Refuted parts, each by concrete doubles: a face value of MC may lie below both neighbouring cells; transport may take from an empty cell if the wave speed equals the flow speed; three sources added in another order give another result. Not covered: overflow, signed zero, fused multiply-add."
  },
  {
   "property": "C100",
   "status": "partial",
   "theorems": [
    "C100_reactions",
    "C100_line",
    "C100_recycled_partial",
    "C100_inflow_refuted"
   ],
   "note": "Refuted part: ions flowing in through a target are not taken from the neutrals (recycling sees only outflow), so nuclei come out of the wall; and dx varying at the end (C43). setBoundaryTo is BOUT++'s, modelled from its documented behaviour (half-way value)."
  },
  {
   "property": "C101",
   "status": "partial",
   "theorems": [
    "C101_momentum",
    "C101_energy_partial",
    "C101_thermal_force_refuted",
    "C101_energy_equation",
    "C101_energy_equation_refuted"
   ],
   "note": "Refuted parts: the thermal force does work on the relative velocity which no energy source balances; EvolveEnergy adds S_E + V S_NV but not - A V^2/2 S_N, so that ionisation of slow atoms among fast ions makes energy. OpenADAS leaves out the heating by velocity differences (C16, C18)."
  },
  {
   "property": "C102",
   "status": "partial",
   "theorems": [
    "C102_shipped",
    "C102_set_once_partial",
    "C102_set_once_refuted",
    "C102_overlooked_partial",
    "C102_overlooked_refuted"
   ],
   "note": "Refuted parts: examples/stellarator-2pt-model lists zero_current and evolve_momentum for the electrons, so that the velocity of zero current is silently replaced; in two inputs noflow_boundary comes before the component which gives the ions their temperature. Mesh and grid files are not modelled."
  },
  {
   "property": "C103",
   "status": "partial",
   "theorems": [
    "C103_record",
    "C103_effects",
    "C103_finally",
    "C103_provided",
    "C103_pressure_needs_density",
    "C103_electromagnetic_partial",
    "C103_electromagnetic_refuted"
   ],
   "note": "Refuted part: electromagnetic queries the charge of a const section and throws for any species which has none. Needs are listed for the types with unconditional reads; conditional reads are covered by the record only."
  },
  {
   "property": "C104",
   "status": "partial",
   "theorems": [
    "C104_finally",
    "C104_no_write_partial",
    "C104_final_read_partial",
    "C104_final_read_refuted",
    "C104_silent_order_refuted",
    "C104_species_order",
    "C104_species_exchanged"
   ],
   "note": "Refuted parts: the transform component copies over entries read as final; quasineutral listed before an ion omits it without a word. Exchange of components is shown for the types which use their own species only."
  },
  {
   "property": "C105",
   "status": "partial",
   "theorems": [
    "C105_looks",
    "C105_always",
    "C105_order_partial",
    "C105_sheath_last"
   ],
   "note": "The tables are those of AccessReadSpec.v. Inputs with the transform component and the plain assignment of scale_timederivs are left out in the theorem about order."
  },
  {
   "property": "C106",
   "status": "partial",
   "theorems": [
    "C106_nothing_left_out",
    "C106_sources"
   ],
   "note": "The conditional acts listed in AccessActsSpec.v; pairs of species (ion-ion thermal force, friction between two ions) are not listed, nor the acts of recycling and of reactions."
  },
  {
   "property": "C107",
   "status": "partial",
   "theorems": [
    "C107_asked_before_read",
    "C107_momentum_flow_refuted"
   ],
   "note": "For the optional entries listed per type in AccessAskedSpec.v. Entries which a type also reads without asking in some branch (e.g. the pressure in evolve_momentum, temperatures in collisions) are not in the table, nor are reactions."
  },
  {
   "property": "C108",
   "status": "proved",
   "theorems": [
    "C108_defaults",
    "C108_required"
   ],
   "note": "For every option which the model of the components reads with a default, and every one it reads without; options which only enter numbers (coefficients, rates) are not part of this model."
  }
 ]
}