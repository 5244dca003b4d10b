{
 "claims": [
  {
   "property": "C01",
   "status": "proved",
   "theorems": [
    "C01_limited_powerset_exact"
   ],
   "note": ""
  },
  {
   "property": "C02",
   "status": "proved",
   "theorems": [
    "C02_grouper_lossless"
   ],
   "note": ""
  },
  {
   "property": "C03",
   "status": "proved",
   "theorems": [
    "C03_to_iterator_exact"
   ],
   "note": "ray.wait is an arbitrary schedule that finishes one pending task per call"
  },
  {
   "property": "C04",
   "status": "proved",
   "theorems": [
    "C04_pareto_exact"
   ],
   "note": ""
  },
  {
   "property": "C05",
   "status": "partial",
   "theorems": [
    "C05_front_minimize_partial",
    "C05_front_maximize_partial",
    "C05_front_maximize_refuted"
   ],
   "note": "the code violates the property: with maximize the first cost column is not negated; proved for minimize, and what maximize really computes"
  },
  {
   "property": "C06",
   "status": "proved",
   "theorems": [
    "C06_weighted_sum_lookup",
    "C06_softplus_value",
    "C06_softplus_monotone"
   ],
   "note": "over the reals (stdlib axioms of the reals)"
  },
  {
   "property": "C07",
   "status": "proved",
   "theorems": [
    "C07_balance_sound",
    "C07_balance_complete"
   ],
   "note": "for every function in place of the pseudo-inverse and the rank routine; a single species raises TypeError and is outside the second theorem"
  },
  {
   "property": "C08",
   "status": "partial",
   "theorems": [
    "C08_found_partial",
    "C08_unbalanceable_refuted",
    "C08_always_flagged_balanced"
   ],
   "note": "the code violates the property: the zero reaction is constructed without balanced=False, so the recomputed flag is True, for every unbalanceable input"
  },
  {
   "property": "C09",
   "status": "partial",
   "theorems": [
    "C09_flag_iff_partial",
    "C09_repeated_refuted"
   ],
   "note": "the code violates the property for repeated compositions (collapsed by a dict); proved for distinct compositions"
  },
  {
   "property": "C10",
   "status": "partial",
   "theorems": [
    "C10_normalize_to_partial",
    "C10_normalize_to_element_partial",
    "C10_el_amount",
    "C10_missing_composition",
    "C10_stays_balanced_partial",
    "C10_errors_partial",
    "C10_errors_refuted",
    "C10_flag_refuted",
    "C10_open_energy_refuted"
   ],
   "note": "the code violates the property for open reactions (normalising returns a closed reaction with another energy), for the balanced flag near its tolerance and for the number of errors of a BasicReaction, which is set to 0; proved for the rest"
  },
  {
   "property": "C11",
   "status": "proved",
   "theorems": [
    "C11_reverse",
    "C11_copy"
   ],
   "note": ""
  },
  {
   "property": "C12",
   "status": "proved",
   "theorems": [
    "C12_energy_sum",
    "C12_cell_size",
    "C12_scaling"
   ],
   "note": "energy_uncertainty is C102"
  },
  {
   "property": "C13",
   "status": "partial",
   "theorems": [
    "C13_proportional_partial",
    "C13_same_sides_partial",
    "C13_energies",
    "C13_exchanged_refuted"
   ],
   "note": "the code violates the property: coefficients are compared sorted, so two balanced reactions with exchanged coefficients are equal; proved for reactions that are multiples of each other"
  },
  {
   "property": "C14",
   "status": "partial",
   "theorems": [
    "C14_equivalence_partial",
    "C14_symmetry_refuted",
    "C14_transitivity_refuted",
    "C14_hash_refuted",
    "C14_raises_refuted"
   ],
   "note": "the code violates the property near the tolerance and with zero coefficients; proved for every class of reactions without coefficients that are close but different"
  },
  {
   "property": "C15",
   "status": "partial",
   "theorems": [
    "C15_fractions",
    "C15_open_reactants_partial",
    "C15_open_products_refuted"
   ],
   "note": "the code violates the property for the products of open reactions (the coefficient is missing); proved for closed reactions and for the reactants of open ones"
  },
  {
   "property": "C16",
   "status": "partial",
   "theorems": [
    "C16_open_energy",
    "C16_from_closed",
    "C16_operations_partial",
    "C16_normalize_refuted"
   ],
   "note": "the code violates the property for normalize_to, which returns a closed reaction; proved for the energy and the other operations"
  },
  {
   "property": "C17",
   "status": "proved",
   "theorems": [
    "C17_round_trip"
   ],
   "note": "for reactions that are all closed or all open with one chemical potential; see C68 for mixed ones"
  },
  {
   "property": "C18",
   "status": "proved",
   "theorems": [
    "C18_add_set",
    "C18_add_rxns"
   ],
   "note": "add_rxns assumes that re-sorting the set's entries returns the same list"
  },
  {
   "property": "C19",
   "status": "partial",
   "theorems": [
    "C19_by_reactants_partial",
    "C19_zero_coefficient_refuted"
   ],
   "note": "the code violates the property for species with coefficient zero; proved otherwise"
  },
  {
   "property": "C20",
   "status": "partial",
   "theorems": [
    "C20_by_product_partial",
    "C20_first_entry_refuted",
    "C20_polymorph_refuted",
    "C20_zero_coefficient_refuted"
   ],
   "note": "the code violates the property when the product is the first entry, has polymorphs, or a zero coefficient; proved otherwise"
  },
  {
   "property": "C21",
   "status": "partial",
   "theorems": [
    "C21_families_partial",
    "C21_tolerance_refuted",
    "C21_zero_coefficient_refuted"
   ],
   "note": "the code violates the property when the tolerance chains rows together and raises IndexError on zero coefficients; proved for plain reactions the tolerance does not confuse"
  },
  {
   "property": "C22",
   "status": "partial",
   "theorems": [
    "C22_schedule_partial",
    "C22_one_cpu_refuted"
   ],
   "note": "the code violates the property on a one-CPU cluster (ZeroDivisionError); proved for two or more CPUs and every schedule"
  },
  {
   "property": "C23",
   "status": "partial",
   "theorems": [
    "C23_ensured_kept",
    "C23_families",
    "C23_missing_partial",
    "C23_missing_size_refuted"
   ],
   "note": "the code violates the property: a reaction of a size the set does not have raises KeyError; everything else is proved"
  },
  {
   "property": "C24",
   "status": "proved",
   "theorems": [
    "C24_count_is_number_of_trees",
    "C24_count_recurrence"
   ],
   "note": "count(n) is the number of binary decomposition trees with n interior vertices, and satisfies the Catalan recurrence, for every n"
  },
  {
   "property": "C25",
   "status": "partial",
   "theorems": [
    "C25_fast_is_tree_sum",
    "C25_recursive_agrees_partial",
    "C25_recursive_refuted"
   ],
   "note": "the code violates the property when a reactant decomposes (the recursive search stops at the decomposed end point); the closed formula is proved for every list of points and agreement with the recursion for hulls with stable reactants, away from the isclose tolerance"
  },
  {
   "property": "C26",
   "status": "partial",
   "theorems": [
    "C26_algorithms_agree_partial",
    "C26_endpoint_refuted",
    "C26_decomposing_reactant_refuted"
   ],
   "note": "the code violates the property at end point reactions with normalize=False and for decomposing reactants; agreement proved elsewhere, away from the isclose tolerance"
  },
  {
   "property": "C27",
   "status": "partial",
   "theorems": [
    "C27_reactions_by_coordinate",
    "C27_hull_energy_is_envelope_partial",
    "C27_energy_above_hull_partial",
    "C27_tolerance_refuted"
   ],
   "note": "the code violates the property for two vertices closer than the isclose tolerance; proved for every other coordinate, given a correct qhull result"
  },
  {
   "property": "C28",
   "status": "proved",
   "theorems": [
    "C28_primary_competition"
   ],
   "note": "given the stored coordinates sorted by x, as the constructor leaves them"
  },
  {
   "property": "C29",
   "status": "partial",
   "theorems": [
    "C29_convex_list_signs",
    "C29_competition_nonneg_partial",
    "C29_range_heights_defined",
    "C29_tolerance_refuted"
   ],
   "note": "the code violates the property for a reaction within the isclose tolerance of a different vertex of the hull; signs proved for every convex list of points and for every other hull coordinate"
  },
  {
   "property": "C30",
   "status": "partial",
   "theorems": [
    "C30_jobs_partial",
    "C30_diagrams",
    "C30_job_limit_refuted"
   ],
   "note": "the code violates the job limit: a trailing empty job is added when the pairs fill the jobs exactly and a system without pairs follows; everything else is proved, and the limit in all other cases"
  },
  {
   "property": "C31",
   "status": "proved",
   "theorems": [
    "C31_complete",
    "C31_complete_any_balance",
    "C31_any_flags"
   ],
   "note": "C31_complete and C31_complete_any_balance are for remove_changed=True (the default); C31_any_flags holds for every setting. The preparation of the entries is C91"
  },
  {
   "property": "C32",
   "status": "proved",
   "theorems": [
    "C32_partition"
   ],
   "note": ""
  },
  {
   "property": "C33",
   "status": "proved",
   "theorems": [
    "C33_expand_pd"
   ],
   "note": ""
  },
  {
   "property": "C34",
   "status": "proved",
   "theorems": [
    "C34_build"
   ],
   "note": ""
  },
  {
   "property": "C35",
   "status": "partial",
   "theorems": [
    "C35_history_partial",
    "C35_setters",
    "C35_stale_refuted",
    "C35_empty_refuted"
   ],
   "note": "the code violates the property: loop-back edges of earlier precursors stay, and an empty precursor set leaves its node; proved: everything else is as after the last calls, each stale edge comes from an earlier precursor set, none when all precursor sets have the same members"
  },
  {
   "property": "C36",
   "status": "proved",
   "theorems": [
    "C36_paths",
    "C36_find_pathways",
    "C36_routes"
   ],
   "note": "the shortest-path routine is an argument with the assumption that it returns a cheapest path when there is one"
  },
  {
   "property": "C37",
   "status": "partial",
   "theorems": [
    "C37_levelled_partial",
    "C37_one_step_partial",
    "C37_first_partial",
    "C37_queue",
    "C37_missed_refuted",
    "C37_loops_refuted",
    "C37_unsorted_refuted"
   ],
   "note": "the code violates the property: paths are missed, have loops, and are out of order; proved for graphs in which every node has one distance (in steps) from the start, so for networks without a second step; the first pathway is never more expensive than any route"
  },
  {
   "property": "C38",
   "status": "partial",
   "theorems": [
    "C38_costs_partial",
    "C38_missing",
    "C38_parallel_refuted"
   ],
   "note": "the code violates the property when two reactions have the same reactants and products: the last one added is reported, not the one the search used; proved otherwise"
  },
  {
   "property": "C39",
   "status": "proved",
   "theorems": [
    "C39_graph",
    "C39_network"
   ],
   "note": "nodes and edges are assumed to be read back from their own dictionaries as equal objects; the order of edge_list is arbitrary"
  },
  {
   "property": "C40",
   "status": "partial",
   "theorems": [
    "C40_round_trip_partial",
    "C40_half_open_refuted"
   ],
   "note": "the code violates the property for pathways with closed and open reactions together: from_paths raises ValueError; proved for reactions with one common chemical potential or none. The balanced flag is C75"
  },
  {
   "property": "C41",
   "status": "partial",
   "theorems": [
    "C41_equal_partial",
    "C41_equivalence_partial",
    "C41_costs",
    "C41_classes",
    "C41_prefix_refuted",
    "C41_transitive_refuted",
    "C41_symmetric_refuted",
    "C41_raises_refuted"
   ],
   "note": "the code violates the property: zip stops at the shorter pathway; proved for pathways with the same number of reactions and costs, and for different numbers of costs what the comparison gives"
  },
  {
   "property": "C42",
   "status": "proved",
   "theorems": [
    "C42_species"
   ],
   "note": ""
  },
  {
   "property": "C43",
   "status": "proved",
   "theorems": [
    "C43_average",
    "C43_total"
   ],
   "note": "for positive multiplicities, one per cost"
  },
  {
   "property": "C44",
   "status": "partial",
   "theorems": [
    "C44_circular_partial",
    "C44_never_missed_partial",
    "C44_recycled_refuted"
   ],
   "note": "the code violates the property: pathways whose intermediate is also made directly from the precursors are reported; proved: exactly the circular combinations are reported and no interdependent pathway is missed"
  },
  {
   "property": "C45",
   "status": "proved",
   "theorems": [
    "C45_kernel",
    "C45_balanced",
    "C45_own_sum",
    "C45_costs"
   ],
   "note": "the pseudo-inverse is an arbitrary function that returns one number per row and does not raise"
  },
  {
   "property": "C46",
   "status": "proved",
   "theorems": [
    "C46_once",
    "C46_complete",
    "C46_finds",
    "C46_jobs"
   ],
   "note": "for max_num_combos up to the number of candidates; beyond it the solver raises, see C47"
  },
  {
   "property": "C47",
   "status": "partial",
   "theorems": [
    "C47_returns_partial",
    "C47_needs_partial",
    "C47_fewer_refuted",
    "C47_untouched_refuted",
    "C47_none_refuted",
    "C47_one_cpu_refuted"
   ],
   "note": "the code violates the property: it raises when there are fewer candidates than max_num_combos, when no combination contains all phases of the net reaction, when there is no candidate, and with one CPU; proved: it returns when none of these holds, and an empty list if nothing balances"
  },
  {
   "property": "C48",
   "status": "partial",
   "theorems": [
    "C48_kept_partial",
    "C48_grand_refuted"
   ],
   "note": "the code violates the property: the set returned by the last add_rxn_set is dropped; proved for the other enumerators"
  },
  {
   "property": "C49",
   "status": "proved",
   "theorems": [
    "C49_never_stale",
    "C49_like_fresh",
    "C49_members"
   ],
   "note": "a view that depends on the iteration order (entries_list with equal compositions, ties in min_entries_by_formula) is the one of the present order"
  },
  {
   "property": "C50",
   "status": "partial",
   "theorems": [
    "C50_indices_partial",
    "C50_add_refuted",
    "C50_discard_refuted",
    "C50_shared_refuted"
   ],
   "note": "the code violates the property: indices are not rebuilt when the set changes, and indexing a subset changes those of the set; proved directly after build_indices"
  },
  {
   "property": "C51",
   "status": "proved",
   "theorems": [
    "C51_ground_states",
    "C51_polymorphs",
    "C51_filter_by_stability"
   ],
   "note": ""
  },
  {
   "property": "C52",
   "status": "proved",
   "theorems": [
    "C52_min_entry"
   ],
   "note": ""
  },
  {
   "property": "C53",
   "status": "partial",
   "theorems": [
    "C53_stabilized_partial",
    "C53_interpolated",
    "C53_stale_data_refuted",
    "C53_twice_refuted",
    "C53_stabilize_entries_refuted",
    "C53_stabilize_entries_wrong_sign"
   ],
   "note": "the code violates the property: a stored energy above hull is used though the hull has changed, also the one of an entry that was stabilised already; stabilize_entries adds the energy above hull or raises AttributeError; proved when the energy above hull is the present one"
  },
  {
   "property": "C54",
   "status": "partial",
   "theorems": [
    "C54_computed_partial",
    "C54_computed_compose_partial",
    "C54_experimental_partial",
    "C54_experimental_compose_partial",
    "C54_co2_refuted",
    "C54_co2_error",
    "C54_constant_refuted",
    "C54_constant_always"
   ],
   "note": "the code violates the property: the atmospheric correction of a computed entry keeps the old temperature, and an experimental entry with a constant correction raises TypeError; proved for all other corrections"
  },
  {
   "property": "C55",
   "status": "partial",
   "theorems": [
    "C55_outside",
    "C55_inside_partial",
    "C55_grid",
    "C55_between",
    "C55_float_refuted",
    "C55_float_always"
   ],
   "note": "the code violates the property: a compound at a float temperature that is a multiple of 100 raises KeyError; proved for every other temperature"
  },
  {
   "property": "C56",
   "status": "partial",
   "theorems": [
    "C56_outside",
    "C56_hash_partial",
    "C56_symmetric",
    "C56_equal",
    "C56_extensive_refuted",
    "C56_hash_refuted"
   ],
   "note": "the code violates the property: the energy is that of one formula unit for every multiple, and equal entries with other multiples or an int and a float temperature hash differently"
  },
  {
   "property": "C57",
   "status": "partial",
   "theorems": [
    "C57_reflexive",
    "C57_hash_partial",
    "C57_symmetric_refuted",
    "C57_hash_refuted",
    "C57_same_id_refuted"
   ],
   "note": "the code violates the property: closeness is not symmetric and close energies hash differently; proved when close values are equal and ids determine compositions"
  },
  {
   "property": "C58",
   "status": "partial",
   "theorems": [
    "C58_sources_partial",
    "C58_sources_refuted"
   ],
   "note": "the code violates the property when both sources are requested and only NIST has the formula: computed entries are kept beside the experimental one; proved otherwise"
  },
  {
   "property": "C59",
   "status": "partial",
   "theorems": [
    "C59_jitter_partial",
    "C59_elements_refuted"
   ],
   "note": "the code violates the property: elements are dropped; proved for compounds"
  },
  {
   "property": "C60",
   "status": "proved",
   "theorems": [
    "C60_subset"
   ],
   "note": ""
  },
  {
   "property": "C61",
   "status": "proved",
   "theorems": [
    "C61_queries",
    "C61_group_size",
    "C61_entries"
   ],
   "note": ""
  },
  {
   "property": "C62",
   "status": "partial",
   "theorems": [
    "C62_once_partial",
    "C62_single",
    "C62_memory_refuted"
   ],
   "note": "the code violates the property (ZeroDivisionError) when the memory is below that of one task and the CPUs do not fit; single-precursor scores hold up to the tolerance of isclose (1e-8)"
  },
  {
   "property": "C63",
   "status": "partial",
   "theorems": [
    "C63_isolated_partial",
    "C63_decorate",
    "C63_shared_refuted"
   ],
   "note": "the code violates the property: copy, reverse and normalize_to share a non-empty data dictionary; proved for empty data, for the operations that do not pass data, and for decorate"
  },
  {
   "property": "C64",
   "status": "partial",
   "theorems": [
    "C64_separable_partial",
    "C64_missing_target",
    "C64_gas_refuted",
    "C64_reactant_target_refuted"
   ],
   "note": "the code violates the property: the gas check compares compositions with strings, and a target on the reactant side raises KeyError; proved for targets on the product side without the gas exception"
  },
  {
   "property": "C65",
   "status": "proved",
   "theorems": [
    "C65_value",
    "C65_invariant"
   ],
   "note": ""
  },
  {
   "property": "C66",
   "status": "partial",
   "theorems": [
    "C66_union_partial",
    "C66_open_reactions_refuted"
   ],
   "note": "the code violates the property when a closed set comes before an open one: the open reactions become closed; proved for sets with the same open element and chemical potential"
  },
  {
   "property": "C67",
   "status": "partial",
   "theorems": [
    "C67_length_partial",
    "C67_without_data_refuted"
   ],
   "note": "the code violates the property for sets built without all_data; proved for sets with data"
  },
  {
   "property": "C68",
   "status": "partial",
   "theorems": [
    "C68_set_chempot",
    "C68_different_chempots_refuted",
    "C68_one_closed_refuted"
   ],
   "note": "the code violates the property: mixed chemical potentials silently close every reaction; set_chempot is proved correct"
  },
  {
   "property": "C69",
   "status": "partial",
   "theorems": [
    "C69_temperature_partial",
    "C69_polymorph_refuted"
   ],
   "note": "the code violates the property for sets with polymorphs; proved for distinct compositions"
  },
  {
   "property": "C70",
   "status": "partial",
   "theorems": [
    "C70_open_complete_partial",
    "C70_any_flags_partial",
    "C70_both_sides_refuted",
    "C70_no_open_phase_refuted"
   ],
   "note": "the code violates the documented 'any number of open phases': reactions with open phases on both sides or on none are never found; the open enumerator is proved complete and sound for open phases on exactly one side"
  },
  {
   "property": "C71",
   "status": "partial",
   "theorems": [
    "C71_reload_partial",
    "C71_reload_refuted"
   ],
   "note": "the code violates the property: the deserialised network adds its loop-back edges a second time when the same precursors are set; proved up to such left-over edges"
  },
  {
   "property": "C72",
   "status": "partial",
   "theorems": [
    "C72_rebuild_refuted",
    "C72_rebuild_target_refuted"
   ],
   "note": "the code violates the property for every network with precursors: set_precursors after a second build() either does nothing or raises ValueError"
  },
  {
   "property": "C73",
   "status": "partial",
   "theorems": [
    "C73_hash_partial",
    "C73_multiplicities_refuted"
   ],
   "note": "the code violates the property: multiplicities are hashed and not compared; proved for equal multiplicities and equally long pathways"
  },
  {
   "property": "C74",
   "status": "partial",
   "theorems": [
    "C74_unit_energy_partial",
    "C74_net_energy",
    "C74_multiplicity_refuted",
    "C74_per_atom",
    "C74_per_atom_refuted"
   ],
   "note": "the code violates the property: multiplicities are ignored; proved when every multiplicity is one, and the energy of the net reaction is the weighted sum"
  },
  {
   "property": "C75",
   "status": "partial",
   "theorems": [
    "C75_flag_refuted"
   ],
   "note": "the code violates the property: the flag of a balanced pathway is lost"
  },
  {
   "property": "C76",
   "status": "partial",
   "theorems": [
    "C76_vector_partial",
    "C76_comp_matrix_refuted"
   ],
   "note": "the code violates the property for every pathway with a phase: AttributeError"
  },
  {
   "property": "C77",
   "status": "partial",
   "theorems": [
    "C77_collected_partial",
    "C77_intermediates",
    "C77_no_costs_refuted"
   ],
   "note": "the code violates the property for pathways without costs: their reactions are dropped; proved for pathways with one cost per reaction and for intermediate reactions"
  },
  {
   "property": "C78",
   "status": "proved",
   "theorems": [
    "C78_tabulated",
    "C78_between"
   ],
   "note": ""
  },
  {
   "property": "C79",
   "status": "proved",
   "theorems": [
    "C79_extensive"
   ],
   "note": "for entries without further corrections"
  },
  {
   "property": "C80",
   "status": "partial",
   "theorems": [
    "C80_same_temperature",
    "C80_initialize",
    "C80_other_temperature_partial",
    "C80_dropped_refuted"
   ],
   "note": "the code violates the property when the entry of a wanted formula has no data at the second temperature: it is dropped; proved otherwise"
  },
  {
   "property": "C81",
   "status": "partial",
   "theorems": [
    "C81_new_temperature_partial",
    "C81_raises_refuted"
   ],
   "note": "the code violates the property: an experimental entry with a constant adjustment makes it raise TypeError; proved when entries only fail with ValueError"
  },
  {
   "property": "C82",
   "status": "partial",
   "theorems": [
    "C82_split_partial",
    "C82_option_refuted"
   ],
   "note": "the code violates the property: calculate_e_above_hulls is lost for ten or more elements; the entries are proved to be the same"
  },
  {
   "property": "C83",
   "status": "proved",
   "theorems": [
    "C83_carbonate",
    "C83_carbonate_extensive",
    "C83_value"
   ],
   "note": ""
  },
  {
   "property": "C84",
   "status": "partial",
   "theorems": [
    "C84_same_choice_partial",
    "C84_both_refuted"
   ],
   "note": "the code violates the property for a document with both entries: get_entries with use_premade_entries takes the GGA entry, get_entries_from_entry_db the GGA+U entry"
  },
  {
   "property": "C85",
   "status": "partial",
   "theorems": [
    "C85_closed_partial",
    "C85_open_partial",
    "C85_three_refuted",
    "C85_one_refuted"
   ],
   "note": "the code violates the property: with an open formula three precursors are accepted and only two are used; one precursor with the open formula is treated as two precursors"
  },
  {
   "property": "C86",
   "status": "partial",
   "theorems": [
    "C86_competing_partial",
    "C86_open_refuted"
   ],
   "note": "the code violates the property when no target reaction consumes the open formula: competing reactions that consume it are dropped"
  },
  {
   "property": "C87",
   "status": "partial",
   "theorems": [
    "C87_aggregate_partial",
    "C87_unknown_name",
    "C87_order",
    "C87_function_refuted",
    "C87_function_lost"
   ],
   "note": "the code violates the property when a function is given directly: the attribute is never set and calculate raises AttributeError"
  },
  {
   "property": "C88",
   "status": "partial",
   "theorems": [
    "C88_unchanged_partial",
    "C88_on_hull_refuted",
    "C88_on_hull_lost",
    "C88_failure_refuted"
   ],
   "note": "the code violates the property: an entry that is already on the hull is removed from the set, and a failure leaves the stabilised entry in it"
  },
  {
   "property": "C89",
   "status": "proved",
   "theorems": [
    "C89_least",
    "C89_symmetric",
    "C89_repeatable"
   ],
   "note": ""
  },
  {
   "property": "C90",
   "status": "partial",
   "theorems": [
    "C90_once_partial",
    "C90_chunk_refuted"
   ],
   "note": "the code violates the last part: a reaction is decorated with the diagram of a larger system if one is in the same chunk"
  },
  {
   "property": "C91",
   "status": "partial",
   "theorems": [
    "C91_initialized_partial",
    "C91_enumerate",
    "C91_stabilize_partial",
    "C91_open_text_refuted",
    "C91_stabilize_refuted"
   ],
   "note": "the code violates two parts: an open phase is compared as text with the reduced formula, so one written otherwise is ignored; with stabilize a precursor can be missing from the working set (no class sets stabilize)"
  },
  {
   "property": "C92",
   "status": "partial",
   "theorems": [
    "C92_round_trip_partial",
    "C92_same_partial",
    "C92_text_partial",
    "C92_arrows",
    "C92_large_refuted",
    "C92_thirds_refuted",
    "C92_unreduced_refuted",
    "C92_polymorphs_refuted",
    "C92_one_sided_refuted"
   ],
   "note": "the code violates the property: amounts of 1e4 and more are read as their exponent, amounts keep four digits only, unreduced compositions are reduced, two polymorphs on one side collapse, one-sided reactions raise ValueError; proved otherwise"
  },
  {
   "property": "C93",
   "status": "proved",
   "theorems": [
    "C93_gibbs",
    "C93_grand",
    "C93_missing_diagram",
    "C93_open_element",
    "C93_gibbs_any_flags",
    "C93_grand_any_flags"
   ],
   "note": "pymatgen's phase diagrams and interface kinks are arguments, assumed to name phases of the chemical system"
  },
  {
   "property": "C94",
   "status": "partial",
   "theorems": [
    "C94_refl",
    "C94_hash_partial",
    "C94_symmetry_refuted",
    "C94_energy_refuted",
    "C94_id_refuted"
   ],
   "note": "the code violates it: np.isclose is asymmetric, and the hash holds the exact energy and the composition, which the comparison ignores"
  },
  {
   "property": "C95",
   "status": "proved",
   "theorems": [
    "C95_molar_fractions"
   ],
   "note": ""
  },
  {
   "property": "C96",
   "status": "partial",
   "theorems": [
    "C96_entries",
    "C96_table_partial",
    "C96_open_refuted",
    "C96_polymorph_refuted",
    "C96_missing_refuted"
   ],
   "note": "the code violates it: open reactions require the second argument, and a table keyed by composition confuses polymorphs"
  },
  {
   "property": "C97",
   "status": "partial",
   "theorems": [
    "C97_reservoir_partial",
    "C97_nonzero_refuted"
   ],
   "note": "the code violates it when the phase of an open element has a non-zero energy, which is counted instead of being replaced"
  },
  {
   "property": "C98",
   "status": "partial",
   "theorems": [
    "C98_domains",
    "C98_complete",
    "C98_on_hull",
    "C98_build_partial",
    "C98_missing_always",
    "C98_missing_refuted"
   ],
   "note": "scipy's half-space intersection by its contract; the code violates the last clause: a missing element is a KeyError, the check for it is never reached"
  },
  {
   "property": "C99",
   "status": "proved",
   "theorems": [
    "C99_offset"
   ],
   "note": "real numbers: uses the axioms of the standard library's reals; the energy above hull is an argument"
  },
  {
   "property": "C100",
   "status": "partial",
   "theorems": [
    "C100_rows_partial",
    "C100_total_partial",
    "C100_clash_refuted",
    "C100_lost_refuted",
    "C100_hulls_refuted"
   ],
   "note": "the code violates the property: a datum named like a column ('energy', 'cost', ...) makes pandas raise ValueError; data that only later reactions have are dropped; energies above hull are shown only if the first phase of the first reaction has one. Proved for all other tables"
  },
  {
   "property": "C101",
   "status": "proved",
   "theorems": [
    "C101_temperatures",
    "C101_total"
   ],
   "note": "what one temperature does to the reactions is C69"
  },
  {
   "property": "C102",
   "status": "proved",
   "theorems": [
    "C102_variance",
    "C102_quadrature",
    "C102_scaled",
    "C102_per_atom",
    "C102_nonneg"
   ],
   "note": "the square of the uncertainty is modelled, over exact rationals"
  },
  {
   "property": "C103",
   "status": "partial",
   "theorems": [
    "C103_wired",
    "C103_entries",
    "C103_formulas",
    "C103_networks_partial",
    "C103_solvers_partial",
    "C103_chempots_refuted"
   ],
   "note": "the code violates the property when the minimising enumerators are switched off: chemical potentials are then silently ignored; proved when they are on, and the wiring, entries and formulas in all cases"
  },
  {
   "property": "C104",
   "status": "partial",
   "theorems": [
    "C104_sought_partial",
    "C104_ignored_refuted",
    "C104_same_refuted"
   ],
   "note": "the code violates the property: precursors and targets only choose the entries; proved when the network maker was set up with the same formulas"
  },
  {
   "property": "C105",
   "status": "partial",
   "theorems": [
    "C105_job_partial",
    "C105_no_precursors_refuted",
    "C105_one_cpu_refuted"
   ],
   "note": "the code violates the property: the job fails on one CPU, and when targets are set without precursors; proved on two or more CPUs for reactions without zero coefficients or repeated entries, that are exact multiples whenever isclose says so"
  },
  {
   "property": "C106",
   "status": "partial",
   "theorems": [
    "C106_made",
    "C106_pathways_partial",
    "C106_wrong_side_refuted"
   ],
   "note": "the code violates the property: a net reaction with a declared precursor on the product side is accepted and solved; proved when every formula is on its own side, for distinct reduced formulas"
  },
  {
   "property": "C107",
   "status": "partial",
   "theorems": [
    "C107_filter_partial",
    "C107_unreduced_refuted"
   ],
   "note": "the code violates the property for precursor entries whose composition is not reduced; proved for reduced ones, when == of reactions is identity"
  },
  {
   "property": "C108",
   "status": "partial",
   "theorems": [
    "C108_cascade_partial",
    "C108_nonneg_partial",
    "C108_unreduced_refuted"
   ],
   "note": "the code violates the property: for a phase given by a formula that is not reduced, atoms and energy belong to different formulas; proved for reduced formulas, elements whose lowest energy is zero and no element in traces below 1e-8"
  },
  {
   "property": "C109",
   "status": "partial",
   "theorems": [
    "C109_frame",
    "C109_atoms_partial",
    "C109_atoms_refuted"
   ],
   "note": "the code violates the property: smoothing each phase on its own loses atoms; proved without smoothing and when no phase turns around"
  },
  {
   "property": "C110",
   "status": "partial",
   "theorems": [
    "C110_materials",
    "C110_unknown",
    "C110_names",
    "C110_excluded",
    "C110_database",
    "C110_property_data_refuted"
   ],
   "note": "the code violates the last sentence: property_data does not influence what is fetched; the rest is proved"
  },
  {
   "property": "C111",
   "status": "partial",
   "theorems": [
    "C111_metadata_partial",
    "C111_chemsys_refuted"
   ],
   "note": "the code violates the property: chemsys depends on the order of iteration of a set; everything else is proved"
  },
  {
   "property": "C112",
   "status": "proved",
   "theorems": [
    "C112_build",
    "C112_stable",
    "C112_fails",
    "C112_foreign"
   ],
   "note": "numpy's argsort, round and pinv are arguments with their documented behaviour"
  },
  {
   "property": "C113",
   "status": "partial",
   "theorems": [
    "C113_scores_partial",
    "C113_open_refuted"
   ],
   "note": "the code violates the property for competitors at the same mixing ratio, all of them in an open system with two reactants; proved for competitors at other mixing ratios, for coordinates that are not merely close to a vertex"
  },
  {
   "property": "C114",
   "status": "partial",
   "theorems": [
    "C114_memory_partial",
    "C114_file_partial",
    "C114_file_refuted",
    "C114_once_refuted",
    "C114_unbuilt_refuted",
    "C114_rebuild_refuted",
    "C114_unknown",
    "C114_no_precursors"
   ],
   "note": "the code violates this: from_dict does not decode precursors and target, so find_pathways of a network read from a file raises TypeError until set_precursors is called again; from_dict also empties its argument, an unbuilt network cannot be saved, and a loaded network that is built again refuses all precursors and targets"
  },
  {
   "property": "C115",
   "status": "partial",
   "theorems": [
    "C115_equal",
    "C115_reload_partial",
    "C115_letters_partial",
    "C115_dummy_refuted",
    "C115_dim_refuted"
   ],
   "note": "the code violates the last part: dim is the number of characters of the chemical system string; from_dict of a DummyEntry raises TypeError"
  },
  {
   "property": "C116",
   "status": "partial",
   "theorems": [
    "C116_by_id",
    "C116_error",
    "C116_round_trip_partial",
    "C116_gibbs_partial",
    "C116_experimental_partial",
    "C116_interpolated_partial",
    "C116_default_partial",
    "C116_int_float_refuted",
    "C116_gibbs_refuted",
    "C116_experimental_refuted",
    "C116_interpolated_refuted"
   ],
   "note": "the code violates the claim: equal Gibbs entries at 300 and 300.0 have different unique ids (KeyError); entries of one id that differ in an adjustment, BaO and Ba2O2 among experimental entries, and interpolated entries built without an id are returned as one another. Shown: the exact rule (one entry per id, the only error), and the round trip where the ids tell the entries apart, with the condition for each class."
  },
  {
   "property": "C117",
   "status": "partial",
   "theorems": [
    "C117_round_trip_partial",
    "C117_fails",
    "C117_new_temperature_partial",
    "C117_nested_refuted",
    "C117_unchanged_refuted",
    "C117_lost_refuted"
   ],
   "note": "the code violates the claim: an Element among the keys at any other level than one makes as_dict and get_new_temperature raise TypeError and leaves the sanitized data in the entry; {Li: a, 'Li': b} loses a. Shown: the round trip in all other cases, and that it fails in all of those."
  },
  {
   "property": "C118",
   "status": "partial",
   "theorems": [
    "C118_experimental_partial",
    "C118_unmarked_refuted",
    "C118_no_ids_refuted",
    "C118_volume_partial",
    "C118_volume_refuted"
   ],
   "note": "the code violates the claim: theoretical = None counts as experimental, icsd_ids = None raises TypeError, and the volume is divided by the number of sites, not of atoms, when sites are partly occupied."
  },
  {
   "property": "C119",
   "status": "partial",
   "theorems": [
    "C119_table",
    "C119_succeeds_partial",
    "C119_missing",
    "C119_missing_refuted",
    "C119_missing_set",
    "C119_falls"
   ],
   "note": "the code violates the first part: compounds with an element that is not in the table (Xe, Kr, Pm, Pa, ...) raise KeyError at every temperature. The rest is shown for the whole table."
  },
  {
   "property": "C120",
   "status": "proved",
   "theorems": [
    "C120_scores",
    "C120_failure",
    "C120_three"
   ],
   "note": "for closed systems; the cases with an open formula are C85, C86 and C113, where the code violates the property. A value of the secondary competition is claimed where the library returns a correct hull and no point lies within the tolerance of isclose of another vertex."
  },
  {
   "property": "C121",
   "status": "partial",
   "theorems": [
    "C121_pinv_partial",
    "C121_determined_partial",
    "C121_exact_partial",
    "C121_enumerated_partial",
    "C121_choice_refuted",
    "C121_enumerator_refuted"
   ],
   "note": "proved for species that admit only one combination; the code violates the property for species with two degrees of freedom: Mn + 2 Mn2O3 -> 4 MnO + MnO2 is not found by balancing, and the enumerator misses it."
  },
  {
   "property": "C122",
   "status": "partial",
   "theorems": [
    "C122_solves_partial",
    "C122_finds_partial",
    "C122_some_partial",
    "C122_dependent_refuted"
   ],
   "note": "proved for linearly independent reactions, and that a dependent set contains an independent one with the same sum, which is found; the code violates the property for dependent sets: with A -> B, B -> D and A -> D, the pathway with multiplicities 1, 5, 1 is missed."
  },
  {
   "property": "C123",
   "status": "partial",
   "theorems": [
    "C123_area_partial",
    "C123_chain_area",
    "C123_endpoint_refuted"
   ],
   "note": "proved for coordinates strictly between 0 and 1 that are not within the isclose tolerance of another vertex; the code violates the property for the decomposition of a stable reactant (coordinate 0 or 1), where a single point is passed to qhull, which raises, while the other measures return a score."
  },
  {
   "property": "C124",
   "status": "partial",
   "theorems": [
    "C124_job_partial",
    "C122_dependent_refuted"
   ],
   "note": "proved for linearly independent reactions, which with filter_interdependent must not run in a circle (each needing what another makes); the code violates it for dependent ones (C122_dependent_refuted)."
  },
  {
   "property": "C125",
   "status": "proved",
   "theorems": [
    "C125_compound",
    "C125_element"
   ],
   "note": ""
  },
  {
   "property": "C126",
   "status": "partial",
   "theorems": [
    "C126_concave_partial",
    "C126_concave_refuted"
   ],
   "note": "the code violates the claim for compositions with Eu, Sb or Te, whose tabulated energies bend the wrong way at 1800 K or 1400 K. For all other elements it is shown."
  },
  {
   "property": "C127",
   "status": "partial",
   "theorems": [
    "C127_identifier",
    "C127_system",
    "C127_system_error",
    "C127_formula_partial",
    "C127_groups_refuted",
    "C127_words"
   ],
   "note": "the code violates the claim for a formula with two lists of alternatives: the greedy pattern takes everything from the first opening to the last closing brace as one list and Composition refuses the pieces. The rest is shown."
  },
  {
   "property": "C128",
   "status": "partial",
   "theorems": [
    "C128_experimental_partial",
    "C128_new_temperature",
    "C128_experimental_fails",
    "C128_experimental_refuted",
    "C128_open_partial",
    "C128_read_again",
    "C128_spoiled",
    "C128_open_fails",
    "C128_symbol",
    "C128_argument_refuted",
    "C128_writable"
   ],
   "note": "the code violates the claim in two ways: an experimental entry whose data has Elements for keys cannot be stored or given a new temperature (TypeError; the Gibbs entries sanitise one level), and OpenComputedReaction.from_dict replaces the symbols in the caller's dictionary by Elements, so that it can no longer be written as json. Shown: the round trip for all other data, and that the changed dictionary still reads as the same reaction."
  },
  {
   "property": "C129",
   "status": "partial",
   "theorems": [
    "C129_passed_on_partial",
    "C129_chain_partial",
    "C129_objects",
    "C129_none_asked",
    "C129_branches_refuted"
   ],
   "note": "the code violates completeness: with X + Y -> XY, X + Z -> XZ and XY + XZ -> X2YZ as the only reactions no pathway leads to X2YZ, since a pathway carries only the products of its last step, and the two jobs raise ValueError although the reactions add up to the net reaction. Shown: everything that comes out is such a sum, under the hypotheses of C105 and C106."
  },
  {
   "property": "C130",
   "status": "partial",
   "theorems": [
    "C130_documents",
    "C130_sorted_partial",
    "C130_premade_partial",
    "C130_caller_partial",
    "C130_premade_sorted_refuted",
    "C130_premade_empty_refuted",
    "C130_caller_refuted"
   ],
   "note": "the code violates the property for stored entries (use_premade_entries): sort_by_e_above_hull raises KeyError since the property is not put into them, and a document whose entries are None raises AttributeError (get_entries_from_entry_db skips it); property_data of the caller gets e_above_hull appended. Documents without stored entries behave as stated."
  },
  {
   "property": "C131",
   "status": "partial",
   "theorems": [
    "C131_closed",
    "C131_open",
    "C131_precursors_partial",
    "C131_cells",
    "C131_column_refuted"
   ],
   "note": "the code violates the property for a table that has a column named precursors: it is replaced and dropped. Everything else is shown; tables without rows are left to pandas."
  },
  {
   "property": "C132",
   "status": "partial",
   "theorems": [
    "C132_domains_partial",
    "C132_distance_partial",
    "C132_failure",
    "C132_on_hull_refuted"
   ],
   "note": "the code violates it for an entry on the hull whose stabilised entry is itself: asking for its domain removes it from the diagram. The partial theorems assume that stabilised entries are new and that the domains asked for can be made."
  },
  {
   "property": "C133",
   "status": "partial",
   "theorems": [
    "C133_enumerate_partial",
    "C133_pathways_partial",
    "C133_no_enumerators",
    "C133_branches_refuted"
   ],
   "note": "the code violates it when a target needs the products of two separate steps: A+B->AB, D+E->DE and AB+DE->ABDE are all found, and the search gives no pathway to ABDE. The partial theorems assume that the precursors and targets are the most stable phases of their formulas, two CPUs, that the tolerance confuses no two reactions found, and cover phases that react in one way only."
  },
  {
   "property": "C134",
   "status": "partial",
   "theorems": [
    "C134_finds_partial",
    "C134_few_refuted"
   ],
   "note": "the code violates it when max_num_combos exceeds the number of reactions on the pathways: np.concatenate raises ValueError and nothing comes out. The partial theorem assumes at least that many reactions, that == and the filter for duplicates tell the reactions apart, two CPUs and exact linear algebra; the reactions may be among those found between intermediates; with filter_interdependent they must not run in a circle."
  },
  {
   "property": "C135",
   "status": "partial",
   "theorems": [
    "C135_sound_partial",
    "C135_finds_partial",
    "C135_no_enumerators",
    "C135_branches_refuted"
   ],
   "note": "the code violates the second half: reactions of two branches that meet are all enumerated and make the net reaction, but no pathway of the network has them, and the flow fails. The partial theorems assume two CPUs, precursors and targets that are the most stable phases of their formulas, exact linear algebra for what is found, open phases on one side of a reaction only, no intermediate reactions (C134 has them), and for what is found that the reactions lie on the pathways of the network and are at least max_num_combos in number."
  },
  {
   "property": "C136",
   "status": "partial",
   "theorems": [
    "C136_range",
    "C136_smooth_partial",
    "C136_exactly",
    "C136_jump_refuted",
    "C136_agree_partial",
    "C136_agree_refuted"
   ],
   "note": "the code violates the last two parts with its data: Bi2S3 rises by 17 eV within 100 K in FREED, and NIST and FREED differ by 2.7 eV on SrO at 2000 K. The partial theorems leave out the listed formulas, which are exactly the ones with such a row. Energies are rounded to 1e-6 eV."
  },
  {
   "property": "C137",
   "status": "partial",
   "theorems": [
    "C137_found_partial",
    "C137_to_intermediates_refuted",
    "C137_polymorph_refuted"
   ],
   "note": "the code violates the property: the enumerator is given the targets, so reactions between intermediates that make only intermediates are never found, e.g. Mn + 3 MnO2 -> 2 Mn2O3 on the way to MnO; and a less stable phase of a target's formula is never turned into the target. Without this, proved for reactions to a target. Missing: open element, targets that are not the most stable phases of their formulas, energies of reactions with two phases of one formula, phases that react in more than one way, multiples up to tolerance."
  },
  {
   "property": "C138",
   "status": "partial",
   "theorems": [
    "C138_sound_partial",
    "C138_finds_partial",
    "C138_branches_refuted"
   ],
   "note": "the code violates the property: for A + B -> AB, D + E -> DE, AB + DE -> ABDE the network has no pathway to ABDE, so there are no intermediates to combine and the flow fails with ValueError, with default settings too. Without this, proved both ways. Missing: an open element in the solver, open phases on both sides, minimising enumerators, one CPU, precursors and targets that are not the most stable phases of their formulas, reactions that depend on each other, fewer reactions than max_num_combos."
  },
  {
   "property": "C139",
   "status": "partial",
   "theorems": [
    "C139_gas_partial",
    "C139_both_sides_refuted"
   ],
   "note": "the code violates it: open phases are put on one side only, so a synthesis that takes up oxygen and gives off carbon dioxide is not found when both are open, by the open enumerator or the basic one, and the job fails. With gases on one side it is proved. Missing: reactions that are not the only one between their phases, one CPU, precursors or targets that are not the most stable phases of their formulas."
  },
  {
   "property": "C140",
   "status": "partial",
   "theorems": [
    "C140_lines_are_lower_hull_partial",
    "C140_figure_partial",
    "C140_lines_refuted"
   ],
   "note": "the code violates the property: with a reactant that decomposes on its own, the polygon has a vertical edge from (0,0) downwards; both its ends are at or below zero, so it is drawn although it is no edge of the lower hull. Without decomposing reactants the drawn lines are exactly the lower hull."
  },
  {
   "property": "C141",
   "status": "proved",
   "theorems": [
    "C141_colors",
    "C141_places"
   ],
   "note": "the palette is assumed to have different colours at different places (distinct_colors); the order of elements is assumed to depend only on the set (orders)"
  },
  {
   "property": "C142",
   "status": "partial",
   "theorems": [
    "C142_enumerate_partial",
    "C142_pathways_partial",
    "C142_branches_refuted"
   ],
   "note": "the code violates it when a target needs the products of two separate steps, each formed at an interface of its own: all reactions are found and no pathway is given. The partial theorems leave out kinks of phases that react in more than one way, kinks that depend on the order of the two phases, equally stable phases of one formula, chemical potentials, one CPU and precursors or targets that take part in no reaction; the behaviour of pymatgen's diagrams and kinks is a hypothesis (good_interfaces, tidy_kinks)"
  },
  {
   "property": "C143",
   "status": "partial",
   "theorems": [
    "C143_measures_partial",
    "C143_others_partial",
    "C143_many",
    "C143_area_refuted"
   ],
   "note": "the code violates it for a reaction at the mixing ratio of a reactant (a reactant that falls apart): four calculators give a value and the area raises. The partial theorem leaves out these reactions and mixing ratios within the tolerance of another vertex"
  },
  {
   "property": "C144",
   "status": "partial",
   "theorems": [
    "C144_identity_partial",
    "C144_unbalanced_partial",
    "C144_unbalanced_refuted",
    "C144_repeated_refuted"
   ],
   "note": "the code violates it for unbalanced reactions (A -> 2 A counts as an identity) and for compositions listed twice on one side (A + A -> 2 A does not). Proved for balanced reactions that list a composition at most once on each side, up to the tolerance of isclose"
  },
  {
   "property": "C145",
   "status": "partial",
   "theorems": [
    "C145_number",
    "C145_one",
    "C145_enumerate_partial",
    "C145_any_flags"
   ],
   "note": "the number and its meaning are proved in full (for the exact rank; numpy's rank has a tolerance). C145_any_flags is for one basic enumerator with any flags; the enumerators that minimise are C156. Missing for the whole enumeration job: enumerators that keep reactions with changed sides, and systems where two listed reactions are multiples of one another only up to the tolerance"
  },
  {
   "property": "C146",
   "status": "partial",
   "theorems": [
    "C146_flag_partial",
    "C146_binary64",
    "C146_size_refuted"
   ],
   "note": "the code violates it for very large coefficients: a reaction of 3e10 atoms that conserves all elements exactly is reported as not balanced. Proved for up to 20 distinct species and up to a million atoms of each element per side"
  },
  {
   "property": "C147",
   "status": "proved",
   "theorems": [
    "C147_energy",
    "C147_reverse",
    "C147_multiples"
   ],
   "note": ""
  },
  {
   "property": "C148",
   "status": "partial",
   "theorems": [
    "C148_options_partial"
   ],
   "note": "Missing: an open element, targets that are not the most stable phases of their formulas, energies of reactions with two phases of one formula, phases that react in more than one way, reactions that are multiples of one another only up to the tolerance"
  },
  {
   "property": "C149",
   "status": "partial",
   "theorems": [
    "C149_accepts_partial",
    "C149_sound_partial",
    "C149_order",
    "C149_finds_partial",
    "C149_size_refuted"
   ],
   "note": "the code violates it for very large coefficients: A -> 2^30 I and 49*2^30 I -> 49 B add up to A -> B, but the remainder of I in the last place exceeds the absolute tolerance of 1e-8. Proved for up to 20 reactions and moderate coefficients, given a pinv that is off by at most 1e-12"
  },
  {
   "property": "C150",
   "status": "partial",
   "theorems": [
    "C150_sound_partial",
    "C150_finds_partial"
   ],
   "note": "Missing: open phases and chemical potentials, one CPU, precursors and targets that are not the most stable phases of their formulas, energies of reactions with two phases of one formula, kinks that pymatgen fails on or whose formulas have several equally stable phases, phases that react in more than one way"
  },
  {
   "property": "C151",
   "status": "partial",
   "theorems": [
    "C151_open_partial"
   ],
   "note": "Missing: targets of the open element alone, targets that are not the most stable phase of their formula, energies of reactions with two phases of one formula, phases that react in more than one way, reactions that are multiples of one another only up to the tolerance"
  },
  {
   "property": "C152",
   "status": "partial",
   "theorems": [
    "C152_sound_partial",
    "C152_finds_partial"
   ],
   "note": "Missing: how the additional set comes about, targets of the open element alone, one CPU, precursors and targets that are not the most stable phase of their formula, energies of reactions with two phases of one formula, kinks that pymatgen fails on or with a phase that is not the only stable one of its formula"
  },
  {
   "property": "C153",
   "status": "partial",
   "theorems": [
    "C153_sound_partial",
    "C153_finds_partial"
   ],
   "note": "Missing: targets of the open element alone, entries of the open element alone with another formula, one CPU, precursors and targets that are not the most stable phase of their formula, energies of reactions with two phases of one formula, kinks that pymatgen fails on or with a phase that is not the only stable one of its formula"
  },
  {
   "property": "C154",
   "status": "proved",
   "theorems": [
    "C154_vector",
    "C154_per_atom",
    "C154_alone",
    "C154_not_alone",
    "C154_unbalanced",
    "C154_no_reference",
    "C154_no_enumerators",
    "C154_no_entries",
    "C154_hull",
    "C154_primary",
    "C154_count",
    "C154_unset",
    "C154_above",
    "C154_no_precursors",
    "C154_job"
   ],
   "note": "numpy's nan and inf are ZeroDivisionError in the model"
  },
  {
   "property": "C155",
   "status": "partial",
   "theorems": [
    "C155_normal_partial",
    "C155_multiples_partial",
    "C155_repr",
    "C155_tiny_refuted",
    "C155_total",
    "C155_nothing",
    "C155_formulas",
    "C155_unread"
   ],
   "note": "the code violates the property for multiples whose amounts are below the tolerance of gcd_float; missing: units below 1e-8, numbers of five digits"
  },
  {
   "property": "C156",
   "status": "partial",
   "theorems": [
    "C156_enumerated_partial",
    "C156_open_partial"
   ],
   "note": "missing: the cases C142 and C153 leave out (interfaces pymatgen fails on, reactions that are multiples of one another only up to the tolerance)"
  }
 ]
}