{"id": "C01", "title": "Event dependencies are exactly site sharing", "statement": "After EventLib.generate_event_dependencies(), get_dependent_events(i) returns, in increasing order and without repetition, exactly the indices j < len(lib) such that event i and event j have at least one active-site index in common among their mobile-ion and local-environment indices; the relation is symmetric, and every event with at least one site depends on itself.", "quantifier": "every event library (any number of events, any site lists, unsorted, with repetitions)", "why_tests_cant": "The two-pointer scan over sorted arrays has to be right for every pair of lists; tests sample a handful of libraries.", "anchors": ["kmcpy/event/base.py:EventLib.generate_event_dependencies", "kmcpy/event/base.py:_generate_event_dependency_matrix", "kmcpy/event/base.py:_arrays_intersect", "kmcpy/event/base.py:EventLib.get_dependent_events"]}
{"id": "C02", "title": "Site index lists exactly the events touching a site", "statement": "After any sequence of add_event calls on a new EventLib, get_events_involving_site(s) is the increasing list of indices of the events that contain s, each index repeated as often as s occurs in that event, and [] for a site no event contains.", "quantifier": "every sequence of add_event calls and every site", "why_tests_cant": "The mapping is built incrementally; only an induction over the call history covers every history.", "anchors": ["kmcpy/event/base.py:EventLib.add_event", "kmcpy/event/base.py:EventLib.get_events_involving_site"]}
{"id": "C03", "title": "Saving and loading an event library loses nothing and never accepts foreign indices", "statement": "EventLib.from_dict(lib.as_dict()) has the same events, the same site index and the same dependency matrix (when non-empty) as lib; from_file always returns a library with dependencies; a payload without index metadata, or with any event index outside the active-site range, is rejected.", "quantifier": "every event library and every payload", "why_tests_cant": "Round trips and rejection must hold for every payload, including string-keyed site maps and empty dependency lists.", "anchors": ["kmcpy/event/base.py:EventLib.as_dict", "kmcpy/event/base.py:EventLib.from_dict", "kmcpy/event/base.py:EventLib.from_file", "kmcpy/event/base.py:EventLib._validate_event_indices"]}
{"id": "C04", "title": "The dependency matrix describes the library only until the next add_event", "statement": "For every history of add_event / generate_event_dependencies / clear_event_dependencies calls, the dependency answers are exact for the events present at the last generate call and do not cover later events; the unrestricted claim 'get_dependent_events always covers the current library' is false.", "quantifier": "every history of library operations", "why_tests_cant": "It is a claim about all interleavings of library operations.", "anchors": ["kmcpy/event/base.py:EventLib.add_event", "kmcpy/event/base.py:EventLib.generate_event_dependencies", "kmcpy/event/base.py:EventLib.clear_event_dependencies", "kmcpy/event/base.py:EventLib.get_dependent_events"]}
{"id": "C05", "title": "Cached rates never go stale", "statement": "At every point of a simulation, the stored rate of every event equals what the model would compute now from the current state, for models whose rate of an event depends only on the occupations of that event's own sites (the built-in composite LCE model with LCE submodels is one), when the library's dependencies were generated for its events.", "quantifier": "every library, every initial state, every history of accepted events", "why_tests_cant": "A stale rate shows only after particular histories of overlapping events; tests run a few seeds.", "anchors": ["kmcpy/simulator/kmc.py:KMC.__init__", "kmcpy/simulator/kmc.py:KMC.update", "kmcpy/event/base.py:EventLib.get_dependent_events", "kmcpy/models/composite_lce_model.py:CompositeLCEModel.compute_probability", "kmcpy/models/local_cluster_expansion.py:LocalClusterExpansion.compute"]}
{"id": "C06", "title": "Freshness is lost exactly outside the locality/dependency contract", "statement": "There are libraries without generated dependencies, libraries extended after generation, and models reading sites outside the event's own list (a SiteEnergyModel compute function reading the whole external occupation, a LocalBarrierModel rule with an 'all' or explicit outside site) for which the cached rate list differs from the recomputed one after a single accepted event and no error is raised.", "quantifier": "existence of histories per contract violation", "why_tests_cant": "It shows the hypotheses of the freshness claim are needed; a passing test cannot show that.", "anchors": ["kmcpy/simulator/kmc.py:KMC.update", "kmcpy/event/base.py:EventLib.get_dependent_events", "kmcpy/models/site_energy.py:SiteEnergyModel.compute", "kmcpy/models/local_barrier_model.py:LocalBarrierModel.compute_probability"]}
{"id": "C07", "title": "The cumulative list is the running sum of the current rates", "statement": "After construction and after every update, the cumulative rate list has the length of the rate list and its k-th entry is the sum of the first k+1 rates.", "quantifier": "every history of updates", "why_tests_cant": "Needs an invariant over all histories.", "anchors": ["kmcpy/simulator/kmc.py:KMC.__init__", "kmcpy/simulator/kmc.py:KMC.update"]}
{"id": "C08", "title": "Event selection always returns an existing, possible event", "statement": "For non-negative rates with positive total and any two uniform draws in [0,1), propose returns an index inside the event list and the selected event's rate is strictly positive.", "quantifier": "every rate list with positive total and every pair of draws", "why_tests_cant": "The boundary draws (0 and values on cumulative boundaries) have probability zero in a test.", "anchors": ["kmcpy/simulator/kmc.py:_propose", "kmcpy/simulator/kmc.py:KMC.propose"]}
{"id": "C09", "title": "Selection probability is rate over total", "statement": "For every index i, the set of first draws that select i is exactly the half-open interval [S_i/S, S_{i+1}/S) where S_i is the sum of the rates before i and S the total; so its length is rate_i/S.", "quantifier": "every rate list with positive total, every index and every draw", "why_tests_cant": "Statistical tests approximate the probability; the claim is exact and for all lists.", "anchors": ["kmcpy/simulator/kmc.py:_propose"]}
{"id": "C10", "title": "Event selection is safe in IEEE double arithmetic", "statement": "With every addition, division and comparison performed in IEEE binary64 round-to-nearest-even as numpy does, for finite non-negative rates with a finite positive total and any draw in [0,1), the selected index is in range and its rate is strictly positive.", "quantifier": "every list of finite binary64 rates whose running sum stays finite, every binary64 draw in [0,1)", "why_tests_cant": "Rounding anomalies occur on specific bit patterns that sampling does not hit.", "anchors": ["kmcpy/simulator/kmc.py:_propose", "kmcpy/simulator/kmc.py:KMC.update"]}
{"id": "C11", "title": "Waiting times are non-negative and exponentially distributed in the second draw", "statement": "For a positive total rate R and second draw u in (0,1), dt is > 0, and dt > t holds iff u < exp(-R t) for every t >= 0; a draw of exactly 0 is outside this law (dt is then infinite).", "quantifier": "every positive total rate, every draw, every t", "why_tests_cant": "The law is over all real draws; tests compare a few moments.", "anchors": ["kmcpy/simulator/kmc.py:_propose"]}
{"id": "C12", "title": "Accepted events conserve the site contents", "statement": "Along any history of accepted events the number of sites and the number of sites holding each state code never change, and one accepted event changes no site other than its two endpoints, whose contents are exchanged.", "quantifier": "every history, every state", "why_tests_cant": "Conservation must hold for all histories.", "anchors": ["kmcpy/simulator/state.py:State.apply_event", "kmcpy/simulator/kmc.py:KMC.update"]}
{"id": "C13", "title": "Step and time accounting of a run", "statement": "KMC.run performs exactly (equilibration_passes + kmc_passes) x pass_length accepted events; the step counter grows by that number; the simulation time grows by exactly the sum of the waiting times of the production events, equilibration adding nothing; and time never decreases.", "quantifier": "every configuration, every stream of draws", "why_tests_cant": "Counts must hold for all pass counts and all draws.", "anchors": ["kmcpy/simulator/kmc.py:KMC.run", "kmcpy/simulator/state.py:State.apply_event"]}
{"id": "C14", "title": "A hop can be undone by the same event", "statement": "If an event is hoppable in a state, then after it is accepted the same event is hoppable in the opposite direction, and accepting it again restores the occupations exactly.", "quantifier": "every state and event whose endpoints differ", "why_tests_cant": "Must hold for all states and hop state codes.", "anchors": ["kmcpy/event/hop.py:event_direction", "kmcpy/event/hop.py:endpoint_direction_from_codes", "kmcpy/simulator/state.py:State.apply_event"]}
{"id": "C15", "title": "A rate is positive exactly for hoppable events", "statement": "For a positive attempt frequency, the composite model's rate of an event is strictly positive if the endpoints hold mobile/vacancy in one of the two orientations, and exactly 0 otherwise.", "quantifier": "every state, event, hop state codes, temperature and energies", "why_tests_cant": "For all real energies.", "anchors": ["kmcpy/models/composite_lce_model.py:CompositeLCEModel.compute_probability", "kmcpy/event/hop.py:event_direction"]}
{"id": "C16", "title": "Detailed balance", "statement": "For the composite model with LCE submodels whose local environment does not contain the event's own endpoints, rate(before)/rate(after by the same event) = exp(-dE/kT) with dE the signed site-energy difference; when the local environment contains an endpoint this ratio can fail.", "quantifier": "every state, event, parameters, temperature > 0", "why_tests_cant": "A relation between two rates for all energies and states.", "anchors": ["kmcpy/models/composite_lce_model.py:CompositeLCEModel.compute_probability", "kmcpy/models/composite_lce_model.py:CompositeLCEModel._compute_site_energy_difference", "kmcpy/models/local_cluster_expansion.py:LocalClusterExpansion.compute"]}
{"id": "C17", "title": "The engine only ever executes hoppable events", "statement": "In a run with fresh rates, every event taken from propose has a non-zero direction in the state it is applied to, so the tracker never ignores an accepted event.", "quantifier": "every run", "why_tests_cant": "Depends on the composition of cache freshness, selection and rate positivity over all histories.", "anchors": ["kmcpy/simulator/kmc.py:KMC.run", "kmcpy/simulator/kmc.py:_propose", "kmcpy/simulator/tracker.py:Tracker.update"]}
{"id": "C18", "title": "Tracked ions are exactly the mobile ions", "statement": "At every point of a production run with a hop-state lookup, the tracked locations are pairwise distinct and are exactly the sites whose current state code is that site's mobile code; their number never changes; and the tracker never raises its inconsistency error, provided the two endpoints of every event use the same mobile and vacancy codes.", "quantifier": "every run, every lookup with endpoint-consistent codes", "why_tests_cant": "An invariant over all histories of hops.", "anchors": ["kmcpy/simulator/tracker.py:Tracker._initialize_mobile_ion_tracking", "kmcpy/simulator/tracker.py:Tracker.update", "kmcpy/simulator/tracker.py:Tracker._record_mobile_ion_hop", "kmcpy/event/hop.py:HopStateLookup"]}
{"id": "C19", "title": "Swapping raw codes breaks ion conservation when endpoints order species differently", "statement": "If two endpoint sites list the mobile species and the vacancy in different positions of their allowed species, accepting a hop of a mobile ion between them changes the number of mobile ions seen by the hop-state lookup.", "quantifier": "existence of a two-site system reachable through the public API", "why_tests_cant": "It refutes the unconditional conservation claim.", "anchors": ["kmcpy/simulator/state.py:State.apply_event", "kmcpy/event/hop.py:HopStateLookup.from_active_site_order"]}
{"id": "C20", "title": "Hop counters account for every accepted production event", "statement": "The counter of each ion equals the number of production events that moved that ion, and the counters sum to the number of hoppable production events.", "quantifier": "every run", "why_tests_cant": "For all histories.", "anchors": ["kmcpy/simulator/tracker.py:Tracker.update", "kmcpy/simulator/tracker.py:Tracker._record_mobile_ion_hop"]}
{"id": "C21", "title": "Hop displacements are minimum images", "statement": "The fractional displacement recorded for a hop differs from (destination - source) by an integer vector and every component lies in [-1/2, 1/2]; the reverse hop records the opposite displacement.", "quantifier": "every pair of sites with arbitrary rational coordinates", "why_tests_cant": "Half-way ties and wrap-around occur only for special coordinates.", "anchors": ["kmcpy/simulator/tracker.py:Tracker._wrapped_hop_displacement"]}
{"id": "C22", "title": "Accumulated displacement telescopes", "statement": "At any time, each ion's accumulated fractional displacement equals (current site position - initial site position) plus an integer vector.", "quantifier": "every run, every ion", "why_tests_cant": "For all histories.", "anchors": ["kmcpy/simulator/tracker.py:Tracker.update", "kmcpy/simulator/tracker.py:Tracker._wrapped_hop_displacement", "kmcpy/simulator/tracker.py:Tracker._record_mobile_ion_hop"]}
{"id": "C23", "title": "Property schedules fire exactly when due", "statement": "With a step interval n, an enabled property is sampled at step s iff n divides s (s > 0); with a time interval d it is sampled at the first event whose time is at least d after the previous sample (or at least d from zero for the first); with both, when either is due; with neither, never.", "quantifier": "every increasing sequence of (step, time) points", "why_tests_cant": "For all sequences of sampling points.", "anchors": ["kmcpy/simulator/property.py:should_trigger", "kmcpy/simulator/tracker.py:Tracker.sample_properties", "kmcpy/simulator/tracker.py:Tracker._sample_transport_summary"]}
{"id": "C24", "title": "Time-scheduled samples are at least one interval apart", "statement": "Two consecutive samples of a property scheduled by time only are separated by at least the time interval.", "quantifier": "every sequence of sampling points", "why_tests_cant": "For all sequences.", "anchors": ["kmcpy/simulator/property.py:should_trigger", "kmcpy/simulator/tracker.py:Tracker.sample_properties"]}
{"id": "C25", "title": "Stored records are the most recent ones, in order", "statement": "After any sequence of samples, a property's stored records are exactly the last max_records successful samples in sampling order (all of them when no maximum is set).", "quantifier": "every sequence of samples and every positive maximum", "why_tests_cant": "For all histories.", "anchors": ["kmcpy/simulator/property.py:append_record", "kmcpy/simulator/tracker.py:Tracker.sample_properties"]}
{"id": "C26", "title": "The result table is rectangular", "statement": "All built-in result columns always have the same length, equal to the number of due sampling points, with the times in order; a built-in disabled at a sampling point contributes NaN in that row and an enabled one its computed value.", "quantifier": "every run and every toggling history", "why_tests_cant": "For all histories of samples and toggles.", "anchors": ["kmcpy/simulator/tracker.py:_append_result_row", "kmcpy/simulator/tracker.py:Tracker._sample_transport_summary", "kmcpy/simulator/property.py:compute_transport_properties"]}
{"id": "C27", "title": "Attachment names are unique, never reserved, and plan and tracker agree", "statement": "After any sequence of KMC attach / detach / clear_attachments / set_property_enabled / set_property_frequency calls (before, between and after runs), the plan's attachments have pairwise distinct names disjoint from the built-in names, a rejected call changes nothing in the plan, and the plan and the active tracker list the same attachments with the same settings.", "quantifier": "every sequence of property-control calls and runs", "why_tests_cant": "For all call sequences.", "anchors": ["kmcpy/simulator/kmc.py:KMC.attach", "kmcpy/simulator/kmc.py:KMC.detach", "kmcpy/simulator/kmc.py:KMC.clear_attachments", "kmcpy/simulator/kmc.py:KMC.set_property_enabled", "kmcpy/simulator/property.py:make_property_spec", "kmcpy/simulator/property.py:PropertyPlan", "kmcpy/simulator/tracker.py:Tracker.apply_property_plan"]}
{"id": "C28", "title": "A failing callback never corrupts sampling", "statement": "If a callback raises, no record is stored for that sample; without an error handler, or when the handler raises or returns a false value, sampling stops with CallbackExecutionError; when the handler returns a true value the remaining callbacks of that sampling point still run and the schedule of the failing one advances.", "quantifier": "every set of callbacks and every failure pattern", "why_tests_cant": "For all failure patterns.", "anchors": ["kmcpy/simulator/tracker.py:Tracker.sample_properties", "kmcpy/simulator/tracker.py:Tracker._handle_callback_error"]}
{"id": "C29", "title": "Every run starts from fresh sampling state", "statement": "A tracker built from a plan has the plan's attachments with no records and no trigger history, whatever happened in previous runs.", "quantifier": "every history of runs", "why_tests_cant": "For all histories.", "anchors": ["kmcpy/simulator/property.py:PropertyPlan.fresh_attachment_specs", "kmcpy/simulator/tracker.py:Tracker.apply_property_plan"]}
{"id": "C30", "title": "Active-site indices are a bijection onto the active sites", "statement": "An active-site order splits the supercell's sites into active and inactive ones: every original index is in exactly one class, active indices are 0..n-1 without gaps, original-to-active and active-to-original are mutually inverse, and a site is active iff its mapping allows more than one species.", "quantifier": "every structure, site mapping and supercell shape", "why_tests_cant": "For all structures.", "anchors": ["kmcpy/structure/active_site_order.py:ActiveSiteOrder.from_structure_and_mapping", "kmcpy/structure/active_site_order.py:ActiveSiteOrder.original_to_active"]}
{"id": "C31", "title": "Supercell sites know their primitive site", "statement": "In an n1 x n2 x n3 supercell each primitive site has exactly n1*n2*n3 images, supercell index k belongs to primitive site k div (n1 n2 n3), and the active order assigns each active site the primitive index and allowed species of its own primitive site.", "quantifier": "every structure and shape", "why_tests_cant": "For all sizes.", "anchors": ["kmcpy/structure/active_site_order.py:_make_supercell_with_properties", "kmcpy/structure/sites.py:make_kmc_supercell"]}
{"id": "C32", "title": "Selecting active occupations keeps site identity", "statement": "select_active_values maps a full-structure vector to the vector of its active sites (entry k is the value of the k-th active site), leaves an already active-length vector unchanged, and rejects any other length.", "quantifier": "every order and vector", "why_tests_cant": "For all lengths.", "anchors": ["kmcpy/structure/active_site_order.py:ActiveSiteOrder.select_active_values", "kmcpy/simulator/state.py:State.from_occupations"]}
{"id": "C33", "title": "Serialised orders, states and checkpoints round-trip", "statement": "from_dict(as_dict(x)) = x for active-site orders and simulation states, and load_checkpoint(save_checkpoint(s)) restores occupations, time and step.", "quantifier": "every order, every state", "why_tests_cant": "For all values.", "anchors": ["kmcpy/structure/active_site_order.py:ActiveSiteOrder.as_dict", "kmcpy/structure/active_site_order.py:ActiveSiteOrder.from_dict", "kmcpy/simulator/state.py:State.as_dict", "kmcpy/simulator/state.py:State.from_dict", "kmcpy/simulator/state.py:State.save_checkpoint", "kmcpy/simulator/state.py:State.load_checkpoint"]}
{"id": "C34", "title": "Hop state codes point at the species they claim", "statement": "For every active site, the lookup's mobile (vacancy) code is the position of the mobile species (a vacancy label) among the site's allowed species, or -1 if there is none; an annotated event is reported hoppable in direction +1 iff its first endpoint holds the mobile species and its second a vacancy (and -1 for the mirror case).", "quantifier": "every allowed-species table and species", "why_tests_cant": "For all tables, including repeated labels.", "anchors": ["kmcpy/event/hop.py:HopStateLookup.from_active_site_order", "kmcpy/event/hop.py:HopStateLookup.annotate_event", "kmcpy/event/hop.py:event_direction"]}
{"id": "C35", "title": "The external occupation follows the simulation", "statement": "For a SiteEnergyModel whose site mapping is injective, after initialisation and after any history of accepted events, the external occupation equals the one freshly built (with the same element type) from the current simulation state; positions outside the mapping keep their initial values.", "quantifier": "every mapping, initial occupation and history", "why_tests_cant": "An incremental cache must agree with the rebuild for all histories.", "anchors": ["kmcpy/models/site_energy.py:SiteEnergyModel.initialize_state", "kmcpy/models/site_energy.py:SiteEnergyModel.apply_event", "kmcpy/models/site_energy.py:SiteEnergyModel._build_external_occupation"]}
{"id": "C36", "title": "Two sites mapped to one external site break the external cache", "statement": "With a non-injective site mapping, which is accepted without error, there is a history after which the external occupation differs from a fresh build.", "quantifier": "existence", "why_tests_cant": "Refutes the unrestricted claim.", "anchors": ["kmcpy/models/site_energy.py:_build_site_lookup", "kmcpy/models/site_energy.py:SiteEnergyModel.apply_event"]}
{"id": "C37", "title": "State-code translation equals the user's mapping", "statement": "The dense lookup built from a state mapping returns the mapped value for every key of the mapping (per site where a site-specific mapping exists, else global, else identity) and rejects every other code.", "quantifier": "every integer-keyed mapping and every code", "why_tests_cant": "For all key sets, negative and sparse keys included.", "anchors": ["kmcpy/models/site_energy.py:_build_state_lookup", "kmcpy/models/site_energy.py:_build_state_lookup_by_site", "kmcpy/models/site_energy.py:_external_state_value_from_lookup", "kmcpy/models/site_energy.py:_state_lookup_value"]}
{"id": "C38", "title": "The LCE value is the cluster-expansion formula on the event's environment", "statement": "LocalClusterExpansion.compute equals the empty-cluster term plus the sum over orbits of keci times the sum over the orbit's clusters of the product of the site values, read from the event's local-environment occupations in order; it does not depend on any other site.", "quantifier": "every orbit table, keci, state and event", "why_tests_cant": "For all cluster tables.", "anchors": ["kmcpy/models/local_cluster_expansion.py:LocalClusterExpansion.compute", "kmcpy/models/local_cluster_expansion.py:_calc_corr", "kmcpy/models/local_cluster_expansion.py:_calc_corr_decorated"]}
{"id": "C39", "title": "Orbits partition the clusters", "statement": "build_orbits puts every cluster into exactly one orbit, keeps cluster order, and two clusters share an orbit when they are equal under the equality test (for an equivalence relation: iff).", "quantifier": "every list of clusters and every equality test", "why_tests_cant": "For all lists.", "anchors": ["kmcpy/models/local_cluster_expansion.py:LocalClusterExpansion.build_orbits"]}
{"id": "C40", "title": "Fitted parameters are never bound to the wrong orbits", "statement": "set_parameters accepts fitted parameters only if their number equals the number of correlation features and every provided fingerprint list and environment hash is identical to the model's; rejected parameters leave the model unchanged.", "quantifier": "every payload", "why_tests_cant": "For all payloads.", "anchors": ["kmcpy/models/local_cluster_expansion.py:LocalClusterExpansion._validate_parameter_orbits", "kmcpy/models/local_cluster_expansion.py:LocalClusterExpansion.set_parameters"]}
{"id": "C41", "title": "Local barrier rules: the first rule in list order that holds decides", "statement": "A local-barrier query returns the property of the first rule, in the order the rules were added and whatever their type, that is meant for the event and whose condition holds in the current state; if none holds, the default; if there is no default (or no such property) it raises KeyError. The answer is unambiguous, and two exact rules of one model never both hold.", "quantifier": "every rule set, state and event", "why_tests_cant": "For all rule sets.", "anchors": ["kmcpy/models/local_barrier_model.py:LocalBarrierModel.compute", "kmcpy/models/local_barrier_model.py:LocalBarrierModel.add_rule"]}
{"id": "C42", "title": "Occupation bases convert consistently", "statement": "Building an Occupation with validation succeeds exactly when every value belongs to the basis. For the two-state bases, converting to the other basis keeps every atom and vacancy and converting back is the identity, flipping toggles exactly the sites named an odd number of times and flipping twice is the identity, the index lists are exactly the atoms and vacancies and the counts add up to the number of sites, and equivalent_to decides equality of the patterns. A saved basis loads as itself. With three or more states none of the two-state laws holds, and a rejected assignment is not undone.", "quantifier": "every basis, every value sequence, every index list", "why_tests_cant": "The laws range over all value sequences and index lists, including negative and repeated indices.", "anchors": ["kmcpy/structure/basis.py", "kmcpy/structure/lattice_structure.py"]}
{"id": "C43", "title": "Cluster matching is sound, complete and its uniqueness flag is exact", "statement": "ClusterMatcher.match returns a permutation of the candidate sites that preserves species labels and all pairwise distances within tolerance whenever one exists, reports is_unique = True iff exactly one such permutation exists (exact mode), and raises if none exists and no nearest fallback is allowed.", "quantifier": "every pair of labelled distance matrices", "why_tests_cant": "Backtracking search over all permutations.", "anchors": ["kmcpy/structure/cluster.py:ClusterMatcher.match", "kmcpy/structure/cluster.py:ClusterMatcher._matching_permutations"]}
{"id": "C44", "title": "Nearest matching returns an optimal label-preserving permutation", "statement": "In nearest mode the returned permutation is label preserving and no label-preserving permutation has a smaller distance error.", "quantifier": "every pair of labelled distance matrices", "why_tests_cant": "Minimum over all permutations.", "anchors": ["kmcpy/structure/cluster.py:ClusterMatcher._nearest_permutation"]}
{"id": "C45", "title": "Local-environment enumeration is complete and free of duplicates", "statement": "enumerate_local_environments yields every assignment of allowed states to the variable sites exactly once (those with the requested species counts when given), never more than max_results, and never changes a non-variable site.", "quantifier": "every site table and option", "why_tests_cant": "For all tables.", "anchors": ["kmcpy/structure/local_environment_enumerator.py:enumerate_local_environments"]}
{"id": "C46", "title": "NEB endpoint pairs are one hop apart", "statement": "generate_neb_endpoint_pair returns an initial and a final occupation that differ exactly at the two hop sites, where they are exchanged; all other sites agree.", "quantifier": "every occupation and hop", "why_tests_cant": "For all occupations.", "anchors": ["kmcpy/structure/local_environment_enumerator.py:generate_neb_endpoint_pair"]}
{"id": "C47", "title": "Supercell image arithmetic is periodic", "statement": "normalize_supercell_tuple returns an image inside the supercell that is congruent to the sum of its arguments modulo the shape; adding any multiple of the shape does not change the result.", "quantifier": "every image, translation and positive shape", "why_tests_cant": "For all integers, negative included.", "anchors": ["kmcpy/event/generators.py:normalize_supercell_tuple"]}
{"id": "C48", "title": "Configuration parameters reach exactly one section or are rejected", "statement": "Every keyword given to Configuration ends up in exactly one of the system, runtime or loader sections with its value unchanged, and an unknown keyword is rejected.", "quantifier": "every parameter dictionary", "why_tests_cant": "For all dictionaries.", "anchors": ["kmcpy/simulator/config.py:_extract_section_data", "kmcpy/simulator/config.py:Configuration"]}
{"id": "C49", "title": "Transport properties obey their defining relations", "statement": "For any tracked displacements, hop counters, elapsed time and accepted system parameters, the reported transport summary satisfies: MSD times the number of ions is the sum of squared displacements; tracer and jump diffusivity satisfy the Einstein relations with the stated units; the Haven ratio is tracer over jump diffusivity, equals 1 for a single displaced ion and is never below 1/n; conductivity satisfies the Nernst-Einstein relation; all are nonnegative; each is NaN exactly when it is undefined (no ions, no elapsed time, cancelling displacements); the values do not depend on the order of the ions; the correlation factor is 1 when every ion hopped exactly once and lies between 0 and the largest hop count.", "quantifier": "all lists of displacements and hop counters, all elapsed times, all parameters with positive dimension, volume and temperature", "why_tests_cant": "tests compare a few fixed trajectories with stored numbers; the relations, the Haven bound and the NaN conditions must hold for every trajectory", "anchors": ["kmcpy/simulator/property.py:compute_transport_properties", "kmcpy/simulator/tracker.py:Tracker._compute_transport_summary", "kmcpy/units.py"]}
{"id": "C50", "title": "A run records one sample point per production step and one row per pass by default", "statement": "A completed run offers the tracker exactly one sampling point after every production step (none during equilibration), with the step number, time, state and ion tables as of that step; the result table and every attached property contain exactly the due points. Without a user-set schedule the result table has exactly one row per production pass, whatever the starting step.", "quantifier": "all rate models, event libraries, random draws, numbers of passes, pass lengths, starting steps, and property plans reachable by public calls with callbacks that do not change the plan", "why_tests_cant": "row counts depend on the interplay of pass length, starting step, equilibration and schedule; tests only run a handful of configurations from step 0", "anchors": ["kmcpy/simulator/kmc.py:KMC.run", "kmcpy/simulator/tracker.py:Tracker.sample_properties", "kmcpy/simulator/property.py:should_trigger"]}
{"id": "C51", "title": "Simulations with external site energies have fresh rates and obey detailed balance", "statement": "With a SiteEnergyModel as site model: if its function looks only at the event's own sites, then after any history of accepted events every cached rate equals the rate computed from the current state. If its function returns differences of some energy of the external occupation, then after any history, whenever a hoppable event fires, the ratio of its rate to the rate of the way back equals the Boltzmann factor of the change of that energy (converted from the configured unit).", "quantifier": "all mappings, element types, energy functions, temperatures, event libraries with in-range indices and histories", "why_tests_cant": "staleness and balance violations only show after particular histories; a test can only try a few", "anchors": ["kmcpy/models/site_energy.py:SiteEnergyModel", "kmcpy/models/composite_lce_model.py:CompositeLCEModel", "kmcpy/simulator/kmc.py:KMC.update"]}
{"id": "C52", "title": "A site-energy model refuses a foreign site order", "statement": "Initialising a SiteEnergyModel that is bound to an active-site order fails with ValueError when the simulation's order has another fingerprint or another number of sites, and initialisation fails when some active site is not mapped to a nonnegative external position.", "quantifier": "all configurations, orders and occupations", "why_tests_cant": "a silently accepted foreign order gives plausible but wrong energies", "anchors": ["kmcpy/models/site_energy.py:SiteEnergyModel.initialize_state", "kmcpy/models/site_energy.py:_build_site_lookup"]}
{"id": "C53", "title": "Cached rates from local barrier rules are never stale when rules look at own sites", "statement": "With a LocalBarrierModel whose rules (for each event they are meant for) look only at that event's mobile and local-environment sites, after any history of accepted events every cached rate equals the rate computed from the current state.", "quantifier": "all rule tables, event libraries with in-range indices and generated dependencies, lookups, temperatures and histories", "why_tests_cant": "staleness only shows after particular histories", "anchors": ["kmcpy/models/local_barrier_model.py:LocalBarrierModel.compute_probability", "kmcpy/simulator/kmc.py:KMC.update"]}
{"id": "C54", "title": "Local barrier rates are Arrhenius rates of the reported barrier", "statement": "The rate is attempt frequency times exp(-barrier/kT) when the event can hop in one of its two directions and zero otherwise; when the rules meant for an event do not look at its endpoints, the reverse hop has the same rate as the forward hop.", "quantifier": "all rule tables, states, events, temperatures", "why_tests_cant": "must hold in every state, also blocked ones", "anchors": ["kmcpy/models/local_barrier_model.py:LocalBarrierModel.compute_probability"]}
{"id": "C55", "title": "Local barrier models survive saving and recall captured values", "statement": "A LocalBarrierModel with a supported rate mode, made and extended by any sequence of public calls, is equal to the model loaded from its dictionary. A model made from captured (event, state, values) entries gives every captured value back in any state with the same contents on the event's sites.", "quantifier": "all models reachable by public calls; all lists of captured entries that are accepted together", "why_tests_cant": "depends on every combination of rule types and optional fields", "anchors": ["kmcpy/models/local_barrier_model.py:LocalBarrierModel.as_dict", "kmcpy/models/local_barrier_model.py:LocalBarrierModel.from_dict", "kmcpy/models/local_barrier_model.py:LocalBarrierModel.from_exact_entries"]}
{"id": "C56", "title": "Chebyshev site functions can express every function of a site's state", "statement": "For a site with n >= 2 states, every assignment of n real numbers to the states is a constant plus a combination of the n-1 functions in ChebyshevBasis.site_basis_values(n), and the coefficients are unique. The occupation basis has this property for two states only.", "quantifier": "every number of states and every real function of the state", "why_tests_cant": "Linear independence for every number of states is a theorem about polynomials, not a finite check.", "anchors": ["kmcpy/structure/basis.py:ChebyshevBasis.site_basis_values", "kmcpy/structure/basis.py:BasisFunction.site_basis_values"]}
{"id": "C57", "title": "Reading a structure and writing an occupation are inverse", "statement": "For a lattice structure with distinct template sites, whose allowed species at every site have different names (and at most two per site in the occupation basis), get_structure_from_occ followed by get_occ_from_structure gives the same occupation for every supercell and tolerance. Reading succeeds exactly when every atom is within the tolerance of its nearest site, that site allows it, and no site gets two atoms; the result does not depend on atom order or periodic images; every failure is a ValueError. Atoms read from a structure come back at the ideal positions.", "quantifier": "all template structures with distinct sites, mappings, diagonal supercells, tolerances, occupations and structures", "why_tests_cant": "tests convert a handful of occupations in one cell; the inverse laws range over all cells, structures and displacements", "anchors": ["kmcpy/structure/lattice_structure.py:LatticeStructure.get_occ_from_structure", "kmcpy/structure/lattice_structure.py:LatticeStructure.get_structure_from_occ"]}
{"id": "C58", "title": "The active lattice is the full lattice restricted to active sites", "statement": "get_active_lattice_structure has one site per active index of get_active_site_order, with the species, position and allowed species of the corresponding site in the supercell and with the same basis; distinct sites stay distinct in every supercell.", "quantifier": "all templates, mappings and supercell shapes", "why_tests_cant": "index agreement between two independently built objects must hold for every site of every supercell", "anchors": ["kmcpy/structure/lattice_structure.py:LatticeStructure.get_active_lattice_structure", "kmcpy/structure/lattice_structure.py:LatticeStructure.get_active_site_order", "kmcpy/structure/lattice_structure.py:LatticeStructure.make_supercell"]}
{"id": "C59", "title": "A unique cluster match does not depend on how the candidate is listed", "statement": "For clusters with symmetric distances, whether ClusterMatcher.match succeeds does not depend on the order in which the candidate's sites are listed, and when the match is unique the candidate in reference order (site indices, species, roles, distances) is the same for every listing.", "quantifier": "all references, candidates, tolerances and reorderings of the candidate", "why_tests_cant": "the search order depends on the listing; the claim ranges over all permutations of all clusters", "anchors": ["kmcpy/structure/cluster.py:ClusterMatcher.match", "kmcpy/structure/cluster.py:ClusterMatch.ordered_candidate_indices"]}
{"id": "C60", "title": "Cluster equality ignores the order of sites", "statement": "Two clusters compare equal exactly when some bijection of their sites keeps species and roles and keeps all distances within the default tolerances; every cluster equals itself and each of its reorderings.", "quantifier": "all pairs of clusters with symmetric distances", "why_tests_cant": "a statement about all permutations of all clusters", "anchors": ["kmcpy/structure/cluster.py:Cluster.__eq__", "kmcpy/structure/cluster.py:ClusterMatcher.match"]}
{"id": "C61", "title": "Endpoint pairs of different environments are different", "statement": "enumerate_neb_endpoint_pairs returns one pair per enumerated environment, each with the environment's values away from the hop, and no two pairs are equal, provided the hop's two sites are not among the variable sites.", "quantifier": "all lattices, local environments, count requests, limits and hops", "why_tests_cant": "a statement about all pairs of results of all enumerations", "anchors": ["kmcpy/structure/local_environment_enumerator.py:enumerate_neb_endpoint_pairs"]}
{"id": "C62", "title": "Event generation returns exactly the possible hops", "statement": "For a request whose shape, mobile species, active sites and cutoffs make sense, generate_events succeeds exactly when some selected site has a target neighbour within the cutoff and, unless the nearest order is allowed, all neighbourhoods of equal composition have the same shape; the events are then exactly the hops from every copy of a selected site to each target site among its neighbours within the cutoff, with that neighbourhood as environment.", "quantifier": "all labelled primitive cells with distinct local indices, mappings, identifiers, shapes, cutoffs, tolerances and neighbour searches", "why_tests_cant": "a statement about all structures and supercell shapes; tests use a few crystals", "anchors": ["kmcpy/event/generators.py:EventGenerator.generate_events"]}
{"id": "C63", "title": "Event indices are active-site indices", "statement": "The library returned by generate_events carries the order of the active sites of the requested supercell; every index in an event is the position, in that order's active structure, of the site and cell it stands for; its dependencies and site index are complete.", "quantifier": "all successful event generations", "why_tests_cant": "the agreement of two independent numberings for every supercell", "anchors": ["kmcpy/event/generators.py:EventGenerator.generate_events", "kmcpy/structure/active_site_order.py:ActiveSiteOrder.active_structure"]}
{"id": "C64", "title": "Events are invariant under lattice translations", "statement": "If an event is generated, then the event obtained by moving all its sites by any lattice translation, periodically, is generated too.", "quantifier": "all successful generations, events and translations", "why_tests_cant": "all translations of all events of all supercells", "anchors": ["kmcpy/event/generators.py:EventGenerator.generate_events", "kmcpy/event/generators.py:normalize_supercell_tuple"]}
{"id": "C65", "title": "Every hop can be undone", "statement": "If hops start and end on the same kind of sites and the neighbour search is symmetric, then for every generated hop the reverse hop is generated.", "quantifier": "all successful generations and events", "why_tests_cant": "all events of all supercells", "anchors": ["kmcpy/event/generators.py:EventGenerator.generate_events"]}
{"id": "C66", "title": "Environments are listed in the order of the reference", "statement": "Environments of equal composition are listed so that they have, position by position, the species and the mutual distances (within the tolerances) of the first of them; if the nearest order is allowed and no order fits, the order of least total deviation.", "quantifier": "all successful generations and selected sites", "why_tests_cant": "the optimal order over all permutations, for every neighbourhood", "anchors": ["kmcpy/event/generators.py:EventGenerator._match_or_register_local_environment", "kmcpy/event/generators.py:EventGenerator.generate_events"]}
{"id": "C67", "title": "Repeated events and self hops", "statement": "The generated events are distinct, and no hop ends where it starts, exactly when no two images in a neighbourhood are the same cell of the supercell.", "quantifier": "all successful generations", "why_tests_cant": "a statement about all supercell shapes and cutoffs", "anchors": ["kmcpy/event/generators.py:EventGenerator.generate_events"]}
{"id": "C68", "title": "Configurations survive their dictionary and file forms", "statement": "A configuration written to a dictionary, a JSON or YAML file, or a section of a YAML workflow file can be read back. The copy has the same values, except that the supercell shape is a list and that file paths that were left out are empty. Other sections of the file are kept, and a file with several sections or tasks is read from the section and task asked for. A second round changes nothing.", "quantifier": "all valid configurations, formats, sections, task types other than 'type' and contents of an existing file", "why_tests_cant": "unbounded field values and existing file contents", "anchors": ["kmcpy/simulator/config.py:Configuration.as_dict", "kmcpy/simulator/config.py:Configuration.from_dict", "kmcpy/simulator/config.py:Configuration.to", "kmcpy/simulator/config.py:Configuration.from_file", "kmcpy/simulator/config.py:_extract_section_data"]}
{"id": "C69", "title": "Changed copies of a configuration", "statement": "with_runtime_changes and with_system_changes accept exactly names of their own section whose new values are valid. The copy has the new values, and every other field is as before.", "quantifier": "all valid configurations and sets of changes", "why_tests_cant": "every combination of fields and values", "anchors": ["kmcpy/simulator/config.py:Configuration.with_runtime_changes", "kmcpy/simulator/config.py:Configuration.with_system_changes"]}
{"id": "C70", "title": "The command line needs an input file", "statement": "Without an input file no combination of command line options starts a simulation, since none of them gives the initial occupations. (False expectation, refuted: every configuration that loads is valid.)", "quantifier": "all command line options and all outcomes of loading the files they name", "why_tests_cant": "all option values and file contents", "anchors": ["kmcpy/cli/run_kmc.py:run_kmc", "kmcpy/simulator/kmc.py:KMC.from_config", "kmcpy/simulator/config.py:Configuration.__init__"]}
{"id": "C71", "title": "A cluster expansion covers exactly the clusters within the cutoffs", "statement": "Building a local cluster expansion succeeds whenever there are three cutoffs and every local site has a known number of states. Its features group exactly the sets of one to four local sites whose pairs are all closer than the cutoff for that size; no set is in two groups; for bases that number the states each group has exactly one feature for every choice of basis functions that all its sites can use.", "quantifier": "all local environments, species, distances, cutoffs, numbers of states and bases", "why_tests_cant": "all geometries and cutoffs; a cutoff test on the wrong side or a lost cluster shows only for some", "anchors": ["kmcpy/models/local_cluster_expansion.py:LocalClusterExpansion.build", "kmcpy/models/local_cluster_expansion.py:LocalClusterExpansion.build_clusters", "kmcpy/models/local_cluster_expansion.py:LocalClusterExpansion._configure_correlation_terms"]}
{"id": "C72", "title": "Orbits are the shapes of the clusters", "statement": "When distances that are not equal differ by more than the comparison tolerance, two clusters belong to the same orbit exactly when some bijection between their sites keeps all species and all distances.", "quantifier": "all local environments with separated distances and all pairs of clusters in the expansion", "why_tests_cant": "all geometries; the comparison is a search over permutations, the grouping depends on the order of the clusters", "anchors": ["kmcpy/models/local_cluster_expansion.py:LocalClusterExpansion.build_orbits", "kmcpy/structure/cluster.py:Cluster.__eq__"]}
{"id": "C73", "title": "Features are sums over clusters of products of site functions, in fitting and in simulation alike", "statement": "For every occupation of a built expansion each feature is defined and is the sum over its clusters of the product of the sites' factors, each taken from the basis functions for that site's own number of states. The features computed from a structure are the features of the codes at the local sites, and compute returns the inner product of these same features with the coefficients plus the constant. A reference environment with another hash or with too few sites is refused.", "quantifier": "all built expansions, occupations, coefficients and reference environments", "why_tests_cant": "all occupations and all numbers of states per site; padding of the value tables must never be read", "anchors": ["kmcpy/models/local_cluster_expansion.py:LocalClusterExpansion.get_corr_from_structure", "kmcpy/models/local_cluster_expansion.py:LocalClusterExpansion._build_site_basis_values", "kmcpy/models/local_cluster_expansion.py:LocalClusterExpansion.compute"]}
{"id": "C74", "title": "Symmetric local environments get the same value", "statement": "A symmetry of the local environment (a permutation of its sites that keeps species, numbers of states and distances) leaves every feature that uses one basis function throughout unchanged; with at most two states per site the value computed for an event does not change. (False expectation, refuted: with three states per site, features that use different basis functions are not symmetric, because the decoration follows the numbering of the sites.)", "quantifier": "all built expansions, symmetries, occupations, coefficients and events", "why_tests_cant": "all symmetries of all geometries and all occupations", "anchors": ["kmcpy/models/local_cluster_expansion.py:LocalClusterExpansion.build", "kmcpy/models/local_cluster_expansion.py:LocalClusterExpansion._configure_correlation_terms", "kmcpy/models/local_cluster_expansion.py:LocalClusterExpansion.compute"]}
{"id": "C75", "title": "Local site orders mean what their name and dictionary say", "statement": "A local site order written as a dictionary reads back as the same order. The names accepted are exactly those of the two known orders. What a dictionary leaves out is taken from the order of the same name, or from the default order. (False expectations, refuted: the text \"false\" for exclude_center_site keeps the centre; a single sort key given as text is used as that key.)", "quantifier": "all orders, names and dictionaries", "why_tests_cant": "all dictionaries, with any choice of entries left out", "anchors": ["kmcpy/structure/local_site_order.py:LocalSiteOrder.from_dict", "kmcpy/structure/local_site_order.py:LocalSiteOrder.as_dict", "kmcpy/structure/local_site_order.py:LocalSiteOrder.resolve"]}
{"id": "C76", "title": "A local environment contains exactly the active sites around its centre", "statement": "A local environment lists each periodic image of an active site within the cutoff of the centre exactly once, without the centre if the order leaves it out, with its active-site number, its species without charge and its position relative to the centre, in the order of the sort keys. Its sites have the states of the active sites, with the codes in the same order, and a cluster expansion can be built from it. The conditions under which it can be made are stated exactly. (False expectations, refuted: only the centre itself is left out, while its periodic images are too; the states agree when two keys of the mapping mean one species.)", "quantifier": "all templates, lattices, mappings, centres, cutoffs, orders and exact neighbour searches", "why_tests_cant": "all geometries and mappings; numbering, periodic images and the cutoff boundary go wrong only for some", "anchors": ["kmcpy/structure/local_lattice_structure.py:LocalLatticeStructure.__init__", "kmcpy/structure/local_site_order.py:LocalSiteOrder.sort_local_env_sites", "kmcpy/structure/active_site_order.py:ActiveSiteOrder"]}
{"id": "C77", "title": "A local environment does not depend on how the crystal is written down", "statement": "When the sort keys tell the sites apart, the environment does not depend on the order in which the neighbour search lists its results, nor on moving the whole crystal or writing sites by other periodic images; its hash is the hash of the species and rounded positions of its sites in order and stays the same. (False expectation, refuted: the default order fixes the order of the sites; it sorts by species only, and two exact searches give different hashes.)", "quantifier": "all pairs of exact searches, all translations and choices of images, all templates and centres", "why_tests_cant": "all orders of search results and all translations", "anchors": ["kmcpy/structure/local_lattice_structure.py:LocalLatticeStructure.__init__", "kmcpy/structure/local_site_order.py:ordered_site_signature", "kmcpy/structure/local_site_order.py:LocalSiteOrder"]}
{"id": "C78", "title": "Matching a local environment with a reference", "statement": "Matching succeeds exactly when some assignment of the sites keeps the species and, within the tolerances, all distances (with find_nearest: when the species agree), and raises ValueError otherwise. The result is the same environment with sites and numbers rearranged together into the order of the reference, with a fresh hash; whenever some assignment fits, the one used fits; when only one fits, the result does not depend on the order in which the environment was listed. Equivalence never raises, is true exactly when an assignment fits, and holds for environments that differ by a rotation or reflection. (False expectation, refuted: an environment matched with the reference is accepted by the model built from it; a rotated one has another hash and is refused.)", "quantifier": "all pairs of environments, tolerances and orders of the sites", "why_tests_cant": "all geometries and permutations", "anchors": ["kmcpy/structure/local_lattice_structure.py:LocalLatticeStructure.match_with_reference", "kmcpy/structure/local_lattice_structure.py:LocalLatticeStructure.is_equivalent_to", "kmcpy/models/local_cluster_expansion.py:LocalClusterExpansion.get_corr_from_structure"]}
{"id": "C79", "title": "A saved composite model computes the same when it is read back", "statement": "A composite model of fitted expansions (with no site model, a fitted expansion, or another model whose class reads what it writes) that is written as a model file can be read from it, and the model that comes back has the same orbits, features in the same order, cluster tables, basis, environment and fit metadata, and gives the same rate for every event in every state at every temperature. Every model whose expansions were built and then given parameters can be written. An expansion written by itself comes back with everything but its parameters, and refuses to compute.", "quantifier": "all expansions, whether built, read from files, or given parameters any number of times; all site models, states, events, attempt frequencies and temperatures", "why_tests_cant": "all models and all histories of saving, loading and setting parameters", "anchors": ["kmcpy/models/composite_lce_model.py:CompositeLCEModel.as_dict", "kmcpy/models/composite_lce_model.py:CompositeLCEModel.from_dict", "kmcpy/models/local_cluster_expansion.py:LocalClusterExpansion.as_dict", "kmcpy/models/local_cluster_expansion.py:LocalClusterExpansion.from_dict", "kmcpy/structure/cluster.py:Orbit.from_dict", "kmcpy/structure/cluster.py:Cluster.from_dict"]}
{"id": "C80", "title": "A model file is accepted only if its parts belong together", "statement": "A composite model file is read only if it is marked as such and every part has an expansion and parameters that belong to it: one number for each feature and, where the file says so, the features and the environment the numbers were fitted for. The fingerprints an expansion file lists are those of its orbits if the file describes its features or lists one for each orbit. (False expectations, refuted: the table of clusters that is summed over is not compared with the orbits, so that two files with the same orbits, fingerprints and parameters compute different values; a list of another number of fingerprints is accepted as it is.)", "quantifier": "all JSON payloads", "why_tests_cant": "all payloads, including damaged and mixed ones", "anchors": ["kmcpy/models/composite_lce_model.py:CompositeLCEModel.from_dict", "kmcpy/models/local_cluster_expansion.py:LocalClusterExpansion.from_dict", "kmcpy/models/local_cluster_expansion.py:LocalClusterExpansion.set_parameters", "kmcpy/models/base.py:require_model_type"]}
{"id": "C81", "title": "A fit returns the best linear model of the features as they were given", "statement": "The coefficients and the constant a fit returns are a linear model of the given features that no other coefficients and constant beat (by more than the solver's tolerance) at half the weighted mean squared error plus alpha times the absolute values of the coefficients, each counted with the spread of its feature when normalize is set and with 1 otherwise; the predictions returned are those of this model. With normalize, a feature that never varies gets no coefficient, the zero of energy changes only the constant, and units and offsets of the features do not change predictions. The leave-one-out score is the root mean square of each point's error under the fit to all other points, without weights. The reported training error is the root mean square of value minus prediction, and zero only for exact predictions. (False expectation, refuted: units do not matter without normalize.)", "quantifier": "all tables of features, energies and weights, all penalties, all solvers that return near-optimal coefficients", "why_tests_cant": "all data sets; optimality is over all real coefficients", "anchors": ["kmcpy/models/fitting/fitter.py:LCEFitter._fit_lasso_values", "kmcpy/models/fitting/fitter.py:LCEFitter._leave_one_out_rmse", "kmcpy/models/fitting/fitter.py:LCEFitter.fit"]}
{"id": "C82", "title": "Fitted parameters and their histories come back from their files", "statement": "A parameter record written to a JSON or YAML file comes back with every value but the local site order and the name, and no other file changes; so does a record of numbers in an HDF5 file, and a history of records keeps its order in JSON, and in HDF5 up to ten records. (False expectations, refuted: fingerprints survive HDF5, where they come back as bytes that every expansion refuses; a history of more than ten records keeps its order in HDF5; saving that fails leaves the old file.)", "quantifier": "all records, histories of any length, file names and contents of the other files", "why_tests_cant": "all records and histories of any length", "anchors": ["kmcpy/models/parameters.py:LCEModelParameters.to", "kmcpy/models/parameters.py:LCEModelParameters.from_file", "kmcpy/models/parameters.py:LCEModelParamHistory.to", "kmcpy/models/parameters.py:LCEModelParamHistory.from_file"]}
{"id": "C83", "title": "A fit leaves its record in every file, and the history has every fit", "statement": "A fit that raises leaves the fitter and all files as they were, if its history file is readable or absent. After a fit that returns, the fitter and the parameter file hold the returned record, with the fingerprints and hash it was given and one coefficient for each fingerprint, the coefficient file has its printed coefficients, the history file has its old records and then the new one, and no other file changed. After any number of fits with one history file it has every record in order. A table with one feature is always refused. A fitter written to a file comes back with its record, and a file of numbered records gives the one with the greatest number. (False expectation, refuted: a fit that raises changes nothing even if its history file is damaged.)", "quantifier": "all file contents, arguments with distinct output files, numbers of fits in a row, results of the regression", "why_tests_cant": "all sequences of fits and all file contents", "anchors": ["kmcpy/models/fitting/fitter.py:LCEFitter.fit", "kmcpy/models/fitting/fitter.py:LCEFitter.to", "kmcpy/models/fitting/fitter.py:LCEFitter.from_file", "kmcpy/models/parameters.py:LCEModelParamHistory.append"]}
{"id": "C84", "title": "A saved site-energy model comes back and answers the same", "statement": "A site-energy model that is written to a file comes back from it with its mappings of sites and states, initial external occupation, size, fill value, dtype, site order, hashes, units, name and keyword arguments; only functions and objects given without a name are lost, and a model without a named energy function then refuses to answer with a RuntimeError. A model given by names gives the same energies, or the same exception, in every simulation. A file whose stored site hash does not match its mapping is refused, two accepted files with the same site hash put every site at the same external position, and a file with a site order is accepted only with its hash and refuses a simulation with another order. (False expectations, refuted: an initial array of Python objects or of wide texts keeps its type; the hashes fix the meaning of the states.)", "quantifier": "all models that can be built, loaded or given a site order; all sequences of questions and accepted events; all payloads", "why_tests_cant": "all models, histories of events and payloads, including edited ones", "anchors": ["kmcpy/models/site_energy.py:SiteEnergyModel.as_dict", "kmcpy/models/site_energy.py:SiteEnergyModel.from_dict", "kmcpy/models/site_energy.py:SiteEnergyModel.to", "kmcpy/models/site_energy.py:SiteEnergyModel.from_file", "kmcpy/models/site_energy.py:SiteEnergyModel._set_active_site_order"]}
{"id": "C85", "title": "A model file is loaded by its own class, and a class keeps its first fitter", "statement": "A file with the format marker is loaded by the class registered for the type it names and refused if that type is not registered; another file that names a class is loaded by that class or, if it cannot be imported, by the class of the package with this name; the type named by the configuration matters only for files that say neither. So the files of composite models, cluster expansions, barrier tables and site-energy models are loaded by their own class from every configuration. The fitter of a class is the first one registered for it, whatever is registered later; a class without one has that of the nearest class it derives from; registering a class changes no class that does not derive from it. (False expectations, refuted: what is loaded is always a model; a class derived from the composite model is kept.)", "quantifier": "all files, configurations, sets of importable classes, sequences of registrations and class hierarchies", "why_tests_cant": "all payloads, worlds of importable classes and registration histories", "anchors": ["kmcpy/models/base.py:BaseModel.from_config", "kmcpy/io/registry.py:MODEL_CLASS_REGISTRY", "kmcpy/models/fitting/registry.py:register_fitter", "kmcpy/models/fitting/registry.py:get_fitter_for_model", "kmcpy/models/base.py:BaseModel.get_fitter_class"]}
{"id": "C86", "title": "The tables of NEB data belong together", "statement": "After any calls that add structures to a loader, of which any number may raise, its tables of correlations, occupations and property values have the same rows in the same order, each computed from one structure and with its own value, and all rows have the same lengths. Adding a structure appends its row, or changes nothing if it raises; adding several appends those before the first refused one. The data file lists these rows, and the input files written for a fit give it exactly these features, values and weights and change no other file; with one structure they are refused by every fit. A row from a file records the file's path in its metadata unless the metadata name one; exclude_species is always refused. (False expectations, refuted: adding several structures or writing inputs that raises changes nothing; an entry object given again leaves its first row alone; all rows come from one model.)", "quantifier": "all sequences of additions, structures, models, references, metadata, weights and file contents", "why_tests_cant": "all histories of calls, including failed ones, and all models", "anchors": ["kmcpy/io/neb/data.py:NEBDataLoader.add", "kmcpy/io/neb/data.py:NEBDataLoader.add_structures", "kmcpy/io/neb/data.py:NEBDataLoader.from_structures", "kmcpy/io/neb/data.py:NEBDataLoader.to", "kmcpy/io/neb/data.py:NEBDataLoader.write_fitting_inputs"]}
{"id": "C87", "title": "Result files are those of the last run with their label", "statement": "Two result files have the same name only if they are the same kind of file of runs with the same label and, for displacements, hop counters and occupations, the same pass, whatever underscores and digits the labels contain. After any number of runs, of which any may raise while writing, each file has what the last run that wrote it left there and no other file has changed. A run that returns has written its trajectory, its summary columns and units and, if there are records, every record with name, step, time and value, property by property in order; values made of JSON types with text keys are kept as they are. (False expectations, refuted: the property file beside the results belongs to the same run; a dictionary with keys written alike keeps all values; writing that raises changes nothing.)", "quantifier": "all labels, passes, sequences of runs and their data, callback values and earlier file contents", "why_tests_cant": "all sequences of runs and all labels", "anchors": ["kmcpy/simulator/results.py:write_tracker_results", "kmcpy/simulator/tracker.py:Tracker.write_results"]}
{"id": "C88", "title": "Structures read from CIF files are the crystals the files describe", "statement": "If the operations of the block are those of a space group, the site tolerance does not confuse images of different positions, equivalent positions are written with the same coordinates and none is over-filled, a labelled structure is read and its sites are exactly the images of the written positions: one site for each image, inside the cell, no two at one position, in the order in which positions are first written and numbered from zero in each orbit and over the file. Every site carries the labels of the rows at its position, one after the other, and their amounts of each species, divided by their sum if that is above one and within the occupancy tolerance. Every operation maps every site to a site with the same label and composition. Label and number name one site if the labels of different positions differ. Sorting keeps the sites. Of several blocks the first readable one is loaded, and it is a ValueError if none is. Not true, and shown by counterexamples: that a position may be shared by rows with equivalent coordinates (KeyError, then 'Invalid cif file'), that label and number always name a site, that the numbers are the same for every order of the operations, that the recorded place in the file is the place in the sorted structure, and that a damaged first block is reported as an error. Magnetic files can never be read.", "quantifier": "all operations forming a space group, rows, tolerances, blocks, species orders and primitive-cell functions", "why_tests_cant": "all groups, all rows and all tolerances", "anchors": ["kmcpy/io/cif.py:_LabeledCifParser", "kmcpy/io/cif.py:load_labeled_structure_from_cif"]}
{"id": "C89", "title": "Neighbour lists hold exactly the copies within the cutoffs, and hold both ways", "statement": "For fixed cutoffs the neighbours of a site are exactly the periodic copies, other than the site itself, whose distance is below the cutoff of the two species; for ranges, those whose distance lies strictly between the two bounds. The cutoff of a pair of species is that of the last entry that names it, in either order, and pairs that are not named have no neighbours. Each copy is listed once, with its distance and with the label, number and index of the site it copies. A copy of one site is a neighbour of another exactly if the opposite copy of the other is a neighbour of the first. The search always returns if every site has the metadata that some site has. Not true, and shown by counterexamples: that it always returns, and that the cutoff given for a pair is the one used. No preset of ranges can be loaded, because the file of the only known one is not part of the package.", "quantifier": "all structures with their distances, all cutoff tables and all sites", "why_tests_cant": "all crystals and all tables of cutoffs", "anchors": ["kmcpy/structure/neighbors.py:get_cutoff_neighbor_info", "kmcpy/structure/neighbors.py:get_range_cutoff_neighbor_info", "kmcpy/structure/neighbors.py:prepare_range_cutoff_neighbor_lookup", "kmcpy/structure/neighbors.py:prepare_range_cutoff_neighbor_lookup_from_preset"]}
{"id": "C90", "title": "Configured callbacks are the functions they name, and the run samples what is configured", "statement": "A reference 'module:a.b' or 'module.a' names one module and one chain of attributes, and resolving it gives the callable found along this chain or raises; 'm:f' and 'm.f' mean the same; references of site-energy models mean the same and are also refused if a part is empty. A run made from a configuration that passed validation has exactly the configured sampling intervals, the configured built-in fields switched on or off and the others on, and one attached property for each callback entry, in order, with the function, name, intervals, storing, limit and switch of the entry; it can be made exactly if all references resolve and the names are distinct and not built-in. (False expectations, refuted: 'm:C.f' can be written 'm.C.f'; a validated configuration whose references resolve can always be run.)", "quantifier": "all references, sets of importable modules and objects, and all validated configurations", "why_tests_cant": "all texts, worlds of modules and configurations", "anchors": ["kmcpy/simulator/kmc.py:KMC._resolve_callback_reference", "kmcpy/simulator/kmc.py:KMC._configure_properties_from_runtime_config", "kmcpy/models/site_energy.py:resolve_callable_reference"]}
{"id": "C91", "title": "Energy functions receive the keywords they take", "statement": "The function of a site-energy model that computes energies is called exactly if it takes every keyword given by the user and every parameter it requires is among the standard or user keywords; it then receives the keywords it takes and no others, with the value of the user where there is one and the standard one otherwise. The function that applies an event receives all standard and user keywords and must take all of them, none given twice; keywords that work for applying work for computing. (False expectations, refuted: a function that can compute can also apply; the energy function always sees the event of the step.)", "quantifier": "all signatures of functions, standard and user keywords", "why_tests_cant": "all signatures and all keywords", "anchors": ["kmcpy/models/site_energy.py:_call_with_supported_keywords", "kmcpy/models/site_energy.py:SiteEnergyModel.compute", "kmcpy/models/site_energy.py:SiteEnergyModel.apply_event"]}
{"id": "C92", "title": "kmcpy init writes a template that loads, and never damages files", "statement": "A successful 'kmcpy init' puts the template at the requested path, makes the directories that lead to it and changes nothing else on disk; it succeeds exactly if no file is in the way of the directories, no directory has the name, and no file has it unless overwriting is asked for; a call that raises has changed nothing, and without force an existing file is kept and FileExistsError is raised. A template written under a YAML name can be loaded as a Configuration with exactly the values it shows: every field of the two sections, the defaults except for the three paths and the site mapping. With other values in the same places the file is accepted exactly if the values are valid, and the configuration has these values; file names typed over the placeholders arrive unchanged. (False expectations, refuted: a template written under any name can be loaded; filling in the file paths marked as required is enough to run: such an input never starts a simulation.)", "quantifier": "all file systems, output paths, force flags, field values and file names of visible characters", "why_tests_cant": "all directory trees and all values", "anchors": ["kmcpy/cli/init.py:write_template", "kmcpy/cli/init.py:build_template", "kmcpy/cli/main.py:main", "kmcpy/simulator/config.py:Configuration.from_file", "kmcpy/simulator/kmc.py:KMC.from_config"]}
{"id": "C93", "title": "The graphical interface starts what was entered", "statement": "A simulation started by the form of the graphical interface has, in every field of its configuration, the value of the entry that belongs to it (model, structure, event and state files, temperature, passes, charge, hop distance, dimension, seed, frequency, replication factors, mapping, primitive cell), and the default where there is no entry; it is started in the working directory, and it is started exactly if the directory can be entered, the numbers are acceptable, the replication factors are three integers and the mapping can be evaluated. Entries for fitting results, the site model, the structure index and the composition have no effect. An event library is generated with exactly what was entered; of several cutoffs for one pair the last counts. The commands for cluster expansions and for fitting, no command, and any command without Gooey, always raise and do nothing. (False expectations, refuted: the mobile ion is one of the mapping, since it is always Li; spaces after the commas of the cutoffs are harmless; a final semicolon is harmless.)", "quantifier": "all values of the forms and all behaviours of the number and literal parsers, of changing directory, of the generator and of the simulation", "why_tests_cant": "all forms", "anchors": ["kmcpy/cli/gui_wrapper.py:main"]}
{"id": "C94", "title": "Gathered tables hold every run under its own labels", "statement": "Gathering result files named stem_composition_number.csv.gz gives a table with the rows of every file, file after file, in which each row has its own data, its number within its own file as the pass, and the composition and number of its own file. A file name with fewer than three parts, such as that of a run without a label, makes the gathering fail, as does finding no file. Gathering Monte Carlo directories gives one row for each directory with the labels of its own name and the occupation of its own final structure, ordered by composition and number. The occupation has one entry for each template site, -1 exactly where the final structure has the same species up to lattice vectors and 1 elsewhere, provided sites coincide or are apart and no symbol is a proper part of another. (False expectations, refuted: labels are those of the file name, since underscores in a directory shift them; labels tell runs apart; agreement of species without the condition on symbols.)", "quantifier": "all lists of files, tables, structures, templates and parsers", "why_tests_cant": "all collections of runs and all structures", "anchors": ["kmcpy/tools/gather_kmc_data.py:gather_data", "kmcpy/tools/gather_mc_data.py:gather_data", "kmcpy/tools/gather_mc_data.py:get_occ"]}
{"id": "C95", "title": "The attempt frequency only sets the clock", "statement": "Two simulations from the same state, events, models, temperature and random numbers whose attempt frequencies differ by a factor a take the same events: after any number of passes they have the same occupations, steps, model state, displacements, hop counts and samples (of quantities that do not look at the clock), or fail with the same exception; the rates are a times as large and the elapsed time is divided by a.", "quantifier": "all positive factors, initial states, event libraries, models, random numbers, numbers of passes and sampled quantities that do not use the clock", "why_tests_cant": "all runs of any length", "anchors": ["kmcpy/simulator/kmc.py:KMC.run", "kmcpy/simulator/kmc.py:KMC.update", "kmcpy/simulator/kmc.py:KMC.propose", "kmcpy/models/composite_lce_model.py:CompositeLCEModel.compute_probability", "kmcpy/simulator/tracker.py:Tracker.update"]}
{"id": "C96", "title": "The simulation samples the Boltzmann distribution", "statement": "In a step the next state is t with probability (sum of the rates of the events that lead to t) / (sum of all rates). If, for an energy H of the states, every hop and its way back lead over the same energy (H plus the barrier of the hop), which is so when the site energy model gives differences of H and the cluster expansions do not look at the endpoints of the hop, then the Boltzmann distribution of H at the temperature of the simulation is stationary on every closed finite set of states: the weighted rate into each state equals the weighted rate out of it, and the visits of steps, weighted with the total rate, are stationary too. Each path of states is then as frequent as the reversed path, and if all states can be reached from each other no other distribution is stationary. Without a site energy model, and with such barriers, all arrangements of the ions on the sites are equally likely.", "quantifier": "all event libraries of proper events, models, temperatures, attempt frequencies and closed sets of states", "why_tests_cant": "all sets of states and events; a statement about probabilities", "anchors": ["kmcpy/simulator/kmc.py:KMC.propose", "kmcpy/models/composite_lce_model.py:CompositeLCEModel.compute_probability", "kmcpy/event/base.py:Event"]}
{"id": "C97", "title": "Equivalent hops have equal rates", "statement": "With local cluster expansions, two events whose endpoints and environments are occupied alike, in the order of the event, have the same rate; in particular the image of an event under a lattice translation of the supercell has, in the translated state, the same rate, and performing it gives the translation of the state that performing the original gives.", "quantifier": "all models, states, events, supercells and lattice translations", "why_tests_cant": "all states and all translations", "anchors": ["kmcpy/models/composite_lce_model.py:CompositeLCEModel.compute_probability", "kmcpy/models/local_cluster_expansion.py:LocalClusterExpansion.compute", "kmcpy/simulator/state.py:State.apply_event"]}
{"id": "C98", "title": "Generated events see their own target", "statement": "Every generated event lists the site it leads to in its own local environment, and no negative site; between different sites with agreeing codes it is an event in the sense of the statements about equilibrium. A model whose clusters contain that position therefore sees different occupations before and after the hop: a library of generated events and a barrier model exist for which, without site energies, the hops from one state to another are not as fast as the hops back.", "quantifier": "all requests for events, structures and neighbour searches", "why_tests_cant": "all structures, cutoffs and supercells", "anchors": ["kmcpy/event/generators.py:EventGenerator.generate_events", "kmcpy/models/composite_lce_model.py:CompositeLCEModel.compute_probability", "kmcpy/models/local_cluster_expansion.py:LocalClusterExpansion.compute"]}
{"id": "C99", "title": "Rules added to a table take the cases that are left", "statement": "A rule added to a local barrier model by one of the four helpers is accepted exactly if it is proper: an exact rule has a mobile ion, one nonnegative state for every distinct site and no twin in the table; a count rule has either an exact number or a range, nonnegative; a pattern is not empty; and in all cases some value is given, every value is a number and no property name is empty. It is then the last rule of the table, has the given sites, states, bounds and values (an entry barrier of the properties goes before the barrier argument) and the given name, or rule_n for the n-th if none is given; the name is returned. Otherwise an exception is raised and the model is as before. The new rule changes the answer only for events and states for which no earlier rule holds and it does. Rules given to the constructor are the same as rules added one after another.", "quantifier": "all models that can be built, all arguments, states and events", "why_tests_cant": "all tables and all sequences of additions", "anchors": ["kmcpy/models/local_barrier_model.py:LocalBarrierModel.add_rule", "kmcpy/models/local_barrier_model.py:LocalBarrierModel.add_exact_rule", "kmcpy/models/local_barrier_model.py:LocalBarrierModel.add_state_count_rule", "kmcpy/models/local_barrier_model.py:LocalBarrierModel.add_species_count_rule", "kmcpy/models/local_barrier_model.py:LocalBarrierModel.add_pattern_rule"]}
{"id": "C100", "title": "Building a rule table again starts afresh", "statement": "build with all arguments gives the model that the constructor makes from them, whatever the table was before. An argument left out keeps what the model had, except that the rules are removed, and a default barrier is set only if the model had none. (False expectations, refuted: a refused build leaves the table as it was; build(default_barrier=x) makes x the default barrier; build refuses the values that the constructor refuses; a model can be saved and loaded after a refused build as before.)", "quantifier": "all models and all arguments", "why_tests_cant": "all histories of a model object", "anchors": ["kmcpy/models/local_barrier_model.py:LocalBarrierModel.build", "kmcpy/models/local_barrier_model.py:LocalBarrierModel.__init__"]}
{"id": "C101", "title": "Enumeration by a transformation gives what the transformation answers", "statement": "With a transformation, enumerate_local_environments gives it one structure, with the permitted atoms of every variable site in equal parts (the vacancy counted among the parts) and the base elsewhere, and asks for max_results structures, or for the number given. Its answers are read in order: one that does not have the required counts is passed over, every other gives one result with the occupation it reads as, the species of the variable sites and its metadata, until max_results. If the answers are orderings of the structure given, every result is one of the exhaustive enumeration, and with all orderings and a limit that is not reached, all of those are found. A variable site where only the vacancy is permitted is refused, and an answer that cannot be read, reached before the limit, ends the call with an exception. (False expectations, refuted: sites that are not variable keep the base whatever the transformation answers; species that are not permitted are rejected; an answer in a supercell is rejected.)", "quantifier": "all lattices, arguments and transformations", "why_tests_cant": "all transformations and all answers", "anchors": ["kmcpy/structure/local_environment_enumerator.py:enumerate_local_environments", "kmcpy/structure/local_environment_enumerator.py:_enumerate_with_transformation", "kmcpy/structure/local_environment_enumerator.py:_build_disordered_structure"]}
{"id": "C102", "title": "Measuring and pass settings leave the trajectory alone", "statement": "Two completed runs of the same object with the same random numbers end in the same engine state, clock included, and with the same site, displacement and hop count for every ion, whatever properties are attached, enabled or scheduled and whatever their callbacks do to the property settings; a run that completes with callbacks also completes without them. A longer run passes through the shorter one: the shorter run completes, and its table and its callback calls are the beginning of those of the longer run. Equilibration passes move the ions, and count steps, exactly as production passes with the same random numbers do; only the clock stays.", "quantifier": "all engines, models, selections, structures, pass counts, random numbers, property settings, callbacks and error handlers", "why_tests_cant": "all random sequences, run lengths and callback behaviours", "anchors": ["kmcpy/simulator/kmc.py:KMC.run", "kmcpy/simulator/tracker.py:Tracker.sample_properties", "kmcpy/simulator/tracker.py:Tracker.update"]}
{"id": "C103", "title": "Every call of run starts its random numbers again", "statement": "Without a seed, a second call whose random numbers go on where those of the first stopped, without equilibration, leaves the engine, clock included, as one call of all the passes does, and the hops counted by the two trackers add up to those of the one. With a seed, calls that start from the same configuration give the same trajectory, whatever the time and step then are; so once a seeded call ends in the configuration it started from, all further calls repeat it. (False expectation, refuted: with a seed, two calls of one pass end where one call of two passes ends.)", "quantifier": "all engines, models, seeds and generators, any number of calls", "why_tests_cant": "all histories of calls and all random sequences", "anchors": ["kmcpy/simulator/kmc.py:KMC.run", "kmcpy/simulator/kmc.py:_propose"]}
{"id": "C104", "title": "Simulations that share a model object", "statement": "Several simulations may be built on one model object and advanced in any order. If the model remembers nothing between calls - the local barrier model, and the composite model without an external site-energy model - every simulation ends with the state, clock and rates it has alone with a model object of its own. A composite model with an external site-energy model that is told of no accepted events can be used for one simulation after another: the last one, the model's remembered occupation included, is what it is with a new model object. (False expectations, refuted: two simulations on one external site-energy model can be advanced in turn; a model whose evaluator follows accepted events can be used again for a second simulation.)", "quantifier": "all models, event libraries, states and sequences of constructions and steps of any number of simulations", "why_tests_cant": "all interleavings of the steps of all simulations", "anchors": ["kmcpy/simulator/kmc.py:KMC.__init__", "kmcpy/simulator/kmc.py:KMC._initialize_model_state", "kmcpy/simulator/kmc.py:KMC._apply_model_event", "kmcpy/models/site_energy.py:SiteEnergyModel.initialize_state", "kmcpy/models/composite_lce_model.py:CompositeLCEModel.initialize_state"]}
{"id": "C105", "title": "A site-energy model object through any sequence of calls", "statement": "A site-energy model object is initialised, asked for energies and told of events in any order, by any number of simulations, and some of these calls raise. Once it is bound to an active-site order it stays bound; another order is refused and the refusal changes nothing; nothing but a given order binds it. An initialisation that is accepted forgets the history: all but the evaluator is as on a new object. An object that was never initialised is initialised by its first use. (False expectations, refuted: an initialisation refused for the number of sites does not bind the object; an initialisation that raises leaves a simulation already using the object undisturbed.)", "quantifier": "all settings, user functions, states, event lists and sequences of calls, with exceptions at any of their steps", "why_tests_cant": "all histories of calls and all points at which a call can raise", "anchors": ["kmcpy/models/site_energy.py:SiteEnergyModel.initialize_state", "kmcpy/models/site_energy.py:SiteEnergyModel.compute", "kmcpy/models/site_energy.py:SiteEnergyModel.apply_event", "kmcpy/models/site_energy.py:SiteEnergyModel._set_active_site_order", "kmcpy/models/site_energy.py:SiteEnergyModel._ensure_initialized"]}
{"id": "C106", "title": "The list of property calculations tells what a run measures", "statement": "At any time, list_property_calculations names every built-in field and every attached callback exactly once, as enabled or as disabled, and the simulation and the tracker of its current run give the same lists. set_property_enabled moves the named property and no other. Over any further sampling points the callbacks listed as enabled are called at their due points and those listed as disabled never, and the rows hold computed values for the fields listed as enabled and NaN for the others. The tracker's current values can be read once there is a row, and right after a row is added they are the values of that row, even if a callback fails.", "quantifier": "all histories of control calls, runs and sampling points, all callbacks (for the calls: callbacks that make no control calls)", "why_tests_cant": "all histories of calls and sampling points", "anchors": ["kmcpy/simulator/property.py:describe_property_calculations", "kmcpy/simulator/kmc.py:KMC.list_property_calculations", "kmcpy/simulator/kmc.py:KMC.set_property_enabled", "kmcpy/simulator/tracker.py:Tracker.list_property_calculations", "kmcpy/simulator/tracker.py:Tracker.return_current_info"]}
{"id": "C107", "title": "Random occupations", "statement": "Occupation.random(n, basis, fill_fraction, seed) gives n valid values of the basis; one number is drawn for each site in turn, and the site is occupied if its number is less than the fill fraction, else vacant. A fraction of zero or less gives the all-vacant occupation, one of one or more the fully occupied one, whatever is drawn. With a seed the answer does not depend on what was drawn before; from the same numbers a larger fraction only adds atoms, and the occupation in another basis is the conversion of the first. Unseeded calls one after another give together what one call for all the sites gives. Only a seed out of range, a negative number of sites and an unknown basis name are refused, always with a ValueError. (False expectations, refuted: a seeded call does not disturb later unseeded ones; a refused call draws nothing; exactly the given fraction of the sites is occupied.)", "quantifier": "all numbers of sites, bases, fractions, seeds, generators of numbers in [0,1) and generator states", "why_tests_cant": "all generators and all histories of draws", "anchors": ["kmcpy/structure/basis.py:Occupation.random", "kmcpy/structure/basis.py:Occupation.zeros", "kmcpy/structure/basis.py:Occupation.ones", "kmcpy/structure/basis.py:Occupation.to_basis"]}
{"id": "C108", "title": "Options given as Python text", "statement": "A supercell shape given on the command line is accepted exactly if the value lists three elements Python's int accepts - a list or tuple, its Python text, or pieces separated by commas when the text is no Python - and is then these three integers; a site mapping is accepted exactly if it is a dictionary or the text of one. The program reads both options twice and the second reading changes nothing. A value that is not accepted is reported as a wrong option, but for an infinite number in the shape and for texts on which literal_eval raises something unusual. (False expectations, refuted: a fraction in the shape is refused; every wrong shape is reported as a wrong option; the reading of the option makes sure that the shape is positive.)", "quantifier": "all option values, texts and readings of texts by ast.literal_eval", "why_tests_cant": "all texts a user can write", "anchors": ["kmcpy/cli/run_kmc.py:_parse_sequence", "kmcpy/cli/run_kmc.py:_parse_supercell_shape", "kmcpy/cli/run_kmc.py:_parse_mapping", "kmcpy/cli/run_kmc.py:run_kmc"]}
{"id": "C109", "title": "The report after a pass", "statement": "After any history of property calls, runs and sampling, the report logged at the end of a pass does not fail. With nothing sampled it says so; otherwise its lines are the pass number, the last row of the result table field by field with the units of the fields, and one line per attached property in the order of attachment. The line of an attached property shows the value of its last successful sample whatever max_records is, what it showed before when it is disabled or does not store, and NaN when there is none. Two lines can have the same name: a callback may be called 'time'.", "quantifier": "all histories of property calls, runs and sampling points, pass numbers, callbacks, schedules and record limits", "why_tests_cant": "the report reads seven columns and the record lists without a check, so it must not meet a short column or a missing list after any history of attaching, detaching and sampling", "anchors": ["kmcpy/simulator/tracker.py: Tracker.show_current_info, Tracker._latest_property_value, RESULT_UNITS", "kmcpy/simulator/results.py: format_tracker_summary, SUMMARY_FIELDS", "kmcpy/units.py: UNIT_CONVENTIONS, TRANSPORT_PROPERTY_UNITS"]}
