# Design: a Rocq model of kMCpy

This directory holds a machine-checked model of the kMCpy source in `/repo`, written in
Coq 8.16.1, and the theorems proved about it. `properties.jsonl` lists the properties,
`MANIFEST.json` says which theorem establishes which property, `seeded/LOG.jsonl` records
the mutation tests.

## Method

* The code is modelled function by function as small total Gallina functions. Exceptions are
  values: a function that may raise returns `Ok x` or `Err e` (`Py.v`). An index out of range,
  an unpacking of the wrong length, or a missing dictionary key is an `Err`, never a default.
* Python lists and numpy arrays are Coq lists. A Python dict is an association list in insertion
  order, with update in place and append of new keys. Objects that are mutated become values that
  are returned.
* Loops are structural recursion or folds. A `while` loop is recursion on fuel, with the fuel shown
  to suffice or the exhaustion visible as an error.
* Rates, times and energies: the engine is polymorphic in the number type (it only stores, adds and
  compares numbers through the functions it is given), so its theorems hold for real numbers and for
  floating-point numbers alike. Theorems that need arithmetic are stated over the reals
  (`Coq.Reals`), over rationals, or over IEEE binary64 (Flocq's `binary_float 53 1024`).
* Files come in groups: `XModel.v` (definitions only, each citing the source lines), `XSpec.v`
  (small independent vocabulary used in the statements), `XProofs.v` (lemmas), `XProps.v` (property
  theorems only: each closed by `exact`, followed by `Print Assumptions`, with `Example`s showing
  that its hypotheses are met by a concrete case).
* A property that the faithful model violates is stated as `..._refuted`, with a witness.

## Per property: what is modelled and how it is proved

| id | model | proof |
|----|-------|-------|
| C01 | `EventModel`: sort, two-pointer intersection, double loop | two-pointer scan = non-empty intersection on sorted lists (induction on the sum of lengths), filter characterisation |
| C02 | `EventModel.add_event` with an insertion-ordered dict | invariant over the list of added events |
| C03 | payload records for `as_dict`/`from_dict`, decimal string keys | round trip by list induction, number/string inverse |
| C04 | library operations as an `op` type with a `step` function | invariant: matrix = exact matrix of the prefix present at last generation; refutation by computation |
| C05 | `KmcModel`: construction, `update`, history fold, generic model; `LceModel`/`CompositeModel` instance | invariant over histories, using C01 and locality of the rate function (proved for the composite model) |
| C06 | same, with the violating libraries/models | concrete witnesses by computation |
| C07 | `cumsum` | list induction, invariant |
| C08 C09 | `ProposeModel` over the reals | searchsorted on a non-decreasing list |
| C10 | `FloatModel` over Flocq binary64 | monotonicity of rounding, exactness of x/x and x+0 |
| C11 | waiting time over the reals with `ln` | analysis with stdlib `Reals` |
| C12 C13 C14 | `StateModel`, `KmcModel.run` | induction over the event history; counting |
| C15 C16 | `CompositeModel` over the reals with `exp` | case analysis, `exp` laws |
| C17 | composition of engine, selection and composite model | corollary of C05, C08, C15 |
| C18 C19 C20 | `TrackerModel` run together with the state | invariant over histories |
| C21 C22 | rational coordinates, `np.round` half-to-even | arithmetic on Q, induction |
| C23 C24 C25 C26 C28 | `PropertyModel`: schedule, sampling loop with an oracle for callbacks | induction over the sequence of sampling points |
| C27 C29 | `PropertyModel`: the KMC/plan/tracker controls as an `op`/`step` machine | invariant over call sequences |
| C30 C31 C32 C33 | `ActiveSiteModel`, `StateModel` payloads | list induction, division arithmetic, round trip |
| C34 | `HopModel` | last-match scan characterisation |
| C35 C36 C37 | `SiteEnergyModel` | refinement: incremental cache = rebuilt cache; dense table = dict |
| C38 C39 C40 | `LceModel` | equality with a sum/product specification; grouping invariant; validation cases |
| C41 | `LocalBarrierModel` | decision rules, uniqueness of canonical keys |
| C42 | `BasisModel` | finite case analysis and list maps |
| C43 C44 | `MatcherModel` | backtracking search enumerates exactly the valid permutations in order |
| C45 C46 | `EnumModel` | the product of the choices is duplicate-free and exhaustive; an assignment is read off the values; the endpoint lists are compared position by position |
| C47 | `GeneratorModel` | modular arithmetic |
| C48 | `ConfigModel` | key routing over association lists; each check characterised as an equivalence |
| C49 | `TransportModel` over Q | field arithmetic; Cauchy-Schwarz for the correlation factor |
| C50 | `RunModel`: engine, tracker and sampling composed | induction over the run |
| C51 C52 | `SiteEnergyModel` plugged into `CompositeModel` and the engine | invariant: incremental cache equals a rebuilt one; hash and mapping checks |
| C53 C54 C55 | `LocalBarrierModel` | locality of the rule scan, Arrhenius form, payload round trip |
| C56 | `BasisModel` site functions over the reals | Vandermonde determinant / explicit interpolation |
| C57 C58 | `LatticeModel` | minimum-image distances, nearest-site scan, division arithmetic |
| C59 C60 | `MatcherModel` | uniqueness of the fitting permutation; equality as existence of a fit |
| C61 | `EnumModel` | environments differing away from the hop give different endpoints |
| C62 | `GeneratorModel` | loop invariant of the reference/environment fold; sets of events by list comprehension lemmas |
| C63 | `GeneratorModel` with `ActiveSiteModel` | both numberings equal one closed formula |
| C64 | `GeneratorModel` | periodicity of the closed formula |
| C65 | `GeneratorModel` | symmetric search, periodicity |
| C66 | `GeneratorModel` with `MatcherModel` | soundness and optimality of matching lifted through the fold |
| C67 | `GeneratorModel` | injectivity of the closed formula modulo the shape |
| C68 | `ConfigModel` | dictionary forms as maps over the fixed list of fields; validity is preserved by the change of form |
| C69 | `ConfigModel` | as C48 with an instance as starting point |
| C70 | `ConfigModel` | the options cannot set the initial state; loading is a parameter |
| C71 | `BuildModel` | sublists of the site list, cutoff filter, product of the basis functions |
| C72 | `BuildModel` | orbit grouping as first match; equality test is congruence when distances are separated |
| C73 | `BuildModel` | every table entry read is inside the unpadded block; values as sums of products |
| C74 | `BuildModel` | a symmetry permutes every orbit (injective self-map of a finite set), sums are reordered |
| C75 | `LocalEnvModel` | dictionary lookups in the two builtin orders |
| C76 | `LocalEnvModel` with `ActiveSiteModel`, `LatticeModel` | closed form of the constructor; filter of an exact search, stable sorting |
| C77 | `LocalEnvModel` | two sorted lists with the same elements and a strict order are equal; translation invariance of relative positions |
| C78 | `LocalEnvModel` with `MatcherModel` | an environment is a cluster; matching theorems of C43, C44, C59 carried over |
| C79 | `LceFileModel` (`lce_as_dict`, `lce_from_dict`, `composite_as_dict`, `composite_from_dict`, `build_obj`) | invariant of every object that can arise (built, loaded, given parameters), kept by each step; the dictionary form read back attribute by attribute; equal views give equal rates |
| C80 | `LceFileModel` (`reconcile`, `file_set_parameters`, `validate_dict`) | inversion of an accepted payload; concrete payloads for the refutations |
| C81 | `FitModel` (`fit_lasso_values`, `leave_one_out_rmse`) over the reals, Lasso a parameter | the error splits into the centred error and a square in the constant; scaling coefficients back keeps error and penalty; an exact one-column solver proves the hypothesis can be met |
| C82 | `ParamModel` (`params_to`, `params_from_file`, `history_to`, `history_from_file`) | the dictionary of a record read back key by key; induction over the groups of an HDF5 history; concrete records for the refutations |
| C83 | `FitFilesModel` (`fit`, `fits`, `update_history`, `extract_record`) | step by step through the files written, which are distinct; induction over the fits |
| C84 | `SiteFileModel` (`new_object`, `object_as_dict`, `from_payload`, `set_order`, `session`) | reachable models keep the forms that the file stores; the payload read back field by field; evaluation reads only what the file keeps |
| C85 | `DispatchModel` (`model_from_config`, `register`, `get_fitter_class`) | cases of the payload; what the dictionaries of the four classes say about themselves; induction over registrations and over the bases of a class |
| C86 | `NebModel` (`add`, `add_structures`, `from_structures`, `loader_to`, `write_fitting_inputs`; entries are objects in a memory) | invariant of all calls: every held entry has vectors of one length, computed from its structure; then the tables and files are maps over the rows |
| C87 | `ResultsModel` (`write_tracker_results`, `to_json_safe`, file names) | names split at their last underscore; induction over runs; nested induction over values |
| C88 | `CifModel` (`read_row`, `unique_coords`, `all_sites`, `labeled_structure`, `structures_of`) | invariant over the rows: one entry for each position written; orbits by induction over operations; group laws give symmetry and distinctness |
| C89 | `NeighborsModel` (both lookups, both searches, metadata, presets) | lookups by induction over the entries from the end; the searches by induction over the copies found |
| C90 | `CallbackModel` (both resolvers, configuring the property plan) | splitting and joining of text by induction; each entry decided by cases on the validated values; the plan by induction over the entries |
| C91 | `CallbackModel` (signatures, the filtered and the plain call) | lookups in merged and filtered dictionaries by induction |
| C92 | `InitModel` (the disk as a tree of directories and files, `mkdir -p`, the text of the template, a reader for the YAML it uses) | induction over the path for the directories; the template text is read once by computation and with open file names by lemmas on lines; the rest from C48 |
| C93 | `GuiModel` (forms, the namespace, the renamed keys, the four commands and what they do to the outside) | the renamed dictionary by computation with open values, then C48; texts by the lemmas on splitting of C90 |
| C94 | `GatherModel` (labels from names, tables, occupations from structures) | the suffix has no border, so it is found at the end; rows by index; rounding of integers is exact; sorted permutation |
| C95 | `KmcModel`, `ProposeModel`, `CompositeModel`, `TrackerModel` (whole simulation) | simulation relation between the two runs, kept by every step: rates times a, time over a |
| C96 | `ProposeModel`, `CompositeModel`, `StateModel` | draws that choose an event form one interval of its rate; detailed balance of each event, summed over events and states; uniqueness by the maximum principle |
| C97 | `CompositeModel`, `LceModel`, `StateModel`, `GeneratorSpec` | the rate reads only the named sites; swaps commute with translations |
| C98 | `GeneratorModel`, `CompositeModel` | from the exact description of generated events (C62); the counterexample is computed on the chain of C62 |
| C99 | `LocalBarrierModel` (helpers of the rule table) | normalisation of the written rule is computed for symbolic arguments; acceptance is characterised from it; lookups in the extended table |
| C100 | `LocalBarrierModel` (`build`, with the object left by an exception) | case analysis of `build`, relation to the constructor; counterexamples computed |
| C101 | `EnumTransformModel` (the disordered structure, the request, reading of the answers) | inversion of the loop; an ordering reads as a choice of species on the base, so its result is that of the exhaustive loop; counterexamples computed |
| C102 | `RunModel` (whole runs, two at a time) | simulation relation between two run loops with unrelated trackers, lifted to runs; the loop over n+m steps splits; sampling only extends table and trace |
| C103 | `TrajectoryModel` (successive calls, the generator of a call) | the same relation between runs that start at different clocks; induction over calls; hop totals as an additive relation; counterexample computed |
| C104 | `SharedModel` (objects that share one model object; the model state travels with the system) | induction over the calls, with the relation "equal but for the model"; in turn: the model is reset by the last construction, invariant on the evaluator; counterexamples computed with real rates (`SharedCase`) |
| C105 | `SiteObjectModel` (the object with its attributes; a call returns the object it leaves behind as well as its answer or exception) | refinement to `SiteEnergyModel` call by call; invariant on the settings (only the bound order changes) by induction over the calls; counterexamples computed |
| C106 | `ListingModel` (the lists, the current values) on `PropertyModel` | the invariants of reachable worlds of C27, filters split a list, C23 and C26 for what the listed properties do |
| C107 | `RandomOccModel` (`Occupation.random` with the global generator as a state) | induction over the draws; the threshold test is monotone in the fraction; refusals by cases; counterexamples with a generator that counts in tenths |
| C108 | `OptionModel` (`_parse_sequence`, `_parse_supercell_shape`, `_parse_mapping`, and both readings) | a relation says what a value lists; splitting at commas is the inverse of joining (C90); cases over the value; counterexamples computed |
| C109 | `ReportModel` (`show_current_info`, `format_tracker_summary`, the units) on `ListingModel` | the table is rectangular and the attachments agree (C26, C27), so no lookup fails; the last of the most recent records is the last success (C25) |
## Trusted base

1. **Coq 8.16.1's kernel** (and `coqchk`, which rechecks every compiled file). No kernel check is
   switched off, no axiom is declared here, and there is no `Admitted`.
2. **Axioms of the standard library** that `Print Assumptions` lists, theorem by theorem, below.
   They all come from `Coq.Reals`/`Coq.Logic`: `ClassicalDedekindReals.sig_forall_dec`,
   `ClassicalDedekindReals.sig_not_dec`, `FunctionalExtensionality.functional_extensionality_dep`
   and, through Flocq and `Reals` analysis, `Classical_Prop.classic`. No other axiom occurs.
3. **The fidelity of the model**: that each Gallina definition computes what the cited lines of
   `/repo` compute. Nothing connects the two mechanically. Every definition cites its lines and says
   where it simplifies.

### Parameters (Section variables)

Code that is outside the model enters as an explicit argument. After the section is closed each of
these is universally quantified in the theorems that mention it, so no theorem assumes anything about
them beyond what its own hypotheses say.

| parameter | stands for | where |
|-----------|------------|-------|
| `parse_species` | pymatgen's parsing of a species string; hypothesis `one_vacancy` where stated: only the vacancy labels parse to a vacancy | `ActiveSiteModel`, `LatticeModel`, `GeneratorModel`, `LocalEnvModel` |
| `fp_hash` | SHA-256 of the canonical JSON payload; injectivity is a hypothesis where used | `ActiveSiteModel`, `LocalEnvModel` |
| `show` | `repr` / `json.dumps` text of a value, used as a canonical key | `LocalBarrierModel` |
| `distance`, `round8` | pymatgen's distance between two sites (hypothesis where used: symmetric); `round(x, 8)` | `MatcherModel`, `BuildModel`, `GeneratorModel`, `LocalEnvModel` |
| `is_element`, `electronegativity` | pymatgen's table of elements: whether a symbol is one, and its electronegativity | `LocalEnvModel` |
| `sphere` | pymatgen's `get_sites_in_sphere`; hypothesis `search_exact` where used: each image within the radius once, nothing else (met by `LocalEnvSearch.cubic`) | `LocalEnvModel` |
| `empty_molecule` | whether pymatgen builds a Molecule without sites | `LocalEnvModel` |
| `site_hash` | SHA-256 of the canonical JSON text of the ordered sites | `LocalEnvModel` |
| record `external` | pymatgen's dictionary forms of molecules, structures and sites, species texts, distances, `round(x, 8)`, SHA-256 hashes, `str` of a list, point group, floats of the site functions, and other site models; hypothesis `reads_what_it_writes` where stated | `LceFileModel` |
| `lasso` | scikit-learn's `Lasso.fit`; hypothesis `solver` where used: one coefficient for each column, within `eps` of the least objective (met by `one_column_lasso`) | `FitModel` |
| `regress`, `loocv`, `rmse` | the numbers a fit computes (any result or exception; `FitModel` has them as real numbers) | `FitFilesModel` |
| `round8` | a number printed with `%.8f` and read again | `FitFilesModel` |
| `save_results` | the pandas table of `_save_fit_results_history`, which never raises | `FitFilesModel` |
| `orbit_fingerprint`, `feature_fingerprint` | SHA-256 of an orbit's canonical payload and of a feature's | `BuildModel` |
| `seeded` | the numbers read from `numpy.random.default_rng(seed)`, as a function of the seed | `TrajectoryModel` |
| `transformation` | the `apply_transformation` method of the caller's object, as a function of the structure and the request; hypotheses where used: its answers are orderings of what it is given | `EnumTransformModel` |
| `get_neighbors`, `order_leb` | pymatgen's periodic neighbour search and the configured local site order; hypotheses where used: it answers with sites of the cell, or is symmetric | `GeneratorModel` |
| `load`, `from_occupations`, `from_state_file`, `construct` | the parts of `KMC.from_config` that read files and build objects | `ConfigModel` |
| `distances`, `tol` | sorted list of distances identifying a local environment | `ActiveSiteModel` |
| `text`, `parse_int`, `parse_float` | numpy's conversions between text and number arrays | `SiteEnergyModel` |
| `site_hash`, `np_dtype`, `import_compute`, `import_apply`, `import_runtime`, `call_compute`, `call_apply` | SHA-256 of the external site mapping (injectivity a hypothesis where used), `np.dtype`, importing the user's functions by name and calling them | `SiteFileModel` |
| `find`, `from_file`, `from_config` | importing a class and its own loaders | `DispatchModel` |
| `features`, `read`, `name_of_model` | the occupations and correlations a model computes for a structure, reading a structure file, a model's name | `NebModel` |
| `key_text`, `sanitize`, `repr`, `of_int` | `str` of a dictionary key, monty's `jsanitize`, `repr`, integers as table numbers | `ResultsModel` |
| `species_leb`, `primitive_cell` | the order of pymatgen's `get_sorted_structure` and its `get_primitive_structure` | `CifModel` |
| `get_neighbors` | pymatgen's `Structure.get_neighbors`, assumed complete in the theorems | `NeighborsModel` |
| `import_module`, `getattr`, `callable`, `identity`, `fname` | importing modules, reading attributes of Python objects, whether they can be called, which function they are and its name | `CallbackModel` |
| `read_json` | `json.load` of a file with a JSON suffix; no hypothesis | `InitModel` |
| `parse_int`, `parse_float`, `literal_eval`, `chdir`, `generate`, `simulate` | Python's `int`, `float` and `ast.literal_eval` of a text, `os.chdir`, the event generator and the simulation as the form calls them; no hypotheses | `GuiModel` |
| `literal_eval`, `text_of` | Python's `ast.literal_eval` and `str` of a value; no hypotheses | `OptionModel` |
| `seeded`, `draw` | numpy's global generator: the state of a seed and one draw; hypothesis where used: draws are in [0,1) | `RandomOccModel` |
| `parse_float`, `parse_int`, `read_csv`, `read_structure` | Python's `float` and `int` of a text, `pd.read_csv`, `Structure.from_file`; no hypotheses | `GatherModel` |
| `resolve_runtime`, `compute_fn`, `apply_fn` | the user's external site-energy code | `SiteEnergyModel` |
| `ext_initialize`, `ext_apply`, `ext_compute` | an external site-energy model inside a composite model | `CompositeModel` |
| `model_initialize`, `model_apply`, `compute_probability` | any rate model | `KmcModel`, `RunModel` |
| `select`, `waiting`, `div`, `leb`, `is_zero`, `zero`, `add`, `sub` | arithmetic of the number type; instantiated with the reals, rationals and binary64 | engine files |
| `flog` | the C library's `log` on binary64; hypothesis where used: finite and non-positive on (0,1] | `FloatModel` |
| `call`, `handle`, `transport`, `fname` | user callbacks, failure handlers, the values they return | `PropertyModel`, `RunModel` |
| `tracker_*`, `sample` | any tracker attached to the engine; instantiated with the real one | `KmcModel`, `TrackerModel` |

The random draws are arguments (`u1`, `u2`, or a list of draws): the theorems hold for every
sequence of draws. The probability theorems (C09, C11) state the measure of the set of draws that
gives an outcome as an interval length or a distribution function; that numpy's generator is uniform
is outside the model.

### What is modelled

| source | model | left out |
|--------|-------|----------|
| `event/base.py` (event library, site index, dependencies, save/load) | `EventModel` | logging, file system calls (the file is its JSON value) |
| `simulator/state.py`, `simulator/kmc.py` | `StateModel`, `KmcModel`, `ProposeModel`, `FloatModel`, `RunModel`, `TrajectoryModel`, `SharedModel` | logging, wall-clock reports, numpy buffers (lists instead) |
| `event/hop.py` (hop state codes and lookups) | `HopModel` | |
| `simulator/tracker.py`, transport properties | `TrackerModel`, `TransportModel` | HDF5/CSV writing, plotting |
| `simulator/property.py`: plan, attachments, sampling, results | `PropertyModel`, `ListingModel`, `ReportModel` | thread safety (the code has none) |
| `models/local_cluster_expansion.py`, `models/composite_lce_model.py` | `LceModel`, `BuildModel`, `CompositeModel`, `LceFileModel` | numba compilation; the occupation vector of a structure (see `LatticeModel`), cluster symmetry symbols, hashing of orbits |
| `models/fitting/fitter.py` (regression, leave-one-out) | `FitModel` | floating-point rounding, tables with one row or one column (numpy reads them as vectors), files and records |
| `models/fitting/fitter.py` (files, records, history) | `FitFilesModel` | `_save_fit_results_history` (pandas), texts of JSON and YAML, files that cannot be written |
| `models/parameters.py` | `ParamModel` | texts of JSON and YAML, h5py internals, limits of 64-bit numbers, files that cannot be written |
| `models/site_energy.py` | `SiteEnergyModel`, `SharedModel` (initialising again), `SiteObjectModel` (attributes, exceptions part-way) | importing the user's module |
| `models/site_energy.py` (construction, dictionary form, files) | `SiteFileModel` | integer keys of YAML, keyword arguments that are not JSON, arrays of several dimensions, values that are neither numbers nor text |
| `models/base.py` (`from_config`, `get_fitter_class`), `io/registry.py`, `models/fitting/registry.py` | `DispatchModel` | importing; an ImportError of a registered module |
| `io/neb/data.py` | `NebModel` | `__str__`, logging, output directories that cannot be made, metadata that are not JSON |
| `simulator/results.py` (files) | `ResultsModel` | the printed summary, digits of printed numbers, two spellings of one path, files that cannot be written, NaN in JSON |
| `io/cif.py` | reading rows, images under the operations, labels, blocks | text parsing, implicit hydrogens, magnetic moments, floating-point rounding |
| `structure/neighbors.py` | everything (`NeighborsModel`; the fixed cutoffs also in `GeneratorModel`) | reading YAML, floating-point rounding |
| `simulator/kmc.py` 166-211 and `models/site_energy.py` 366-402, 498-552 | references to functions, configured properties, calls with keywords (`CallbackModel`) | functions whose signature cannot be inspected; property names that are not text |
| `cli/init.py`, `cli/main.py` | `build_template`, `write_template`, the `init` command (`InitModel`) | argparse, expanding `~`, permissions, symbolic links, printing; YAML outside the subset of the template is refused by the model's reader |
| `cli/gui_wrapper.py` | `main` from the parsed form on (`GuiModel`) | Gooey and argparse themselves, printing |
| `tools/gather_kmc_data.py`, `tools/gather_mc_data.py` | `gather_data`, `get_occ`, `_get_occ` (`GatherModel`) | `search_string_list`, `generate_supercell`, `isExist`; tables without rows lose their columns |
| `models/local_barrier_model.py` | `LocalBarrierModel` | |
| `structure/basis.py` | `BasisModel`, `RandomOccModel` | floating-point rounding of the Vandermonde matrix |
| `structure/active_site_order.py`, `sites.py`, `species.py` | `ActiveSiteModel` | pymatgen parsing |
| `structure/lattice_structure.py` | `LatticeModel` | general (non-diagonal) supercell search |
| `structure/cluster.py` | `MatcherModel`, `LceModel` (orbits), `LceFileModel` (dictionary forms) | pymatgen geometry, `to_xyz`, printing |
| `event/generators.py` | `GeneratorModel` | CIF reading and labelling, oxidation states, reference export, event file writing, pymatgen's neighbour search and site order |
| `simulator/config.py`, `KMC.from_config`, `cli/run_kmc.py` (configuration and option values) | `ConfigModel`, `OptionModel` | file access and the text of JSON and YAML; argparse itself; option values that are `bytes`; what `from_config` loads (a parameter); Python values other than JSON values and tuples of them; `Configuration.help` |
| `structure/local_site_order.py`, `structure/local_lattice_structure.py` | `LocalEnvModel` | writing `local_env.xyz`, point group, disordered sites, sort keys that are not text, floating-point rounding of positions |
| `structure/local_environment_enumerator.py` | `EnumModel`, `EnumTransformModel` | pymatgen's neighbour search and local site order, labels, metadata of the exhaustive branch, site properties; the transformation object (a parameter); answers whose cell is not a diagonal supercell |

Exact paths and line ranges are in the comments of each definition.

### What is not modelled

By kind: plotting and visualisation, the command-line argument parsers and the text of option
values, CIF text parsing (the parsed blocks are modelled, C88-C90), file formats below the JSON value
(the bytes of HDF5, CSV and YAML files, the text of JSON numbers), the numerical fitting solver
(scikit-learn), pymatgen's symmetry analysis and neighbour search, numba compilation, numpy dtype
overflow of integers (integers are unbounded in the model), and floating-point rounding everywhere
except C10 (stated over binary64).

By function: `kmcpy.get_logo`; all `__str__`/`__repr__`/`summary` texts, `Configuration.help`,
`help_fields` and `which_config`; the layout of the table printed by `format_tracker_summary`; `SupercellComparator` (comparator.py);
`write_representative_clusters` and `Cluster.to_xyz`; `tools/get_data.py`;
`gather_mc_data.generate_supercell`; everything under `scripts/` and `example/`.

### Axioms used, by theorem (`Print Assumptions`)

* no axiom (`Closed under the global context`): `dependencies_exact`, `dependencies_symmetric`, `dependencies_reflexive`, `site_index_exact`, `site_index_members`, `site_index_any_history`, `library_roundtrip`, `built_library_roundtrip`, `library_file_roundtrip`, `loaded_library_is_complete_and_in_range`, `library_without_metadata_rejected`, `only_complete_libraries_are_saved`, `loaded_dependencies_exact_refuted`, `dependencies_describe_a_prefix`, `dependencies_after_generate_then_adds`, `dependencies_always_current_refuted`, `cached_rates_never_stale`, `own_site_models_are_local`, `rates_fresh_without_dependencies_refuted`, `rates_fresh_after_late_add_refuted`, `rates_fresh_with_negative_indices_refuted`, `cumulative_list_is_running_sum`, `build_starts_afresh`, `build_keeps_what_is_left_out`, `failed_build_keeps_the_table_refuted`, `build_sets_the_default_barrier_refuted`, `build_refuses_what_the_constructor_refuses_refuted`, `model_can_be_saved_after_a_refused_build_refuted`, `transformation_results_are_its_answers`, `orderings_are_exhaustive_results`, `only_vacancy_permitted_is_refused`, `unreadable_answer_stops_the_call`, `answers_keep_the_base_refuted`, `answers_are_permitted_refuted`, `supercell_answer_refuted`, `measuring_leaves_trajectory`, `unmeasured_run_completes`, `equilibration_moves_as_production`, `longer_run_extends_shorter`, `two_calls_as_one`, `seeded_calls_repeat`, `seeded_calls_cycle`, `seeded_calls_continue_refuted`, `forgetful_model_can_be_shared`, `object_alone_is_an_engine`, `resetting_model_can_be_used_again`, `initialisation_of_an_object`, `wrong_count_keeps_use`, `refused_order_does_not_bind_refuted`, `everything_is_listed_once`, `tracker_lists_the_same`, `enabling_moves_one_name`, `listing_tells_sampling`, `current_info_is_last_row`, `random_occupation_site_by_site`, `random_occupation_is_valid`, `fill_fraction_limits`, `seeded_occupation_repeats`, `larger_fraction_only_adds`, `random_occupation_in_another_basis`, `unseeded_calls_continue`, `random_occupation_refuses`, `seeded_call_is_private_refuted`, `refused_call_draws_nothing_refuted`, `fill_fraction_is_exact_refuted`, `accepted_shape_is_three_integers`, `only_no_value_has_no_shape`, `reading_twice_is_reading_once`, `other_failures_of_a_shape`, `accepted_mapping_is_the_dictionary`, `fraction_in_shape_is_refused_refuted`, `wrong_shape_is_reported_refuted`, `accepted_shape_is_positive_refuted`, `report_is_the_last_row`, `report_shows_last_sample`, `report_lines_have_distinct_names_refuted`, `accepted_events_conserve_contents`, `accepted_event_exchanges_endpoints`, `run_step_and_time_accounting`, `pass_length_counts_mobile_ions_refuted`, `hop_can_be_undone`, `tracker_without_lookup_refuted`, `tracker_with_negative_index_refuted`, `hop_conserves_ions_across_encodings_refuted`, `hop_displacement_minimum_image`, `reverse_hop_displacement_opposite`, `displacement_telescopes`, `property_schedule_exact`, `result_rows_exact`, `time_samples_spaced`, `stored_records_most_recent`, `results_rectangular`, `result_row_exact`, `attachments_consistent`, `rejected_call_changes_nothing`, `attach_accepted_iff`, `attach_effect`, `control_effects`, `schedules_agree_refuted`, `failing_callbacks_contained`, `failure_is_always_callback_error_refuted`, `detached_callback_not_called_refuted`, `runs_start_fresh`, `active_sites_partition`, `active_iff_several_species`, `original_and_active_inverse`, `allowed_species_from_first_match`, `fingerprint_identifies_order`, `fingerprint_identifies_loaded_order_refuted`, `filter_by_position_sound`, `supercell_sites_enumerated`, `supercell_size`, `active_sites_know_their_primitive_site`, `active_order_lengths`, `select_active_values_keeps_identity`, `selected_rows_are_site_blocks`, `select_sites_agrees_with_active_order`, `order_payload_roundtrip`, `state_payload_roundtrip`, `checkpoint_roundtrip`, `checkpoint_roundtrip_any_name_refuted`, `hop_codes_name_their_species`, `hop_direction_exact`, `mobile_species_with_charge_refuted`, `every_vacancy_label_recognised_refuted`, `external_occupation_builds`, `open_element_type_refuted`, `text_width_refuted`, `shared_external_site_refuted`, `state_code_translation`, `normalised_mappings_are_proper`, `orbits_partition_clusters`, `orbits_group_by_first_match`, `orbits_are_equivalence_classes`, `tolerance_orbits_depend_on_order_refuted`, `accepted_parameters_fit`, `fitting_parameters_accepted`, `rejected_parameters_change_nothing`, `first_rule_decides`, `query_answers_as_prescribed`, `at_most_one_exact_rule_applies`, `prescription_is_unique`, `only_overlapping_exact_rules_rejected_refuted`, `checked_occupations_are_legal`, `conversion_keeps_the_pattern`, `conversion_round_trip`, `named_converters_agree`, `equivalence_is_same_pattern`, `counts_and_indices`, `flip_swaps_the_named_sites`, `flip_twice_is_identity`, `zeros_are_vacant_ones_are_occupied`, `basis_round_trip`, `flip_twice_with_three_states_refuted`, `conversions_of_a_third_state_agree_refuted`, `equivalence_with_three_states_refuted`, `rejected_assignment_changes_nothing_refuted`, `conversion_to_own_basis_stays_legal_refuted`, `match_found_iff`, `match_is_a_fit`, `unique_match_iff`, `match_reports_its_permutation`, `match_fails_with_value_error`, `clusters_are_proper`, `clusters_from_coordinates_are_symmetric`, `asymmetric_match_is_sound_refuted`, `nearest_match_is_optimal`, `nearest_match_fails_iff`, `nearest_unique_flag_refuted`, `enumeration_is_exact`, `enumeration_succeeds_iff`, `raising_the_limit_appends`, `enumerated_structure_agrees`, `repeated_local_site_refuted`, `zero_count_refuted`, `three_species_structure_refuted`, `endpoints_exist_iff`, `endpoint_occupations`, `endpoints_differ_by_one_atom`, `two_atoms_on_one_site_refuted`, `occupation_object_keeps_its_meaning_refuted`, `supercell_tuple_is_periodic`, `supercell_tuple_identifies_cells`, `site_index_is_exact`, `configuration_accepts_iff`, `keywords_are_routed`, `fields_read_back`, `sections_are_disjoint`, `transport_defined_iff`, `einstein_relations`, `havens_ratio_exact`, `single_ion_haven_one`, `nernst_einstein`, `diffusivity_time_scaling`, `transport_relabelling`, `correlation_factor_range`, `correlation_factor_single_hops`, `run_samples_every_step`, `one_row_per_pass`, `diffusivity_of_second_run_refuted`, `wrong_site_order_rejected`, `unmapped_site_rejected`, `local_barrier_round_trip`, `captured_values_are_recalled`, `every_saved_model_loads_refuted`, `distance_is_minimum_image`, `structure_reads_iff`, `structure_read_site_by_site`, `reading_ignores_order_and_images`, `structure_from_occupation_iff`, `occupation_round_trip`, `structure_round_trip`, `charge_states_round_trip_refuted`, `three_states_in_occupation_basis_refuted`, `missing_atom_is_noticed_refuted`, `supercell_sites_are_distinct`, `supercell_order`, `active_lattice_agrees`, `make_supercell_keeps_allowed_lists_refuted`, `match_ignores_candidate_order`, `unique_match_is_canonical`, `ambiguous_match_is_canonical_refuted`, `clusters_equal_iff`, `equality_ignores_site_order`, `equality_is_reflexive`, `equality_is_symmetric_refuted`, `equality_is_transitive_refuted`, `endpoint_pairs_are_distinct`, `variable_hop_sites_refuted`, `generation_resolves_request`, `generation_succeeds_iff`, `environment_is_neighbourhood`, `search_reaches_every_cutoff`, `generated_events_exact`, `sites_keep_their_own_environment_refuted`, `vacancies_make_species_mobile_refuted`, `generated_indices_are_active_indices`, `generated_library_is_complete`, `events_translate`, `reverse_hops_exist`, `every_hop_can_be_undone_refuted`, `environments_follow_the_reference`, `events_distinct_iff`, `self_hop_iff`, `events_are_distinct_hops_refuted`, `configuration_dict_roundtrip`, `configuration_file_roundtrip`, `configuration_section_roundtrip`, `files_are_read_by_section_and_task`, `written_configuration_is_stable`, `configuration_roundtrip_is_equal_refuted`, `default_record_keeps_files_refuted`, `any_task_name_reads_back_refuted`, `changes_accepted_iff`, `changes_change_only_what_is_given`, `command_line_needs_an_input_file`, `loaded_configurations_are_valid_refuted`, `local_order_dict_roundtrip`, `local_order_names`, `local_order_forms`, `local_order_dict_defaults`, `local_order_dict_means_what_it_says_refuted`, `environment_contents`, `environment_states`, `environment_exists_iff`, `environment_suits_a_cluster_expansion`, `only_the_centre_is_left_out_refuted`, `states_always_agree_refuted`, `environment_is_independent_of_the_search`, `environment_of_the_same_crystal`, `environment_hash`, `default_order_is_independent_of_the_search_refuted`, `matching_succeeds_iff`, `nearest_matching_succeeds_iff`, `matching_follows_the_reference`, `matching_fails_with_value_error`, `matching_is_canonical`, `equivalence_is_decided`, `congruent_environments_are_equivalent`, `environments_are_indexed`, `accepted_file_fits`, `stored_fingerprints_checked`, `parameters_come_back_from_json`, `parameters_come_back_from_hdf5`, `hdf5_fingerprints_are_refused`, `saved_parameters_still_fit_refuted`, `failed_saving_keeps_the_file_refuted`, `history_comes_back_from_json`, `history_comes_back_from_hdf5`, `hdf5_history_order_refuted`, `failed_fit_changes_nothing`, `failed_fit_changes_nothing_refuted`, `what_a_fit_leaves`, `history_has_every_fit`, `one_feature_is_refused`, `fitter_comes_back`, `greatest_number_is_taken`, `saved_site_model_comes_back`, `lists_of_one_kind_are_kept`, `wide_text_is_kept_refuted`, `site_hash_fixes_the_sites`, `hashes_fix_the_states_refuted`, `site_order_is_checked`, `marked_file_names_its_model`, `unknown_type_is_refused`, `file_names_its_class`, `saved_models_find_their_class`, `configured_site_model_comes_back`, `only_models_are_loaded_refuted`, `derived_class_is_kept_refuted`, `first_fitter_stays`, `registered_fitter_is_used`, `fitter_of_the_nearest_class`, `registration_is_local`, `tables_belong_together`, `addition_appends_a_row`, `additions_append_a_prefix`, `failed_additions_change_nothing_refuted`, `loader_of_structures`, `data_file_lists_the_rows`, `fit_reads_the_rows`, `one_structure_is_refused`, `failed_writing_changes_nothing_refuted`, `entry_given_again_refuted`, `rows_of_one_model_refuted`, `excluding_species_is_refused`, `names_tell_files_apart`, `files_are_of_the_last_run`, `finished_run_has_its_files`, `plain_values_are_kept`, `dictionary_values_are_kept_refuted`, `property_file_is_of_the_run_refuted`, `failed_results_change_nothing_refuted`, `sites_are_the_crystal`, `overfull_positions_are_refused`, `crystal_is_symmetric`, `crystal_sites_are_apart`, `crystal_has_every_image`, `crystal_sites_are_in_the_cell`, `label_and_number_name_a_site`, `equivalent_positions_written_differently`, `shared_positions_can_be_read_refuted`, `label_and_number_always_name_a_site_refuted`, `numbers_do_not_depend_on_the_order_of_operations_refuted`, `sorting_keeps_the_sites`, `recorded_place_is_the_place_refuted`, `first_readable_block_is_loaded`, `no_readable_block`, `damaged_block_is_reported_refuted`, `magnetic_files_are_refused`, `primitive_and_symmetrized`, `cutoff_neighbours`, `range_neighbours`, `cutoff_neighbours_both_ways`, `range_neighbours_both_ways`, `neighbours_are_found`, `neighbours_are_always_found_refuted`, `given_cutoff_is_used_refuted`, `presets_cannot_be_loaded`, `reference_gives_its_function`, `reference_is_unambiguous`, `colon_and_dot_agree`, `site_model_references`, `nested_functions_by_dots_refuted`, `run_samples_what_is_configured`, `validated_callbacks_can_be_used_refuted`, `energy_function_gets_its_keywords`, `energy_function_is_called`, `apply_function_gets_everything`, `apply_implies_compute`, `compute_implies_apply_refuted`, `energy_function_sees_the_event_refuted`, `init_writes_the_template`, `init_succeeds_iff`, `failed_init_changes_nothing`, `init_keeps_an_existing_file`, `written_template_can_be_loaded`, `any_output_name_can_be_loaded_refuted`, `filled_template_is_accepted_iff`, `filled_template_is_read_back`, `file_names_in_the_template_arrive`, `template_with_file_names_never_starts`, `gui_simulation_is_what_was_entered`, `every_field_is_covered`, `gui_simulates_iff`, `unused_entries_have_no_effect`, `gui_mobile_ion_is_lithium`, `gui_mobile_ion_is_in_the_mapping_refuted`, `other_commands_do_nothing`, `gui_events_are_what_was_entered`, `gui_events_are_generated`, `spaces_in_cutoffs_are_harmless_refuted`, `final_semicolon_is_harmless_refuted`, `gathered_table_has_every_run`, `unlabelled_file_stops_the_gathering`, `gathering_nothing_fails`, `only_second_and_third_part_label`, `occupation_is_where_the_species_agree`, `monte_carlo_table_has_every_run`, `labels_are_of_the_file_name_refuted`, `labels_tell_runs_apart_refuted`, `occupation_is_where_the_species_agree_refuted`, `generated_events_see_their_target`, `generated_events_are_proper`, `exact_rule_is_added`, `state_count_rule_is_added`, `species_count_rule_is_added`, `pattern_rule_is_added`, `added_rule_decides_what_is_left`, `rules_one_by_one_or_at_once`.
* `ClassicalDedekindReals.sig_forall_dec`: `use_of_an_object`, `first_use_initialises`, `first_order_stays`, `only_an_order_binds`, `initialising_forgets_history`, `lce_value_reads_only_the_environment`, `saved_site_model_answers_the_same`, `unnamed_function_is_lost`, `object_array_is_kept_refuted`.
* `ClassicalDedekindReals.sig_forall_dec`, `FunctionalExtensionality.functional_extensionality_dep`: `cumulative_entry_is_partial_sum`, `selection_probability_length`, `refused_initialisation_is_harmless_refuted`, `lce_value_is_cluster_expansion`, `lce_value_defined`, `parameters_order_checked_without_fingerprints_refuted`, `site_function_table_shape`, `chebyshev_site_functions_are_complete`, `chebyshev_coefficients_are_unique`, `occupation_site_function_is_complete_for_two_states`, `occupation_site_function_is_complete_refuted`, `build_succeeds`, `features_group_the_admissible_clusters`, `features_cover_the_decorations`, `groups_are_congruence_classes`, `feature_values_are_cluster_sums`, `structure_features_are_local_features`, `compute_uses_the_fitted_features`, `other_environments_are_refused`, `symmetry_keeps_uniform_features`, `symmetry_keeps_computed_values`, `symmetry_keeps_every_feature_refuted`, `matched_environments_are_accepted_refuted`, `built_model_can_be_saved`, `saved_expansion_comes_back`, `cluster_table_unchecked_refuted`, `other_number_of_fingerprints_refuted`, `models_that_look_elsewhere_have_one_saddle`.
* `ClassicalDedekindReals.sig_forall_dec`, `ClassicalDedekindReals.sig_not_dec`, `FunctionalExtensionality.functional_extensionality_dep`: `composite_rates_never_stale`, `local_barrier_model_is_forgetful`, `composite_without_external_is_forgetful`, `site_energy_model_can_be_used_again`, `rate_positive_iff_hoppable`, `rate_is_arrhenius`, `detailed_balance`, `tracker_creation_succeeds`, `external_occupation_follows`, `external_occupation_equals_fresh_build`, `mapping_checked_for_all_states_refuted`, `rules_for_hoppable_states_suffice_refuted`, `site_energy_rates_never_stale`, `detailed_balance_external`, `local_barrier_rates_never_stale`, `local_barrier_rate`, `reverse_hop_has_the_same_rate`, `saved_model_computes_the_same`, `fitted_model_is_best`, `predictions_come_from_the_model`, `constant_feature_gets_nothing`, `zero_of_energy_does_not_matter`, `zero_of_energy_keeps_the_score`, `units_of_features_do_not_matter`, `units_matter_without_normalizing_refuted`, `leave_one_out_score`, `training_error`, `boltzmann_distribution_is_stationary`, `rate_ratio_is_of_the_barriers`, `reversed_paths_are_as_frequent`, `boltzmann_distribution_is_the_only_stationary_one`, `without_site_energies_all_arrangements_are_equally_likely`, `same_surroundings_same_rate`, `kinetics_are_translation_invariant`.
* `ClassicalDedekindReals.sig_forall_dec`, `ClassicalDedekindReals.sig_not_dec`, `Classical_Prop.classic`, `FunctionalExtensionality.functional_extensionality_dep`: `rates_fresh_with_nonlocal_site_energy_refuted`, `rates_fresh_with_nonlocal_rules_refuted`, `selection_returns_possible_event`, `selection_without_rates_raises`, `selection_probability_interval`, `float_selection_returns_possible_event`, `float_waiting_time_nonneg`, `float_clock_never_goes_back`, `external_model_can_be_shared_refuted`, `told_model_can_be_used_again_refuted`, `waiting_time_exponential`, `waiting_time_always_finite_refuted`, `run_time_grows`, `detailed_balance_with_endpoint_in_environment_refuted`, `only_hoppable_events_drawn`, `tracked_ions_are_the_mobile_ions`, `tracker_rows_follow_journeys`, `reverse_hop_rate_with_exact_rules_refuted`, `attempt_frequency_only_sets_the_clock`, `transition_probability`, `generated_hops_are_as_fast_as_the_way_back_refuted`.
