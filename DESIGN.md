# Design: a Rocq model of materialsproject/reaction-network

The code under study is `/repo/src/rxn_network` (Python). The model lives in
`rocq/theories`. It is shallow: every modelled function is a small total
Gallina function that follows the Python branch by branch, with exceptions as
values (`result`, constructor `Err`). Every model definition carries a comment
with the file and lines it models and the simplifications made.

## Layout

* `Prelude.v`, `NumQ.v`: result type, list helpers, rational arithmetic, `isclose`.
* `<Area>Model.v`: the model, no proofs.
* `<Area>Spec.v`: the small vocabulary in which the properties are stated. It
  does not use the helpers of the model.
* `<Area>Proofs.v`: proofs.
* `<Area>Props.v`: the property theorems only, each `exact`-ed from a lemma,
  with `Print Assumptions` beneath and non-vacuity `Example`s beside.

## Modelling conventions (apply to all areas)

* **Numbers.** Floats are exact rationals `Q` (reals `R` where `log`/`exp`
  occur). Rounding is modelled only in RoundModel and RoundPathModel (C146, C147, C149), for the sums a reaction is
  made of. NaN and infinities are not modelled, except
  where a division by zero would produce NaN/inf and changes control flow: there
  the model has an explicit error value. `np.isclose(a,b)` is
  `|a-b| <= 1e-8 + 1e-5*|b|` exactly, including its asymmetry.
* **External routines** (pseudo-inverse, convex hull, Dijkstra, phase diagrams,
  ray scheduling, database) are arguments of the model. The theorems either hold
  for every behaviour of the routine or state the assumed behaviour as an
  explicit hypothesis.
* **Dicts and sets.** Python dicts are association lists in insertion order,
  sets are lists considered up to permutation; where iteration order of a set is
  observable the model takes the order as an argument.
* **Objects** (entries, compositions) are numbers or records with exactly the
  fields the function reads.
* **Violations.** When the code does not have the property, the theorem is
  called `..._refuted`, exhibits a concrete witness, and the part that does hold is
  proved under an explicit hypothesis as `..._partial`.

## Trusted base

* Coq 8.16.1 kernel and `vm_compute`.
* Fidelity of the model to the Python text (nothing is executed here).
* The behaviour of Python, numpy, pymatgen, rustworkx, ray as described in the
  comments of the model.
* `Print Assumptions`: recorded at the end of this file.

## Plan per property
| property | title | model and proof |
|---|---|---|
| C01 | limited_powerset yields every small non-empty subset exactly once | itertools.combinations and chain as list functions; induction on the list. |
| C02 | grouper splits work into chunks without losing, duplicating or reordering items | zip_longest over n copies of one iterator as a fuel-free chunking function; strong induction on length. |
| C03 | to_iterator returns every parallel result exactly once under any completion schedule | ray.wait as an arbitrary schedule (a choice function picking a non-empty done list whose head is pending); induction on pending refs. |
| C04 | is_pareto_efficient keeps exactly the non-dominated points | while-loop with cursor and shrinking array on explicit fuel, fuel proved sufficient; loop invariant relating survivors to processed pivots. |
| C05 | get_pareto_front(maximize=True) is the front for maximising the chosen metrics | column slicing `pts[:,1:]*-1`; refuted with a two-row table; the part that holds (first metric minimised, others maximised) proved. |
| C06 | Cost functions are total, monotone and prefer explicit reaction data | over the reals (stdlib Reals); lookup order modelled as data/attribute partial maps. |
| C07 | Balanced reactions conserve every element | _balance_coeffs loop with the pseudo-inverse as an arbitrary oracle; loop invariant on the best candidate. |
| C08 | ComputedReaction.balance never reports an unbalanceable reaction as balanced | ComputedReaction constructor applied to the all-zero solution; refuted, positive part for solvable systems. |
| C09 | The balanced flag of a constructed reaction means element conservation | dict overwrite modelled; refuted for repeated compositions, proved for distinct ones. |
| C10 | Normalising a reaction rescales it and changes nothing else | coefficient vectors over Q; field arithmetic. |
| C11 | reverse() is an involution that swaps sides and negates energy | coefficient vectors over Q; list induction. |
| C12 | Reaction energy is the stoichiometric sum of ground-state formula-unit energies | energies as min over entries with equal reduced composition; list induction. |
| C13 | Equal reactions have equal coefficients for every species | __eq__ line by line; refuted by swapped coefficients; partial: same species sets, sizes and sorted coefficients. |
| C14 | Equality of reactions is an equivalence compatible with hashing | __eq__/__hash__ line by line; reflexive proved; symmetry, transitivity and hash agreement refuted. |
| C15 | Atomic fractions of each side sum to one | sums over Q; open products refuted, rest proved. |
| C16 | An open reaction's energy is the grand potential change and survives the reaction's own operations | grand potential energies over Q; identity proved; loss of openness by normalize_to refuted. |
| C17 | ReactionSet stores and returns exactly the reactions it was built from | from_rxns grouping by size with index arrays; round trip by induction. |
| C18 | Adding reaction sets is multiset union and refuses mismatched entries | concatenation per size key; permutation proof. |
| C19 | get_rxns_by_reactants returns exactly the reactions using only the given reactants | index filters; exactness proof. |
| C20 | get_rxns_by_product returns exactly the reactions forming the given product | index filters; refuted at index 0 and for polymorphs; partial otherwise. |
| C21 | filter_duplicates leaves exactly one reaction of each family of multiples | _get_idxs_to_keep line by line on index rows; refuted at tolerance edge and zero coefficient; partial: when 'is a multiple of' is an equivalence on the rows. |
| C22 | filter_duplicates does not depend on parallelism or scheduling | chunking plus arbitrary completion order; permutation proof; refuted for one CPU (division by zero). |
| C23 | filter_duplicates keeps the reactions it is asked to keep | same model with ensured rows; loop invariant. |
| C24 | Hull path counts are Catalan numbers for every size | table lookup and cached recursion; Catalan recurrence defined separately and by counting binary trees. |
| C25 | The fast and the recursive decomposition energies agree | both algorithms over Q coordinates; induction on the number of vertices with Catalan convolution. |
| C26 | Secondary competition does not depend on the algorithm chosen | both branches of get_secondary_competition; refuted at end points without normalisation, proved otherwise. |
| C27 | Hull energy is the lower convex envelope | qhull as an oracle whose lower vertices are assumed to be a lower convex chain; interpolation proofs over Q. |
| C28 | Primary competition compares with the best reaction at any other mixing ratio | sorted list slicing vs. set definition; proof by cases on isclose. |
| C29 | Secondary competition measures are non-negative | sign of altitudes on a convex chain; induction; refuted for a reaction within the tolerance of isclose beside a hull vertex. |
| C30 | Enumerator chunking covers every phase pair exactly once and respects the job limit | chunk builder as a fold over chemical systems; invariant; job bound refuted by one trailing empty chunk, partial otherwise. |
| C31 | The basic enumerator is complete and sound | _react and the combination dictionary with the balancing routine as an oracle; set-level exactness. `C31_any_flags` is for every setting of the flags, remove_changed=False included. |
| C32 | Grouping by chemical system is a partition | groupby over sorted keys; partition proof. |
| C33 | Expanded phase diagrams cover every entry | greedy loop; invariant (covered, antichain). |
| C34 | The built network has one edge per reaction and exact loop-back edges | graph as node list plus edge list; invariant by induction on the reaction list. |
| C35 | Changing precursors or target leaves no trace of the old ones | setters as graph transformers; refuted by stale loop-back edges; partial: one precursor node, one target node, edges of the current ones exact. |
| C36 | Found pathways are genuine, distinct and at most k | yens_ksp line by line with Dijkstra as an oracle; loop invariants. `RouteSpec` states the result without graphs: a pathway is a list of reactions each of which can use the precursors and what the previous one made. |
| C37 | find_pathways returns the k cheapest loopless paths in increasing cost order | refuted on small graphs by computation; proved for graphs with one distance per node; the first pathway is at most as expensive as any route; the queue gives the first new path by cost and then by nodes. |
| C38 | A pathway's reactions and costs describe the path found | edge lookup picks the newest parallel edge; refuted; partial without parallel edges; which lists of nodes raise. |
| C39 | Network graphs survive serialisation | index remapping; isomorphism proof. |
| C40 | PathwaySet preserves the pathways | index lists into a list of distinct reactions; round trip. |
| C41 | Pathways with different reactions are not equal | zip equality; refuted; partial for equal lengths, and what different numbers of costs give. |
| C42 | Pathway species are partitioned into reactants, intermediates and products | set algebra on lists. |
| C43 | Average pathway cost is a proper weighted mean | dot product over Q; inequality by induction. |
| C44 | Interdependent pathways are recognised | loop over combinations of reactions; refuted (dead membership test). |
| C45 | Balanced pathways reported by the solver really sum to the net reaction | acceptance test with arbitrary pseudo-inverse; list induction. |
| C46 | The solver tries every combination of reactions exactly once | combinations/grouper/batches with arbitrary schedule; permutation proof. `C46_jobs`: the division into jobs, their size and number. |
| C47 | The solver returns an empty result instead of failing when nothing balances | np.concatenate([]) and zip(*[]) as errors; refuted; partial. |
| C48 | Intermediate reactions found by every requested enumerator are used | dropped return value; refuted; partial for the other enumerators. |
| C49 | Cached views of an entry set never go stale | state machine with optional caches; invariant over operation lists. |
| C50 | Entry indices identify entries | idx data as a map on entries; refuted after add; bijection proved after build_indices. |
| C51 | filter_by_stability keeps exactly the stable-enough ground states | loop over diagrams and entries with the removal branch; invariant. |
| C52 | get_min_entry_by_formula returns a ground state | groupby/min; proof by induction. |
| C53 | Stabilised entries end up on or below the hull | energy arithmetic over Q; stabilize_entries refuted by sign. |
| C54 | Changing temperature equals building at that temperature | adjustment lists; refuted for temperature-dependent carbonate corrections; partial otherwise. |
| C55 | Temperatures are accepted on the documented range and interpolated between grid points | table lookup keyed by the text of the temperature; refuted for float grid points; interpolation bounds proved. |
| C56 | Experimental reference energies are extensive and equality respects hashing | refuted for extensivity and hash; range check and the meaning of equality (`C56_equal`) proved. |
| C57 | Equal computed entries have equal hashes | tolerance equality vs. rounded/exact hash; refuted; partial. |
| C58 | Experimental data replace computed entries formula by formula | from_pd loop; refuted for NIST hit/FREED miss; partial for single source. |
| C59 | Energy jitter keeps every entry | loop over entries; refuted for elements; partial for compounds. |
| C60 | get_subset_in_chemsys returns exactly the entries of the subsystem | filter; exactness. |
| C61 | Database queries cover every chemical subsystem once | combinations per size and chunks of 1000; permutation proof. |
| C62 | Competition scores are computed once per target reaction for every cluster | single precursor arithmetic over Q; chunk size formula refuted for small memory. |
| C63 | Copies of a reaction do not share mutable data | heap of data dictionaries with references; refuted for copy/reverse; decorate proved. |
| C64 | Separability is decided for every reaction containing the target | refuted for targets on the reactant side and for common gases (strings compared with compositions); partial otherwise. |
| C65 | Reduced mass is well defined | sum over pairs; inequality over Q. |
| C66 | Running several enumerators unions their reactions | fold over enumerators with filter_duplicates. |
| C67 | A reaction set yields as many reactions as it counts | constructor with and without all_data; refuted without, proved with. |
| C68 | Open reactions stay open in a reaction set | chemical potentials collected from the reactions; refuted for mixed ones, set_chempot proved. |
| C69 | Changing the temperature of a reaction set keeps every reaction | table keyed by composition; refuted for polymorphs, proved for distinct compositions. |
| C70 | The open enumerator finds reactions with any number of open phases | product of combinations and combinations with open phases; exactness proved for open phases on one side, refuted for both sides or none. `C70_any_flags_partial` is for every setting of the flags. |
| C71 | A deserialised network behaves like the original | round trip followed by setters; refuted by doubled loop-back edges; partial up to left-over edges. |
| C72 | A network can be built again | setters after a second build; refuted for every network with precursors. |
| C73 | Equal pathways have equal hashes | hashed fields against compared fields; refuted, partial for equal multiplicities. |
| C74 | The energy of a balanced pathway is that of its net reaction | sums over Q; refuted, proved for unit multiplicities. |
| C75 | PathwaySet keeps the balanced flag | round trip of one pathway; refuted. |
| C76 | get_comp_matrix returns the coefficients of the pathway | attribute that does not exist; refuted for every pathway with a phase. |
| C77 | The solver considers every reaction of its pathways | zip over reactions and costs; refuted for pathways without costs. |
| C78 | Experimental energies are read from the table or interpolated | lookup and linear interpolation of sorted points. |
| C79 | The computed Gibbs energy is extensive | sums over Q, with C65. |
| C80 | process_entries keeps every formula it is asked to include | filter, union, temperature change; refuted for entries without data at the second temperature; proved otherwise. |
| C81 | Changing the temperature of an entry set keeps every entry that has one | loop that catches ValueError; refuted by TypeError; partial otherwise. |
| C82 | Large chemical systems give the same entry set | union over diagrams with C33 and C58; refuted for the energy-above-hull option. |
| C83 | The carbonate correction counts carbonate groups | amounts over Q. |
| C84 | Both database functions choose the same entry of a document | case analysis; refuted for a document with both entries. |
| C85 | The competition job counts precursors without the open formula | case analysis; refuted with an open formula for one and for three precursors. |
| C86 | Dropping reactions to save memory does not change the scores | double filter; refuted for an open formula that no target consumes. |
| C87 | The chempot distance aggregates every interface once | pairs of a list; refuted for a function given directly. |
| C88 | Computing a metastable domain leaves the diagram unchanged | state passing; refuted for an entry on the hull and for a failure. |
| C89 | The shortest domain distance is the least distance of two vertices plus the offset | minimum of minima. |
| C90 | The chempot distance job decorates each reaction once, with its own diagram | chunks as in C62; refuted: the diagram depends on the chunk size. |
| C91 | An enumerator works with the entries the user's formulas mean | specification of a meant entry; composed with C22-C24 for BasicEnumerator; refuted: open phases written unreduced, stabilize. |
| C92 | A reaction can be read back from its text | digits of `.4g` and the pattern's matching, by induction on texts; how the text is laid out; texts without exactly one arrow raise; refuted for large amounts, thirds, unreduced compositions, polymorphs, one-sided reactions. |
| C93 | The minimising enumerators return exactly the interface reactions | the generic enumeration theorem of C31 applied to one pair per combination; the dictionary of diagrams; ground states by C52's lookup. `C93_gibbs_any_flags` and `C93_grand_any_flags` are for every setting of the flags. |
| C94 | Interpolated entries compare and hash consistently | reflexive for all; symmetric with equal hashes when ids fix the composition and close energies are equal; three counterexamples. |
| C95 | Molar fractions are the shares of the coefficients of one side | the total of a side has the sign of its coefficients, so no division by zero. |
| C96 | A reaction at a new temperature is the reaction of its entries at that temperature | without a table for all reactions; with the table of a set of distinct compositions; counterexamples for a missing argument, polymorphs and missing compositions. |
| C97 | The energy of an open reaction counts phases of open elements at their chemical potential | from C16's formula and conservation, by exchanging two sums; needs the pure phases to have zero energy. |
| C98 | The domains of a chemical potential diagram are the equilibria of their phases | half spaces of the minimal entries; entries without one are bounded by the elements; weak duality gives the hull; the check for missing elements comes too late (KeyError). |
| C99 | The offset of a metastable entry is the distance to its stabilised plane | Cauchy-Schwarz over lists of reals, attained along the normal. |
| C100 | The table of a reaction set has one row per reaction, in order of cost | a dict of growing lists, one append per column and row; refuted: data named like a column, data of later reactions, energies above hull when the first phase has none. |
| C101 | Computing a set at several temperatures agrees with setting each temperature | both loops line by line; the dict keeps one set per key. |
| C102 | The uncertainty of a reaction energy combines those of its phases in quadrature | numbers with uncertainty as linear forms in one variable per entry; the square of the result, so that it stays rational. |
| C103 | The pathway flow wires its jobs correctly | FlowModel lists the jobs with references by position; invariant of the loop over chemical potentials. Refuted without the minimising enumerators: the potentials are dropped. |
| C104 | The pathway flow looks for pathways between its precursors and targets | refuted: the arguments of make are not passed on to the network maker; proved when the network maker has them. |
| C105 | The network job finds the pathways from its precursors to its targets | composition of the models of ReactionSet, GibbsEntrySet and ReactionNetwork (`NetJobModel`), of C17, C21, C22, C52 and C36. Refuted on one CPU and without precursors. |
| C106 | The pathways of the solver job turn the precursors into the targets | composition of the models of the reactions, GibbsEntrySet and PathwaySolver (`SolveJobModel`), of C07, C52 and C45. Refuted: a formula that ends up on the other side is accepted (`num_errors` is not looked at). |
| C107 | The solver job drops exactly the circular pathways | `SolveJobModel` with C44. Refuted: `solve` passes `p.composition` of the precursor entries, which is not reduced, so a precursor Li2O2 is not recognised as LiO and good pathways are dropped. |
| C108 | The energy cascade is the energy of the phases above the hull | `PlotModel`; the hull energy of the phase diagram is an argument, assumed to be the lowest energy of a mixture. Refuted: atoms are counted from the formula given and the energy from the reduced formula. |
| C109 | Smoothing a pathway keeps the amounts in range and the atoms | `PlotModel`; induction over the column. Refuted: phases that are there at one temperature only vanish from the frame, and their atoms with them. |
| C110 | The entry job starts from the entries of its chemical system | `MetaModel` on top of C61; the REST client is an argument assumed to answer by its documentation. Refuted: `property_data` is prepared and then not passed on. |
| C111 | The enumeration job reports elements, targets and added elements | `MetaModel`; the order of iteration is an argument. Refuted: `chemsys` is joined from a set without sorting. |
| C112 | The interface hull holds every reaction at its mixing ratio and energy | `IrhModel` on top of the reaction and hull models. `argsort`, rounding and the pseudo-inverse are arguments. |
| C113 | The scores of a reaction compare it with every competing reaction | `IrhModel`. Refuted: with an open reactant all reactions have the same mixing ratio, and a competitor with a lower energy is not compared. |
| C114 | A network loaded from a file finds the pathways of the network that was saved | `LoadModel`: values are entries or raw dictionaries; refuted for every network with precursors; partial for dictionaries kept in memory and after setting the precursors again. |
| C115 | A network node compares by its kind and entries and reports its elements | `LoadModel` nodes; equality proved; dim refuted (length of the text of the chemical system), dummy nodes cannot be read back. |
| C116 | A reaction set gives back the entries it was given, by their unique ids | from_rxns/get_rxns with the classes' own ==, hash and unique_id; partial: entries told apart by their ids; refuted: 300 and 300.0 give KeyError, one id for two entries returns the other entry |
| C117 | Storing a Gibbs entry as a dictionary keeps the entry and its data | `StoreModel`; round trip proved for Element keys one level down; refuted for other levels (TypeError, data left changed) and for an Element and its symbol as keys |
| C118 | What an entry takes from its data and its structure | `StoreModel`; proved when no item is None and every site is full; refuted otherwise |
| C119 | The tabulated elemental chemical potentials serve every compound and fall with temperature | `MuModel` is the data file written out; shape, signs and falling values by computation, then every temperature by proof; refuted for compounds of elements that are not in the table (KeyError) |
| C120 | The competition job scores every target reaction against the right competitors | `CompModel` joins the models of the job (C62, C85, C86), of the hull construction (C112) and of the scores (C24-C29); the statement speaks of reactions, mixing ratios and trees only |
| C121 | Balancing finds the reaction between given phases | `LinModel` computes the pseudo-inverse solution and the rank exactly, so that nothing is left open in balancing; the statement speaks of conserving combinations, least squares and signs only |
| C122 | The solver finds every pathway to the net reaction | `PinvModel` computes the pseudo-inverse exactly; independence by the rank, the theorem of Caratheodory by removing one reaction at a time |
| C123 | The area measure of secondary competition agrees with the energy measure | `AreaModel`; twice the polygon area is a sum of trapezoids under the depth below the chord, which is concave |
| C124 | The pathway solver job finds the pathways from precursors to targets | joins C106, C121 and C122; the linear algebra is computed exactly, nothing is assumed of numpy; with filter_interdependent for reactions that do not run in a circle (`circle` of CapSpec) |
| C125 | The Gibbs energy of a computed entry is that of Bartel et al. | the energy in closed form from amounts, masses and table (`bartel`, `elemental` of GibbsSpec); the logarithm is any function |
| C126 | The tabulated elemental energies are concave in temperature | the interpolated reference energy against the chord (`on_line` of GibbsSpec); fails for Eu, Sb (1800 K) and Te (1400 K) |
| C127 | A criteria text asks for what it says | a grammar of items with their written form (`written`, `stands_for`, `choice` of CritSpec), names of systems as for C61; Composition is an oracle; fails for two lists in one formula (the regular expression is greedy) |
| C128 | Experimental entries and open reactions survive being stored | data trees and renaming of keys as for C117; `kept` and `storable` of OpenStoreSpec; the reaction read equals the one stored; fails for data with Elements for keys (experimental entries: at any level) and for the dictionary itself, which from_dict changes |
| C129 | From reaction sets to balanced pathways | `both_jobs` = network job, PathwaySet, numbering of the entries, solver job; in terms of the unique ids: `amount`, `on_pathways`, `makes_amounts` of ChainSpec; families, lowest entries and pathways as in C105; completeness fails for routes that join two branches |
| C130 | Entries made from documents carry the data of the documents | documents as dictionaries, the projection of the query, `made_from` of RawSpec; sorting fails for stored entries, a document whose entries are None stops the query (entries of other kinds are skipped), the caller's list grows |
| C131 | Stored results are those of the question asked, and the table shows what the precursors allow | `query_one` over a list of stored jobs, `from_rxns` of C17, the frames of C100; `answers`, `latest`, `chosen_rows` of FetchSpec; a column named precursors is lost |
| C132 | Every formula has one metastable domain, in whatever order they are asked for | `C132_domains_partial`, `C132_distance_partial`, `C132_failure`, `C132_on_hull_refuted`: assumes that stabilised entries are new entries and that every domain can be made; an entry on the hull is lost from the diagram. |
| C133 | From entries to pathways: what the enumerators find is searched in full | `C133_enumerate_partial`, `C133_pathways_partial`, `C133_no_enumerators`, `C133_branches_refuted`: joins C121, C66 and C105; a target that needs two products of separate steps gets no pathway though all its reactions are found. |
| C134 | What adds up on the pathways found comes out balanced | `C134_finds_partial`, `C134_few_refuted`: joins C129 and C124, with and without intermediate reactions and filter_interdependent; with max_num_combos above the number of reactions on the pathways np.concatenate gets an empty list and the job fails. |
| C135 | From entries to balanced pathways | `C135_sound_partial`, `C135_finds_partial`, `C135_no_enumerators`, `C135_branches_refuted`: joins C133, C129 and C134; two branches that meet are in the network but on no pathway of it, and the flow fails with ValueError. |
| C136 | The experimental tables serve their range, change smoothly and agree | `C136_range`, `C136_smooth_partial`, `C136_exactly`, `C136_jump_refuted`, `C136_agree_partial`, `C136_agree_refuted`: for the real data files; 69 formulas of FREED and 3 of NIST jump, 89 formulas are disputed between the tables, all listed and shown to be just these. |
| C137 | All reactions between intermediates below the cutoff are found | `C137_found_partial`, `C137_to_intermediates_refuted`, `C137_polymorph_refuted`: what is found are balanced reactions of one or two intermediates to one or two, one of them a target, below the cutoff, pairwise not multiples, of phases that can react in one way only (C145); every such reaction that its phases determine is there up to a factor. A reaction to an intermediate that is no target is not looked for, and a less stable phase of a target's formula is not turned into the target. |
| C138 | From entries to balanced pathways with the default settings | `C138_sound_partial`, `C138_finds_partial`, `C138_branches_refuted`: joins C135 and C137. A route whose branches meet is found if the phases that meet are each on some pathway of the network (`C138_demo_run`); if one step must wait for two branches on every route, the network has no pathway, so there are no intermediates either, and the flow fails with ValueError. |
| C139 | With open phases, reactions that take up or give off gases are found and lead to pathways | `C139_gas_partial`, `C139_both_sides_refuted`: joins C70 and C133. 2 Li2CO3 + 4 MnO + O2 -> 4 LiMnO2 + 2 CO2 is found with oxygen open (`C139_demo_run`); when carbon dioxide is open as well it is found by neither enumerator, and the job fails with ValueError. |
| C140 | The lines of the hull plot are the lower hull | `C140_lines_are_lower_hull_partial` (no reactant decomposes, some reaction is downhill), `C140_figure_partial` (any hull: what else can be drawn is a vertical line), `C140_lines_refuted`: when a reactant decomposes on its own, the vertical edge from (0,0) to its decomposition is drawn as well. |
| C141 | A drawn network has one colour per chemical system | `C141_colors`, `C141_places`. |
| C142 | From entries to pathways with reactions at interfaces | `C142_enumerate_partial`, `C142_pathways_partial`, `C142_branches_refuted`: joins C93 and C133, through a lemma about the sets of any kind of enumerator (`JoinProofs.general_join_spec`). The ends of an interface, where a phase stays what it is, balance to an identity and are dropped (`identity_dropped`). |
| C143 | The calculators of secondary competition measure the same two stretches of the hull | `C143_measures_partial`, `C143_others_partial`, `C143_many`, `C143_area_refuted`: joins C112 (the points), C24-C29 (the hull) and C123 (the area) on the reactions themselves. |
| C144 | A reaction is an identity exactly if it changes nothing | `C144_identity_partial`, `C144_unbalanced_partial`, `C144_unbalanced_refuted`, `C144_repeated_refuted`: amounts are sums over the species (`IdentSpec.taken`, `given`). |
| C145 | The number of constraints counts the independent ways to react | `C145_number`, `C145_one`, `C145_enumerate_partial`, `C145_any_flags`: a way to react is a weight for each phase under which all elements cancel; `d` ways are independent if no combination of them vanishes, and every way is a combination of them (`FreeSpec`). |
| C146 | Rounding does not change whether a reaction of ordinary size is balanced | `C146_flag_partial`, `C146_binary64`, `C146_size_refuted`: the rounding is an argument with a bound on its relative error; `binary64` (53 digits, ties to even) is proved to be one. |
| C147 | Rounding keeps the energy of a reaction and its multiples | `C147_energy`, `C147_reverse`, `C147_multiples`: compared with the exact energy of C12. |
| C148 | Each option of the search between intermediates adds its own reactions | `C148_options_partial`: as C137 for both flags; reactions are those of C137 if the first flag is set, and kink reactions if the second is. The kinks are an argument. |
| C149 | Rounding does not change which pathways of ordinary size are balanced | `C149_accepts_partial`, `C149_sound_partial`, `C149_order`, `C149_finds_partial`, `C149_size_refuted`: the test with rounding, any order of additions (`added_up`), and the whole solver of C122 with a pinv that is off by 1e-12. |
| C150 | From entries to balanced pathways with all enumerators for closed systems | `C150_sound_partial`, `C150_finds_partial`: joins C138, C142 and C148; contains C138 as the case of basic enumerators and the first option only. The kinks at the network's phases and at the solver's pool come from one function of compositions and energies (`AnyWholeProofs.between_meets`, `meets_between`). |
| C151 | The search between intermediates with an open element finds all reactions of the options | `C151_open_partial`: the search of C148 with an open element: BasicOpenEnumerator added, energies replaced by grand potentials per atom of the other elements (`IntOpenSpec.grand_low`, stated without the model's energy functions). The result of the MinimizeGrandPotentialEnumerator is an argument, because the code drops it (C48). |
| C152 | From entries to balanced pathways for an open element | `C152_sound_partial`, `C152_finds_partial`: C150 for an open element, with the search of C151. The network may be open or closed. The additional set of line 208 of the flow is an argument: any reactions between the entries (`OpenWholeSpec.among`). |
| C153 | The flow for an open element includes the kinks at its chemical potential | `C153_sound_partial`, `C153_finds_partial`: C152 with the further set enumerated by the modelled MinimizeGrandPotentialEnumerator (`GrandJoinSpec.at_open_kink`). |
| C154 | Calls that have no answer raise | `C154_vector`, `C154_per_atom`, `C154_alone`, `C154_not_alone`, `C154_unbalanced`, `C154_no_reference`, `C154_no_enumerators`, `C154_no_entries`, `C154_hull`, `C154_primary`, `C154_count`, `C154_unset`, `C154_above`, `C154_no_precursors`, `C154_job`: which exception, and when, for the vector of a reaction, energies per atom, balancing, the solver and its job, the plotter, the hull and the search for paths. |
| C155 | Multiples of a reaction have one normalised text | `C155_normal_partial`, `C155_multiples_partial`, `C155_repr`, `C155_tiny_refuted`, `C155_total`, `C155_nothing`, `C155_formulas`, `C155_unread`: Euclid's algorithm with a tolerance, fuel proved sufficient (two rounds halve the divisor); texts by the lemmas of C92. |
| C156 | Enumerated reactions carry their number of constraints | `C156_enumerated_partial`, `C156_open_partial`: every object of an enumerator is balanced from phases it was given and passed the limit; the rank is that of C145, the sets by the lemmas of C142 and C153. |

## What is modelled, per source file

* `utils/funcs.py`: `limited_powerset`, `grouper`. `utils/ray.py`: `to_iterator`
  (completion order arbitrary). Not: `initialize_ray`, `get_logger`, `datetime_str`.
* `costs/pareto.py`, `costs/functions.py`, `costs/base.py` (`decorate`). Exact
  rationals; softplus over the reals. `costs/calculators.py` is below.
* `reactions/hull.py`: coordinates, hull vertices, energies above hull, primary
  and secondary competition, both decomposition algorithms. qhull is an argument
  with the assumption that it returns the vertices of the lower hull
  (`correct_hull`); ties of `np.argsort` are in index order. The area functions
  are in AreaModel, the plot in HullPlotModel.
* `reactions/basic.py`, `computed.py`, `open.py`: construction, balancing,
  normalisation, reversal, equality and hash, energies, fractions,
  separability. The pseudo-inverse and the rank are arguments. Composition equality is
  exact (pymatgen allows 1e-8). `energy_uncertainty` is in
  UncertModel, dictionaries of open reactions in OpenStoreModel.
* `reactions/reaction_set.py`: `from_rxns`, `get_rxns`, `add_rxns`,
  `add_rxn_set`, the filters, `filter_duplicates` (serial and parallel),
  `set_chempot`, `set_new_temperature`. The order of `np.argsort` and of sets
  is an argument. `to_dataframe` and `calculate_costs` are in FrameModel.
* `enumerators/basic.py`: `enumerate` from the combination dictionary to the list
  of reactions, `_react`, chunking, `_filter_dict_by_elems`, both iterables.
  Phase diagrams are assumed to be built without raising; reduced compositions are
  assumed to hold more than 0.01 atoms of each of their elements. `enumerators/utils.py`: `group_by_chemsys`,
  `get_total_chemsys_str`, `run_enumerators`. `thermo/utils.py`: `expand_pd`;
  `GibbsEntrySet.get_e_above_hull`.
* `network/network.py`: `build`, the node and edge builders, `set_precursors`,
  `set_target`, `find_pathways`, `_path_from_graph`, `yens_ksp`, `get_edge_weight`;
  `network/base.py`: `Graph.as_dict`/`from_dict`. Entries are numbers, sets of entries
  increasing lists. rustworkx is modelled as: a removed node's index is reused first;
  `get_edge_data` and `remove_edge` take the newest of several parallel edges;
  `find_node_by_weight` takes the lowest index. `dijkstra_shortest_paths` is an argument
  assumed to return a cheapest path when there is one (`shortest`; `search` in
  `ShortestPath.v` meets this). Node and edge dictionaries are assumed to be read back
  as equal objects. The colours of the plot are in VisModel. Not: the drawing,
  `find_pathways` timing logs.
* `pathways/base.py`, `basic.py`, `balanced.py`, `pathway_set.py`: species,
  costs, energies, equality, hash, interdependence, `from_paths` and the paths read
  back. Reactions are an arbitrary type with a boolean equality. A comparison of a
  basic with a balanced pathway is not modelled. `plotting.py` is in PlotModel. Not: `__repr__`.
* `pathways/solver.py`: collecting the reactions, `solve` up to the list of paths given
  to `from_paths`, the kernel, `_find_intermediate_rxns`. Arguments: the pseudo-inverse
  (one number per row, does not raise), the schedules of ray, the order of `set(paths)`,
  the reactions left by `filter_duplicates`, the results of the enumerators. Reactions
  are compared without raising; the batch size is a natural number. Not: logging, the
  numba compilation of the kernel.
* `entries/gibbs.py`, `experimental.py`, `interpolated.py`, `corrections.py`: constructors,
  energies, reduced mass, elemental sums, `get_new_temperature`, equality, hash keys.
  `np.log` is an arbitrary function. The tables are arguments; the theorems that need a
  complete elemental table say so (`tabulates`). Adjustments are assumed to be read back
  unchanged from their dictionaries, except for the temperature set by experimental
  entries. Entry ids are numbers, 0 is the empty one. `data`, `as_dict` and `from_structure` are in
  StoreModel and OpenStoreModel. Not: `parameters`, uncertainties of entries, `to_grand_entry`, `copy`.
* `entries/entry_set.py`, and `process_entries`, `initialize_entry` of `entries/utils.py`:
  set operations with their caches, indices, subsets, the stability filter, ground states,
  stabilised, interpolated and jittered entries, temperature changes, `from_pd`,
  `from_computed_entries`, the carbonate correction. Equal entries are one number; the
  iteration order after each change and the order of entries with equal compositions are
  arbitrary. `get_e_above_hull` of a diagram, hull energies, random noise, and the outcome
  of the constructors of experimental entries are arguments; diagrams are built without
  raising. Elemental references are assumed to be the same in a diagram and its parts
  (hypothesis of C82). `enumerators/utils.py`: `stabilize_entries`. Not: `as_dict`, `copy`,
  the metadata removed by `minimize_obj_size`.
* `entries/utils.py`, database queries: `get_all_entries_in_chemsys_from_entry_db`,
  `get_entries_from_entry_db`, the choice of a ready-made entry in `get_entries`. A document
  is a record; the meaning of the two criteria (`$in` on the chemical system, `$not
  $elemMatch $nin` on the elements) is assumed, as is that a document's chemical system is
  the sorted name of its elements. Entries built from raw documents are in RawModel.
  Not: `from_dict` of a stored entry.
* `jobs/core.py`, the competition job: chunk size from the cluster's memory, chunks, tasks in
  any completion order, single-precursor scores, the reactions kept by `make`. A reaction is
  the formulas of its two sides and its energy; selection by reactants and products is taken
  from the positive theorems of C19 and C20. Reaction equality, `round(_, 4)`, the interface
  hull's scores and the iteration order of a set are arguments. Reactions
  themselves are in CompModel, the other makers in NetJobModel, SolveJobModel, MetaModel and FlowModel.
  Not: the documents.
* `costs/calculators.py`: `ChempotDistanceCalculator` (choice of the function, interfaces,
  aggregation; nan is a value None). `thermo/chempot_diagram.py`: `shortest_domain_distance`,
  `_get_metastable_domain` with the entry set and cache it changes. `jobs/core.py`: the
  chempot distance job, up to the chemical system of the diagram used. Points and their
  distance, the ground state and stabilised entry, and the domains of a diagram are
  arguments. The other calculators are in CalcModel, all metastable domains in DomModel.
* `enumerators/basic.py` `_get_initialized_entries`, `entries/utils.py` `initialize_entry`:
  texts are numbers with a reduced formula; the interpolated and the stabilised entry are
  arguments. `build_indices` is in EntrySetModel.
* `reactions/basic.py` `__str__`, `_str_from_formulas`, `_str_from_comp` (without `reduce`),
  `from_string`, `_from_coeff_dicts`. Texts are lists of ASCII characters; the regular
  expression is matched by hand-written functions (argued in a comment); `.4g` rounds the
  exact number, ties to even; `float` is exact. The reduced formula of a composition and
  `Composition(text)` are arguments. `from_formulas` and `normalized_repr` are in NormModel.
* `enumerators/minimize.py`, and `get_computed_rxn`, `react_interface` of
  `enumerators/utils.py`: both react functions, the enumeration with the phase diagrams built
  first. The diagrams and the kinks of an interface are pymatgen's and are arguments; a kink
  is assumed to name formulas of its chemical system on both sides. Iterating over a set gives
  an arbitrary order.
* `get_new_temperature` of computed and open reactions with the argument given, None or left
  out. What an entry does at a new temperature is an argument here (it is modelled with the
  entries).
* `thermo/chempot_diagram.py`: `__init__` up to the half spaces, `_get_hyperplanes_and_entries`,
  `_get_domains`, `get_offset` (with real numbers for the norm), and pymatgen's
  `_get_min_entries_and_el_refs`, which is read from memory as: runs of equal formulas, the
  first least entry of each, elements by their entry. scipy's `HalfspaceIntersection` is an
  argument with its contract (`intersection`, `all_named` in DiagSpec.v): points within all half
  spaces, each with borders it lies on. Border hyperplanes are any half spaces. Entry equality
  is assumed to be identity within a set.
* FrameModel: `reactions/reaction_set.py`: `to_dataframe` (without its `lru_cache`), `_get_added_elems`,
  `calculate_costs`, `compute_at_temperatures`. pandas: a dict of lists needs equal lengths; `sort_values`
  is any order by value (hypothesis `orders`).
* UncertModel: `reactions/computed.py`: `energy_uncertainty`, `energy_uncertainty_per_atom`, as their squares.
  The package uncertainties is modelled by linear forms with exact derivatives, compared by nominal value;
  a reaction without species gives AttributeError, zero atoms ZeroDivisionError (python: nan).
* FlowModel: `NetworkFlowMaker.make` as the list of its jobs with their
  arguments (given, or an output of the job at a position). Not modelled: names,
  jobflow's way of copying makers and resolving references, what the keyword
  arguments of the enumerators contain.
* NetJobModel: `jobs/core.py`: `NetworkMaker.make`, put together from the other models. Not modelled: the
  document and the stores of jobflow; PathwaySet.from_paths (C40) is not applied to the pathways.
* SolveJobModel: `jobs/core.py`: `PathwaySolverMaker`; `enumerators/utils.py`: `get_computed_rxn`. The search for
  intermediate reactions is an argument here (C48 is about it). Not modelled: the document and the stores.
* PlotModel: `pathways/plotting.py`: `PathwayPlotter` (`_get_phase_df`, `_get_num_atoms_df`, `elems`, `compositions`,
  `_get_energies`, the values of `plot_energy_cascade`); pymatgen's `get_form_energy_per_atom`, the 1e-8 tolerance of
  `Composition`, scipy's `median_filter` with size 3. The entry set at a temperature and `get_hull_energy` are
  arguments; the second is assumed to be the lowest energy of a mixture of the entries. A temperature given twice
  raises an exception whose kind is not claimed. Not modelled: the drawing.
* MetaModel: `jobs/core.py`: `GetEntrySetMaker.make` up to `process_entries` (C80), `_get_exclude_elems`,
  `ReactionEnumerationMaker._get_metadata`; `jobs/utils.py`: `get_added_elem_data`. The answers of the Materials Project
  are arguments, assumed to be the entries asked for. Not modelled: the documents and the stores, the import of `mp_api`.
* IrhModel: `reactions/hull.py`: `InterfaceReactionHull.__init__`, `get_coordinate`, the scores of a reaction with
  `include_e_hull`, `stable_reactions`; `costs/calculators.py:149-283` as calls of these.
* LoadModel: `network/base.py:63-89` with the setters and the search of `network/network.py` on a network whose precursors and
  target may be raw dictionaries; `network/entry.py` nodes. Assumed of monty: the JSON encoder turns entries into dictionaries and
  `from_dict` of a class receives the dictionary undecoded; reactions, cost function and graph are decoded to equal objects.
* UidModel: reactions/reaction_set.py from_rxns and get_rxns once more, over entries with their own equality (`same`: equal hashes and ==), a python set that keeps the first of equal items, and the dictionary from unique_id to position in which the last entry of an id stays; unique_id, == and hash of GibbsComputedEntry, ExperimentalReferenceEntry and InterpolatedEntry. An int and a float temperature have different texts. Not modelled here: grouping by size, data and chemical potentials (RxnSetModel has them), an entry id that ends like a temperature, sets of entries of different classes.
* StoreModel: entries/gibbs.py as_dict, _sanitize_data, from_dict, get_new_temperature with the data of the entry as a tree of lists and dictionaries whose keys are texts, Elements or numbers; the state of the entry after a call that raises; is_experimental; from_structure. json is taken from pymatgen's ComputedEntry.as_dict: a key that is an Element raises TypeError, numbers become texts, the last of two keys of one text stays. Assumed: leaves and energy adjustments are read back unchanged. Not modelled: other objects as values in the data, `parameters`.
* MuModel: the data file data/mu_elements.json, all 18 rows of 83 elements, written out by a script as decimals (the program reads the nearest doubles). Used with GibbsModel's `sum_g_i` and `gibbs_init` in place of their table argument. The tables of experimental energies are in NistTableModel and FreedTableModel.
* CompModel: the competition job on reactions. The job of JobsModel runs on views (number, reactant and product formulas, energy per atom) of the reactions; the scores of two precursors are those of IrhModel on the reactions with these numbers. numpy's argsort, ConvexHull, round and the pseudo-inverse for the two identity reactions are arguments; hypotheses on them are in the theorems.
* LinModel: the matrix with constraints of `_balance_coeffs`, `np.linalg.pinv` applied to the right hand side and `np.linalg.matrix_rank`, in exact arithmetic. They are computed by orthogonal projections (Gram-Schmidt) instead of singular values. That the result is the shortest least squares solution is proved (C121_pinv_partial), not assumed. Rounding and the cut-off for small singular values are not modelled. With it the enumerator of C31 runs without any argument left open.
* PinvModel: `np.linalg.pinv(M).T @ net_coeffs` of the kernel in exact arithmetic, by the projections of LinModel. It replaces the argument `pinv` of SolverModel; what C46 assumes of it is proved.
* AreaModel: get_decomposition_area, get_secondary_competition_area and its calculator. `ConvexHull(_, qhull_options="QJ i").volume` is an argument, assumed to return the area of a convex polygon and to raise for fewer than three points (AreaSpec `measures`); the random joggling of option QJ is not modelled.
* CritModel: `parse_criteria` (entries/utils.py:438-505), with its regular expressions as functions on ASCII texts. The symbols of Element and Composition are arguments. The order of the set of formulas is that of insertion.
* OpenStoreModel: `as_dict`, `from_dict` and `get_new_temperature` of experimental entries with their data (entries/experimental.py:72-86, 156-187), `as_dict` and `from_dict` of OpenComputedReaction over Gibbs entries (reactions/open.py:223-233), returning the dictionary and entries afterwards. MSONable of monty is modelled by its effect on the arguments of the constructor; Element(symbol) is an argument.
* ChainModel: the network job followed by the solver job (flows/core.py:138-215), with the numbering of the entries by position in entries_list (network/base.py:39-41, entries/entry_set.py:197-209, 557-560), the reaction objects of a reaction set (reactions/reaction_set.py:583-596) and the PathwaySet between the jobs. Outputs are passed on without being stored; the order of entries_list and of the iteration over the set are arguments (assumed to be permutations).
* RawModel: get_entries (entries/utils.py:218-350) on documents as dictionaries of values, with the projection of the query, the parameters, the wanted properties, structures and conventional cells, stored entries and sorting. The query itself, str(), the conventional cell, from_dict of stored entries and the compatibility corrections are arguments; for the order it is assumed that the corrections keep the data of the entries. Numbers in the energy property are assumed; iterating over a text in place of the list of labels is not modelled.
* FetchModel: get_rxns_from_db (utils/database.py:12-56) over a list of stored jobs, with the stored set decoded unchanged; filter_df_by_precursors (reactions/plotting.py:174-179) on the frames of FrameModel. What pandas does when the table has no rows is an argument. The printing is not modelled.
* DomModel: metastable_domains, a loop over the formulas of the minimum entries that threads the diagram (its entries and its cache). Ground entries, stabilised entries and the domains of a diagram are oracles, as in CpdModel.
* JoinModel: the first part of the flow, enumerate() with the reactions themselves (EnumModel follows what the filters read off them), ReactionSet.from_rxns, run_enumerators and the network job. BasicEnumerator and BasicOpenEnumerator, with the open phases given as reduced formulas; the pseudo-inverse is the exact one of LinModel.
* WholeModel: `NetworkFlowMaker.make` from the enumerators to the solver, put together from JoinModel and ChainModel.
* NistTableModel, FreedTableModel, ExpTableModel: the two data files `data/nist/compounds.json.gz` and `data/freed/compounds.json.gz`, generated from the files, energies rounded to 1e-6 eV, and `REFERENCES` made of them. The number of atoms of a formula was counted by the generating script. That the texts agree with the files is part of the trusted base.
* IntModel: `PathwaySolver._find_intermediate_rxns` (pathways/solver.py:342-403) with the BasicEnumerator of JoinModel run in it, for a closed system and `use_minimize_enumerator=False`. The set of intermediates is iterated in any order. The enumerator that minimises is in IntMinModel, an open element in IntOpenModel.
* HullPlotModel: `plot`, `_get_lines` and `_get_scatter` of the interface reaction hull. hull.simplices is an input, assumed to be the edges of the convex polygon (`HullPlotSpec.polygon`). Not modelled: colours, labels, hover text.
* VisModel: the colours of `plot_network` and `_get_cmap_string`. The palette of matplotlib is an input (`cmap n i`: the i-th of n colours), as is the order of elements. Not modelled: the drawing by rustworkx.
* MinJoinModel: a flow with `MinimizeGibbsEnumerator`s among its enumerators. What pymatgen is assumed to do: diagrams can be built and kinks name phases of the system (`good_interfaces`, as for C93), and a kink has different phases on its two sides or is one phase that stays what it is (`tidy_kinks`). Not modelled here: the reactions of a `MinimizeGrandPotentialEnumerator` in a flow.
* CalcModel: the five calculators of competition, with the area measure on a reaction, and `calculate_many`. qhull's volume is assumed to be the area of a convex chain and to raise for fewer than three points (`measures`, as for C123).
* RoundModel: the balanced flag, the energy, its reverse and the comparison of coefficients (`basic.py:61-77`, `computed.py:115-121`, `reaction_set.py:668-671`) with a rounding after every operation, and with pymatgen's `amount_tolerance`. Elsewhere numbers are exact. Not modelled: overflow, subnormal numbers, the order of numpy's own sums.
* IntMinModel: `PathwaySolver._find_intermediate_rxns` (pathways/solver.py:342-403) with both options, for a closed system: the BasicEnumerator of JoinModel and the MinimizeGibbsEnumerator of MinJoinModel. Kinks of interfaces are an argument, of which C148 assumes that the diagrams can be built, and that a kink names formulas of the phases given, has two sides, and names no formula twice (unless it is one phase that does not react). An open element is in IntOpenModel.
* RoundPathModel: the test of `_balance_path_arrays_cpu` (pathways/solver.py:434-455) with a rounding after every operation; the sums of products and the result of pinv are arguments, of which an error bound is assumed. That the bound for sums holds for every order of adding is proved (C149_order), not for fused multiplications. That pinv is as precise as assumed is not proved.
* AnyWholeModel: `NetworkFlowMaker.make` (flows/core.py:140-178) with enumerators of both kinds and both options of the search. PhaseDiagram and InterfacialReactivity of pymatgen are two arguments: the first maps the compositions and energies of the phases to a diagram or an exception, the second a diagram and two compositions to the kinks. C150 assumes of them what C148 does.
* IntOpenModel: `PathwaySolver._find_intermediate_rxns` (pathways/solver.py:342-403) for an open element, with the BasicOpenEnumerator and both options. The MinimizeGrandPotentialEnumerator's result is an argument; C151 assumes only that it is a well-formed set over the same entries when the option is set.
* OpenWholeModel: `NetworkFlowMaker.make` (flows/core.py:162-216) for an open element: base enumeration, network with the base set and further sets, solver with its search for the open element. The job that makes the further set (a MinimizeGrandPotentialEnumerator on the same entries) is not run; its set is an argument, and C152 assumes that its reactions are between the entries (C153 runs it). Likewise the result of that enumerator inside the solver, which the code drops (C48).
* GrandJoinModel: one round of the loop of `NetworkFlowMaker.make` (flows/core.py:178-216): the MinimizeGrandPotentialEnumerator on the entries (minimize.py:144-248) with its objects at the chemical potential, its reaction set, the enumeration job with it alone, and the makers with the element and the potential. The grand potential diagram and the kinks of its interfaces are arguments, as for C142. Only the solver job's result is kept, and the exception of the second enumeration is the one seen if both fail. The same enumerator inside the solver is still an argument, since the code drops what it finds (C48).
* C154 adds no model: it is about `get_entry_idx_vector`, `energy_per_atom`, `computed_balance`, `solve`, `energies_at`, `get_hull_energy`, `get_energy_above_hull`, `get_primary_competition`, `count`, `k_shortest_paths`, `find_pathways` and `solve_job` of the models above. Where numpy divides by zero and goes on with nan or inf, the models raise ZeroDivisionError.
* NormModel: `normalized_repr_and_factor`, `normalized_repr`, `_str_from_comp` with `reduce`, `from_formulas` (reactions/basic.py:163-167, 289-303, 358-363, 445-458). `gcd_float` of monty is not part of /repo and is written from memory, with its tolerance of 1e-8; numbers are exact. Composition(text) and the linear algebra are arguments.
* DataSpec, DataProofs: no further code is modelled. C156 follows `data["num_constraints"]` of reactions/computed.py:49-79 through JoinModel, MinJoinModel and GrandJoinModel.

## Wrong programs

seeded/LOG.jsonl has one line for each edit of the model tried in a scratch copy.
`theorems_failed` are theorems of `*Props.v`, `lemmas_failed` the lemmas beneath
them that failed first. A run stops at the first file that fails, so the lists are
not complete. `failed_through` is given when a definition or a concrete run no longer
checks, not a proof. `tightened` names theorems added or changed because of the edit.
Lines without a failure say in `notes` why no claim is broken.

## Print Assumptions

C06 and C99 (reals): `ClassicalDedekindReals.sig_forall_dec`,
`ClassicalDedekindReals.sig_not_dec`,
`FunctionalExtensionality.functional_extensionality_dep`, for C06 also
`Classical_Prop.classic`, all from the standard library. Every other theorem in `*Props.v` is closed under the
global context.
