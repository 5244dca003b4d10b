{"id": "C01", "title": "limited_powerset yields every small non-empty subset exactly once", "statement": "limited_powerset(xs, m) yields exactly the non-empty sub-collections of xs (order preserved) whose size is at most m: each one appears, none appears twice for pairwise distinct items, nothing else appears, and smaller subsets come before larger ones.", "quantifier": "every finite list of items and every max_size >= 0", "why_tests_cant": "A test fixes a list and a bound; a lost or repeated subset at another size silently removes reactions from every enumeration built on it.", "anchors": ["src/rxn_network/utils/funcs.py:limited_powerset"]}
{"id": "C02", "title": "grouper splits work into chunks without losing, duplicating or reordering items", "statement": "For a positive chunk size n, concatenating the chunks of grouper(xs, n) and dropping the fill value gives back xs in order (when xs does not itself contain the fill value); every chunk has exactly n slots; fill values occur only at the end of the last chunk; the number of chunks is ceil(len(xs)/n).", "quantifier": "every finite list and every chunk size n >= 1", "why_tests_cant": "Off-by-one chunk boundaries only show for particular length/size residues; every parallel job in the package is cut up by this function.", "anchors": ["src/rxn_network/utils/funcs.py:grouper", "src/rxn_network/reactions/reaction_set.py:ReactionSet.filter_duplicates", "src/rxn_network/jobs/core.py:CalculateCompetitionMaker._get_competition_decorated_rxns"]}
{"id": "C03", "title": "to_iterator returns every parallel result exactly once under any completion schedule", "statement": "Whatever order the cluster finishes tasks in, iterating to_iterator(refs) terminates after exactly len(refs) steps and yields the result of every submitted reference exactly once (and, with get_obj_ids, paired with its own reference).", "quantifier": "every list of task references and every schedule of task completions allowed by ray.wait", "why_tests_cant": "A test observes a handful of interleavings on one machine; result loss or duplication depends on the schedule.", "anchors": ["src/rxn_network/utils/ray.py:to_iterator"]}
{"id": "C04", "title": "is_pareto_efficient keeps exactly the non-dominated points", "statement": "is_pareto_efficient(costs) marks a point iff no other point is at least as good in every column and either strictly better somewhere or an earlier copy of the same point; the loop terminates; the mask form and the index form agree.", "quantifier": "every finite list of points of equal dimension with totally ordered entries", "why_tests_cant": "The loop shrinks its own array and moves its cursor while running; correctness for all orders and ties is not something sampling settles.", "anchors": ["src/rxn_network/costs/pareto.py:is_pareto_efficient"]}
{"id": "C05", "title": "get_pareto_front(maximize=True) is the front for maximising the chosen metrics", "statement": "With maximize=True the returned rows are exactly the rows not dominated when every chosen metric is to be maximised; with maximize=False exactly the rows not dominated when every metric is minimised.", "quantifier": "every table of rows, every choice of metrics, both values of maximize", "why_tests_cant": "Whether all columns are flipped shows only on tables whose front depends on the first metric.", "anchors": ["src/rxn_network/costs/pareto.py:get_pareto_front"]}
{"id": "C06", "title": "Cost functions are total, monotone and prefer explicit reaction data", "statement": "Softplus.evaluate is positive, strictly increasing in the weighted parameter sum, strictly decreasing in temperature, and the constructor rejects temp <= 0; for Softplus and WeightedSum a parameter present in the reaction's data wins over the attribute of the same name, and a parameter present in neither raises ValueError.", "quantifier": "every reaction, every parameter/weight list, every positive temperature", "why_tests_cant": "Monotonicity and positivity are statements about all real inputs.", "anchors": ["src/rxn_network/costs/functions.py:Softplus", "src/rxn_network/costs/functions.py:WeightedSum"]}
{"id": "C07", "title": "Balanced reactions conserve every element", "statement": "If BasicReaction.balance(reactants, products) returns a reaction flagged balanced, then for every element the coefficient-weighted amounts sum to zero within 1e-8; if lowest_num_errors is 0, every reactant has a coefficient below -1e-6+tol and every product above it (i.e. signs as requested); otherwise the reaction is flagged unbalanced and all coefficients are zero.", "quantifier": "every pair of finite composition lists and every behaviour of the pseudo-inverse routine", "why_tests_cant": "The loop over constraint combinations and its early exits can leave a stale candidate; the numerical routine is a black box whose failures tests do not sample.", "anchors": ["src/rxn_network/reactions/basic.py:BasicReaction.balance", "src/rxn_network/reactions/basic.py:BasicReaction._balance_coeffs"]}
{"id": "C08", "title": "ComputedReaction.balance never reports an unbalanceable reaction as balanced", "statement": "If no linear combination that conserves the elements is found, the ComputedReaction returned by balance() has balanced == False, as for BasicReaction.balance, so PathwaySolver.solve rejects it as a net reaction.", "quantifier": "every pair of reactant/product entry lists", "why_tests_cant": "The tests only balance reactions that can be balanced.", "anchors": ["src/rxn_network/reactions/computed.py:ComputedReaction.balance", "src/rxn_network/reactions/basic.py:BasicReaction.__init__", "src/rxn_network/pathways/solver.py:PathwaySolver.solve"]}
{"id": "C09", "title": "The balanced flag of a constructed reaction means element conservation", "statement": "BasicReaction(compositions, coefficients).balanced is True iff for every element the total on the reactant side and the total on the product side, computed from all the listed (composition, coefficient) pairs, differ by at most 1e-6.", "quantifier": "every list of compositions and coefficients, including repeated compositions", "why_tests_cant": "Repeated compositions are collapsed by a dict inside the constructor; the tests never repeat one.", "anchors": ["src/rxn_network/reactions/basic.py:BasicReaction.__init__"]}
{"id": "C10", "title": "Normalising a reaction rescales it and changes nothing else", "statement": "normalize_to(comp, f) multiplies all coefficients by one positive factor so that comp gets coefficient +-f; normalize_to_element(el, f) makes get_el_amount(el) equal f; reactants, products, entries and energy per atom are unchanged and the total energy scales by the same factor; a composition that is not in the reaction raises ValueError.", "quantifier": "every reaction, every composition/element in it with a non-zero coefficient/amount, every positive factor", "why_tests_cant": "Algebraic law over all coefficient vectors.", "anchors": ["src/rxn_network/reactions/basic.py:BasicReaction.normalize_to", "src/rxn_network/reactions/basic.py:BasicReaction.normalize_to_element", "src/rxn_network/reactions/computed.py:ComputedReaction.normalize_to", "src/rxn_network/reactions/computed.py:ComputedReaction.normalize_to_element"]}
{"id": "C11", "title": "reverse() is an involution that swaps sides and negates energy", "statement": "r.reverse() has r's products as reactants and vice versa, the negated energy, the same entries, balanced flag and error count, and r.reverse().reverse() equals r.", "quantifier": "every Basic/Computed/Open reaction", "why_tests_cant": "Law over all coefficient vectors and entry lists.", "anchors": ["src/rxn_network/reactions/basic.py:BasicReaction.reverse", "src/rxn_network/reactions/computed.py:ComputedReaction.reverse", "src/rxn_network/reactions/open.py:OpenComputedReaction.reverse"]}
{"id": "C12", "title": "Reaction energy is the stoichiometric sum of ground-state formula-unit energies", "statement": "ComputedReaction.energy equals the sum over the listed species of coefficient times the lowest energy per reduced formula unit among the reaction's entries of that species; it does not depend on the cell size an entry was computed in; energy_per_atom is invariant under positive scaling of the coefficients.", "quantifier": "every reaction, every positive rescaling of an entry's cell", "why_tests_cant": "Statement over all entry lists including polymorphs and supercells.", "anchors": ["src/rxn_network/reactions/computed.py:ComputedReaction.energy", "src/rxn_network/reactions/computed.py:ComputedReaction.energy_per_atom"]}
{"id": "C13", "title": "Equal reactions have equal coefficients for every species", "statement": "If r1 == r2 then every species has (up to tolerance) the same coefficient in both reactions.", "quantifier": "every pair of reactions", "why_tests_cant": "__eq__ compares sorted coefficient lists; a counterexample needs coefficients exchanged between species, which no test builds.", "anchors": ["src/rxn_network/reactions/basic.py:BasicReaction.__eq__", "src/rxn_network/reactions/computed.py:ComputedReaction.__eq__"]}
{"id": "C14", "title": "Equality of reactions is an equivalence compatible with hashing", "statement": "== on reactions is reflexive, symmetric and transitive, and r1 == r2 implies hash(r1) == hash(r2), so that sets, dicts and 'in' behave.", "quantifier": "every triple of reactions", "why_tests_cant": "The tolerance comparison is neither symmetric nor transitive at its edge; tests use well separated values.", "anchors": ["src/rxn_network/reactions/basic.py:BasicReaction.__eq__", "src/rxn_network/reactions/basic.py:BasicReaction.__hash__"]}
{"id": "C15", "title": "Atomic fractions of each side sum to one", "statement": "For a reaction that conserves elements exactly, reactant_atomic_fractions and product_atomic_fractions each sum to 1 and are positive; for an OpenComputedReaction the same holds counting only non-open elements.", "quantifier": "every balanced reaction with distinct reduced compositions, every set of open elements that leaves a non-open atom", "why_tests_cant": "Sum law over all stoichiometries.", "anchors": ["src/rxn_network/reactions/basic.py:BasicReaction.reactant_atomic_fractions", "src/rxn_network/reactions/basic.py:BasicReaction.product_atomic_fractions", "src/rxn_network/reactions/open.py:OpenComputedReaction.reactant_atomic_fractions", "src/rxn_network/reactions/open.py:OpenComputedReaction.product_atomic_fractions"]}
{"id": "C16", "title": "An open reaction's energy is the grand potential change and survives the reaction's own operations", "statement": "OpenComputedReaction.energy equals the closed reaction energy minus the sum over species that are not a pure open element of coefficient times mu times amount of open element; copy, reverse, normalize_to and get_new_temperature return a reaction that is still open with the same chemical potentials.", "quantifier": "every reaction, set of open elements and chemical potentials", "why_tests_cant": "Identity over all stoichiometries; the tests check single numbers and never normalise an open reaction.", "anchors": ["src/rxn_network/reactions/open.py:OpenComputedReaction", "src/rxn_network/reactions/computed.py:ComputedReaction.normalize_to"]}
{"id": "C17", "title": "ReactionSet stores and returns exactly the reactions it was built from", "statement": "list(ReactionSet.from_rxns(rxns).get_rxns()) is a reordering of rxns by reaction size (stable within a size) with the same entries, coefficients and data, and len() is the number of reactions.", "quantifier": "every finite list of reactions over entries with pairwise distinct unique ids", "why_tests_cant": "Round-trip over all lists and sizes.", "anchors": ["src/rxn_network/reactions/reaction_set.py:ReactionSet.from_rxns", "src/rxn_network/reactions/reaction_set.py:ReactionSet.get_rxns"]}
{"id": "C18", "title": "Adding reaction sets is multiset union and refuses mismatched entries", "statement": "a.add_rxn_set(b) contains exactly the reactions of a and of b (with multiplicity), keeps a's open element and chemical potential, leaves a and b unchanged, and raises ValueError iff the entry lists differ; add_rxns behaves likewise for reactions over a's entries.", "quantifier": "every pair of reaction sets", "why_tests_cant": "Union law over all size profiles.", "anchors": ["src/rxn_network/reactions/reaction_set.py:ReactionSet.add_rxn_set", "src/rxn_network/reactions/reaction_set.py:ReactionSet.add_rxns"]}
{"id": "C19", "title": "get_rxns_by_reactants returns exactly the reactions using only the given reactants", "statement": "rxn_set.get_rxns_by_reactants(fs) yields exactly those reactions of the set all of whose reactants have a reduced formula in fs, once each.", "quantifier": "every reaction set whose reactions have at least one reactant, every list of formulas", "why_tests_cant": "Exactness (no false negatives) over all sets.", "anchors": ["src/rxn_network/reactions/reaction_set.py:ReactionSet.get_rxns_by_reactants"]}
{"id": "C20", "title": "get_rxns_by_product returns exactly the reactions forming the given product", "statement": "rxn_set.get_rxns_by_product(f) yields exactly the reactions of the set which have a product with reduced formula f.", "quantifier": "every reaction set and formula", "why_tests_cant": "The result depends on where the product's entry sits in the sorted entry list and on whether it has polymorphs; tests look up products at non-zero positions.", "anchors": ["src/rxn_network/reactions/reaction_set.py:ReactionSet.get_rxns_by_product", "src/rxn_network/jobs/core.py:CalculateCompetitionMaker.make"]}
{"id": "C21", "title": "filter_duplicates leaves exactly one reaction of each family of multiples", "statement": "After filter_duplicates no two remaining reactions over the same entries are (tolerance) positive multiples of each other, and every removed reaction is a multiple of a remaining one; nothing is invented.", "quantifier": "every reaction set, including coefficients that agree only up to the comparison tolerance and rows with a zero coefficient", "why_tests_cant": "Pairwise property over all sets; the tolerance relation is not transitive.", "anchors": ["src/rxn_network/reactions/reaction_set.py:ReactionSet.filter_duplicates", "src/rxn_network/reactions/reaction_set.py:_get_idxs_to_keep"]}
{"id": "C22", "title": "filter_duplicates does not depend on parallelism or scheduling", "statement": "The set of reactions kept is the same for parallelize=True and False, for every number of CPUs, and for every completion order of the chunks.", "quantifier": "every reaction set, every cluster size >= 1, every completion schedule", "why_tests_cant": "Tests run one schedule on one machine.", "anchors": ["src/rxn_network/reactions/reaction_set.py:ReactionSet.filter_duplicates", "src/rxn_network/reactions/reaction_set.py:_process_duplicates"]}
{"id": "C23", "title": "filter_duplicates keeps the reactions it is asked to keep", "statement": "Every reaction passed as ensure_rxns is present in the filtered set, and a reaction not in the original set raises ValueError.", "quantifier": "every reaction set with non-zero coefficients and every list of its reactions", "why_tests_cant": "Interaction between the representative choice and the ensured rows for every group layout.", "anchors": ["src/rxn_network/reactions/reaction_set.py:ReactionSet.filter_duplicates", "src/rxn_network/reactions/reaction_set.py:_get_idxs_to_keep"]}
{"id": "C24", "title": "Hull path counts are Catalan numbers for every size", "statement": "InterfaceReactionHull.count(n) is the n-th Catalan number (the number of binary decomposition trees over n product vertices) for every n >= 0, both from the table and from the recursive fallback.", "quantifier": "every natural number n", "why_tests_cant": "Beyond 22 the value comes from a cached recursion no test reaches.", "anchors": ["src/rxn_network/reactions/hull.py:InterfaceReactionHull.count", "src/rxn_network/reactions/hull.py:InterfaceReactionHull._count_recursive"]}
{"id": "C25", "title": "The fast and the recursive decomposition energies agree", "statement": "For every list of hull points, get_decomposition_energy (sum over triples weighted by multiplicities) equals the energy of the recursive definition (sum over all decomposition trees), and the recursive path count equals count(number of interior vertices).", "quantifier": "every strictly ordered list of coordinates", "why_tests_cant": "The docstring says both should agree; tests check a few hulls with few vertices.", "anchors": ["src/rxn_network/reactions/hull.py:InterfaceReactionHull.get_decomposition_energy", "src/rxn_network/reactions/hull.py:InterfaceReactionHull.get_decomposition_energy_and_num_paths_recursive", "src/rxn_network/reactions/hull.py:InterfaceReactionHull._altitude_multiplicity"]}
{"id": "C26", "title": "Secondary competition does not depend on the algorithm chosen", "statement": "get_secondary_competition(r, normalize, recursive=False) equals get_secondary_competition(r, normalize, recursive=True) for both values of normalize.", "quantifier": "every reaction hull and every reaction on it, including reactions located at an end point", "why_tests_cant": "The end-point case makes the table lookup use a negative index.", "anchors": ["src/rxn_network/reactions/hull.py:InterfaceReactionHull.get_secondary_competition", "src/rxn_network/reactions/hull.py:InterfaceReactionHull.count"]}
{"id": "C27", "title": "Hull energy is the lower convex envelope", "statement": "For every coordinate in [0,1], get_reactions_by_coordinate returns at most two reactions with non-negative weights summing to 1 whose weighted coordinate is the requested one (up to the isclose tolerance), and get_energy_above_hull is non-negative for every reaction of the hull, zero for hull vertices.", "quantifier": "every set of reactions and every correct convex hull computation", "why_tests_cant": "Quantifies over all point sets and coordinates.", "anchors": ["src/rxn_network/reactions/hull.py:InterfaceReactionHull.get_reactions_by_coordinate", "src/rxn_network/reactions/hull.py:InterfaceReactionHull.get_hull_energy", "src/rxn_network/reactions/hull.py:InterfaceReactionHull.get_energy_above_hull"]}
{"id": "C28", "title": "Primary competition compares with the best reaction at any other mixing ratio", "statement": "get_primary_competition(r) is r's energy per atom minus the lowest energy among all reactions (and end points) whose coordinate differs from r's.", "quantifier": "every reaction hull and every reaction in it", "why_tests_cant": "The code slices a sorted list around the matching coordinate; equality with the set-based definition must hold for all orders and ties.", "anchors": ["src/rxn_network/reactions/hull.py:InterfaceReactionHull.get_primary_competition"]}
{"id": "C29", "title": "Secondary competition measures are non-negative", "statement": "get_secondary_competition and get_secondary_competition_max_energy are >= 0 for every reaction hull whose interior points lie on a convex envelope, and the max variant never exceeds the number-weighted total.", "quantifier": "every convex list of hull points", "why_tests_cant": "Sign statement over all convex configurations.", "anchors": ["src/rxn_network/reactions/hull.py:InterfaceReactionHull.get_secondary_competition", "src/rxn_network/reactions/hull.py:InterfaceReactionHull.get_max_decomposition_energy"]}
{"id": "C30", "title": "Enumerator chunking covers every phase pair exactly once and respects the job limit", "statement": "For every chunk_size >= 1 the jobs built by enumerate() contain, in order, exactly the reactant/product pairs of the combination dictionary, each once and tagged with the phase diagram of its own chemical system; every job but the last holds exactly chunk_size pairs; the number of jobs does not exceed max_num_jobs.", "quantifier": "every combination dictionary, chunk size, job limit", "why_tests_cant": "Chunk boundaries interact with chemical-system boundaries; only particular residues expose errors.", "anchors": ["src/rxn_network/enumerators/basic.py:BasicEnumerator.enumerate"]}
{"id": "C31", "title": "The basic enumerator is complete and sound", "statement": "BasicEnumerator.enumerate returns exactly those balanced, non-identity, single-constraint reactions between two disjoint sets of at most n entries each (chemical system of 2 to 9 elements) that satisfy the precursor/target options; each qualifying reaction is returned regardless of chunking and completion order, once per unordered reactant/product pair.", "quantifier": "every entry set, n, precursor/target lists and flags, every completion schedule", "why_tests_cant": "Completeness quantifies over all subsets of all entry sets.", "anchors": ["src/rxn_network/enumerators/basic.py:BasicEnumerator.enumerate", "src/rxn_network/enumerators/basic.py:_react", "src/rxn_network/enumerators/basic.py:BasicEnumerator._filter_dict_by_elems"]}
{"id": "C32", "title": "Grouping by chemical system is a partition", "statement": "group_by_chemsys puts every combination into exactly one group, keyed by the sorted union of its elements and the open elements, preserving order within a group.", "quantifier": "every list of combinations", "why_tests_cant": "Partition law over all inputs.", "anchors": ["src/rxn_network/enumerators/utils.py:group_by_chemsys", "src/rxn_network/enumerators/utils.py:get_total_chemsys_str"]}
{"id": "C33", "title": "Expanded phase diagrams cover every entry", "statement": "expand_pd(entries) returns phase diagrams such that every entry's chemical system is contained in that of at least one diagram which contains the entry, no diagram's system is contained in another's, and each diagram holds exactly the entries within its system; hence get_e_above_hull finds a diagram for every entry of the set.", "quantifier": "every finite list of entries", "why_tests_cant": "Greedy loop over sorted entries; coverage must hold for all inputs.", "anchors": ["src/rxn_network/thermo/utils.py:expand_pd", "src/rxn_network/entries/entry_set.py:GibbsEntrySet.get_e_above_hull"]}
{"id": "C34", "title": "The built network has one edge per reaction and exact loop-back edges", "statement": "After build(), node data are pairwise distinct; there is exactly one reaction edge per reaction, from the node of its reactant entries to the node of its product entries; a loop-back edge joins a product node to a reactant node iff they hold the same entries; there are no other edges.", "quantifier": "every reaction set", "why_tests_cant": "Structural invariant over all reaction lists with shared sides.", "anchors": ["src/rxn_network/network/network.py:ReactionNetwork.build", "src/rxn_network/network/network.py:get_rxn_nodes_and_edges", "src/rxn_network/network/network.py:get_loopback_edges"]}
{"id": "C35", "title": "Changing precursors or target leaves no trace of the old ones", "statement": "After any sequence of set_precursors/set_target calls the graph equals (as nodes and edges) the graph obtained by building and calling only the last set_precursors and the last set_target: one precursor node, one target node, and only the loop-back edges the current precursors justify.", "quantifier": "every network and every history of set_precursors/set_target calls", "why_tests_cant": "History property; tests call each setter once or twice and do not compare graphs.", "anchors": ["src/rxn_network/network/network.py:ReactionNetwork.set_precursors", "src/rxn_network/network/network.py:ReactionNetwork.set_target"]}
{"id": "C36", "title": "Found pathways are genuine, distinct and at most k", "statement": "Every pathway found for a target corresponds to a walk from the precursor node to the target node along existing edges, no two returned walks are equal, at most max(1,k) are returned, none is returned iff the target is unreachable, and the first one is a cheapest path when no two parallel edges exist.", "quantifier": "every graph, k, non-negative costs, every correct shortest-path routine", "why_tests_cant": "Quantifies over all graphs and tie-breaking choices of the library.", "anchors": ["src/rxn_network/network/network.py:yens_ksp", "src/rxn_network/network/network.py:ReactionNetwork.find_pathways"]}
{"id": "C37", "title": "find_pathways returns the k cheapest loopless paths in increasing cost order", "statement": "The list returned for a target consists of the k cheapest simple paths from precursors to target, sorted by increasing cost.", "quantifier": "every graph and k, every correct shortest-path routine", "why_tests_cant": "The standard algorithm's correctness argument is over all graphs; small test graphs do not reveal wrong edge removal.", "anchors": ["src/rxn_network/network/network.py:yens_ksp"]}
{"id": "C38", "title": "A pathway's reactions and costs describe the path found", "statement": "The BasicPathway built from a path lists, in path order, the reaction of every reaction edge on it with that edge's cost, so its total cost equals the cost the search minimised.", "quantifier": "every graph, including several reactions between the same reactant and product sets", "why_tests_cant": "Needs parallel reaction edges with different costs.", "anchors": ["src/rxn_network/network/network.py:ReactionNetwork._path_from_graph", "src/rxn_network/network/network.py:get_edge_weight"]}
{"id": "C39", "title": "Network graphs survive serialisation", "statement": "Graph.from_dict(g.as_dict()) is isomorphic to g through the index mapping: same node data, same edges with the same payloads between corresponding nodes, for every graph with pairwise distinct node data including graphs with holes in the index range after node removal.", "quantifier": "every graph with distinct node data, every removal history", "why_tests_cant": "Index remapping after removals; the tests serialise freshly built graphs.", "anchors": ["src/rxn_network/network/base.py:Graph.as_dict", "src/rxn_network/network/base.py:Graph.from_dict"]}
{"id": "C40", "title": "PathwaySet preserves the pathways", "statement": "PathwaySet.from_paths(paths).paths has the same length and order, and each path has equal reactions, the same coefficients and costs.", "quantifier": "every list of pathways", "why_tests_cant": "Round-trip over all lists.", "anchors": ["src/rxn_network/pathways/pathway_set.py:PathwaySet.from_paths", "src/rxn_network/pathways/pathway_set.py:PathwaySet._get_paths"]}
{"id": "C41", "title": "Pathways with different reactions are not equal", "statement": "Two pathways compare equal only if they contain the same number of reactions and equal reactions position by position; equality is symmetric and transitive.", "quantifier": "every pair/triple of pathways", "why_tests_cant": "Equality uses zip and so ignores extra reactions; tests compare same-length pathways.", "anchors": ["src/rxn_network/pathways/basic.py:BasicPathway.__eq__", "src/rxn_network/pathways/balanced.py:BalancedPathway.__eq__"]}
{"id": "C42", "title": "Pathway species are partitioned into reactants, intermediates and products", "statement": "The net reactants, intermediates and products of a pathway are pairwise disjoint, their union is the set of all compositions in it, and intermediates are exactly the species both formed and consumed.", "quantifier": "every list of reactions", "why_tests_cant": "Set law over all pathways.", "anchors": ["src/rxn_network/pathways/base.py:Pathway"]}
{"id": "C43", "title": "Average pathway cost is a proper weighted mean", "statement": "BalancedPathway.average_cost lies between the smallest and the largest reaction cost, is unchanged when all multiplicities are multiplied by a positive factor, and equals the common cost when all costs agree.", "quantifier": "every pathway with positive multiplicities and equally many costs", "why_tests_cant": "Inequality over all weights and costs.", "anchors": ["src/rxn_network/pathways/balanced.py:BalancedPathway.average_cost"]}
{"id": "C44", "title": "Interdependent pathways are recognised", "statement": "contains_interdependent_rxns(precursors) is True exactly when some group of two or more reactions, none of which can start from the precursors alone, consumes in each member a phase produced by another member and not available from reactions outside the group.", "quantifier": "every pathway and precursor list", "why_tests_cant": "The membership test against phases of other reactions involves a set inside a set of compositions; tests use pathways where it does not matter.", "anchors": ["src/rxn_network/pathways/balanced.py:BalancedPathway.contains_interdependent_rxns"]}
{"id": "C45", "title": "Balanced pathways reported by the solver really sum to the net reaction", "statement": "Every pathway accepted by the balancing kernel has at most max_num_combos reactions, multiplicities of at least 1e-6 each, and the multiplicity-weighted sum of its reactions equals the net reaction in every entry within 1e-8 + 1e-5*|net|; the net reaction itself is never a step.", "quantifier": "every set of reactions and net reaction, every behaviour of the pseudo-inverse routine, every chunk size, batch size and completion schedule", "why_tests_cant": "The acceptance test must exclude every bad output of the numerical routine.", "anchors": ["src/rxn_network/pathways/solver.py:_balance_path_arrays_cpu", "src/rxn_network/pathways/solver.py:_create_comp_matrices", "src/rxn_network/pathways/solver.py:PathwaySolver.solve"]}
{"id": "C46", "title": "The solver tries every combination of reactions exactly once", "statement": "For each size n <= max_num_combos every n-element combination of the candidate reactions that touches every species of the net reaction reaches the balancing kernel exactly once, for every chunk_size, batch_size and completion order.", "quantifier": "every number of reactions, chunk size, batch size, schedule", "why_tests_cant": "Chunk/batch bookkeeping for all sizes and schedules.", "anchors": ["src/rxn_network/pathways/solver.py:PathwaySolver.solve"]}
{"id": "C47", "title": "The solver returns an empty result instead of failing when nothing balances", "statement": "PathwaySolver.solve returns a (possibly empty) PathwaySet for every balanced net reaction, in particular when there are fewer candidate reactions than max_num_combos or when no combination can be balanced.", "quantifier": "every set of candidate reactions and net reaction", "why_tests_cant": "Failure depends on the count of candidate reactions relative to max_num_combos.", "anchors": ["src/rxn_network/pathways/solver.py:PathwaySolver.solve"]}
{"id": "C48", "title": "Intermediate reactions found by every requested enumerator are used", "statement": "The intermediate reactions considered by the solver include the results of every enumerator selected by the options, including the grand-potential one when an open element is set.", "quantifier": "every outcome of the enumerators, all option combinations", "why_tests_cant": "A dropped return value is invisible unless the enumerators return different reactions.", "anchors": ["src/rxn_network/pathways/solver.py:PathwaySolver._find_intermediate_rxns"]}
{"id": "C49", "title": "Cached views of an entry set never go stale", "statement": "After any sequence of add, update, discard, remove, pop, clear and reads, entries_list, chemsys, min_entries_by_formula, pd_dict and temperature are what a fresh entry set with the same entries would report.", "quantifier": "every history of operations and reads", "why_tests_cant": "Cache coherence over all histories.", "anchors": ["src/rxn_network/entries/entry_set.py:GibbsEntrySet.add", "src/rxn_network/entries/entry_set.py:GibbsEntrySet.update", "src/rxn_network/entries/entry_set.py:GibbsEntrySet.discard", "src/rxn_network/entries/entry_set.py:GibbsEntrySet._clear_cache"]}
{"id": "C50", "title": "Entry indices identify entries", "statement": "After build_indices the idx data of the entries are exactly 0..n-1, each once, in the order of entries_list; as documented they stay so whenever an entry is added to or removed from the set.", "quantifier": "every entry set and every history of additions and removals", "why_tests_cant": "Documented invariant over histories; the tests index once.", "anchors": ["src/rxn_network/entries/entry_set.py:GibbsEntrySet.build_indices", "src/rxn_network/reactions/computed.py:ComputedReaction.get_entry_idx_vector"]}
{"id": "C51", "title": "filter_by_stability keeps exactly the stable-enough ground states", "statement": "With polymorphs excluded, the result has at most one entry per reduced formula, each within the energy-above-hull cutoff and of minimal energy per atom among the qualifying entries of that formula; every formula with a qualifying entry is represented; with polymorphs included the result is exactly the qualifying entries; it never raises.", "quantifier": "every collection of phase diagrams, entries and cutoff", "why_tests_cant": "The loop removes earlier choices while iterating several diagrams; must hold for all orders and ties.", "anchors": ["src/rxn_network/entries/entry_set.py:GibbsEntrySet.filter_by_stability"]}
{"id": "C52", "title": "get_min_entry_by_formula returns a ground state", "statement": "get_min_entry_by_formula(f) returns an entry of the set with reduced formula f and minimal energy per atom among those, and raises KeyError iff there is none.", "quantifier": "every entry set and formula", "why_tests_cant": "Minimality over all sets.", "anchors": ["src/rxn_network/entries/entry_set.py:GibbsEntrySet.get_min_entry_by_formula", "src/rxn_network/entries/entry_set.py:GibbsEntrySet.min_entries_by_formula"]}
{"id": "C53", "title": "Stabilised entries end up on or below the hull", "statement": "get_stabilized_entry lowers an entry's energy to exactly tol below the hull energy (or returns it unchanged when it is already on the hull and force is False); enumerators.utils.stabilize_entries likewise lowers energies to the hull; get_interpolated_entry is tol_per_atom below the hull.", "quantifier": "every entry, hull energy, tolerance", "why_tests_cant": "Sign conventions over all energies.", "anchors": ["src/rxn_network/entries/entry_set.py:GibbsEntrySet.get_stabilized_entry", "src/rxn_network/enumerators/utils.py:stabilize_entries", "src/rxn_network/entries/entry_set.py:GibbsEntrySet.get_interpolated_entry"]}
{"id": "C54", "title": "Changing temperature equals building at that temperature", "statement": "For a GibbsComputedEntry or experimental entry e, e.get_new_temperature(T2) has the same energy as the entry constructed directly at T2 from the same source data, temperature changes compose (T1 then T2 equals T2), and returning to the original temperature restores the energy.", "quantifier": "every entry, adjustment list and pair of admissible temperatures", "why_tests_cant": "Composition law over all adjustment lists; tests use entries without extra adjustments.", "anchors": ["src/rxn_network/entries/gibbs.py:GibbsComputedEntry.get_new_temperature", "src/rxn_network/entries/gibbs.py:GibbsComputedEntry.__init__", "src/rxn_network/entries/experimental.py:ExperimentalReferenceEntry.get_new_temperature"]}
{"id": "C55", "title": "Temperatures are accepted on the documented range and interpolated between grid points", "statement": "GibbsComputedEntry can be built at every temperature in [300, 2000] K, integer or float, and is rejected with ValueError outside; the elemental reference energy at a temperature between two tabulated ones lies between their values and equals the table at grid points.", "quantifier": "every temperature, every table", "why_tests_cant": "Behaviour at grid points depends on the textual form of the number.", "anchors": ["src/rxn_network/entries/gibbs.py:GibbsComputedEntry._sum_g_i", "src/rxn_network/entries/gibbs.py:GibbsComputedEntry.__init__"]}
{"id": "C56", "title": "Experimental reference energies are extensive and equality respects hashing", "statement": "An ExperimentalReferenceEntry for k formula units has k times the energy of one; equal experimental entries have equal hashes; temperatures outside the tabulated range raise ValueError.", "quantifier": "every formula, multiple and temperature", "why_tests_cant": "Tests use single formula units.", "anchors": ["src/rxn_network/entries/experimental.py:ExperimentalReferenceEntry"]}
{"id": "C57", "title": "Equal computed entries have equal hashes", "statement": "e1 == e2 implies hash(e1) == hash(e2) for GibbsComputedEntry, so that set-based deduplication removes equal entries; equality is symmetric.", "quantifier": "every pair of entries", "why_tests_cant": "Needs values at the tolerance edge.", "anchors": ["src/rxn_network/entries/gibbs.py:GibbsComputedEntry.__eq__", "src/rxn_network/entries/gibbs.py:GibbsComputedEntry.__hash__"]}
{"id": "C58", "title": "Experimental data replace computed entries formula by formula", "statement": "In GibbsEntrySet.from_pd, a formula for which an experimental entry is available from a requested source gets only experimental entries, every other formula keeps all its (non-excluded) computed entries, and no formula gets the same experimental entry twice.", "quantifier": "every phase diagram, every availability of NIST/FREED data, all option combinations", "why_tests_cant": "Only the combination NIST hit / FREED miss with both sources enabled shows it.", "anchors": ["src/rxn_network/entries/entry_set.py:GibbsEntrySet.from_pd", "src/rxn_network/entries/entry_set.py:GibbsEntrySet._check_for_experimental"]}
{"id": "C59", "title": "Energy jitter keeps every entry", "statement": "get_entries_with_jitter returns one entry per original entry with the same composition, whose energy differs only by noise scaled with its uncertainty (entries without uncertainty unchanged).", "quantifier": "every entry set and every noise sample", "why_tests_cant": "Statement about all entries, including elements.", "anchors": ["src/rxn_network/entries/entry_set.py:GibbsEntrySet.get_entries_with_jitter"]}
{"id": "C60", "title": "get_subset_in_chemsys returns exactly the entries of the subsystem", "statement": "get_subset_in_chemsys(els) contains an entry of the set iff all its elements are in els; it raises ValueError iff els is not a subset of the set's elements; the original set is unchanged.", "quantifier": "every entry set and element list", "why_tests_cant": "Exactness over all sets.", "anchors": ["src/rxn_network/entries/entry_set.py:GibbsEntrySet.get_subset_in_chemsys"]}
{"id": "C61", "title": "Database queries cover every chemical subsystem once", "statement": "get_all_entries_in_chemsys_from_entry_db queries each non-empty subsystem of up to 13 elements exactly once, in groups of at most 1000, so every document of the system is retrieved exactly once.", "quantifier": "every list of distinct elements and every database content", "why_tests_cant": "Needs systems with more than 1000 subsystems (10 or more elements).", "anchors": ["src/rxn_network/entries/utils.py:get_all_entries_in_chemsys_from_entry_db"]}
{"id": "C62", "title": "Competition scores are computed once per target reaction for every cluster", "statement": "For every cluster size and memory, and any completion order, every target reaction is decorated exactly once; for a single precursor, primary competition is E minus the lowest energy among the other reactions and the do-nothing reaction, and secondary competition is max(primary, 0).", "quantifier": "every list of target and competing reactions, every cluster size and available memory", "why_tests_cant": "Depends on memory/CPU ratios and schedules.", "anchors": ["src/rxn_network/jobs/core.py:CalculateCompetitionMaker._get_competition_decorated_rxns", "src/rxn_network/jobs/core.py:_get_competition_decorated_rxn"]}
{"id": "C63", "title": "Copies of a reaction do not share mutable data", "statement": "Changing the data dictionary of a reaction obtained by copy(), reverse() or normalize_to() does not change the original reaction's data, and Calculator.decorate leaves its argument untouched.", "quantifier": "every reaction and every sequence of data updates", "why_tests_cant": "Aliasing property over histories.", "anchors": ["src/rxn_network/reactions/basic.py:BasicReaction.copy", "src/rxn_network/reactions/computed.py:ComputedReaction.reverse", "src/rxn_network/costs/base.py:Calculator.decorate"]}
{"id": "C64", "title": "Separability is decided for every reaction containing the target", "statement": "is_separable(target) returns True iff every product other than the target is a common gas or contains no element of the target, and raises ValueError iff the target is not in the reaction.", "quantifier": "every reaction and target", "why_tests_cant": "Behaviour when the target is on the reactant side is not exercised.", "anchors": ["src/rxn_network/reactions/basic.py:BasicReaction.is_separable"]}
{"id": "C65", "title": "Reduced mass is well defined", "statement": "The reduced mass of a compound does not depend on the order of elements or the number of formula units, and lies strictly between zero and the largest element mass.", "quantifier": "every composition with at least two elements and positive masses", "why_tests_cant": "Inequality over all compositions.", "anchors": ["src/rxn_network/entries/gibbs.py:GibbsComputedEntry._reduced_mass"]}
{"id": "C66", "title": "Running several enumerators unions their reactions", "statement": "run_enumerators returns, for enumerators over the same entries, the duplicate-filtered union of their reactions: every reaction found by any enumerator is represented, and nothing else.", "quantifier": "every list of enumerators and every entry set", "why_tests_cant": "Fold over all lists of enumerators.", "anchors": ["src/rxn_network/enumerators/utils.py:run_enumerators"]}
{"id": "C67", "title": "A reaction set yields as many reactions as it counts", "statement": "len(rxn_set) is the number of reactions get_rxns() yields, also for sets constructed without the optional all_data argument.", "quantifier": "every reaction set accepted by the constructor", "why_tests_cant": "The default argument builds empty arrays; zip hides the mismatch and no test builds a set that way.", "anchors": ["src/rxn_network/reactions/reaction_set.py:ReactionSet.__init__", "src/rxn_network/reactions/reaction_set.py:ReactionSet.get_rxns"]}
{"id": "C68", "title": "Open reactions stay open in a reaction set", "statement": "from_rxns keeps the chemical potentials of open reactions; set_chempot gives every reaction the new chemical potential and changes nothing else.", "quantifier": "every list of closed and open reactions", "why_tests_cant": "Mixed chemical potentials are not in the tests; the fall-back silently closes all reactions.", "anchors": ["src/rxn_network/reactions/reaction_set.py:ReactionSet.from_rxns", "src/rxn_network/reactions/reaction_set.py:ReactionSet.set_chempot"]}
{"id": "C69", "title": "Changing the temperature of a reaction set keeps every reaction", "statement": "set_new_temperature returns the same reactions with every entry replaced by its version at the new temperature.", "quantifier": "every reaction set, including sets with polymorphs", "why_tests_cant": "The replacement table is keyed by composition; test sets hold one entry per composition.", "anchors": ["src/rxn_network/reactions/reaction_set.py:ReactionSet.set_new_temperature"]}
{"id": "C70", "title": "The open enumerator finds reactions with any number of open phases", "statement": "BasicOpenEnumerator.enumerate returns exactly those balanced, non-identity, single-constraint reactions whose two sides are disjoint sets of at most n non-open entries together with any number of open phases (docstring), subject to the precursor/target options; each qualifying reaction is returned regardless of chunking and completion order.", "quantifier": "every entry set, set of open phases, n, options and completion schedule", "why_tests_cant": "Completeness quantifies over all subsets of all entry sets and of the open phases.", "anchors": ["src/rxn_network/enumerators/basic.py:BasicOpenEnumerator._get_rxn_iterable", "src/rxn_network/enumerators/basic.py:BasicOpenEnumerator._get_open_combos", "src/rxn_network/enumerators/basic.py:_react"]}
{"id": "C71", "title": "A deserialised network behaves like the original", "statement": "After ReactionNetwork.from_dict(n.as_dict()), any sequence of set_precursors/set_target calls leads to the same nodes and edges as the same calls on n.", "quantifier": "every network, every history before and after serialisation", "why_tests_cant": "History property across serialisation; the tests only compare freshly loaded networks.", "anchors": ["src/rxn_network/network/network.py:ReactionNetwork.set_precursors", "src/rxn_network/network/base.py:Graph.from_dict", "src/rxn_network/network/base.py:Network.from_dict"]}
{"id": "C72", "title": "A network can be built again", "statement": "After a further build(), set_precursors and set_target work as after the first build().", "quantifier": "every network and every history of set_precursors/set_target calls before the second build()", "why_tests_cant": "The tests build each network once; the setters compare with attributes that build() does not reset.", "anchors": ["src/rxn_network/network/network.py:ReactionNetwork.build", "src/rxn_network/network/network.py:ReactionNetwork.set_precursors"]}
{"id": "C73", "title": "Equal pathways have equal hashes", "statement": "If p == q for two pathways then hash(p) == hash(q), so that a set of pathways holds each pathway once.", "quantifier": "every pair of basic or balanced pathways", "why_tests_cant": "The tests hash only identical pathways; __eq__ and __hash__ of BalancedPathway look at different fields.", "anchors": ["src/rxn_network/pathways/balanced.py:BalancedPathway.__eq__", "src/rxn_network/pathways/balanced.py:BalancedPathway.__hash__", "src/rxn_network/pathways/basic.py:BasicPathway.__hash__"]}
{"id": "C74", "title": "The energy of a balanced pathway is that of its net reaction", "statement": "For a balanced pathway whose reactions times multiplicities add up to a net reaction, energy equals the energy of the net reaction.", "quantifier": "every balanced pathway with any multiplicities", "why_tests_cant": "The tests check one number per fixture; multiplicities other than one never enter the energy.", "anchors": ["src/rxn_network/pathways/base.py:Pathway.energy", "src/rxn_network/pathways/balanced.py:BalancedPathway"]}
{"id": "C75", "title": "PathwaySet keeps the balanced flag", "statement": "The pathways read from PathwaySet.from_paths(paths) have the balanced flag of the given ones.", "quantifier": "every list of balanced pathways", "why_tests_cant": "The flag is not compared by __eq__, so equality tests cannot see it.", "anchors": ["src/rxn_network/pathways/pathway_set.py:PathwaySet.from_paths", "src/rxn_network/pathways/pathway_set.py:PathwaySet._get_paths"]}
{"id": "C76", "title": "get_comp_matrix returns the coefficients of the pathway", "statement": "get_comp_matrix returns for every reaction of the pathway and every composition the coefficient of the composition in the reaction.", "quantifier": "every balanced pathway", "why_tests_cant": "The method is not called by any test.", "anchors": ["src/rxn_network/pathways/balanced.py:BalancedPathway.get_comp_matrix"]}
{"id": "C77", "title": "The solver considers every reaction of its pathways", "statement": "The candidate reactions of a Solver contain, up to equality, every reaction of every pathway in the given PathwaySet and every intermediate reaction found, each once, with the cost of its first occurrence.", "quantifier": "every list of pathways, with or without costs, and every list of intermediate reactions", "why_tests_cant": "The tests only use pathways that carry costs.", "anchors": ["src/rxn_network/pathways/solver.py:Solver.__init__", "src/rxn_network/pathways/solver.py:PathwaySolver.solve"]}
{"id": "C78", "title": "Experimental energies are read from the table or interpolated", "statement": "At a tabulated temperature an ExperimentalReferenceEntry has exactly the tabulated energy; between two neighbouring tabulated temperatures its energy lies on the straight line through, and between, the two tabulated values.", "quantifier": "every table, formula and temperature", "why_tests_cant": "Needs every table and every temperature between two rows.", "anchors": ["src/rxn_network/entries/experimental.py:ExperimentalReferenceEntry._get_energy"]}
{"id": "C79", "title": "The computed Gibbs energy is extensive", "statement": "With the same formation energy per atom, volume per atom and temperature, the Gibbs energy of a composition with k times the amounts is k times the energy, and does not depend on the order of the elements.", "quantifier": "every composition, multiple, table, and temperature", "why_tests_cant": "Needs all compositions and multiples; the correction mixes per-atom and per-formula terms.", "anchors": ["src/rxn_network/entries/gibbs.py:GibbsComputedEntry.gibbs_adjustment", "src/rxn_network/entries/gibbs.py:GibbsComputedEntry._reduced_mass", "src/rxn_network/entries/gibbs.py:GibbsComputedEntry._sum_g_i"]}
{"id": "C80", "title": "process_entries keeps every formula it is asked to include", "statement": "For each formula in formulas_to_include the result of process_entries has an entry with that reduced formula (the ground state of the full set, or an interpolated entry when there is none), whatever the stability cutoff and the filtering temperature; all other entries of the result passed the stability filter.", "quantifier": "every collection of entries, cutoff, list of formulas, pair of temperatures", "why_tests_cant": "Depends on which entries can be moved to the second temperature.", "anchors": ["src/rxn_network/entries/utils.py:process_entries", "src/rxn_network/entries/utils.py:initialize_entry"]}
{"id": "C81", "title": "Changing the temperature of an entry set keeps every entry that has one", "statement": "get_entries_with_new_temperature returns the entries that can be given the new temperature, each changed once, drops the others with a warning, and does not raise.", "quantifier": "every entry set and temperature", "why_tests_cant": "Needs sets that mix entries which can and cannot be changed.", "anchors": ["src/rxn_network/entries/entry_set.py:GibbsEntrySet.get_entries_with_new_temperature"]}
{"id": "C82", "title": "Large chemical systems give the same entry set", "statement": "from_computed_entries gives the same entries whether it uses one phase diagram (up to 9 elements) or several (10 or more), and honours its options in both cases.", "quantifier": "every collection of entries with any number of elements", "why_tests_cant": "Systems of ten or more elements are too large for the tests.", "anchors": ["src/rxn_network/entries/entry_set.py:GibbsEntrySet.from_computed_entries", "src/rxn_network/entries/entry_set.py:GibbsEntrySet.from_pd"]}
{"id": "C83", "title": "The carbonate correction counts carbonate groups", "statement": "A computed GGA or GGA+U entry gets the carbonate correction iff it has carbon and oxygen in the ratio 1:3, once per carbon atom, and k formula units get k times the correction of one.", "quantifier": "every composition and multiple", "why_tests_cant": "Must hold for all compositions and multiples.", "anchors": ["src/rxn_network/entries/entry_set.py:GibbsEntrySet._get_carbonate_correction"]}
{"id": "C84", "title": "Both database functions choose the same entry of a document", "statement": "For a document with ready-made entries, get_entries (with use_premade_entries) and get_entries_from_entry_db take the same entry: GGA+U if present, otherwise GGA.", "quantifier": "every document", "why_tests_cant": "The functions need a database, so the tests do not run them.", "anchors": ["src/rxn_network/entries/utils.py:get_entries_from_entry_db", "src/rxn_network/entries/utils.py:get_entries"]}
{"id": "C85", "title": "The competition job counts precursors without the open formula", "statement": "The precursors of a target reaction are its reactants without the open formula: one precursor gives the single-precursor scores, two give the interface hull of these two, three or more raise ValueError.", "quantifier": "every target reaction, with or without an open formula", "why_tests_cant": "Needs reactions with an open formula in every position and number of reactants.", "anchors": ["src/rxn_network/jobs/core.py:_get_competition_decorated_rxns_by_chunk"]}
{"id": "C86", "title": "Dropping reactions to save memory does not change the scores", "statement": "The scores computed by the competition job from the reactions it keeps are those computed from all reactions, with or without an open formula.", "quantifier": "every set of reactions, target and open formula", "why_tests_cant": "Depends on which reactions consume the open formula.", "anchors": ["src/rxn_network/jobs/core.py:CalculateCompetitionMaker.make", "src/rxn_network/jobs/core.py:_get_competition_decorated_rxns_by_chunk"]}
{"id": "C87", "title": "The chempot distance aggregates every interface once", "statement": "ChempotDistanceCalculator.calculate aggregates the distance of every reactant-product pair and of every pair of products exactly once with the chosen function (sum, max, mean, or a function given directly), independently of the order of the entries; an unknown name raises ValueError.", "quantifier": "every reaction, open or not, and every distance function and aggregation function", "why_tests_cant": "The tests use a few reactions and the default function.", "anchors": ["src/rxn_network/costs/calculators.py:ChempotDistanceCalculator.__init__", "src/rxn_network/costs/calculators.py:ChempotDistanceCalculator.calculate"]}
{"id": "C88", "title": "Computing a metastable domain leaves the diagram unchanged", "statement": "_get_metastable_domain leaves the entries of the diagram as they were, whether it succeeds or raises, and a later call for the same formula gives the same domain from the cache.", "quantifier": "every diagram, formula and stabilised entry", "why_tests_cant": "Depends on entries exactly on the hull and on failures of the geometry library.", "anchors": ["src/rxn_network/thermo/chempot_diagram.py:ChemicalPotentialDiagram._get_metastable_domain"]}
{"id": "C89", "title": "The shortest domain distance is the least distance of two vertices plus the offset", "statement": "The distance of two domains is attained by a pair of vertices, no pair is closer, the offset is added once, and it is symmetric.", "quantifier": "every two non-empty finite domains, every symmetric distance", "why_tests_cant": "Must hold for all point sets.", "anchors": ["src/rxn_network/thermo/chempot_diagram.py:ChemicalPotentialDiagram.shortest_domain_distance"]}
{"id": "C90", "title": "The chempot distance job decorates each reaction once, with its own diagram", "statement": "Every reaction is decorated exactly once for every chunk size and completion order, with a diagram that covers its elements, and the diagram does not depend on the chunk size.", "quantifier": "every list of reactions, chunk size and schedule", "why_tests_cant": "Depends on the mix of chemical systems in a chunk.", "anchors": ["src/rxn_network/jobs/core.py:CalculateCompetitionMaker._get_chempot_decorated_rxns", "src/rxn_network/jobs/core.py:_get_chempot_decorated_rxns_by_chunk"]}
{"id": "C91", "title": "An enumerator works with the entries the user's formulas mean", "statement": "Each precursor and target text is resolved to the most stable entry of its reduced formula, or to an interpolated one when the set has none; the working set is the given set plus exactly these entries; every open phase is found among them; and BasicEnumerator never consumes or makes another polymorph of a named formula.", "quantifier": "every entry set, every list of formulas, every completion order", "why_tests_cant": "Depends on polymorphs, on formulas written unreduced and on formulas missing from the set.", "anchors": ["src/rxn_network/enumerators/basic.py:BasicEnumerator._get_initialized_entries", "src/rxn_network/entries/utils.py:initialize_entry"]}
{"id": "C92", "title": "A reaction can be read back from its text", "statement": "from_string(str(r)) equals r: the same compositions with the same coefficients, on the same sides.", "quantifier": "every reaction", "why_tests_cant": "Depends on the digits of every coefficient and on how formulas and numbers meet in the text.", "anchors": ["src/rxn_network/reactions/basic.py:BasicReaction.from_string", "src/rxn_network/reactions/basic.py:BasicReaction._str_from_formulas", "src/rxn_network/reactions/basic.py:BasicReaction._from_coeff_dicts"]}
{"id": "C93", "title": "The minimising enumerators return exactly the interface reactions", "statement": "For every combination of one or two entries in an admissible chemical system that meets the precursor and target options, each reaction at a kink of its interface, made of the lowest entries of its formulas in that system, is returned exactly if it is sound and wanted; nothing else is returned, and each combination is treated once, whatever the completion order of the jobs.", "quantifier": "every entry set, option and schedule", "why_tests_cant": "Ranges over all entry sets and all orders in which sets are iterated and jobs complete.", "anchors": ["src/rxn_network/enumerators/minimize.py:MinimizeGibbsEnumerator._react_function", "src/rxn_network/enumerators/minimize.py:MinimizeGrandPotentialEnumerator._react_function", "src/rxn_network/enumerators/utils.py:get_computed_rxn", "src/rxn_network/enumerators/utils.py:react_interface", "src/rxn_network/enumerators/basic.py:_get_entries_and_pds"]}
{"id": "C94", "title": "Interpolated entries compare and hash consistently", "statement": "An interpolated entry equals itself and its copy at another temperature, the comparison is symmetric, and entries that compare equal have the same hash.", "quantifier": "every two interpolated entries", "why_tests_cant": "Ranges over all pairs of compositions, energies and ids; tests compare a handful of entries.", "anchors": ["src/rxn_network/entries/interpolated.py:InterpolatedEntry.__eq__", "src/rxn_network/entries/interpolated.py:InterpolatedEntry.__hash__", "src/rxn_network/entries/interpolated.py:InterpolatedEntry.get_new_temperature"]}
{"id": "C95", "title": "Molar fractions are the shares of the coefficients of one side", "statement": "For a balanced reaction, the molar fractions of the reactants (and of the products) are positive, sum to one and are in the ratio of the coefficients; a side without compositions gives an empty dictionary, an unbalanced reaction a ValueError.", "quantifier": "every reaction", "why_tests_cant": "Ranges over all compositions and coefficients.", "anchors": ["src/rxn_network/reactions/basic.py:BasicReaction.reactant_molar_fractions", "src/rxn_network/reactions/basic.py:BasicReaction.product_molar_fractions"]}
{"id": "C96", "title": "A reaction at a new temperature is the reaction of its entries at that temperature", "statement": "get_new_temperature gives the reaction with the same coefficients (and chemical potentials) whose entries are those of the reaction at the new temperature, with and without a table of entries computed before.", "quantifier": "every closed and open reaction, entry set and temperature", "why_tests_cant": "Ranges over all reactions and entry sets, including sets with polymorphs.", "anchors": ["src/rxn_network/reactions/computed.py:ComputedReaction.get_new_temperature", "src/rxn_network/reactions/open.py:OpenComputedReaction.get_new_temperature"]}
{"id": "C97", "title": "The energy of an open reaction counts phases of open elements at their chemical potential", "statement": "The energy of an open reaction that conserves all elements is the energy of the closed reaction in which every phase of an open element alone has the chemical potential of its atoms as energy.", "quantifier": "every conserving reaction, entries and chemical potentials", "why_tests_cant": "Ranges over all reactions and chemical potentials.", "anchors": ["src/rxn_network/reactions/open.py:OpenComputedReaction.energy", "src/rxn_network/reactions/open.py:OpenComputedReaction.__init__"]}
{"id": "C98", "title": "The domains of a chemical potential diagram are the equilibria of their phases", "statement": "At every point of the domain of a formula its ground state is in equilibrium and no entry is more stable (within the formation tolerance), so that the formula is on the hull; every vertex at which a ground state of negative formation energy or of an element is in equilibrium belongs to its domain. A set is refused with a ValueError if it has fewer than two elements or misses the entry of an element.", "quantifier": "every set of entries and limits", "why_tests_cant": "Ranges over all entry sets and chemical systems of any dimension.", "anchors": ["src/rxn_network/thermo/chempot_diagram.py:ChemicalPotentialDiagram._get_domains", "src/rxn_network/thermo/chempot_diagram.py:ChemicalPotentialDiagram._get_hyperplanes_and_entries", "src/rxn_network/thermo/chempot_diagram.py:ChemicalPotentialDiagram.__init__"]}
{"id": "C99", "title": "The offset of a metastable entry is the distance to its stabilised plane", "statement": "get_offset is zero for a ground state with a domain; for any other entry it is the Euclidean distance between its hyperplane and the parallel one lowered by its energy above the hull, hence zero exactly if that energy is zero.", "quantifier": "every composition, energy above hull and dimension", "why_tests_cant": "Ranges over all dimensions and points of two hyperplanes.", "anchors": ["src/rxn_network/thermo/chempot_diagram.py:ChemicalPotentialDiagram.get_offset", "src/rxn_network/thermo/chempot_diagram.py:ChemicalPotentialDiagram._get_distance_between_parallel_hyperplanes"]}
{"id": "C100", "title": "The table of a reaction set has one row per reaction, in order of cost", "statement": "to_dataframe returns a table whose rows are the reactions of the set, each once, in increasing order of cost; every column shows the value of the row's own reaction; the columns are the documented ones and all data of the reactions.", "quantifier": "every list of reactions, cost function, target and combination of switches", "why_tests_cant": "Ranges over all lists of reactions, data names and orders of ties.", "anchors": ["src/rxn_network/reactions/reaction_set.py:ReactionSet.to_dataframe", "src/rxn_network/reactions/reaction_set.py:ReactionSet._get_added_elems"]}
{"id": "C101", "title": "Computing a set at several temperatures agrees with setting each temperature", "statement": "compute_at_temperatures returns one reaction set per distinct temperature given, each the one set_new_temperature gives for that temperature, and fails only if one of them fails.", "quantifier": "every reaction set and list of temperatures, with repetitions", "why_tests_cant": "Ranges over all sets and lists of temperatures.", "anchors": ["src/rxn_network/reactions/reaction_set.py:ReactionSet.compute_at_temperatures", "src/rxn_network/reactions/reaction_set.py:ReactionSet.set_new_temperature"]}
{"id": "C102", "title": "The uncertainty of a reaction energy combines those of its phases in quadrature", "statement": "energy_uncertainty is the square root of the sum, over the species of the reaction, of the squares of net coefficient times the uncertainty per formula unit of the entry whose energy the reaction uses; unknown uncertainties count as zero; the uncertainty per atom does not change when the reaction is multiplied.", "quantifier": "every reaction, with several entries per composition, and every uncertainty known or not", "why_tests_cant": "Ranges over all lists of entries and coefficients, with ties and repeated compositions.", "anchors": ["src/rxn_network/reactions/computed.py:ComputedReaction.energy_uncertainty", "src/rxn_network/reactions/computed.py:ComputedReaction.energy_uncertainty_per_atom"]}
{"id": "C103", "title": "The pathway flow wires its jobs correctly", "statement": "Every argument of a job of the flow made by NetworkFlowMaker is given by the user or is an output of an earlier job of the kind that has this output; all enumerations use the same entries; the entry job asks for every precursor and target; and there is one network of the base reactions plus, for every chemical potential of the open element, one network built at that potential from the base reactions and the reactions enumerated at that potential, each with its own solver.", "quantifier": "for all settings of the flow, all precursors and targets, with and without given entries", "why_tests_cant": "the number of jobs grows with the list of chemical potentials and the positions of the references shift with the optional jobs; tests run one setting.", "anchors": ["src/rxn_network/flows/core.py:NetworkFlowMaker.make", "src/rxn_network/flows/core.py:NetworkFlowMaker.__post_init__"]}
{"id": "C104", "title": "The pathway flow looks for pathways between its precursors and targets", "statement": "Every network job of the flow returned by NetworkFlowMaker.make(precursors, targets) has the given precursors and targets set.", "quantifier": "for all settings of the flow, all precursors and targets", "why_tests_cant": "a test that only checks that the flow runs does not see that its pathways are None.", "anchors": ["src/rxn_network/flows/core.py:NetworkFlowMaker.make", "src/rxn_network/jobs/core.py:NetworkMaker.make"]}
{"id": "C105", "title": "The network job finds the pathways from its precursors to its targets", "statement": "NetworkMaker.make, given reaction sets, precursors and targets that occur in them, returns a network whose reactions are the given ones in the environment of the maker, one of each family of multiples, and for every target pathways that start from the lowest-energy entries of the precursor formulas, use in each step only precursors and products of the step before, and end in the lowest-energy entry of the target formula; at most k, none twice, and none only if there is no such route.", "quantifier": "for all lists of reaction sets, all settings, all orders in which parallel tasks finish", "why_tests_cant": "it composes grouping, duplicate removal under any schedule, graph construction and path finding over arbitrary reactions.", "anchors": ["src/rxn_network/jobs/core.py:NetworkMaker.make", "src/rxn_network/network/base.py:Network.__init__", "src/rxn_network/network/network.py:ReactionNetwork.find_pathways"]}
{"id": "C106", "title": "The pathways of the solver job turn the precursors into the targets", "statement": "PathwaySolverMaker can be constructed exactly when a conserving combination of its formulas is found, and raises ValueError otherwise. Its job solves for the reaction of the lowest-energy entries of those formulas, precursors consumed and targets made, elements conserved; every pathway it returns has at most max_num_combos steps with positive multiplicities, its steps are in the maker's environment, their weighted sum uses and makes what the net reaction does, and the pathways are sorted by average cost.", "quantifier": "for all formulas, entry sets, pathways, options and orders in which parallel tasks finish", "why_tests_cant": "it composes balancing, lookup of ground states and the solver over arbitrary reactions and schedules; a test sees a handful of pathways.", "anchors": ["src/rxn_network/jobs/core.py:PathwaySolverMaker.__post_init__", "src/rxn_network/jobs/core.py:PathwaySolverMaker.make", "src/rxn_network/enumerators/utils.py:get_computed_rxn"]}
{"id": "C107", "title": "The solver job drops exactly the circular pathways", "statement": "With filter_interdependent, the job returns those of the pathways it returns without the filter that contain no group of reactions which cannot start from the precursors of the net reaction and feed one another.", "quantifier": "for all net reactions, pathways and entry sets", "why_tests_cant": "the example entries happen to have reduced compositions; the filter compares compositions of entries with reduced compositions.", "anchors": ["src/rxn_network/pathways/solver.py:PathwaySolver.solve", "src/rxn_network/pathways/balanced.py:BalancedPathway.contains_interdependent_rxns"]}
{"id": "C108", "title": "The energy cascade is the energy of the phases above the hull", "statement": "At each temperature the value that PathwayPlotter.plot_energy_cascade draws is the energy per atom of the phases present, each at the energy of its lowest entry, minus the lowest energy per atom of any mixture of entries with the same composition. It is never negative when no amount is.", "quantifier": "for all phase amounts, temperatures, entry sets, with and without smoothing", "why_tests_cant": "it compares the mixture of phases with all mixtures of entries of the same composition, for amounts that are real numbers.", "anchors": ["src/rxn_network/pathways/plotting.py:PathwayPlotter.plot_energy_cascade", "src/rxn_network/pathways/plotting.py:PathwayPlotter._get_energies", "src/rxn_network/pathways/plotting.py:PathwayPlotter._get_num_atoms_df", "src/rxn_network/pathways/plotting.py:PathwayPlotter.compositions"]}
{"id": "C109", "title": "Smoothing a pathway keeps the amounts in range and the atoms", "statement": "The frame of PathwayPlotter has one column per phase. Its values are the amounts given or, with smoothing, the middle one of the amounts at the temperature before, at and after; first and last are kept and no value leaves the range of the amounts. If the amounts given hold the same atoms at all temperatures, so does the frame.", "quantifier": "for all tables of phase amounts", "why_tests_cant": "each phase is smoothed on its own, so atoms are lost only for particular sequences of at least three phases that share an element.", "anchors": ["src/rxn_network/pathways/plotting.py:PathwayPlotter._get_phase_df", "src/rxn_network/pathways/plotting.py:PathwayPlotter._get_num_atoms_df"]}
{"id": "C110", "title": "The entry job starts from the entries of its chemical system", "statement": "GetEntrySetMaker.make hands to process_entries exactly the entries of the materials within the chemical system and the custom entries: from the Materials Project through either query (up to 25 elements by system, above by excluding all other elements), from an entry database the entry of every document within the system once. A symbol that is no element raises ValueError. With an entry database, the properties named in property_data are in the data of the entries where available.", "quantifier": "for all chemical systems, databases, custom entries and values of property_data", "why_tests_cant": "the queries need a database with more than 25 elements; tests use one small system.", "anchors": ["src/rxn_network/jobs/core.py:GetEntrySetMaker.make", "src/rxn_network/jobs/core.py:GetEntrySetMaker._get_exclude_elems"]}
{"id": "C111", "title": "The enumeration job reports elements, targets and added elements", "statement": "The metadata of ReactionEnumerationMaker lists the elements of the entries, the number of enumerators, the targets of all enumerators sorted and once each, and, if there are targets, exactly the elements of the entries that occur in no target with their sorted name; it does not depend on the order in which sets are iterated, and chemsys is the name of the chemical system.", "quantifier": "for all entry sets, enumerators and orders of iteration of sets", "why_tests_cant": "the order of a set of strings changes from one interpreter run to the next.", "anchors": ["src/rxn_network/jobs/core.py:ReactionEnumerationMaker._get_metadata", "src/rxn_network/jobs/utils.py:get_added_elem_data"]}
{"id": "C112", "title": "The interface hull holds every reaction at its mixing ratio and energy", "statement": "InterfaceReactionHull(c1, c2, reactions) stores every given reaction with its atomic mixing ratio (the share of the counted reactant atoms that comes from c2, to twelve digits) and its energy per atom, plus c1 -> c1 at (0, 0) and c2 -> c2 at (1, 0), sorted by mixing ratio with reactions and coordinates in step. stable_reactions are the reactions on the lower convex hull, unstable_reactions all others. If the reactants are the same, one of them is consumed by no reaction, or a reaction consumes neither, the constructor raises.", "quantifier": "for all chemistries, reactions and orders of equal keys", "why_tests_cant": "tests build two hulls; the pairing of reactions and coordinates after sorting and the failing cases need quantification over reaction lists.", "anchors": ["src/rxn_network/reactions/hull.py:InterfaceReactionHull.__init__", "src/rxn_network/reactions/hull.py:InterfaceReactionHull.get_coordinate", "src/rxn_network/reactions/hull.py:InterfaceReactionHull.stable_reactions"]}
{"id": "C113", "title": "The scores of a reaction compare it with every competing reaction", "statement": "The primary competition of a reaction is its energy per atom minus the lowest energy per atom of all other reactions between the same reactants (or 0 if that is lower). Its energy above the hull is its energy minus the lower envelope at its mixing ratio, never negative. The secondary competition with include_e_hull is the secondary competition plus the energy above the hull.", "quantifier": "for all hulls built from reactions, open or closed", "why_tests_cant": "tests check a few numbers of closed systems; the claim is about every reaction of every hull.", "anchors": ["src/rxn_network/reactions/hull.py:InterfaceReactionHull.get_primary_competition", "src/rxn_network/reactions/hull.py:InterfaceReactionHull.get_secondary_competition", "src/rxn_network/reactions/hull.py:InterfaceReactionHull.get_energy_above_hull"]}
{"id": "C114", "title": "A network loaded from a file finds the pathways of the network that was saved", "statement": "After a network with precursors is written with as_dict to a JSON file and read back with from_dict, find_pathways returns routes from the precursors to each target, exactly as before saving, and the same dictionary can be read any number of times.", "quantifier": "for all reaction sets, histories of setter calls, targets, costs and path finders", "why_tests_cant": "the test only checks that the loaded graph is not None; precursors and target stay undecoded, which shows only when the loaded network is searched.", "anchors": ["src/rxn_network/network/base.py:Network.as_dict", "src/rxn_network/network/base.py:Network.from_dict", "src/rxn_network/network/network.py:ReactionNetwork.find_pathways"]}
{"id": "C115", "title": "A network node compares by its kind and entries and reports its elements", "statement": "Two NetworkEntry objects are equal exactly when they have the same description and hold the same entries; a node read back from its dictionary is equal to the one stored; dim is the number of elements of the node.", "quantifier": "for all collections of entries with any equality and any element order", "why_tests_cant": "tests build a few nodes and never read dim; equality of collections with repeated and equal entries needs quantification.", "anchors": ["src/rxn_network/network/entry.py:NetworkEntry.__init__", "src/rxn_network/network/entry.py:NetworkEntry.__eq__", "src/rxn_network/network/entry.py:NetworkEntry.from_dict", "src/rxn_network/network/entry.py:DummyEntry"]}
{"id": "C116", "title": "A reaction set gives back the entries it was given, by their unique ids", "statement": "ReactionSet.from_rxns followed by get_rxns returns every reaction with entries equal to the ones it had: entries that are equal have one unique_id, entries that are not have different ones, so the lookup by unique_id neither fails nor returns another entry.", "quantifier": "all lists of reactions over entries of one class, all lists of entries, all orders of the set", "why_tests_cant": "The tests use one entry set at one temperature, in which every id occurs once; the failures need two versions of one entry (300 and 300.0, with and without an adjustment, BaO and Ba2O2).", "anchors": ["src/rxn_network/reactions/reaction_set.py:123-147", "src/rxn_network/entries/gibbs.py:283-290", "src/rxn_network/entries/experimental.py:53", "src/rxn_network/entries/experimental.py:148-154", "src/rxn_network/entries/interpolated.py:55-56"]}
{"id": "C117", "title": "Storing a Gibbs entry as a dictionary keeps the entry and its data", "statement": "GibbsComputedEntry.as_dict succeeds and leaves the entry as it was; from_dict of the result gives the same entry, with the same data up to the names of the keys; get_new_temperature works for the same entries.", "quantifier": "all entries that can be built and all nested data with texts, numbers and Elements as keys", "why_tests_cant": "Tests store entries with one shape of data (Element keys one level down); the claim is about every nesting, and about the entry after a failed call.", "anchors": ["src/rxn_network/entries/gibbs.py:292-331", "src/rxn_network/entries/gibbs.py:122-135"]}
{"id": "C118", "title": "What an entry takes from its data and its structure", "statement": "is_experimental is True exactly for entries marked as not theoretical, or not marked and with at least one ICSD id; from_structure gives the entry the volume of the structure divided by its number of atoms.", "quantifier": "all values of the two data items, present, absent or None; all structures with any occupancies", "why_tests_cant": "Tests use marked entries and ordered structures; None and partly occupied sites do not occur in them.", "anchors": ["src/rxn_network/entries/gibbs.py:270-281", "src/rxn_network/entries/gibbs.py:238-268"]}
{"id": "C119", "title": "The tabulated elemental chemical potentials serve every compound and fall with temperature", "statement": "With the table of elemental chemical potentials that is shipped (data/mu_elements.json), a Gibbs entry can be built for every compound at every integer temperature from 300 K to 2000 K, and the reference energy of a composition is negative and falls strictly with temperature, on the tabulated temperatures and between them.", "quantifier": "all compositions, all pairs of temperatures in the range, all 83 elements and 18 rows of the file", "why_tests_cant": "Tests evaluate a few compounds at a few temperatures; the claim is about every element, every row and every temperature between the rows.", "anchors": ["src/rxn_network/data/mu_elements.json", "src/rxn_network/data/__init__.py:17", "src/rxn_network/entries/gibbs.py:195-213"]}
{"id": "C120", "title": "The competition job scores every target reaction against the right competitors", "statement": "Without an open formula, the competition job returns exactly the reactions of the set that produce the target, each once. A reaction of one reactant gets its energy over the lowest energy of the other reactions of that reactant (or zero). A reaction of two reactants gets, as primary competition, its energy over the lowest competing energy at another mixing ratio and, as secondary competition, the mean energy released over all decomposition sequences along the lower hull on both sides of it. The job fails only if no reaction produces the target, if a target reaction has three or more reactants, or if the hull library gives no correct hull for the points of a target reaction.", "quantifier": "all sets of closed reactions, all targets, all chunk sizes and task schedules, all orders of ties in the sort", "why_tests_cant": "Tests score a handful of reactions with one schedule; the claim joins the job, the construction of the hull and the recursive and non-recursive scores over every set of reactions.", "anchors": ["src/rxn_network/jobs/core.py:354-446", "src/rxn_network/jobs/core.py:680-760", "src/rxn_network/reactions/hull.py:64-264", "src/rxn_network/costs/calculators.py:149-221"]}
{"id": "C121", "title": "Balancing finds the reaction between given phases", "statement": "If there is a conserving reaction that consumes all the given reactants and produces all the given products, then balancing returns such a reaction without errors, and the enumerator lists it when the phases are few enough, their chemical system has two to nine elements and the options allow it. If the species admit only one combination, the returned coefficients are a multiple of it with one coefficient of magnitude one, and the number of errors is zero exactly if the signs fit, in one direction or the other.", "quantifier": "all compositions, all species on both sides, all least squares solvers and ranks; all sets of entries and options of the enumerator, all chunk sizes and task schedules", "why_tests_cant": "Tests balance a few known reactions; which reactions are missed depends on the rank of the composition matrix and on the tie-breaking of the pseudo-inverse.", "anchors": ["src/rxn_network/reactions/basic.py:366-421", "src/rxn_network/reactions/basic.py:83-114", "src/rxn_network/enumerators/basic.py:316-320", "src/rxn_network/enumerators/basic.py:586-600"]}
{"id": "C122", "title": "The solver finds every pathway to the net reaction", "statement": "If a set of at most max_num_combos candidate reactions makes the net reaction with multiplicities of at least 1e-6, the solver reports this set with such multiplicities (unless interdependent pathways are to be dropped and it is one).", "quantifier": "all candidate reactions, net reactions, chunk and batch sizes, task schedules", "why_tests_cant": "Tests compare a few solver runs with stored results; that no feasible set is missed concerns all sets and depends on what the pseudo-inverse picks for dependent reactions.", "anchors": ["src/rxn_network/pathways/solver.py:411-467", "src/rxn_network/pathways/solver.py:135-340"]}
{"id": "C123", "title": "The area measure of secondary competition agrees with the energy measure", "statement": "get_secondary_competition_area returns a non-negative number for every reaction on a correct hull. It lies between half and all of the largest decomposition energies of the two sides weighted with their widths, never exceeds get_secondary_competition_max_energy, and is zero exactly when that is zero.", "quantifier": "all hulls, all coordinates in [0, 1]", "why_tests_cant": "No test calls the area functions; the inequality concerns all convex chains.", "anchors": ["src/rxn_network/reactions/hull.py:266-280", "src/rxn_network/reactions/hull.py:334-351", "src/rxn_network/costs/calculators.py:285-316"]}
{"id": "C124", "title": "The pathway solver job finds the pathways from precursors to targets", "statement": "If the precursors and targets determine a reaction, PathwaySolverMaker makes it from the lowest entries of the formulas, and returns every set of at most max_num_combos candidate reactions that adds up to it with multiplicities of at least 1e-6.", "quantifier": "all entry sets, precursors, targets, open elements, pathways, intermediate reactions, chunk sizes and task schedules", "why_tests_cant": "The job goes through two pseudo-inverses and a parallel search; that nothing is lost between formulas and pathways concerns all inputs.", "anchors": ["src/rxn_network/jobs/core.py:599-690", "src/rxn_network/pathways/solver.py:135-340", "src/rxn_network/reactions/basic.py:366-421"]}
{"id": "C125", "title": "The Gibbs energy of a computed entry is that of Bartel et al.", "statement": "The energy of a GibbsComputedEntry of a compound is its formation enthalpy plus the SISSO descriptor of Bartel et al. (volume, reduced mass, temperature) per atom, less the elemental energies on the line between the two tabulated temperatures, plus its other energy adjustments; that of an element is its enthalpy and adjustments.", "quantifier": "all compositions, volumes, temperatures from 300 to 2000 K, tables of elemental energies and adjustments", "why_tests_cant": "Tests compare a few energies; a wrong sign or weight can hide in the tolerance or vanish for the compositions tried.", "anchors": ["src/rxn_network/entries/gibbs.py:95-237", "src/rxn_network/entries/corrections.py:13-91"]}
{"id": "C126", "title": "The tabulated elemental energies are concave in temperature", "statement": "With the shipped table, the reference energy of a composition is concave in temperature from 300 to 2000 K, as a Gibbs energy with non-negative heat capacity must be: at any temperature it is not below the chord between a lower and a higher temperature.", "quantifier": "all compositions of the 83 tabulated elements and all temperatures, tabulated or interpolated", "why_tests_cant": "Tests read a handful of values of the 1494 in the file; a wrong digit or a broken transition stays unnoticed.", "anchors": ["src/rxn_network/data/mu_elements.json", "src/rxn_network/entries/gibbs.py:195-213"]}
{"id": "C127", "title": "A criteria text asks for what it says", "statement": "parse_criteria reads mp-1234 as an identifier, Li-{Fe,Mn}-O or *-O as exactly the chemical systems of different elements that wild cards and alternatives allow, *2O3 or {Fe,Mn}2O3 as exactly the reduced formulas in which wild cards stand for different elements that are not given, and several words as any of them.", "quantifier": "all criteria texts made of symbols, numbers, parentheses, wild cards and lists of alternatives", "why_tests_cant": "The function is excluded from the tests; its regular expressions meet texts nobody has tried, such as two lists of alternatives in one formula.", "anchors": ["src/rxn_network/entries/utils.py:438-505"]}
{"id": "C128", "title": "Experimental entries and open reactions survive being stored", "statement": "Reading the dictionary of an experimental entry or of an open reaction gives back the same entry or reaction (for the reaction: entries, coefficients, chemical potentials and every quantity computed from them), whatever data they carry, and leaves the dictionary as it was.", "quantifier": "all experimental entries and all open reactions of Gibbs entries, with arbitrary data dictionaries", "why_tests_cant": "The tests store a few reactions without data; which data make as_dict raise, and that from_dict rewrites the dictionary it is given, shows only for particular keys and on the second use.", "anchors": ["src/rxn_network/entries/experimental.py:72-86", "src/rxn_network/entries/experimental.py:156-187", "src/rxn_network/reactions/open.py:223-233"]}
{"id": "C129", "title": "From reaction sets to balanced pathways", "statement": "The job that builds a network and the job that balances pathways, one after the other: the pathways that come out are sums, with positive multiplicities, of enumerated reactions (one of each family) that lie on the pathways found from the precursors to the targets, or of intermediate reactions, and add up to the reaction of the ground states of the precursors to those of the targets; every such sum of the given reactions comes out.", "quantifier": "all reaction sets, all precursors and targets of their entries, all numbers of pathways and combinations, all schedules of the workers and all orders of the entries in the sets", "why_tests_cant": "The tests run the jobs on one system each and look at the number of pathways; that the numbering of the entries made by the first job is the one the second job reads, and that a pathway never mixes entries of the same formula, needs all sets of entries.", "anchors": ["src/rxn_network/flows/core.py:138-215", "src/rxn_network/jobs/core.py:519-567", "src/rxn_network/jobs/core.py:635-675", "src/rxn_network/network/base.py:39-41", "src/rxn_network/entries/entry_set.py:197-209"]}
{"id": "C130", "title": "Entries made from documents carry the data of the documents", "statement": "get_entries gives one entry for each matching document that is not deprecated, in order, with the document's cell, energy, identity, the wanted properties and the parameters; a conventional cell has the same energy per atom; with sort_by_e_above_hull the entries come in increasing order of that property; the arguments are left as they were. The same holds for entries that are stored in the documents.", "quantifier": "all databases, documents, wanted properties and options", "why_tests_cant": "The function is marked as not covered and needs a database.", "anchors": ["src/rxn_network/entries/utils.py:218-350"]}
{"id": "C131", "title": "Stored results are those of the question asked, and the table shows what the precursors allow", "statement": "get_rxns_from_db returns the reactions of the latest stored result for the target, open element, chemical potential and firework asked for, as open reactions when an element is open, and raises ValueError if there is none; filter_df_by_precursors keeps exactly the rows of reactions all of whose reactants are among the precursors, in order, with all their columns.", "quantifier": "all stores, questions, reaction sets and tables", "why_tests_cant": "The query needs a database and is not tested; the filter is tested on no table.", "anchors": ["src/rxn_network/utils/database.py:12-56", "src/rxn_network/reactions/plotting.py:174-179"]}
{"id": "C132", "title": "Every formula has one metastable domain, in whatever order they are asked for", "statement": "metastable_domains has exactly the formulas of the minimum entries without a stable domain, each with the domain that a newly made diagram gives when it is asked for that formula first. The entries of the diagram are unchanged afterwards. Distances between two formulas are those of these domains, whatever was asked for before.", "quantifier": "every diagram, every list of minimum entries, every sequence of earlier requests and every pair of formulas", "why_tests_cant": "The entries of the diagram are changed and restored in each request, so that a result may depend on all requests before it.", "anchors": ["src/rxn_network/thermo/chempot_diagram.py:ChemicalPotentialDiagram.metastable_domains", "src/rxn_network/thermo/chempot_diagram.py:ChemicalPotentialDiagram._get_metastable_domain", "src/rxn_network/thermo/chempot_diagram.py:ChemicalPotentialDiagram.shortest_domain_distance"]}
{"id": "C133", "title": "From entries to pathways: what the enumerators find is searched in full", "statement": "A flow enumerates reactions among its entries, joins them, builds the network and searches it. Every reaction of the network turns phases the enumerators look at into others, conserving the elements; every two groups of phases that react in one way only have their reaction in it; no two are multiples. Each target gets up to k pathways from the precursors, and one at least when a sequence of such reactions leads to it.", "quantifier": "every chemistry, entry set, list of basic enumerators, order in which the workers finish, non-negative cost, precursors, targets and k", "why_tests_cant": "The result crosses enumeration, balancing, three removals of duplicates and the graph search; a reaction lost in any of them shows only as a pathway that is not there.", "anchors": ["src/rxn_network/flows/core.py:NetworkFlowMaker.make", "src/rxn_network/jobs/core.py:ReactionEnumerationMaker.make", "src/rxn_network/jobs/core.py:NetworkMaker.make", "src/rxn_network/enumerators/basic.py:BasicEnumerator.enumerate", "src/rxn_network/enumerators/utils.py:run_enumerators"]}
{"id": "C134", "title": "What adds up on the pathways found comes out balanced", "statement": "The network job finds pathways and hands them to the job that balances them. When the precursors and targets determine one reaction, every sum of at most max_num_combos reactions on those pathways, none a combination of the others, that makes this reaction is among the balanced pathways returned, with those multiplicities.", "quantifier": "every chemistry, list of reaction sets, order of entries, order in which the workers finish, chunk size, precursors, targets, k and max_num_combos, and every such sum", "why_tests_cant": "A lost pathway is silent: it is removed by an equality, a rank or a tolerance somewhere between the edges of the graph and the rows of the matrix product, and the remaining pathways look right.", "anchors": ["src/rxn_network/flows/core.py:NetworkFlowMaker.make", "src/rxn_network/jobs/core.py:NetworkMaker.make", "src/rxn_network/jobs/core.py:PathwaySolverMaker.make", "src/rxn_network/pathways/solver.py:PathwaySolver.solve"]}
{"id": "C135", "title": "From entries to balanced pathways", "statement": "The flow enumerates reactions between the entries, builds and searches the network and balances the pathways. Every pathway it returns is a sum of balanced reactions between the entries that makes the net reaction from the precursors to the targets; and when groups of enumerated reactions make the net reaction together, they are returned.", "quantifier": "every chemistry, list of entries, list of usable enumerators, order of entries, order in which the workers of each job finish, chunk size, precursors and targets that are the most stable phases of their formulas, k and max_num_combos", "why_tests_cant": "The flow spans three jobs and six stages that each drop or renumber reactions; a run on one chemical system exercises one path through the tolerances, the duplicate filters and the graph.", "anchors": ["src/rxn_network/flows/core.py:NetworkFlowMaker.make", "src/rxn_network/jobs/core.py:ReactionEnumerationMaker.make", "src/rxn_network/jobs/core.py:NetworkMaker.make", "src/rxn_network/jobs/core.py:PathwaySolverMaker.make", "src/rxn_network/pathways/solver.py:PathwaySolver.solve"]}
{"id": "C136", "title": "The experimental tables serve their range, change smoothly and agree", "statement": "Every formula of the NIST and FREED tables has an entry at each temperature from 300 K to its last row and a ValueError outside; its energy moves by at most 2 meV for each atom and kelvin; and where both tables know a formula, their energies lie within 0.2 eV per atom of each other.", "quantifier": "every formula of the two data files, every temperature on or off the rows, every list of energy adjustments", "why_tests_cant": "A test looks up a few formulas at a few temperatures; the tables have 2389 formulas with up to dozens of rows, and the values between the rows come from interpolation.", "anchors": ["src/rxn_network/data/__init__.py:load_experimental_data", "src/rxn_network/entries/experimental.py:ExperimentalReferenceEntry._get_energy", "src/rxn_network/entries/experimental.py:ExperimentalReferenceEntry._validate_temperature", "src/rxn_network/entries/freed.py:FREEDReferenceEntry", "src/rxn_network/entries/nist.py:NISTReferenceEntry"]}
{"id": "C137", "title": "All reactions between intermediates below the cutoff are found", "statement": "With find_intermediate_rxns the solver adds every reaction between phases of the pathways, targets and elements whose energy per atom lies below the cutoff, each once and no other reaction.", "quantifier": "every list of entries, pathway reactions, net reaction and cutoff of a closed system whose targets are the most stable phases of their formulas, every order in which sets are iterated and tasks finish", "why_tests_cant": "Tests count the reactions of one fixed system; which groups of phases are combined, balanced, kept and merged depends on the whole set of intermediates.", "anchors": ["src/rxn_network/pathways/solver.py:PathwaySolver._find_intermediate_rxns", "src/rxn_network/enumerators/basic.py:BasicEnumerator.enumerate", "src/rxn_network/reactions/reaction_set.py:ReactionSet.add_rxn_set"]}
{"id": "C138", "title": "From entries to balanced pathways with the default settings", "statement": "With find_intermediate_rxns and filter_interdependent, the flow from entries to balanced pathways returns only sums of reactions of the pathways and between intermediates that make the net reaction, and it returns every such sum, also where the branches of a route meet.", "quantifier": "every set of entries, precursors and targets that are the most stable phases of their formulas, enumerators, number of pathways, cutoff and number of combined reactions in a closed system, every order in which sets are iterated and tasks finish", "why_tests_cant": "Tests run one chemical system; whether a route with several branches is found depends on how the pathways of the network, the intermediates on them and the search between these fit together.", "anchors": ["src/rxn_network/flows/core.py:NetworkFlowMaker.make", "src/rxn_network/jobs/core.py:PathwaySolverMaker.make", "src/rxn_network/pathways/solver.py:PathwaySolver.solve", "src/rxn_network/pathways/solver.py:PathwaySolver._find_intermediate_rxns"]}
{"id": "C139", "title": "With open phases, reactions that take up or give off gases are found and lead to pathways", "statement": "With an enumerator that has open phases, every reaction between at most n other phases on each side and any number of open phases, which is the only one between its phases, is in the network, and its products have pathways when its reactants are among the precursors.", "quantifier": "every chemistry, entry set, list of enumerators, open phases, order in which the workers finish, non-negative cost, precursors, targets and k", "why_tests_cant": "Tests have one open phase, oxygen; reactions that take up one gas and give off another need an entry set where no other reaction leads to the target.", "anchors": ["src/rxn_network/enumerators/basic.py:BasicOpenEnumerator", "src/rxn_network/flows/core.py:NetworkFlowMaker.make", "src/rxn_network/jobs/core.py:ReactionEnumerationMaker.make", "src/rxn_network/jobs/core.py:NetworkMaker.make"]}
{"id": "C140", "title": "The lines of the hull plot are the lower hull", "statement": "The plot of an interface reaction hull draws a line for each edge of the lower hull of the reactions and no other line, shows each reaction at its own point, and the lowest point is in view.", "quantifier": "every set of points, hull of these points and upper limit of the energy axis", "why_tests_cant": "The tests do not look at the plots; the filter by sign only separates the lower hull from the rest of the polygon when the polygon has no vertical edges.", "anchors": ["src/rxn_network/reactions/hull.py:InterfaceReactionHull.plot", "src/rxn_network/reactions/hull.py:InterfaceReactionHull._get_lines", "src/rxn_network/reactions/hull.py:InterfaceReactionHull._get_scatter"]}
{"id": "C141", "title": "A drawn network has one colour per chemical system", "statement": "When a network is drawn, each node gets a colour, two nodes get the same colour exactly if their entries have the same elements, and the places of the palette are given in the alphabetical order of the chemical systems.", "quantifier": "every list of nodes and every palette with different colours at different places", "why_tests_cant": "The tests do not look at drawings; that the text of a chemical system stands for the set of elements is a claim about all sets of elements.", "anchors": ["src/rxn_network/network/visualize.py:plot_network", "src/rxn_network/network/visualize.py:_get_cmap_string", "src/rxn_network/network/entry.py:NetworkEntry.__init__"]}
{"id": "C142", "title": "From entries to pathways with reactions at interfaces", "statement": "A flow whose enumerators include minimising ones returns a set that holds every reaction that is at a kink of one of the interfaces searched and is determined by its phases, only balanced reactions of that kind, no phase turning into itself and no reaction twice; the pathways found are the cheapest ones of these reactions, and there is one whenever a sequence of them leads to the target.", "quantifier": "every chemistry, set of entries, list of basic and minimising enumerators, table of kinks, order of sets and schedule", "why_tests_cant": "The tests run each enumerator alone on one chemical system and never look at the network built from the joined reactions; that the trivial kinks at the ends of an interface are always dropped is a claim about every formula.", "anchors": ["src/rxn_network/jobs/core.py:ReactionEnumerationMaker.make", "src/rxn_network/enumerators/minimize.py:MinimizeGibbsEnumerator", "src/rxn_network/enumerators/utils.py:react_interface", "src/rxn_network/flows/core.py:NetworkFlowMaker.make"]}
{"id": "C143", "title": "The calculators of secondary competition measure the same two stretches of the hull", "statement": "On the hull of the reactions between two reactants, SecondaryCompetitionCalculator, SecondaryCompetitionMaxCalculator and SecondaryCompetitionAreaCalculator give every reaction of the hull a value: minus the mean energy of all ways to decompose along the lower hull left and right of the reaction, the sum of the greatest single releases on the two sides, and the sum of the areas under the two sides.", "quantifier": "every chemistry, pair of reactants, list of reactions, and every rounding, sorting and hull routine that does its job", "why_tests_cant": "The tests compare a few scores of one chemical system with stored numbers; that the measures agree on what lies left and right of a reaction, for every hull, is not checked.", "anchors": ["src/rxn_network/costs/calculators.py:SecondaryCompetitionMaxCalculator", "src/rxn_network/costs/calculators.py:SecondaryCompetitionAreaCalculator", "src/rxn_network/reactions/hull.py:InterfaceReactionHull.get_secondary_competition_max_energy", "src/rxn_network/costs/base.py:Calculator.calculate_many"]}
{"id": "C144", "title": "A reaction is an identity exactly if it changes nothing", "statement": "is_identity holds exactly for the reactions that give back the compositions they take, in the same amounts.", "quantifier": "every chemistry, list of compositions and list of coefficients", "why_tests_cant": "The tests look at one identity and one other reaction; unbalanced reactions and compositions listed twice are never tried.", "anchors": ["src/rxn_network/reactions/basic.py:BasicReaction.is_identity", "src/rxn_network/reactions/basic.py:BasicReaction._get_is_identity"]}
{"id": "C145", "title": "The number of constraints counts the independent ways to react", "statement": "data['num_constraints'] of a balanced reaction is the number of independent ways in which its species can react, at least one; with the default limit max_num_constraints = 1 every reaction that the enumerators list is between phases that react in one way only, up to a factor.", "quantifier": "every chemistry, all reactants and products without repetition, every list of enumerators and every limit", "why_tests_cant": "The tests count the reactions of a few chemical systems; the number of constraints comes from a matrix rank, and that it measures the freedom of the coefficients is a statement of linear algebra about every matrix.", "anchors": ["src/rxn_network/reactions/basic.py:BasicReaction._balance_coeffs", "src/rxn_network/reactions/basic.py:BasicReaction.balance", "src/rxn_network/enumerators/basic.py:BasicEnumerator._react", "src/rxn_network/enumerators/basic.py:BasicEnumerator.__init__"]}
{"id": "C146", "title": "Rounding does not change whether a reaction of ordinary size is balanced", "statement": "With every operation rounded to double precision, and with the amounts below 1e-8 that pymatgen drops, a reaction that conserves all elements is reported as balanced, and a reaction reported as balanced conserves all elements up to twice the tolerance.", "quantifier": "every rounding with a relative error of at most 2^-53 (double precision is one), every chemistry, all compositions and coefficients of at most 20 species with up to a million atoms of an element on a side", "why_tests_cant": "The tests build a few reactions with small coefficients; rounding errors depend on every coefficient and on the order of the sum.", "anchors": ["src/rxn_network/reactions/basic.py:BasicReaction.__init__", "src/rxn_network/reactions/basic.py:TOLERANCE"]}
{"id": "C147", "title": "Rounding keeps the energy of a reaction and its multiples", "statement": "With every operation rounded to double precision the energy of a reaction is within 1e-12 of the sum of the sizes of its terms, the energy of the reverse is exactly the negative, and coefficients that are multiples of others up to 1e-6 are recognised as such.", "quantifier": "every rounding with a relative error of at most 2^-53, every chemistry, up to 1000 entries with any energies and coefficients", "why_tests_cant": "The tests compare single energies with pytest.approx; a bound for all sums of rounded terms needs a proof.", "anchors": ["src/rxn_network/reactions/computed.py:ComputedReaction.energy", "src/rxn_network/reactions/computed.py:ComputedReaction.reverse", "src/rxn_network/reactions/reaction_set.py:_get_idxs_to_keep"]}
{"id": "C148", "title": "Each option of the search between intermediates adds its own reactions", "statement": "With use_basic_enumerator the search adds the reactions between one or two phases on each side, with use_minimize_enumerator those at the kinks of the interface of one or two intermediates; with both it adds the union, without repeating a reaction that both find, and with neither nothing. All of them lie below the energy cutoff.", "quantifier": "every list of entries, pathway reactions, net reaction and cutoff of a closed system whose targets are the most stable phases of their formulas, both values of both options, every order in which sets are iterated and tasks finish, every way to compute kinks that gives phases of the system", "why_tests_cant": "The tests set the options for one system each and compare counts; whether a reaction found twice is kept once depends on the scales in which the two enumerators write it.", "anchors": ["src/rxn_network/pathways/solver.py:PathwaySolver._find_intermediate_rxns", "src/rxn_network/enumerators/minimize.py:MinimizeGibbsEnumerator.__init__", "src/rxn_network/reactions/reaction_set.py:ReactionSet.add_rxn_set"]}
{"id": "C149", "title": "Rounding does not change which pathways of ordinary size are balanced", "statement": "With every operation of the test rounded to double precision, in whatever order sums are taken, and with multiplicities that are off by up to 1e-12, reactions that add up to the net reaction with multiplicities above the tolerance are accepted, and accepted ones add up to it within twice the tolerances.", "quantifier": "every rounding with a relative error of at most 2^-53, every order of adding, up to 20 reactions, every net reaction and coefficients of which a phase has at most 1000 in the steps and turns over at most a million", "why_tests_cant": "The tests balance a handful of pathways on one machine; the order of sums and the error of the pseudo-inverse depend on the numpy and numba versions and the processor.", "anchors": ["src/rxn_network/pathways/solver.py:_balance_path_arrays_cpu", "src/rxn_network/pathways/solver.py:PathwaySolver.solve"]}
{"id": "C150", "title": "From entries to balanced pathways with all enumerators for closed systems", "statement": "A flow whose enumerators combine phases or minimise the energy at interfaces, with a solver that searches between intermediates in either way or both, returns only sums of reactions of the pathways and of the chosen options that make the net reaction, and it returns every such sum.", "quantifier": "every set of entries, list of enumerators of both kinds, both values of both options of the solver, every number of pathways, cutoff and number of combined reactions in a closed system, every way to compute phase diagrams and kinks from compositions and energies, every order in which sets are iterated and tasks finish", "why_tests_cant": "The tests run each part for one system; the phases are renumbered on the way from the enumerators to the network and the solver, so what a kink names there must be the same phases in three numberings.", "anchors": ["src/rxn_network/flows/core.py:NetworkFlowMaker.make", "src/rxn_network/enumerators/minimize.py:MinimizeGibbsEnumerator", "src/rxn_network/pathways/solver.py:PathwaySolver._find_intermediate_rxns", "src/rxn_network/pathways/solver.py:PathwaySolver.solve"]}
{"id": "C151", "title": "The search between intermediates with an open element finds all reactions of the options", "statement": "With an open element and its chemical potential, the search between intermediates returns, each once, exactly the reactions that the chosen options ask for, with or without the open element as a further phase, whose change of grand potential per atom of the other elements is below the cutoff; each is a reaction for this element and potential.", "quantifier": "every list of entries, reactions (open or not) and net reaction whose targets contain another element than the open one, both values of both options, every cutoff and chemical potential, every order in which sets are iterated and tasks finish", "why_tests_cant": "The tests run the solver for an open element on one system; whether an enumerator for open phases with the solver's defaults misses a combination depends on which phases, gas included, are on which side.", "anchors": ["src/rxn_network/pathways/solver.py:PathwaySolver._find_intermediate_rxns", "src/rxn_network/enumerators/basic.py:BasicOpenEnumerator", "src/rxn_network/reactions/open.py:OpenComputedReaction.energy_per_atom"]}
{"id": "C152", "title": "From entries to balanced pathways for an open element", "statement": "The flow for an open element and its chemical potential, run on any entries, returns pathways of bounded length whose steps add up to the net reaction of the precursors and targets at that potential. Each step lies on a network pathway, whose reactions come from the enumerators or from the additional set for the open element, or joins intermediates, where the element may take part as a further phase. Nothing that the enumerators and options ask for is missing, and every sum of unrelated reactions of this kind is returned.", "quantifier": "every list of entries, enumerators, additional sets, precursors, targets, open element, chemical potential, cutoff, both options, limits, costs, and every order in which sets are iterated and tasks finish", "why_tests_cant": "The flow tests with an open element check one system and that some pathway comes out. Completeness needs all combinations with and without gas in three enumerations and their merging at one chemical potential.", "anchors": ["src/rxn_network/flows/core.py:NetworkFlowMaker.make", "src/rxn_network/pathways/solver.py:PathwaySolver._find_intermediate_rxns", "src/rxn_network/jobs/core.py:NetworkMaker.make", "src/rxn_network/jobs/core.py:PathwaySolverMaker.make"]}
{"id": "C153", "title": "The flow for an open element includes the kinks at its chemical potential", "statement": "The flow for an open element, which enumerates the interfaces of all entries at the chemical potential and adds what it finds to the base enumeration, returns pathways whose network reactions are those of the base enumerators or at a kink of an interface of one or two phases other than the open one in the diagram at that potential. Every reaction at such a kink that is certain to be found is in the network, and the pathways are sound and complete as for any further set of reactions.", "quantifier": "every list of entries, enumerators, precursors, targets, open element, chemical potential, phase diagrams and interfaces that pymatgen can build, cutoff, options, limits, costs, and every order in which sets are iterated and tasks finish", "why_tests_cant": "The flow tests with an open element check one chemical system. Whether every kink at the potential reaches the network depends on the enumeration by chemical system, the choice of stable phases, the two removals of multiples and the merging with the base set, for every order.", "anchors": ["src/rxn_network/flows/core.py:NetworkFlowMaker.make", "src/rxn_network/enumerators/minimize.py:MinimizeGrandPotentialEnumerator", "src/rxn_network/jobs/core.py:ReactionEnumerationMaker.make", "src/rxn_network/jobs/core.py:NetworkMaker.make"]}
{"id": "C154", "title": "Calls that have no answer raise", "statement": "The vector of a reaction over n entries is returned exactly when there is a coefficient for every entry and every entry's index is below n; otherwise ValueError or IndexError is raised. A reaction without products has no energy per atom and one without entries no energy. A single entry cannot be balanced, anything else is answered. The solver and its job refuse a net reaction that is not balanced, and the energies of a pathway plot need an entry of every element alone. A flow without enumerators raises AttributeError. A hull answers with an energy or a ValueError, primary competition exactly when one reaction has the coordinate and another has not, and the count of a negative number of vertices reads the table from its end, down to -23. Searching paths raises without a graph, precursors or a target.", "quantifier": "every reaction, entries, coefficients, size of the vector, solver of the linear system, temperature, set of entries", "why_tests_cant": "Tests that expect an exception check one call each. That no other input raises, and that the exception does not depend on the position of the offending entry, is a statement about all inputs.", "anchors": ["src/rxn_network/reactions/computed.py:ComputedReaction.get_entry_idx_vector", "src/rxn_network/reactions/computed.py:ComputedReaction.energy_per_atom", "src/rxn_network/reactions/computed.py:ComputedReaction.balance", "src/rxn_network/pathways/solver.py:PathwaySolver.solve", "src/rxn_network/pathways/plotting.py:PathwayPlotter._get_energies"]}
{"id": "C155", "title": "Multiples of a reaction have one normalised text", "statement": "normalized_repr writes a reaction with the lowest whole numbers: when the amounts of the reduced formulas are whole multiples of a unit above 1e-8 these numbers, divided by what they have in common, are in the text and the factor is the inverse of the unit. Every positive multiple of the reaction has the same text. There is a text whenever an amount is above 1e-8. from_formulas gives the balanced reaction of the formulas in their order, or raises what the first unreadable one raises.", "quantifier": "every reaction, unit, list of whole numbers without a common divisor, multiple, list of formulas", "why_tests_cant": "The divisor is found by a loop on inexact remainders with a tolerance. That it ends for every input, finds the common unit whatever the order and number of amounts, and gives one text for all multiples, is not visible from examples.", "anchors": ["src/rxn_network/reactions/basic.py:BasicReaction.normalized_repr_and_factor", "src/rxn_network/reactions/basic.py:BasicReaction._str_from_comp", "src/rxn_network/reactions/basic.py:BasicReaction.normalized_repr", "src/rxn_network/reactions/basic.py:BasicReaction.from_formulas"]}
{"id": "C156", "title": "Enumerated reactions carry their number of constraints", "statement": "Every reaction in the set an enumeration job gives has the number of independent ways in which its phases can react (at least 1) as its num_constraints, and that is at most the max_num_constraints of one of the enumerators. Building the set, joining the sets of several enumerators and dropping duplicates keep it. At a chemical potential every reaction carries the potential as well.", "quantifier": "every set of entries, list of enumerators, schedule of the workers, chemical potential", "why_tests_cant": "The number goes from the rank of a matrix through the data of a reaction, its reverse, three parallel arrays sorted by length, and two filters. A test sees the default of one constraint, where nearly every mistake gives the same number.", "anchors": ["src/rxn_network/reactions/computed.py:ComputedReaction.balance", "src/rxn_network/enumerators/basic.py:BasicEnumerator._react", "src/rxn_network/enumerators/minimize.py:MinimizeGrandPotentialEnumerator._react_function", "src/rxn_network/reactions/reaction_set.py:ReactionSet.from_rxns", "src/rxn_network/jobs/core.py:ReactionEnumerationMaker.make"]}
