{"id": "C01", "title": "CRP bookkeeping", "statement": "After any sequence of CRP incorporate/unincorporate calls that violates no precondition, the customer count, the table->customers map and the customer->table map describe one and the same partition: a customer is listed at exactly the table it was last seated at, no table is empty, and N is the number of seated customers.", "quantifier": "every finite history of incorporate/unincorporate calls with arbitrary customer and table ids", "why_tests_cant": "unbounded histories and ids", "anchors": ["cxx/distributions/crp.cc: CRP::incorporate, CRP::unincorporate"]}
{"id": "C02", "title": "CRP incorporate/unincorporate are inverse", "statement": "Seating a new customer at any table and then removing it restores the complete CRP state, and removing a seated customer and reseating it at the table it came from restores the complete state.", "quantifier": "every reachable CRP state, customer and table", "why_tests_cant": "must hold for all reachable states", "anchors": ["cxx/distributions/crp.cc: CRP::incorporate, CRP::unincorporate"]}
{"id": "C03", "title": "CRP seating probabilities are a distribution", "statement": "With at least one seated customer, exp(logp(t)) over the tables offered by tables_weights sums to 1, every occupied table is offered with weight = its size, exactly one unoccupied table is offered, with weight alpha, and logp is -infinity for all other tables; logp_new_table is the log-probability of that unoccupied table. (The same claim for an empty CRP is false when alpha differs from 1.)", "quantifier": "every reachable CRP state, every alpha > 0, every table id", "why_tests_cant": "infinitely many states and real alpha", "anchors": ["cxx/distributions/crp.cc: CRP::tables_weights, CRP::logp, CRP::logp_new_table, CRP::max_table"]}
{"id": "C04", "title": "CRP chain rule and exchangeability", "statement": "The log-probability of seating a customer at an offered table equals the increase of logp_score caused by seating it there; hence the summed predictive log-probabilities of any seating order of the same partition are equal, namely logp_score.", "quantifier": "every reachable CRP state, every alpha>0, every offered table, every history", "why_tests_cant": "real-valued identity over all states", "anchors": ["cxx/distributions/crp.cc: CRP::logp, CRP::logp_score"]}
{"id": "C05", "title": "CRP Gibbs weights", "statement": "For a seated customer the Gibbs reseating weights are those of the CRP with that customer removed: every other occupied table with its size, the own table with size-1, and one fresh-table choice with weight alpha (represented by the own table id when the customer sits alone); they total N-1+alpha.", "quantifier": "every reachable CRP state and seated customer", "why_tests_cant": "all states", "anchors": ["cxx/distributions/crp.cc: CRP::tables_weights_gibbs", "cxx/domain.hh: Domain::tables_weights_gibbs"]}
{"id": "C06", "title": "Concentration resampling touches only alpha", "statement": "transition_alpha leaves the seating unchanged and leaves alpha equal to one of the grid points, all of which lie in [1/N, N+1], so alpha stays positive; with no customers it does nothing.", "quantifier": "every CRP state and every random outcome", "why_tests_cant": "all random outcomes, real arithmetic", "anchors": ["cxx/distributions/crp.cc: CRP::transition_alpha", "cxx/util_math.cc: log_linspace, log_choice"]}
{"id": "C07", "title": "Domain entities = clustered entities", "statement": "In every history of Domain operations the set of entities equals the set of customers of the clustering; incorporating a known entity changes nothing; reassigning one entity changes no other entity's cluster.", "quantifier": "every history of Domain operations and every random seating outcome", "why_tests_cant": "unbounded histories and random outcomes", "anchors": ["cxx/domain.hh: Domain"]}
{"id": "C08", "title": "Relation blocks hold exactly the relation's data", "statement": "After any history of incorporate/unincorporate/entity reassignment on a relation over shared domains, the block (cluster) at a vector of cluster ids contains exactly the values of the observations whose entities currently have those cluster ids, no block is empty, and the per-entity index lists exactly the observations that mention the entity.", "quantifier": "every history of operations, every arity, repeated domains included", "why_tests_cant": "unbounded histories, arities, values", "anchors": ["cxx/clean_relation.hh: incorporate, incorporate_items, unincorporate, set_cluster_assignment_gibbs, cleanup_data, cleanup_clusters"]}
{"id": "C09", "title": "Relation unincorporate undoes incorporate", "statement": "Incorporating an observation whose entities are already clustered and then unincorporating it restores the relation's complete state; incorporating then reading returns the value; other observations are unaffected.", "quantifier": "every reachable relation state, entity tuple and value", "why_tests_cant": "all states", "anchors": ["cxx/clean_relation.hh: incorporate, unincorporate, get_value"]}
{"id": "C10", "title": "Moving an entity regroups but never alters observations", "statement": "Reassigning an entity to another cluster keeps every relation's observations and all other entities' clusters, and moves exactly the values of the observations mentioning that entity to the blocks named by the new cluster ids.", "quantifier": "every reachable state, entity, target cluster, iteration order", "why_tests_cant": "all states and hash-iteration orders", "anchors": ["cxx/clean_relation.hh: set_cluster_assignment_gibbs", "cxx/irm.cc: IRM::set_cluster_assignment_gibbs"]}
{"id": "C11", "title": "Exact Gibbs score of a move equals the change of the relation score", "statement": "For a relation that uses each domain once, logp_gibbs_exact(entity, target) - logp_gibbs_exact(entity, current) equals the change of the relation's logp_score caused by the move, because all observations of the entity that share a block land in one block. (False when a domain is repeated in the relation.)", "quantifier": "every reachable state, entity and target cluster", "why_tests_cant": "all states; real-valued scores", "anchors": ["cxx/clean_relation.hh: logp_gibbs_exact, logp_gibbs_exact_current, logp_gibbs_exact_variant, get_cluster_to_items_list"]}
{"id": "C12", "title": "IRM observation bookkeeping", "statement": "IRM::incorporate/unincorporate keep every relation consistent, and after any such history an entity is in a domain exactly when some observation of some relation mentions it there.", "quantifier": "every history of incorporate/unincorporate/cluster transitions over an arbitrary schema", "why_tests_cant": "unbounded histories, schemas", "anchors": ["cxx/irm.cc: IRM::incorporate, IRM::unincorporate, IRM::has_observation"]}
{"id": "C13", "title": "IRM cluster inference never changes the data", "statement": "Any number of cluster-assignment transitions and explicit reassignments leave every relation's observations and every domain's entity set unchanged and all block bookkeeping consistent.", "quantifier": "every state, every schedule of transitions, every random outcome", "why_tests_cant": "all random outcomes and schedules", "anchors": ["cxx/irm.cc: IRM::transition_cluster_assignment_item, IRM::set_cluster_assignment_gibbs", "cxx/inference.cc"]}
{"id": "C14", "title": "Schema construction", "statement": "IRM/HIRM construction from a schema succeeds for every schema whose noisy relations have their base in the schema without cycles, whatever the relation names, each relation being created after its base; a cyclic or dangling schema is rejected by the HIRM constructor. (False for the IRM constructor.)", "quantifier": "every schema", "why_tests_cant": "all schemas and name orders", "anchors": ["cxx/irm.cc: IRM::IRM, IRM::add_relation", "cxx/hirm.cc: HIRM::HIRM, HIRM::add_relation"]}
{"id": "C15", "title": "HIRM structure", "statement": "After any history of HIRM add_relation/remove_relation/transition_cluster_assignment_relation/set_cluster_assignment_gibbs, every relation has a unique code, is in exactly the IRM of its cluster, every IRM holds at least one relation, and the set of IRMs is the set of occupied clusters.", "quantifier": "every history and every random outcome", "why_tests_cant": "unbounded histories and random outcomes", "anchors": ["cxx/hirm.cc: HIRM::add_relation, remove_relation, transition_cluster_assignment_relation, set_cluster_assignment_gibbs"]}
{"id": "C16", "title": "HIRM relation moves preserve the data", "statement": "Moving relations between IRMs (by inference or explicitly) leaves the set of relations, their schema and all their observations unchanged.", "quantifier": "every HIRM state, every schedule, every random outcome", "why_tests_cant": "all random outcomes", "anchors": ["cxx/hirm.cc: transition_cluster_assignment_relation, set_cluster_assignment_gibbs"]}
{"id": "C17", "title": "Noisy relations track their base", "statement": "For every history of noisy-relation operations, the emission block data are the pairs (base value, noisy value) and the base->noisy index lists exactly the noisy observations over each base tuple. (update_value stores the pair in the wrong order.)", "quantifier": "every history", "why_tests_cant": "unbounded histories", "anchors": ["cxx/noisy_relation.hh: incorporate, unincorporate, update_value"]}
{"id": "C18", "title": "Latent-value transition keeps blocks consistent", "statement": "After transition_latent_value the base value is one of the candidates, all noisy values and all other base values are unchanged and each block has as many members as before, and each block's statistics are those of the values it holds. (The last clause is false.)", "quantifier": "every state, candidate list, random choice", "why_tests_cant": "all states and random choices", "anchors": ["cxx/transition_latent_value.hh: transition_latent_value, unincorporate_and_store_values, latent_values_incremental_logp, choose_and_incorporate_value"]}
{"id": "C19", "title": "Beta-Bernoulli predictive", "statement": "For integer weights the state is the count pair of the incorporated multiset, independent of order, unincorporate inverts incorporate; the predictive probabilities of true and false are positive and sum to 1 and logp(x) is the increase of logp_score.", "quantifier": "every history and every alpha, beta > 0", "why_tests_cant": "unbounded histories, real parameters", "anchors": ["cxx/distributions/beta_bernoulli.cc"]}
{"id": "C20", "title": "Dirichlet-categorical predictive", "statement": "The state is the count vector of the incorporated multiset, independent of order; the k predictive probabilities are positive and sum to 1, values outside the range are rejected by incorporate and logp, and logp(x) is the increase of logp_score; nearest maps every integer to the closest in-range one; sample weighs each category by its predictive probability. (The last clause is false once a fractional weight has been used.)", "quantifier": "every history, k, alpha > 0", "why_tests_cant": "unbounded histories, real parameters", "anchors": ["cxx/distributions/dirichlet_categorical.cc"]}
{"id": "C21", "title": "Normal sufficient statistics", "statement": "In exact arithmetic, after any history of incorporate/unincorporate of present values the stored mean and variance are those of the remaining multiset (zero when empty), hence order-independent; logp(x) is the increase of logp_score and leaves the state unchanged.", "quantifier": "every history of real values", "why_tests_cant": "unbounded histories over the reals", "anchors": ["cxx/distributions/normal.cc: Normal::incorporate, logp, logp_score, posterior_hypers"]}
{"id": "C22", "title": "Zero-mean normal", "statement": "The stored statistic is the mean square of the remaining multiset; logp(x) (a Student-t) is the increase of logp_score; sample draws from the distribution scored by logp. (The last clause is false.)", "quantifier": "every history of real values", "why_tests_cant": "unbounded histories over the reals", "anchors": ["cxx/distributions/zero_mean_normal.cc"]}
{"id": "C23", "title": "Bigram string model", "statement": "Scoring a string leaves the model unchanged; incorporate/unincorporate are inverse and order-independent; logp is the increase of logp_score; sample leaves the model unchanged. (The last clause is false when the maximum length is hit.)", "quantifier": "every model state, every string", "why_tests_cant": "all strings and states", "anchors": ["cxx/distributions/bigram.cc"]}
{"id": "C24", "title": "Weighted updates are undone by unincorporate", "statement": "For any distribution/emission used as a block, incorporate(x,w) followed by incorporate(x,-w) restores the statistics. (False for BetaBernoulli with fractional w and for sometimes_categorical.)", "quantifier": "all states, values, weights", "why_tests_cant": "all states", "anchors": ["cxx/distributions/beta_bernoulli.cc", "cxx/emissions/sometimes.hh"]}
{"id": "C25", "title": "Log-space helpers", "statement": "logsumexp(ws) = ln(sum exp w), is permutation and shift equivariant, and log_normalize yields weights summing to 1; log_choice can only return an index of the list.", "quantifier": "all non-empty lists of reals", "why_tests_cant": "real-valued, unbounded length", "anchors": ["cxx/util_math.cc: logsumexp, log_normalize, log_choice"]}
{"id": "C26", "title": "Cartesian product", "statement": "product(lists) lists every tuple taking one element of each list, each exactly once, in lexicographic order of positions; its length is the product of the lengths.", "quantifier": "all non-empty lists of lists", "why_tests_cant": "unbounded", "anchors": ["cxx/util_math.hh: product"]}
{"id": "C27", "title": "Grids", "statement": "linspace/log_linspace return num points, begin at start, end at stop with endpoint, increase monotonically and stay between start and stop.", "quantifier": "all num >= 2, all real start <= stop", "why_tests_cant": "real-valued", "anchors": ["cxx/util_math.cc: linspace, log_linspace"]}
{"id": "C28", "title": "Entity encoding is a bijection", "statement": "calculate_encoding gives, for each domain, codes 0..n-1 to its n distinct entity names, bijectively, covering every observed entity, and the two returned maps are mutually inverse; encoding then decoding observations is the identity.", "quantifier": "all observation sets, schemas and iteration orders", "why_tests_cant": "unbounded, hash order", "anchors": ["cxx/util_io.cc: calculate_encoding, encode_observations"]}
{"id": "C29", "title": "Every observation is incorporated once", "statement": "incorporate_observations incorporates each observation exactly once whatever the iteration order of the observation map. (False when an observed relation is the base of a noisy one.)", "quantifier": "all schemas, observation sets, iteration orders", "why_tests_cant": "hash iteration orders", "anchors": ["cxx/util_io.cc: incorporate_observations, incorporate_observations_relation"]}
{"id": "C30", "title": "Cluster files round-trip", "statement": "Loading a cluster file written by to_txt yields the same clusters for IRM and HIRM, and seating them in empty domains restores the clustering, provided every entity has a name, names contain no whitespace, and in a HIRM file domain names are neither numerals nor begin with irm=. (False otherwise.)", "quantifier": "all cluster states and names", "why_tests_cant": "unbounded", "anchors": ["cxx/util_io.cc: to_txt, load_clusters_irm, load_clusters_hirm"]}
{"id": "C31", "title": "Tokenizer", "statement": "tokenize loses no input: concatenating the token texts (with quotes and whitespace/comments re-inserted) gives the line back; identifiers, numbers, strings and symbols are classified correctly; tokenizing an unambiguous rendering of a token list gives the list back; only an unclosed quote or an illegal character is rejected.", "quantifier": "all lines", "why_tests_cant": "unbounded strings", "anchors": ["cxx/util_parse.cc: tokenize"]}
{"id": "C32", "title": "Schema lines", "statement": "Reading a well-formed schema line and the written form agree: parsing the canonical text of a relation declaration yields that relation; no line makes load_schema read outside the token list. (The last clause is false.)", "quantifier": "all lines / all relation declarations", "why_tests_cant": "unbounded strings", "anchors": ["cxx/util_io.cc: load_schema"]}
{"id": "C33", "title": "CSV round-trip", "statement": "Reading a written DataFrame gives the DataFrame back when fields contain no comma/newline and no trailing blank and there are at least two columns. Rows of the wrong width are rejected. (False: empty fields read before the start of a string; too-wide rows write out of bounds; rows after explicit column names.)", "quantifier": "all data frames / all texts", "why_tests_cant": "unbounded strings", "anchors": ["cxx/pclean/csv.cc: DataFrame::from_csv, to_csv"]}
{"id": "C34", "title": "String alignment is correct and optimal", "statement": "Every alignment returned by topk_alignments spells both strings; the search terminates; at most k are returned in non-decreasing cost order; with the edit-distance cost the first one has cost equal to the Levenshtein distance.", "quantifier": "all strings, all k", "why_tests_cant": "unbounded strings", "anchors": ["cxx/emissions/string_alignment.cc: topk_alignments, edit_distance"]}
{"id": "C35", "title": "Nearest string", "statement": "StringCat::nearest returns an element of its alphabet with minimal edit distance to the query, and the query itself if it belongs to the alphabet.", "quantifier": "all alphabets and strings", "why_tests_cant": "unbounded strings", "anchors": ["cxx/distributions/stringcat.cc: nearest, string_to_index"]}
{"id": "C36", "title": "Clean-value proposals", "statement": "Sometimes::propose_clean returns a most frequent observed value, Gaussian's returns the arithmetic mean, and SimpleString's positionwise vote terminates, returns s on copies of s.", "quantifier": "all non-empty observation lists", "why_tests_cant": "unbounded lists", "anchors": ["cxx/emissions/sometimes.hh, gaussian.hh, simple_string.hh: propose_clean"]}
{"id": "C37", "title": "simple_string emission", "statement": "incorporate/unincorporate of (clean,dirty) pairs are inverse and order-independent; sampled characters are printable ASCII; log-probabilities are not positive. (The last two are false.)", "quantifier": "all strings and states", "why_tests_cant": "unbounded strings", "anchors": ["cxx/emissions/simple_string.hh"]}
{"id": "C38", "title": "PClean class domains", "statement": "For an acyclic class schema the domain list of a class ends with the class itself and equals the concatenation of its reference classes' domain lists in field order, and computing it terminates.", "quantifier": "all acyclic class schemas", "why_tests_cant": "unbounded schemas", "anchors": ["cxx/gendb.cc: compute_domains_for"]}
{"id": "C39", "title": "PClean reference indices", "statement": "For every class and every position in its domain list the recorded reference fields of that position are exactly the class variables of the class at that position, each pointing at the position of the referenced class. (False for chains of four classes.)", "quantifier": "all acyclic class schemas", "why_tests_cant": "unbounded schemas", "anchors": ["cxx/gendb.cc: compute_reference_indices_for"]}
{"id": "C40", "title": "PClean entity bookkeeping", "statement": "Reference values and entity clusterings agree: every recorded reference value is the table of the corresponding customer and vice versa, after any history of incorporations.", "quantifier": "all histories, random outcomes", "why_tests_cant": "unbounded histories", "anchors": ["cxx/gendb.cc: sample_reference, sample_class_ancestors, get_reference_id"]}
{"id": "C41", "title": "PClean output of samples", "statement": "Samples written with --samples appear in the output file. (False: columns are never set.)", "quantifier": "all numbers of samples", "why_tests_cant": "all inputs", "anchors": ["cxx/pclean/pclean_lib.cc: make_pclean_samples", "cxx/pclean/csv.cc: to_csv"]}
{"id": "C42", "title": "PClean schema parser", "statement": "Variable definitions with k parameters parse back to themselves; no input reads outside the token list. (The last clause is false.)", "quantifier": "all lines", "why_tests_cant": "unbounded strings", "anchors": ["cxx/pclean/io.cc: resolve_variable_definition"]}
{"id": "C43", "title": "Metropolis step", "statement": "transition_theta leaves everything but the latent parameters unchanged, ends in either the old or the proposed parameters, keeps the old ones when the proposal is not accepted, and always accepts a proposal of at least equal density ratio.", "quantifier": "all states, proposals, random draws", "why_tests_cant": "all random outcomes", "anchors": ["cxx/distributions/nonconjugate.hh: transition_theta"]}
{"id": "C44", "title": "Predictive mixture over unseen entities", "statement": "IRM::logp of a single observation is the log of a proper mixture over the cluster choices of its unseen entities: mixture weights are products of seating probabilities and sum to 1.", "quantifier": "all states and observations", "why_tests_cant": "all states", "anchors": ["cxx/irm.cc: IRM::logp"]}
{"id": "C45", "title": "Hyperparameter transitions", "statement": "transition_hyperparameters always succeeds, picks a point of the class's fixed grid, each with probability e^score / sum of e^score (the grid posterior), and changes nothing but the hyperparameters.", "quantifier": "every state of every distribution class, every random outcome", "why_tests_cant": "all states; random choice", "anchors": ["cxx/distributions/*.cc: transition_hyperparameters", "cxx/util_math.cc: sample_from_logps"]}
{"id": "C46", "title": "Cluster transitions target the joint score", "statement": "The log weights a cluster transition compares for an entity are, for any two candidate clusters, exactly as far apart as the model's total score after moving the entity to each; the candidates are every occupied cluster of the domain and one unused one.", "quantifier": "every reachable IRM state, domain and entity whose relations mention the domain at most once", "why_tests_cant": "must hold for all states and data", "anchors": ["cxx/irm.cc: IRM::transition_cluster_assignment_item", "cxx/clean_relation.hh: logp_gibbs_exact", "cxx/crp.cc: tables_weights_gibbs"]}
{"id": "C47", "title": "Removing a relation", "statement": "IRM::remove_relation takes out one relation and leaves every other relation's data, clusters and scores alone; exactly the domains still used by some relation remain, and entities mentioned only by the removed relation are forgotten.", "quantifier": "every reachable IRM state and relation", "why_tests_cant": "all histories", "anchors": ["cxx/irm.cc: IRM::remove_relation"]}
{"id": "C48", "title": "Entities of an IRM inside a HIRM", "statement": "In every reachable HIRM state, each IRM's domains know every entity that the observations of its own relations mention, and no other. (The last clause is false: entities of a relation that moved to another IRM linger.)", "quantifier": "every history of HIRM calls, every random outcome", "why_tests_cant": "unbounded histories", "anchors": ["cxx/hirm.cc: transition_cluster_assignment_relation, set_cluster_assignment_gibbs", "cxx/irm.cc: IRM::remove_relation"]}
{"id": "C49", "title": "Observation files", "statement": "load_observations accepts exactly the files whose every line is a value, a declared relation and at least one entity, and returns the observations of the lines in order; write_observations followed by load_observations gives the same observations back. (The round trip is false for an empty last entity name and for names with commas.)", "quantifier": "all files, schemas, observation sets and iteration orders", "why_tests_cant": "unbounded text", "anchors": ["cxx/util_io.cc: load_observations, write_observations"]}
{"id": "C50", "title": "Likelihoods of emissions", "statement": "The log probability an emission reports for a pair of clean and observed value is the increase of its score when the pair is incorporated (gaussian, sometimes_bitflip, sometimes_gaussian), and the probabilities of the possible observed values of a clean value sum to one.", "quantifier": "all histories of incorporations, removals and parameter transitions; all pairs", "why_tests_cant": "unbounded histories", "anchors": ["cxx/emissions/gaussian.hh", "cxx/emissions/sometimes.hh", "cxx/emissions/bitflip.hh"]}
{"id": "C51", "title": "HIRM schema of a PClean schema", "statement": "For a PClean schema whose classes, attributes and query paths exist and whose names contain no colon, the GenDB constructor makes exactly these relations: a clean one per class attribute over the domains of the class, and for each query field an emission of the queried attribute (a chain of emissions, one per class of the path, or a single one), or, with record_class_is_clean, the renamed attribute of the record class. Exactly the query fields are observed; every emission's base exists, has the same type and domains that are a prefix of its own; the HIRM constructor accepts the result. (False when two fields query the same attribute of the record class and record_class_is_clean is set: the constructor throws.)", "quantifier": "all schemas, both options", "why_tests_cant": "schemas and path lengths are unbounded", "anchors": ["cxx/gendb.cc: GenDB::make_hirm_schema, GenDB::make_relations_for_queryfield", "cxx/pclean/get_joint_relations.cc: get_distribution_relation, get_emission_relation"]}
{"id": "C52", "title": "Reference links fill the item vectors", "statement": "For every relation GenDB makes, the recorded reference links determine the whole item vector from its last entity: each link goes from a position to an earlier one whose class is the one the reference field names, and every position but the last is the target of exactly one link. (False for attributes renamed by record_class_is_clean, which get no links, and with only_final_emissions, where the links of the path are overwritten.)", "quantifier": "all acyclic schemas without chains of three references, all relations", "why_tests_cant": "schemas are unbounded", "anchors": ["cxx/gendb.cc: GenDB::make_relations_for_queryfield, GenDB::make_hirm_schema, GenDB::get_relation_items"]}
{"id": "C53", "title": "Items of PClean observations", "statement": "In every state reached by rows, samples and inference, the items of every observation of a relation are an entity of its class together with the entities that its recorded references lead to, in the order of the relation's domains. (False for attributes of the record class with record_class_is_clean: their items are zeros.)", "quantifier": "every history of rows, samples and inference; all schemas without chains of three references", "why_tests_cant": "unbounded histories", "anchors": ["cxx/gendb.cc: incorporate, get_unique_entities_relation, sample_entities_relation, get_relation_items"]}
{"id": "C54", "title": "Incorporating rows", "statement": "A row that GenDB accepts is stored: each value becomes an observation of its field for that row, at items that had none, and nothing else is lost. A row number cannot be used twice for a field. With new_rows_have_unique_entities, new references go to entities of their own. (The last clause is false across the fields of a row; rows with attributes of a noisy record class are never accepted; positions of references cannot be found with a clean record class.)", "quantifier": "every history of rows, samples and inference; every row; every random outcome", "why_tests_cant": "unbounded histories", "anchors": ["cxx/gendb.cc: incorporate, incorporate_query_relation, sample_and_incorporate_for_class, get_domain_inds"]}
{"id": "C55", "title": "Saving a PClean model", "statement": "pclean --output writes the clusters of the model after inference. (False: the encoding names only entities of classes that some class refers to, so writing throws as soon as a row of the record class takes part in an observation.)", "quantifier": "every schema, every history of rows, samples and inference", "why_tests_cant": "unbounded histories", "anchors": ["cxx/pclean/pclean.cc", "cxx/pclean/pclean_lib.cc: make_dummy_encoding_from_gendb", "cxx/util_io.cc: to_txt"]}
{"id": "C56", "title": "Numbers written as strings", "statement": "A string-valued adapter of a numeric distribution behaves as that distribution on the numbers its texts stand for: counts, probabilities, scores and removal agree for every history; an integer it writes reads back as itself; texts that are not numbers are turned down. (The last clause is false: they count as 0, and a blank text is read as an uninitialised variable.)", "quantifier": "every underlying distribution, every history of texts, every int", "why_tests_cant": "unbounded histories and texts", "anchors": ["cxx/distributions/adapter.hh: DistributionAdapter::incorporate, logp, sample, from_string, to_string"]}
{"id": "C57", "title": "A categorical distribution over strings", "statement": "A StringCat holds exactly the strings incorporated, rejects every string outside its list, gives the listed strings probabilities proportional to alpha plus their counts that sum to 1 when no string is listed twice, samples listed strings with those weights, and its logp is the increase of its score.", "quantifier": "every list of strings and every history", "why_tests_cant": "unbounded lists and histories", "anchors": ["cxx/distributions/stringcat.cc: string_to_index, incorporate, logp, logp_score, sample, transition_hyperparameters"]}
{"id": "C58", "title": "Distributions built from schema text", "statement": "The distribution or emission built from a schema declaration has the declared observation type; a categorical needs exactly its number of categories; a list of strings joined by a delimiter comes back as that list; lengths default to 80 and 20 and are otherwise those given. (Negative lengths wrap around, repeated blanks make empty strings, and in parentheses the comma cannot delimit.)", "quantifier": "every declaration text and argument map", "why_tests_cant": "unbounded texts", "anchors": ["cxx/distributions/get_distribution.cc: DistributionSpec, get_prior", "cxx/emissions/get_emission.cc: get_prior"]}
{"id": "C59", "title": "A saved model can be loaded again", "statement": "A model that was made from a schema, given observations, changed by any inference and written to a cluster file, and is then made again from the schema, the observations and the file, has every relation in its cluster, every entity of every cluster of relations in its cluster (by name, whatever numbers the loading program gives the names), the same data for the observed relations and values for the same tuples of the others; entities that are not in the file only come from the observations. Loading does not fail for a saved model.", "quantifier": "every schema, observation set, history of inference, iteration order, random draws and pair of encodings", "why_tests_cant": "the loader replays the clusters through the same calls as inference and the encodings depend on hash order; tests load one file", "anchors": ["cxx/util_io.cc: from_txt, to_txt, load_clusters_irm, load_clusters_hirm", "cxx/hirm.cc: set_cluster_assignment_gibbs, add_relation", "cxx/irm.cc: add_relation"]}
{"id": "C60", "title": "Corrupted values are drawn with the probability the emission gives them", "statement": "Asking an emission for a corrupted version of a clean value draws it from the distribution its log probability describes, after any sequence of incorporations, removals and transitions: the Gaussian emission adds one draw of its error distribution, the bit flip returns the other value, the categorical emission draws among the categories with weights proportional to their probabilities for this clean value, and Sometimes keeps the clean value or passes it on with the probabilities of its coin, so that its total probability of a value is the exponential of its own log probability. For the Gaussian emission the drawn and the scored distribution differ once a pair with different values is in it.", "quantifier": "every emission state reached by any history, every clean value and every random stream", "why_tests_cant": "Sampling tests look at a few seeds; that the weights equal the reported probabilities is a statement about every state", "anchors": ["cxx/emissions/gaussian.hh sample_corrupted", "cxx/emissions/bitflip.hh sample_corrupted", "cxx/emissions/categorical.hh sample_corrupted logp", "cxx/emissions/sometimes.hh sample_corrupted logp"]}
{"id": "C61", "title": "Sampling from a HIRM adds exactly the requested new observations and what they depend on", "statement": "Sampling n observations from a HIRM gives every relation no other relation is built on exactly n new observations, for pairwise different tuples that had no value, each with one entity per domain that is either known to some cluster of relations or larger than all known ones. A relation other relations are built on is not sampled for itself; it gets exactly the values the samples are built on. Existing values do not change, and the model is the one it would be had the samples been observed. A value is drawn from the distribution of the cell its tuple falls in, and for a noisy relation from the emission applied to the base's value. Entities are drawn by popularity: at first the number of relation clusters knowing them, plus one for each accepted draw; a tuple that already has a value is put back.", "quantifier": "Every schema, history of gentle calls, number of samples, random stream and iteration order; every fuel for which the loop ends", "why_tests_cant": "The loop draws until it finds unseen tuples, over random entities and chains of bases; a test sees a few draws on one schema.", "anchors": ["cxx/hirm.cc:HIRM::sample_and_incorporate", "cxx/hirm.cc:HIRM::sample_and_incorporate_relation", "cxx/hirm.cc:HIRM::initialize_domain_crps", "cxx/clean_relation.hh:CleanRelation::sample_and_incorporate", "cxx/noisy_relation.hh:NoisyRelation::sample_and_incorporate"]}
{"id": "C62", "title": "The probability a HIRM gives to new observations", "statement": "HIRM::logp of a set of observations is the product of what the cluster of each relation gives to the observations of its own relations; it does not depend on random draws or on the order in which hash maps are walked; for observations of entities that all have clusters it is the product over the observations of the probability of the value under the cell the tuple falls in; and it does not fail for observations of clean relations with the right number of entities and no cell twice.", "quantifier": "every reachable HIRM, every set of observations, iteration order and random stream", "why_tests_cant": "the sum runs over all assignments of unseen entities, and the grouping over all partitions of relations", "anchors": ["cxx/hirm.cc: HIRM::logp", "cxx/irm.cc: IRM::logp"]}
{"id": "C63", "title": "Observations and the joint score obey the chain rule", "statement": "Incorporating an observation multiplies the joint probability of the model (the exponential of its total score) by the probability that its new entities, one after the other, join the clusters they are given, and by the probability of the value in its cell; for a clean relation and known entities this factor is what HIRM::logp gave for the observation before.", "quantifier": "every reachable HIRM, every relation whose distribution scores as it predicts (shown for all conjugate ones and the Gaussian and Sometimes emissions), every observation and random stream", "why_tests_cant": "scores are compared over all histories and all seatings", "anchors": ["cxx/hirm.cc: HIRM::logp_score, incorporate", "cxx/irm.cc: IRM::logp_score", "cxx/crp.cc: logp_score", "cxx/clean_relation.hh: logp_score"]}
{"id": "C64", "title": "Inference never changes what was observed", "statement": "Running the inference loop on a HIRM or an IRM, for any number of iterations and wherever the time-out falls, leaves the declared relations, and for every relation the set of tuples it has observations for, unchanged; the values change only in relations declared latent (observed = false). The same holds of the loop's steps (latent value transitions, relation moves, IRM steps) taken in any order. While no latent relation has an observation, the loop returns for all draws and the HIRM it returns is one that public calls can build, with all observations as before.", "quantifier": "all schemas, all histories of public calls before inference, all numbers of iterations and time-outs, all random draws, all iteration orders of hash containers, all schedules of inference steps", "why_tests_cant": "The draws decide which relation moves where and which candidate value a latent entry takes; a test runs a few seeds, and an observation lost in a rarely taken branch (auxiliary IRM discarded, noisy observation not put back) would not show.", "anchors": ["cxx/inference.cc: inference_irm, inference_hirm", "cxx/hirm.cc: transition_cluster_assignments_all, transition_cluster_assignment_relation, transition_latent_values_relation", "cxx/irm.cc: single_step_irm_inference"]}
{"id": "C65", "title": "Resampling references never changes the table", "statement": "Resampling a reference of a GenDB, a pass over all the references of a class and of the classes it refers to, and any number of iterations of the GenDB inference loop leave the value of every row in every query field as it was. At every moment each row has one value per field, and the items under which the value is kept are the row and the entities that its references lead to along the path of the field at that moment. The items of observations are unaffected by inference on the HIRM.", "quantifier": "every well-formed schema whose chains of references have at most two steps, every history of rows, samples, inference and resampled references, every reference of a class that the record class reaches, all random draws and iteration orders; one emission for every class of a path (the only_final_emissions option off)", "why_tests_cant": "The code takes observations out, tries every candidate entity and puts them back under rewritten items; a value lost or put back under the wrong items in one branch of one candidate does not show in a test with a few rows.", "anchors": ["cxx/gendb.cc: GenDB::transition_reference, unincorporate_reference, update_reference_items, incorporate_reference, reincorporate_new_refval, transition_reference_class_and_ancestors", "cxx/inference.cc: inference_gendb"]}
{"id": "C66", "title": "Resampling a reference changes that reference only", "statement": "Resampling a reference gives it an entity that something already refers to or a number above all of those; every other recorded reference is unchanged; references of other classes and clusterings of entities change only for the class referred to and for classes that it reaches; and the recorded references and the clusterings of entities agree at every moment. GenDB inference leaves every entity that has a value for a reference field with one.", "quantifier": "as C65: all schemas, histories, references, draws and orders", "why_tests_cant": "The candidates include a new entity whose own references are drawn and discarded again; only an argument over all schemas and histories shows that nothing else is touched.", "anchors": ["cxx/gendb.cc: GenDB::transition_reference, unincorporate_from_entity_cluster, unincorporate_singleton, reincorporate_new_refval", "cxx/distributions/crp.cc: CRP::tables_weights_gibbs"]}
{"id": "C67", "title": "Resampling leaves nothing behind and always returns", "statement": "After a reference is resampled, an entity to which nothing refers has no recorded references and no customers; every stored value lies at items of an existing entity with its present references; and resampling a reference returns. All three are false: the references of an abandoned entity stay recorded and seated, the values of attributes that no field queries stay at their old items, and the reference of an entity that two rows share cannot be resampled because every candidate gets probability zero.", "quantifier": "states reached by rows and one resampled reference", "why_tests_cant": "The tests of the repository check sizes of containers on schemas where these cases do not arise.", "anchors": ["cxx/gendb.cc: GenDB::unincorporate_from_entity_cluster, unincorporate_reference_relation, get_domain_inds, transition_reference", "cxx/noisy_relation.hh: cluster_or_prior_logp_from_items", "cxx/util_math.cc: sample_from_logps"]}
{"id": "C68", "title": "The string noise model records every edit of an observation, and no more", "statement": "A new string emission has no observations and a bias of 9216 towards inserting nothing and keeping each character. Incorporating any pair of strings of printable characters, with any weight, succeeds. It raises the number of observations by the weight, leaves the hyperparameters alone, and divides the weight among one or two different alignments of the two strings (one only if there is no other); each entry of the tables grows by the weight of the alignments times the number of times that choice occurs in them. Hence, whatever the alignments: for each character, replacements and deletions grow by its occurrences in the clean string; the entries for inserting nothing grow by the length of the clean string; insertions of and replacements by a character grow by its occurrences in the dirty string. Resampling hyperparameters changes no entry. After any history of observations of positive weight no entry is negative.", "quantifier": "every emission with well-formed tables, pair of printable strings, weight, tie-breaking of the heap, and every history of observations and hyperparameter moves", "why_tests_cant": "The tests of the repository incorporate a few short pairs and compare scores; the conservation laws concern all strings and all states.", "anchors": ["cxx/emissions/bigram_string.cc: BigramStringEmission, incorporate, transition_hyperparameters, get_index", "cxx/emissions/string_alignment.cc: topk_alignments"]}
{"id": "C69", "title": "The string noise model weighs alignments by their probability, and forgetting undoes learning", "statement": "An observation should be divided among its most likely alignments in proportion to their probability under the current model, with every insertion judged in the context of the clean character before it, and unincorporating an observation that was just incorporated should restore all tables.", "quantifier": "every emission reached by observations of positive weight and hyperparameter moves, every pair of printable strings, every least-cost tie-breaking", "why_tests_cant": "Whether shares follow probabilities, and whether two calls cancel, depends on the state and cannot be settled by examples; the property turns out to hold in part only.", "anchors": ["cxx/emissions/bigram_string.cc: log_prob_distance, incorporate", "cxx/distributions/base.hh: unincorporate", "cxx/emissions/bigram_string.hh: BigramStringEmission"]}
{"id": "C70", "title": "The string noise model can produce any string and scores what it produces", "statement": "Corrupting a string of printable characters always ends with a printable string, for every sequence of random numbers, and every printable string can come out. The log probabilities of a sequence of pairs, each given the ones before, exist and add up to the change of the score; for a pair with one character in all it is the logarithm of the probability the learnt tables give to the choices of its only alignment. The log probability of a pair should be that of the corruption coming out.", "quantifier": "every emission with well-formed tables, every printable string, every sequence of random numbers, every sequence of pairs", "why_tests_cant": "The loop that inserts characters has no bound, and the support of a sampler is not visible in samples.", "anchors": ["cxx/emissions/bigram_string.cc: sample_corrupted, logp, logp_score, category_to_char"]}
{"id": "C71", "title": "A proposed clean string is a fair vote over the dirty strings", "statement": "A proposal is made for every list of printable strings and consists of their characters; one string is proposed as it is. The vote between two strings follows a most likely alignment, keeps what they share, and at each difference takes the explanation that is more likely, weighted. Strings that agree should be proposed unchanged, the order of the strings should not matter, and every string should count for as many strings as it stands for.", "quantifier": "every emission reached by observations of positive weight and hyperparameter moves, every list of printable strings, every least-cost tie-breaking", "why_tests_cant": "Votes depend on all that the emission has learnt; the tests of the repository check a handful of strings with a trained emission.", "anchors": ["cxx/emissions/bigram_string.cc: two_string_vote, propose_clean_with_weights, propose_clean"]}
{"id": "C72", "title": "The probability a relation gives to a value agrees with the model's", "statement": "A clean relation asked for the log probability of a value at a tuple of entities answers with the mixture over the clusters its entities may be in: a known entity is in its cluster, an entity never seen in each cluster of its domain in proportion to its size, or in a new one. The probabilities of all values add up to one, a tuple of the wrong length is refused, and the answer is the one the IRM gives for that single observation.", "quantifier": "every distribution whose new objects do not depend on the random numbers, every consistent state of a relation and its domains (any number of domains, clusters, entities and observations), every tuple of entities known or not, every value", "why_tests_cant": "The number of combinations grows with the clusters; agreement of two separately written computations must hold in all states, and the exception (an unseen entity at two positions) occurs only for relations with a repeated domain.", "anchors": ["cxx/clean_relation.hh: CleanRelation::logp", "cxx/irm.cc: IRM::logp", "cxx/domain.hh: Domain", "cxx/util_math.cc: product, logsumexp"]}
{"id": "C73", "title": "The approximate scores of an entity's clusters are the exact ones", "statement": "Asking a relation for the approximate score of a cluster for an entity leaves the relation unchanged, succeeds for every entity the relation has observations of, and gives the sum of the log probabilities of the entity's observations, each on its own: given the other values of its block for the entity's own cluster, given the block it would join for another one. This should be the exact score used to move the entity.", "quantifier": "every distribution class, every consistent state of a relation and its domains, every entity and cluster, every order of iterating over the observations", "why_tests_cant": "Whether the fast score agrees with the exact one depends on how the entity's observations share blocks; the tests of the repository call the function and ignore its result.", "anchors": ["cxx/clean_relation.hh: CleanRelation::logp_gibbs_approx, logp_gibbs_approx_current, logp_gibbs_approx_variant, logp_gibbs_exact"]}
{"id": "C74", "title": "Held-out observations are scored as a whole and exactly once", "statement": "Scoring a file of held-out observations gives the log probability of precisely the observations of the file, taken together: every line once, with its relation, the codes of its entities and its value. Neither the order in which the containers are iterated nor the random draws change the score. If the encoding was computed from the observations together with the held-out ones, every file of complete, readable, unrepeated observations of clean relations is scored, whether its entities were seen or not; any other file is rejected. An empty file has probability one.", "quantifier": "every IRM or HIRM state, every encoding and file, every iteration order, every sequence of random draws", "why_tests_cant": "The score mixes over the clusters of unseen entities jointly for all lines of the file; tests compare a few scores with each other.", "anchors": ["cxx/util_io.cc: logp, encode_observations, merge_observations, calculate_encoding", "cxx/irm.cc: IRM::logp", "cxx/hirm.cc: HIRM::logp", "cxx/hirm_main.cc"]}
{"id": "C75", "title": "A noisy relation scores a value against its base value", "statement": "Asked for the log probability of a value at a tuple of entities, a noisy relation answers with the mixture, over the clusters the entities may be in, of the probability that the emission of the cell turns the value the base relation has there into the value asked about. If the entities have clusters this is what incorporating the value adds to the score. The probabilities of the two values of a sometimes flipped bit add up to one after every history. A tuple over which the base has no value is refused. The approximate reassignment scores are those of the pairs of base value and value, and computing them changes nothing.", "quantifier": "all emissions, clusterings, base relations, tuples, values and histories of noisy-relation operations", "why_tests_cant": "A test scores a few values over one base; that the base value, the cells and the weights combine properly for all tuples and histories is a statement about every state.", "anchors": ["cxx/noisy_relation.hh: logp, logp_score, logp_gibbs_approx, get_base_value", "cxx/clean_relation.hh: logp"]}
{"id": "C76", "title": "Resuming from saved clusters goes on where the last run stopped", "statement": "If the program is run on a schema and observations, does any inference and saves its clusters, and is run again on the same files with --load, any number of times, each run starts with every relation and every named entity in the cluster in which the run before left it, with no further entities but those of the observations, and with exactly the observations as its data; the names in the file a run saves are those of the entities in its model, with or without held-out observations; and what it prints for held-out observations is the log probability of exactly those, under the names of its model.", "quantifier": "all schemas, observation files, draws, sequences of inference calls, iteration orders of hash containers and lengths of the chain of runs", "why_tests_cant": "A test saves and loads one small model once; that nothing drifts in any chain of runs, whatever inference has done and however entities are numbered in each process, is a statement about all histories.", "anchors": ["cxx/hirm_main.cc: main", "cxx/util_io.cc: from_txt, to_txt, calculate_encoding, merge_observations"]}
{"id": "C77", "title": "The file of samples holds what was asked for, as observations", "statement": "If the program is run with --samples n and drawing ends, the file of samples is written and is a file of observations: reading it gives exactly n observations of every relation no other relation is built on and none of any other, for different tuples the model had no value for, each with the value the model has for it afterwards. An entity with a name goes by its name, one without goes by a name made of its domain and number, and different entities go by different names.", "quantifier": "all schemas, observations, held-out observations, chains of runs, draws, numbers of samples and iteration orders; names and values without separators", "why_tests_cant": "A test draws a few samples from one model; which tuples are drawn and which entities are made up depends on the whole history, and every one of them must read back.", "anchors": ["cxx/hirm_main.cc: main", "cxx/hirm.cc: HIRM::sample_and_incorporate", "cxx/util_io.cc: write_observations, load_observations"]}
