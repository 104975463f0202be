{
 "claims": [
  {
   "property": "C01",
   "status": "proved",
   "theorems": [
    "C01_crp_bookkeeping",
    "C01_crp_bookkeeping_with_resampling"
   ],
   "note": "all histories; first illegal request fails its assertion"
  },
  {
   "property": "C02",
   "status": "proved",
   "theorems": [
    "C02_unincorporate_incorporate",
    "C02_incorporate_unincorporate"
   ],
   "note": ""
  },
  {
   "property": "C03",
   "status": "proved",
   "theorems": [
    "C03_crp_seating_distribution",
    "C03_C04_empty_crp_refuted"
   ],
   "note": "proved for N>0; for an emptied CRP with alpha<>1 the code is refuted by a reachable history"
  },
  {
   "property": "C04",
   "status": "proved",
   "theorems": [
    "C04_crp_chain_rule",
    "C04_crp_chain_rule_new_table",
    "C04_crp_exchangeable",
    "C03_C04_empty_crp_refuted"
   ],
   "note": "chain rule needs N>0 or alpha=1 (refuted otherwise)"
  },
  {
   "property": "C05",
   "status": "proved",
   "theorems": [
    "C05_crp_gibbs_weights"
   ],
   "note": ""
  },
  {
   "property": "C06",
   "status": "proved",
   "theorems": [
    "C06_transition_alpha"
   ],
   "note": ""
  },
  {
   "property": "C07",
   "status": "proved",
   "theorems": [
    "C07_domain_entities",
    "C07_domain_call_effect"
   ],
   "note": ""
  },
  {
   "property": "C08",
   "status": "proved",
   "theorems": [
    "C08_blocks_hold_data",
    "C08_call_effect",
    "C08_legal_calls_succeed"
   ],
   "note": "for every distribution class with the laws of S_relation, proved for all conjugate classes of the code"
  },
  {
   "property": "C09",
   "status": "proved",
   "theorems": [
    "C09_unincorporate_incorporate",
    "C09_entities_keep_clusters",
    "C09_read_back"
   ],
   "note": ""
  },
  {
   "property": "C10",
   "status": "proved",
   "theorems": [
    "C10_move_entity",
    "C10_other_entities_stay",
    "C10_order_irrelevant"
   ],
   "note": ""
  },
  {
   "property": "C11",
   "status": "proved",
   "theorems": [
    "C11_gibbs_exact_is_score_change",
    "C11_scoring_is_pure",
    "C11_repeated_domain_refuted"
   ],
   "note": "proved when each domain is used once; refuted by a reachable state when a domain is repeated"
  },
  {
   "property": "C12",
   "status": "proved",
   "theorems": [
    "C12_entities_iff_observed",
    "C12_call_effect",
    "C12_incorporate_succeeds_iff",
    "C12_unincorporate_succeeds_iff",
    "C12_has_observation"
   ],
   "note": "for every history of API calls on an IRM"
  },
  {
   "property": "C13",
   "status": "proved",
   "theorems": [
    "C13_transition_item",
    "C13_transitions",
    "C13_transitions_all",
    "C13_inference_step"
   ],
   "note": ""
  },
  {
   "property": "C14",
   "status": "proved",
   "theorems": [
    "C14_irm_ctor_iff",
    "C14_irm_ctor_result",
    "C14_irm_ctor_order_refuted",
    "C14_hirm_ctor_accepts",
    "C14_hirm_ctor_result",
    "C14_hirm_add_iff"
   ],
   "note": "IRM: exact condition plus a refutation of order independence; HIRM: full"
  },
  {
   "property": "C15",
   "status": "proved",
   "theorems": [
    "C15_structure"
   ],
   "note": "all histories incl. incorporation and inference calls"
  },
  {
   "property": "C16",
   "status": "proved",
   "theorems": [
    "C16_moves_keep_data",
    "C16_history_data",
    "C16_moves_succeed",
    "C16_move_after_removal_refuted",
    "C16_move_without_base_value_refuted"
   ],
   "note": "moves that return keep everything; moves succeed after gentle histories, and two refutations show the restrictions are needed"
  },
  {
   "property": "C17",
   "status": "proved",
   "theorems": [
    "C17_history",
    "C17_sample_incorporates",
    "C17_update_value_effect",
    "C17_update_value_in_step_iff",
    "C17_update_value_refuted"
   ],
   "note": "Proved for every history of incorporate, sample_and_incorporate, unincorporate, inference calls and base changes that keep the values below noisy observations. False of update_value, which stores the pair swapped: refuted on a reachable state, and characterised exactly (in step afterwards iff the new value equals the base value)."
  },
  {
   "property": "C18",
   "status": "proved",
   "theorems": [
    "C18_effect",
    "C18_equal_weights",
    "C18_noisy_blocks",
    "C18_out_of_step",
    "C18_base_block",
    "C18_same_candidates",
    "C18_bernoulli_drift",
    "C18_statistics_wrong",
    "C18_statistics_refuted",
    "C18_proposals"
   ],
   "note": "Values, index, declarations and block sets: proved for every transition that returns. The statistics clause is false: exact sequence of block operations proved, refuted for every BetaBernoulli base whose value changes and on a concrete run; true when every candidate is the old value."
  },
  {
   "property": "C19",
   "status": "proved",
   "theorems": [
    "C19_state",
    "C19_order_independent",
    "C19_unincorporate_incorporate",
    "C19_incorporate_unincorporate",
    "C19_predictive",
    "C19_logp_is_score_increase",
    "C19_sample_weights",
    "C19_sample_draws"
   ],
   "note": "all histories of weight-1 updates and hyperparameter transitions"
  },
  {
   "property": "C20",
   "status": "proved",
   "theorems": [
    "C20_state",
    "C20_order_independent",
    "C20_range",
    "C20_predictive",
    "C20_predictive_sums_to_one",
    "C20_logp_is_score_increase",
    "C20_sample_weights",
    "C20_sample_draws",
    "C20_sample_weights_fractional_refuted",
    "C20_nearest"
   ],
   "note": ""
  },
  {
   "property": "C21",
   "status": "proved",
   "theorems": [
    "C21_state",
    "C21_order_independent",
    "C21_unincorporate_incorporate",
    "C21_logp",
    "C21_posterior",
    "C21_sample_density",
    "C21_score_empty"
   ],
   "note": "exact real arithmetic"
  },
  {
   "property": "C22",
   "status": "proved",
   "theorems": [
    "C22_state",
    "C22_order_independent",
    "C22_unincorporate_incorporate",
    "C22_logp_is_score_increase",
    "C22_sample_matches_logp_iff",
    "C22_sample_matches_logp_refuted"
   ],
   "note": "the clause about sample is refuted; exact condition given"
  },
  {
   "property": "C23",
   "status": "proved",
   "theorems": [
    "C23_state",
    "C23_order_independent",
    "C23_unincorporate_incorporate",
    "C23_accepts",
    "C23_logp",
    "C23_sample_unchanged",
    "C23_sample_unchanged_refuted",
    "C23_string_nat_nearest",
    "C23_string_nat_nearest_refuted"
   ],
   "note": "the clause about sample is refuted when the maximum length is reached, proved otherwise"
  },
  {
   "property": "C24",
   "status": "proved",
   "theorems": [
    "C24_beta_bernoulli",
    "C24_beta_bernoulli_refuted",
    "C24_dirichlet_categorical",
    "C24_zero_mean_normal",
    "C24_normal",
    "C24_bigram",
    "C24_gaussian_emission",
    "C24_categorical_emission",
    "C24_sometimes",
    "C24_sometimes_bitflip",
    "C24_sometimes_gaussian",
    "C24_sometimes_categorical_refuted",
    "C24_simple_string"
   ],
   "note": "For every weighted history: the update with the opposite weight restores the object, the object does not depend on the order, and (except bigram and simple_string, see C23 and C37) its statistics are the weighted ones. BetaBernoulli, Sometimes and simple strings need whole weights (refuted for 1/2), normals positive ones; sometimes_categorical is refuted even for weight 1."
  },
  {
   "property": "C25",
   "status": "proved",
   "theorems": [
    "C25_logsumexp",
    "C25_logsumexp_permutation",
    "C25_logsumexp_shift",
    "C25_log_normalize",
    "C25_log_choice_in_range",
    "C25_logsumexp_empty_refuted",
    "C25_log_normalize_all_neg_inf_refuted"
   ],
   "note": ""
  },
  {
   "property": "C26",
   "status": "proved",
   "theorems": [
    "C26_product",
    "C26_product_empty_refuted"
   ],
   "note": ""
  },
  {
   "property": "C27",
   "status": "proved",
   "theorems": [
    "C27_linspace",
    "C27_linspace_open",
    "C27_log_linspace",
    "C27_linspace_one_point_refuted"
   ],
   "note": ""
  },
  {
   "property": "C28",
   "status": "proved",
   "theorems": [
    "C28_encoding",
    "C28_total",
    "C28_round_trip",
    "C28_merged",
    "C28_order_independent_refuted",
    "C28_merge"
   ],
   "note": ""
  },
  {
   "property": "C29",
   "status": "proved",
   "theorems": [
    "C29_effect",
    "C29_effect_irm",
    "C29_each_once",
    "C29_log_is_transparent",
    "C29_unobserved_leaf_exits",
    "C29_each_once_refuted"
   ],
   "note": "If loading returns, the data is exactly what the property says, in every order. With an observed base the outcome depends on the order (refuted): one order fails an assertion."
  },
  {
   "property": "C30",
   "status": "proved",
   "theorems": [
    "C30_irm",
    "C30_irm_restored",
    "C30_hirm",
    "C30_hirm_restored",
    "C30_space_refuted",
    "C30_domain_names_refuted",
    "C30_unnamed_throws"
   ],
   "note": "Round trips of both file kinds under the stated conditions, restoring the clustering; each condition is shown necessary by a witness. Opening files and the full from_txt of a HIRM are not modelled."
  },
  {
   "property": "C31",
   "status": "proved",
   "theorems": [
    "C31_grammar",
    "C31_unambiguous",
    "C31_round_trip",
    "C31_nothing_lost",
    "C31_total",
    "C31_leading_dot",
    "C31_nul_refuted",
    "C31_utf8_refuted"
   ],
   "note": "Exact for seven-bit text without NUL; a NUL byte is accepted as a symbol and a byte above 127 is undefined behaviour (refuted)."
  },
  {
   "property": "C32",
   "status": "proved",
   "theorems": [
    "C32_declaration",
    "C32_canonical",
    "C32_only_declarations",
    "C32_blank",
    "C32_file",
    "C32_file_origin",
    "C32_out_of_bounds",
    "C32_no_out_of_bounds_refuted",
    "C32_inline"
   ],
   "note": "The clause about out-of-bounds reads is refuted (truncated lines); proved that only truncated declarations are affected."
  },
  {
   "property": "C33",
   "status": "proved",
   "theorems": [
    "C33_read",
    "C33_round_trip",
    "C33_width",
    "C33_width_refuted",
    "C33_empty_field_refuted",
    "C33_one_column_refuted",
    "C33_given_names_refuted"
   ],
   "note": "Exact description of the files that are read; round trip for tables whose cells can be written. Rows that are too wide are undefined behaviour, not rejected; empty cells that are not the last are undefined behaviour; empty cells of a one-column table are lost; given column names switch off the check of the first row."
  },
  {
   "property": "C34",
   "status": "proved",
   "theorems": [
    "C34_spells",
    "C34_topk",
    "C34_edit_distance",
    "C34_levenshtein",
    "C34_topk_any_cost_refuted"
   ],
   "note": "For every strings, k, cost function and choice among elements of the heap: the search ends, the results spell both strings, carry their own costs, are distinct and at most k. If pieces add non-negative, context-dependent amounts they are the k cheapest (all if fewer) in order of cost; with edit_distance the first costs the Levenshtein distance, which is proved to be the least number of edits. Refuted for cost functions with negative increments."
  },
  {
   "property": "C35",
   "status": "proved",
   "theorems": [
    "C35_nearest",
    "C35_empty_list_refuted"
   ],
   "note": "Member, minimal Levenshtein distance, first such, the query itself if listed; an empty list is undefined behaviour."
  },
  {
   "property": "C36",
   "status": "proved",
   "theorems": [
    "C36_sometimes",
    "C36_gaussian",
    "C36_bitflip",
    "C36_categorical",
    "C36_categorical_returns",
    "C36_simple_string",
    "C36_simple_string_majority",
    "C36_simple_string_copies",
    "C36_simple_string_refuted"
   ],
   "note": "Most frequent value, mean, first category of highest total, positionwise vote (ends, every character most frequent at its position, a majority string is returned); refuted for strings with the character 0."
  },
  {
   "property": "C37",
   "status": "proved",
   "theorems": [
    "C37_returns",
    "C37_trials",
    "C37_at_least_edit_distance",
    "C37_undone",
    "C37_logp",
    "C37_logp_value",
    "C37_logp_same_string",
    "C37_logp_refuted",
    "C37_sampled_characters",
    "C37_printable_refuted",
    "C37_insertion_places_refuted"
   ],
   "note": "The statistics are the trials and errors of an alignment of each pair; inverse and order-independent; the log probability is the score increase but adds ln 95 per character instead of subtracting it, so it can be positive; sampling can return the character 127; the number of failed insertion trials depends on the observed string."
  },
  {
   "property": "C38",
   "status": "proved",
   "theorems": [
    "C38_domains",
    "C38_cyclic_does_not_end"
   ],
   "note": "Domain lists of classes; termination for acyclic schemas with a fuel bound, non-termination for cyclic ones (no fuel is enough)."
  },
  {
   "property": "C39",
   "status": "proved",
   "theorems": [
    "C39_links",
    "C39_links_exact",
    "C39_links_refuted"
   ],
   "note": "All right links are recorded for every acyclic schema; nothing else is recorded when no chain of three references starts at the class; refuted for a chain of four classes (child_class_indices leaks)."
  },
  {
   "property": "C40",
   "status": "proved",
   "theorems": [
    "C40_bookkeeping",
    "C40_references_kept",
    "C40_collision_refuted"
   ],
   "note": "For every history of rows, samples and inference on the HIRM: the customers of each entity CRP are exactly the recorded references, at the tables of their values; rows and samples keep old references. Refuted for hash collisions: two references to one class with the same id fail an assertion, and such a pair exists for every 32-bit hash."
  },
  {
   "property": "C41",
   "status": "proved",
   "theorems": [
    "C41_samples_file_refuted",
    "C41_samples",
    "C41_entity_names"
   ],
   "note": "The samples file is always empty; the frame itself holds the samples of the right rows; names of entities exist exactly for classes that are referred to."
  },
  {
   "property": "C42",
   "status": "proved",
   "theorems": [
    "C42_file",
    "C42_round_trip",
    "C42_out_of_bounds",
    "C42_no_out_of_bounds_refuted",
    "C42_lenient_refuted"
   ],
   "note": "Exact description of the files that are accepted and of what is stored; written schemas are read back. The clause about reads outside the token list is refuted (a definition that stops after key=value), and it is shown exactly when this happens."
  },
  {
   "property": "C43",
   "status": "proved",
   "theorems": [
    "C43_theta",
    "C43_start",
    "C43_accepts_better",
    "C43_acceptance",
    "C43_detailed_balance",
    "C43_state",
    "C43_score",
    "C43_logp_is_score_increase",
    "C43_order_independent",
    "C43_unincorporate_incorporate",
    "C43_sample",
    "C43_sample_matches_logp",
    "C43_hyperparameters"
   ],
   "note": "Every Skellam history; the normal, Poisson and uniform draws and the Bessel function are arguments. The rule is stated with likelihoods, and detailed balance follows for any prior density. logp is shown to be the law of the difference of two Poisson values when the Bessel argument is the Bessel function (C43_bessel shows one exists). Hypotheses met: C43_history, C43_turned_down, C43_kept."
  },
  {
   "property": "C44",
   "status": "proved",
   "theorems": [
    "C44_mixture",
    "C44_ill_formed_rejected",
    "C44_weights_sum",
    "C44_succeeds",
    "C44_known_entities",
    "C44_weights_sum_refuted"
   ],
   "note": "sum of weights is refuted for a domain whose entities have all been removed; guarded theorem otherwise"
  },
  {
   "property": "C45",
   "status": "proved",
   "theorems": [
    "C45_weights_are_posterior",
    "C45_beta_bernoulli",
    "C45_dirichlet",
    "C45_normal",
    "C45_zero_mean_normal",
    "C45_bigram"
   ],
   "note": "conjugate classes"
  },
  {
   "property": "C46",
   "status": "proved",
   "theorems": [
    "C46_gibbs_target",
    "C46_candidates"
   ],
   "note": "relations that repeat a domain are excluded, see C11_repeated_domain_refuted"
  },
  {
   "property": "C47",
   "status": "proved",
   "theorems": [
    "C47_remove_relation",
    "C47_remove_keeps_entities_refuted"
   ],
   "note": "the clause about forgetting entities is refuted by a reachable state"
  },
  {
   "property": "C48",
   "status": "proved",
   "theorems": [
    "C48_entities_known",
    "C48_entities_linger_refuted"
   ],
   "note": "the only-those half is refuted by a reachable state"
  },
  {
   "property": "C49",
   "status": "proved",
   "theorems": [
    "C49_read",
    "C49_unambiguous",
    "C49_round_trip",
    "C49_empty_name_refuted",
    "C49_comma_refuted",
    "C49_rejects",
    "C49_new_entities",
    "C49_new_names_fresh_refuted"
   ],
   "note": ""
  },
  {
   "property": "C50",
   "status": "proved",
   "theorems": [
    "C50_gaussian",
    "C50_sometimes",
    "C50_sometimes_bitflip",
    "C50_sometimes_gaussian",
    "C50_sometimes_bitflip_sums_to_one",
    "C50_sometimes_sums_to_one",
    "C50_categorical_predictive",
    "C50_categorical_sums_to_one",
    "C50_categorical",
    "C50_categorical_empty",
    "C50_categorical_outside"
   ],
   "note": "Chain rule after every history; normalisation of sometimes_bitflip with its value, and of Sometimes over any normalised base; the table of categorical distributions in full."
  },
  {
   "property": "C51",
   "status": "proved",
   "theorems": [
    "C51_relations",
    "C51_observed",
    "C51_bases",
    "C51_accepted",
    "C51_same_attribute_refuted"
   ],
   "note": "Exact relation map in all four modes, observed relations, bases, acceptance by the HIRM constructor; refuted for two fields on one record attribute with record_class_is_clean."
  },
  {
   "property": "C52",
   "status": "proved",
   "theorems": [
    "C52_links",
    "C52_record_clean_refuted",
    "C52_only_final_refuted"
   ],
   "note": "Links fill the item vectors of every relation in the default mode; refuted, for every schema with the shape, for renamed record attributes and for only_final_emissions."
  },
  {
   "property": "C53",
   "status": "proved",
   "theorems": [
    "C53_vectors",
    "C53_record_clean_refuted"
   ],
   "note": "With an emission for every class of a path (only_final_emissions off). Refuted for renamed record attributes."
  },
  {
   "property": "C54",
   "status": "proved",
   "theorems": [
    "C54_row_stored",
    "C54_row_once",
    "C54_own_entities",
    "C54_unique_refuted",
    "C54_record_noisy_refuted",
    "C54_indices",
    "C54_indices_refuted"
   ],
   "note": "Rows are stored and nothing is lost; row numbers are used once; entities of their own per value but not per row; two modes in which rows or reference transitions always fail."
  },
  {
   "property": "C55",
   "status": "proved",
   "theorems": [
    "C55_output_refuted",
    "C55_observed_entity"
   ],
   "note": "Refuted for every reachable state with an observed entity of an unreferenced class."
  },
  {
   "property": "C56",
   "status": "proved",
   "theorems": [
    "C56_history",
    "C56_incorporate",
    "C56_int_round_trip",
    "C56_sample_round_trip",
    "C56_string_skellam",
    "C56_text_is_zero",
    "C56_rejects_refuted",
    "C56_blank_refuted"
   ],
   "note": "For every underlying distribution and every reader of texts; the integer reader is modelled exactly, the reader of doubles is an argument. Turning down texts that are no numbers is refuted."
  },
  {
   "property": "C57",
   "status": "proved",
   "theorems": [
    "C57_state",
    "C57_accepts",
    "C57_predictive",
    "C57_sums_to_one",
    "C57_sums_to_one_refuted",
    "C57_logp_is_score_increase",
    "C57_sample",
    "C57_sample_weights"
   ],
   "note": "Every list and history; sums to one is refuted for lists with repeats."
  },
  {
   "property": "C58",
   "status": "proved",
   "theorems": [
    "C58_type",
    "C58_emission_type",
    "C58_categorical",
    "C58_categorical_args",
    "C58_stringcat",
    "C58_max_length",
    "C58_max_length_round_trip",
    "C58_negative_length_refuted",
    "C58_blanks_refuted",
    "C58_comma_refuted"
   ],
   "note": "Every declaration the constructors accept."
  },
  {
   "property": "C59",
   "status": "proved",
   "theorems": [
    "C59_effect",
    "C59_total",
    "C59_round_trip",
    "C59_irm",
    "C59_needs_bases_first",
    "C59_load_refuted"
   ],
   "note": "If loading returns, for every HIRM and IRM and any pair of encodings; C59_round_trip for a whole cycle with one encoding; C59_total gives success of everything but the observations. That loading never fails is refuted: a noisy relation whose name comes before that of its base makes it throw. Drawing a value must leave a distribution as it was (schema_draws_keep)."
  },
  {
   "property": "C60",
   "status": "proved",
   "theorems": [
    "C60_gaussian",
    "C60_gaussian_matches_logp_iff",
    "C60_gaussian_matches_logp_refuted",
    "C60_bitflip",
    "C60_categorical",
    "C60_categorical_outside",
    "C60_sometimes",
    "C60_sometimes_law"
   ],
   "note": "Draws are oracle arguments: the theorems give which draw is made, with which weights, and that these are the probabilities logp gives. Refuted for the Gaussian emission once a pair differs. The law of the string emission is not covered (its characters are: C37_sampled_characters)."
  },
  {
   "property": "C61",
   "status": "proved",
   "theorems": [
    "C61_relation",
    "C61_relation_fuel",
    "C61_sample",
    "C61_value_clean",
    "C61_value_noisy",
    "C61_sample_fuel",
    "C61_popularity",
    "C61_leaf_refuted"
   ],
   "note": "If the call returns (the loop has no bound in the code; any fuel). Histories in which a noisy relation was removed are excluded: then its base is never sampled again (C61_leaf_refuted). Drawing a value must leave a distribution as it was (schema_draws_keep)."
  },
  {
   "property": "C62",
   "status": "proved",
   "theorems": [
    "C62_logp_product",
    "C62_logp_determined",
    "C62_logp_known",
    "C62_succeeds"
   ],
   "note": "The factor of each cluster is the mixture of C44. The last three need distributions whose fresh objects do not depend on random draws (hirm_scorable; reached_scorable shows that histories meet it), so not Skellam."
  },
  {
   "property": "C63",
   "status": "proved",
   "theorems": [
    "C63_chain_rule",
    "C63_logp_is_score_increase",
    "C63_beta_bernoulli",
    "C63_dirichlet_categorical",
    "C63_normal",
    "C63_bigram",
    "C63_string_cat",
    "C63_gaussian",
    "C63_sometimes_bitflip",
    "C63_sometimes_gaussian"
   ],
   "note": "The CRP factor and the value factor are specified in S_score.v. Distributions with randomly drawn initial parameters (Skellam) and emissions whose score is not the sum of predictions are outside t_predictive."
  },
  {
   "property": "C64",
   "status": "proved",
   "theorems": [
    "C64_inference_keeps_observations",
    "C64_any_schedule",
    "C64_irm",
    "C64_returns",
    "C64_resamples"
   ],
   "note": "For every HIRM reached by public calls. C64_returns needs that the hyperparameter steps of the declared distributions do not fail; C64_resamples shows this for the modelled ones."
  },
  {
   "property": "C65",
   "status": "proved",
   "theorems": [
    "C65_transition_keeps_table",
    "C65_class_keeps_table",
    "C65_inference_keeps_table",
    "C65_table_vectors",
    "C65_one_value",
    "C65_inference_is_GR_infer"
   ],
   "note": "For all states reached by rows, samples, inference and resampling, with an emission for every class of a path. Fields that rename an attribute of a clean record class are excluded from the statements about items (see C53)."
  },
  {
   "property": "C66",
   "status": "proved",
   "theorems": [
    "C66_one_reference",
    "C66_bookkeeping",
    "C66_inference_keeps_references"
   ],
   "note": "For the same states as C65."
  },
  {
   "property": "C67",
   "status": "proved",
   "theorems": [
    "C67_abandoned_refuted",
    "C67_stale_refuted",
    "C67_shared_refuted"
   ],
   "note": "The property is false of the code; each theorem gives a reachable state as witness. The parts that hold are C65 and C66."
  },
  {
   "property": "C68",
   "status": "proved",
   "theorems": [
    "C68_new",
    "C68_incorporate",
    "C68_totals",
    "C68_hyperparameters",
    "C68_history",
    "C68_unprintable_refuted"
   ],
   "note": "For strings of printable characters; C68_unprintable_refuted shows what other characters do."
  },
  {
   "property": "C69",
   "status": "proved",
   "theorems": [
    "C69_shares",
    "C69_likelier_refuted",
    "C69_context_refuted",
    "C69_undo_totals",
    "C69_undo_empty",
    "C69_undo_refuted"
   ],
   "note": "The property is false of the code: shares are inversely proportional to probabilities (C69_shares, C69_likelier_refuted), the search uses the wrong context (C69_context_refuted), and unincorporating does not restore the tables (C69_undo_refuted). What holds is C69_shares, C69_undo_totals and C69_undo_empty."
  },
  {
   "property": "C70",
   "status": "proved",
   "theorems": [
    "C70_sample",
    "C70_support",
    "C70_chain",
    "C70_logp_short",
    "C70_logp_refuted"
   ],
   "note": "The last sentence of the property is false of the code: C70_logp_refuted."
  },
  {
   "property": "C71",
   "status": "proved",
   "theorems": [
    "C71_vote",
    "C71_propose",
    "C71_agreement",
    "C71_agreement_refuted",
    "C71_order_refuted",
    "C71_weights",
    "C71_weights_refuted"
   ],
   "note": "The last sentence of the property is false of the code: agreeing strings can be doubled (C71_agreement_refuted; C71_agreement gives the condition under which they are not), the order matters (C71_order_refuted), and weights are reset (C71_weights_refuted; C71_weights for rounds without an odd string)."
  },
  {
   "property": "C72",
   "status": "proved",
   "theorems": [
    "C72_mixture",
    "C72_ill_formed_rejected",
    "C72_agrees_with_irm",
    "C72_known_entities",
    "C72_total",
    "C72_total_beta_bernoulli",
    "C72_logp_is_score_increase",
    "C72_repeated_refuted"
   ],
   "note": "Agreement with the IRM holds whenever no entity without a cluster stands at two positions of the same domain (C72_agrees_with_irm); otherwise it is false of the code: the relation lets the two positions choose different clusters (C72_repeated_refuted). C72_total needs domains with at least one entity; the mixture is stated for all of them."
  },
  {
   "property": "C73",
   "status": "proved",
   "theorems": [
    "C73_scoring_is_pure",
    "C73_meaning",
    "C73_total",
    "C73_exact_if_separate",
    "C73_refuted"
   ],
   "note": "The last sentence of the property is false of the code in general (C73_refuted: equal exact scores, different approximate ones); it holds if no two observations of the entity share a block (C73_exact_if_separate)."
  },
  {
   "property": "C74",
   "status": "proved",
   "theorems": [
    "C74_scores_the_file_irm",
    "C74_scores_the_file_hirm",
    "C74_order_irm",
    "C74_order_hirm",
    "C74_succeeds_irm",
    "C74_succeeds_hirm",
    "C74_rejects_irm",
    "C74_rejects_hirm",
    "C74_empty_hirm",
    "C74_empty_irm_refuted"
   ],
   "note": "The last sentence is false of an IRM (C74_empty_irm_refuted: out-of-bounds read) and true of a HIRM."
  },
  {
   "property": "C75",
   "status": "proved",
   "theorems": [
    "C75_mixture",
    "C75_needs_base",
    "C75_logp_is_score_increase",
    "C75_total_bitflip",
    "C75_approximate_scores"
   ],
   "note": "C75_logp_is_score_increase is for emissions that score predictively (C63_gaussian, C63_sometimes_bitflip, C63_sometimes_gaussian show which do) and entities that have clusters. A tuple shorter than the base relation is read past its end before anything is checked (C75_needs_base, third part)."
  },
  {
   "property": "C76",
   "status": "proved",
   "theorems": [
    "C76_resume",
    "C76_resume_exact",
    "C76_fresh_run",
    "C76_resumed_run",
    "C76_prints_heldout",
    "C76_irm_resume",
    "C76_irm_prints_heldout",
    "C76_irm_resume_heldout_refuted",
    "C76_resume_heldout_refuted"
   ],
   "note": "Proved for every chain of runs that starts afresh (with or without held-out observations) and resumes without held-out observations; inference is any sequence of public calls that leaves declarations and data alone, which the inference loop of the program is when all relations are observed (C76_fresh_run, C76_resumed_run). Mode irm: C76_irm_resume, with the inference loop itself. The claim about names is false of a run that resumes with held-out observations (C76_resume_heldout_refuted): the model is numbered from the observations alone, the file named from both together, so an observed entity is replaced by one that was never observed."
  },
  {
   "property": "C77",
   "status": "proved",
   "theorems": [
    "C77_samples",
    "C77_distinct",
    "C77_made_up_names_refuted"
   ],
   "note": "Proved for schemas in which every relation is observed and has a domain, and whose hyperparameter steps do not fail (as in C76_fresh_run), after a first run or one that resumes; relation, domain and entity names and printed values contain no comma and no newline and entity names are not empty (fileable; without this C49_comma_refuted). Drawing need not end: when every tuple has a value the loop goes on until it makes up an entity. C77_distinct needs that no entity is called what the program would make up (C49_new_names_fresh_refuted). With held-out observations an entity the model makes up can go by the name of a held-out entity the model does not know (C77_made_up_names_refuted)."
  }
 ]
}