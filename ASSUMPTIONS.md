# What each theorem rests on

From `Print Assumptions`, run on every theorem of `MANIFEST.json`. All names are axioms of
Coq's standard library. "none" means closed under the global context.

- A1 = `ClassicalDedekindReals.sig_forall_dec`
- A2 = `ClassicalDedekindReals.sig_not_dec`
- A3 = `Classical_Prop.classic`
- A4 = `FunctionalExtensionality.functional_extensionality_dep`

| property | theorem | module | axioms |
|---|---|---|---|
| C01 | `C01_crp_bookkeeping` | `T_crp` | A1 |
| C01 | `C01_crp_bookkeeping_with_resampling` | `T_crp` | A1, A2, A3, A4 |
| C02 | `C02_unincorporate_incorporate` | `T_crp` | none |
| C02 | `C02_incorporate_unincorporate` | `T_crp` | none |
| C03 | `C03_crp_seating_distribution` | `T_crp` | A1, A2, A3, A4 |
| C03 | `C03_C04_empty_crp_refuted` | `T_crp` | A1, A2, A3, A4 |
| C04 | `C04_crp_chain_rule` | `T_crp` | A1, A2, A3, A4 |
| C04 | `C04_crp_chain_rule_new_table` | `T_crp` | A1, A2, A3, A4 |
| C04 | `C04_crp_exchangeable` | `T_crp` | A1, A2, A3, A4 |
| C04 | `C03_C04_empty_crp_refuted` | `T_crp` | A1, A2, A3, A4 |
| C05 | `C05_crp_gibbs_weights` | `T_crp` | A1, A4 |
| C06 | `C06_transition_alpha` | `T_crp` | A1, A2, A3, A4 |
| C07 | `C07_domain_entities` | `T_crp` | A1 |
| C07 | `C07_domain_call_effect` | `T_crp` | A1 |
| C08 | `C08_blocks_hold_data` | `T_relation` | A1, A4 |
| C08 | `C08_call_effect` | `T_relation` | A1, A4 |
| C08 | `C08_legal_calls_succeed` | `T_relation` | A1, A4 |
| C09 | `C09_unincorporate_incorporate` | `T_relation` | A1 |
| C09 | `C09_entities_keep_clusters` | `T_relation` | A1 |
| C09 | `C09_read_back` | `T_relation` | A1 |
| C10 | `C10_move_entity` | `T_relation` | A1 |
| C10 | `C10_other_entities_stay` | `T_relation` | none |
| C10 | `C10_order_irrelevant` | `T_relation` | A1 |
| C11 | `C11_gibbs_exact_is_score_change` | `T_relation` | A1, A4 |
| C11 | `C11_scoring_is_pure` | `T_relation` | A1, A4 |
| C11 | `C11_repeated_domain_refuted` | `T_relation` | A1, A2, A3, A4 |
| C12 | `C12_entities_iff_observed` | `T_irm` | A1, A2, A3, A4 |
| C12 | `C12_call_effect` | `T_irm` | A1, A2, A3, A4 |
| C12 | `C12_incorporate_succeeds_iff` | `T_irm` | A1 |
| C12 | `C12_unincorporate_succeeds_iff` | `T_irm` | A1, A2, A3, A4 |
| C12 | `C12_has_observation` | `T_irm` | A1 |
| C13 | `C13_transition_item` | `T_irm` | A1, A2, A3, A4 |
| C13 | `C13_transitions` | `T_irm` | A1, A2, A3, A4 |
| C13 | `C13_transitions_all` | `T_irm` | A1, A2, A3, A4 |
| C13 | `C13_inference_step` | `T_irm` | A1, A2, A3, A4 |
| C14 | `C14_irm_ctor_iff` | `T_irm` | A1 |
| C14 | `C14_irm_ctor_result` | `T_irm` | A1 |
| C14 | `C14_irm_ctor_order_refuted` | `T_irm` | A1 |
| C14 | `C14_hirm_ctor_accepts` | `T_hirm` | A1 |
| C14 | `C14_hirm_ctor_result` | `T_hirm` | A1 |
| C14 | `C14_hirm_add_iff` | `T_hirm` | A1, A2, A3, A4 |
| C15 | `C15_structure` | `T_hirm` | A1, A2, A3, A4 |
| C16 | `C16_moves_keep_data` | `T_hirm` | A1, A2, A3, A4 |
| C16 | `C16_history_data` | `T_hirm` | A1, A2, A3, A4 |
| C16 | `C16_moves_succeed` | `T_hirm` | A1, A2, A3, A4 |
| C16 | `C16_move_after_removal_refuted` | `T_hirm` | A1, A2, A3, A4 |
| C16 | `C16_move_without_base_value_refuted` | `T_hirm` | A1, A2, A3, A4 |
| C17 | `C17_history` | `T_latent` | A1, A4 |
| C17 | `C17_sample_incorporates` | `T_latent` | A1 |
| C17 | `C17_update_value_effect` | `T_latent` | none |
| C17 | `C17_update_value_in_step_iff` | `T_latent` | none |
| C17 | `C17_update_value_refuted` | `T_latent` | A1, A4 |
| C18 | `C18_effect` | `T_latent` | A1, A2, A3, A4 |
| C18 | `C18_equal_weights` | `T_latent` | A1, A2, A3, A4 |
| C18 | `C18_noisy_blocks` | `T_latent` | A1, A2, A3, A4 |
| C18 | `C18_out_of_step` | `T_latent` | A1, A2, A3, A4 |
| C18 | `C18_base_block` | `T_latent` | A1, A2, A3, A4 |
| C18 | `C18_same_candidates` | `T_latent` | A1, A2, A3, A4 |
| C18 | `C18_bernoulli_drift` | `T_latent` | A1, A2, A3, A4 |
| C18 | `C18_statistics_wrong` | `T_latent` | A1, A2, A3, A4 |
| C18 | `C18_statistics_refuted` | `T_latent` | A1, A2, A3, A4 |
| C18 | `C18_proposals` | `T_proposals` | A1, A2, A3, A4 |
| C19 | `C19_state` | `T_dist` | A1, A2, A3, A4 |
| C19 | `C19_order_independent` | `T_dist` | A1, A2, A3, A4 |
| C19 | `C19_unincorporate_incorporate` | `T_dist` | A1, A2, A3, A4 |
| C19 | `C19_incorporate_unincorporate` | `T_dist` | A1, A2, A3, A4 |
| C19 | `C19_predictive` | `T_dist` | A1, A2, A3, A4 |
| C19 | `C19_logp_is_score_increase` | `T_dist` | A1, A2, A3, A4 |
| C19 | `C19_sample_weights` | `T_dist` | A1, A2, A3, A4 |
| C19 | `C19_sample_draws` | `T_dist` | A1, A2, A3, A4 |
| C20 | `C20_state` | `T_dist` | A1, A2, A3, A4 |
| C20 | `C20_order_independent` | `T_dist` | A1, A2, A3, A4 |
| C20 | `C20_range` | `T_dist` | A1, A2, A3, A4 |
| C20 | `C20_predictive` | `T_dist` | A1, A2, A3, A4 |
| C20 | `C20_predictive_sums_to_one` | `T_dist` | A1, A2, A3, A4 |
| C20 | `C20_logp_is_score_increase` | `T_dist` | A1, A2, A3, A4 |
| C20 | `C20_sample_weights` | `T_dist` | A1, A2, A3, A4 |
| C20 | `C20_sample_draws` | `T_dist` | A1, A2, A3, A4 |
| C20 | `C20_sample_weights_fractional_refuted` | `T_dist` | A1, A2, A3, A4 |
| C20 | `C20_nearest` | `T_dist` | A1, A2, A3, A4 |
| C21 | `C21_state` | `T_dist` | A1, A2, A3, A4 |
| C21 | `C21_order_independent` | `T_dist` | A1, A2, A3, A4 |
| C21 | `C21_unincorporate_incorporate` | `T_dist` | A1, A2, A3, A4 |
| C21 | `C21_logp` | `T_dist` | A1, A2, A3, A4 |
| C21 | `C21_posterior` | `T_dist` | A1, A2, A3, A4 |
| C21 | `C21_sample_density` | `T_dist` | A1, A2, A3, A4 |
| C21 | `C21_score_empty` | `T_dist` | A1, A2, A3, A4 |
| C22 | `C22_state` | `T_dist` | A1, A2, A3, A4 |
| C22 | `C22_order_independent` | `T_dist` | A1, A2, A3, A4 |
| C22 | `C22_unincorporate_incorporate` | `T_dist` | A1, A2, A3, A4 |
| C22 | `C22_logp_is_score_increase` | `T_dist` | A1, A2, A3, A4 |
| C22 | `C22_sample_matches_logp_iff` | `T_dist` | A1, A2, A3, A4 |
| C22 | `C22_sample_matches_logp_refuted` | `T_dist` | A1, A2, A3, A4 |
| C23 | `C23_state` | `T_dist` | A1, A2, A3, A4 |
| C23 | `C23_order_independent` | `T_dist` | A1, A2, A3, A4 |
| C23 | `C23_unincorporate_incorporate` | `T_dist` | A1, A2, A3, A4 |
| C23 | `C23_accepts` | `T_dist` | A1, A2, A3, A4 |
| C23 | `C23_logp` | `T_dist` | A1, A2, A3, A4 |
| C23 | `C23_sample_unchanged` | `T_dist` | A1, A2, A3, A4 |
| C23 | `C23_sample_unchanged_refuted` | `T_dist` | A1, A2, A3, A4 |
| C23 | `C23_string_nat_nearest` | `T_dist` | A1, A2, A3, A4 |
| C23 | `C23_string_nat_nearest_refuted` | `T_dist` | A1 |
| C24 | `C24_beta_bernoulli` | `T_weights` | A1, A4 |
| C24 | `C24_beta_bernoulli_refuted` | `T_weights` | A1, A4 |
| C24 | `C24_dirichlet_categorical` | `T_weights` | A1, A4 |
| C24 | `C24_zero_mean_normal` | `T_weights` | A1, A4 |
| C24 | `C24_normal` | `T_weights` | A1, A4 |
| C24 | `C24_bigram` | `T_weights` | A1, A4 |
| C24 | `C24_gaussian_emission` | `T_weights` | A1, A4 |
| C24 | `C24_categorical_emission` | `T_weights` | A1, A4 |
| C24 | `C24_sometimes` | `T_weights` | A1, A2, A3, A4 |
| C24 | `C24_sometimes_bitflip` | `T_weights` | A1, A2, A3, A4 |
| C24 | `C24_sometimes_gaussian` | `T_weights` | A1, A2, A3, A4 |
| C24 | `C24_sometimes_categorical_refuted` | `T_weights` | A1, A2, A3, A4 |
| C24 | `C24_simple_string` | `T_weights` | A1, A4 |
| C25 | `C25_logsumexp` | `T_math` | A1, A2, A3, A4 |
| C25 | `C25_logsumexp_permutation` | `T_math` | A1, A2, A3, A4 |
| C25 | `C25_logsumexp_shift` | `T_math` | A1, A2, A3, A4 |
| C25 | `C25_log_normalize` | `T_math` | A1, A2, A3, A4 |
| C25 | `C25_log_choice_in_range` | `T_math` | A1, A2, A3, A4 |
| C25 | `C25_logsumexp_empty_refuted` | `T_math` | none |
| C25 | `C25_log_normalize_all_neg_inf_refuted` | `T_math` | none |
| C26 | `C26_product` | `T_math` | none |
| C26 | `C26_product_empty_refuted` | `T_math` | none |
| C27 | `C27_linspace` | `T_math` | A1, A4 |
| C27 | `C27_linspace_open` | `T_math` | A1, A4 |
| C27 | `C27_log_linspace` | `T_math` | A1, A2, A3, A4 |
| C27 | `C27_linspace_one_point_refuted` | `T_math` | none |
| C28 | `C28_encoding` | `T_io` | none |
| C28 | `C28_total` | `T_io` | none |
| C28 | `C28_round_trip` | `T_io` | none |
| C28 | `C28_merged` | `T_io` | none |
| C28 | `C28_order_independent_refuted` | `T_io` | none |
| C28 | `C28_merge` | `T_io` | none |
| C29 | `C29_effect` | `T_load` | A1, A2, A3, A4 |
| C29 | `C29_effect_irm` | `T_load` | A1, A2, A3, A4 |
| C29 | `C29_each_once` | `T_load` | none |
| C29 | `C29_log_is_transparent` | `T_load` | none |
| C29 | `C29_unobserved_leaf_exits` | `T_load` | A1 |
| C29 | `C29_each_once_refuted` | `T_load` | A1 |
| C30 | `C30_irm` | `T_clusters` | none |
| C30 | `C30_irm_restored` | `T_clusters` | A1 |
| C30 | `C30_hirm` | `T_clusters` | A1 |
| C30 | `C30_hirm_restored` | `T_clusters` | A1 |
| C30 | `C30_space_refuted` | `T_clusters` | A1 |
| C30 | `C30_domain_names_refuted` | `T_clusters` | A1, A2, A3, A4 |
| C30 | `C30_unnamed_throws` | `T_clusters` | none |
| C31 | `C31_grammar` | `T_parse` | none |
| C31 | `C31_unambiguous` | `T_parse` | none |
| C31 | `C31_round_trip` | `T_parse` | none |
| C31 | `C31_nothing_lost` | `T_parse` | none |
| C31 | `C31_total` | `T_parse` | none |
| C31 | `C31_leading_dot` | `T_parse` | none |
| C31 | `C31_nul_refuted` | `T_parse` | none |
| C31 | `C31_utf8_refuted` | `T_parse` | none |
| C32 | `C32_declaration` | `T_parse` | none |
| C32 | `C32_canonical` | `T_parse` | none |
| C32 | `C32_only_declarations` | `T_parse` | none |
| C32 | `C32_blank` | `T_parse` | none |
| C32 | `C32_file` | `T_parse` | none |
| C32 | `C32_file_origin` | `T_parse` | none |
| C32 | `C32_out_of_bounds` | `T_parse` | none |
| C32 | `C32_no_out_of_bounds_refuted` | `T_parse` | none |
| C32 | `C32_inline` | `T_io` | none |
| C33 | `C33_read` | `T_csv` | none |
| C33 | `C33_round_trip` | `T_csv` | none |
| C33 | `C33_width` | `T_csv` | none |
| C33 | `C33_width_refuted` | `T_csv` | none |
| C33 | `C33_empty_field_refuted` | `T_csv` | none |
| C33 | `C33_one_column_refuted` | `T_csv` | none |
| C33 | `C33_given_names_refuted` | `T_csv` | none |
| C34 | `C34_spells` | `T_align` | A1, A4 |
| C34 | `C34_topk` | `T_align` | A1, A4 |
| C34 | `C34_edit_distance` | `T_align` | A1, A4 |
| C34 | `C34_levenshtein` | `T_align` | none |
| C34 | `C34_topk_any_cost_refuted` | `T_align` | A1, A4 |
| C35 | `C35_nearest` | `T_align` | A1, A4 |
| C35 | `C35_empty_list_refuted` | `T_align` | none |
| C36 | `C36_sometimes` | `T_propose` | none |
| C36 | `C36_gaussian` | `T_propose` | A1, A4 |
| C36 | `C36_bitflip` | `T_propose` | none |
| C36 | `C36_categorical` | `T_propose` | A1, A2, A3, A4 |
| C36 | `C36_categorical_returns` | `T_propose` | A1, A2, A3, A4 |
| C36 | `C36_simple_string` | `T_propose` | none |
| C36 | `C36_simple_string_majority` | `T_propose` | none |
| C36 | `C36_simple_string_copies` | `T_propose` | none |
| C36 | `C36_simple_string_refuted` | `T_propose` | none |
| C37 | `C37_returns` | `T_propose` | A1, A4 |
| C37 | `C37_trials` | `T_propose` | A1, A4 |
| C37 | `C37_at_least_edit_distance` | `T_propose` | none |
| C37 | `C37_undone` | `T_propose` | A1, A2, A3, A4 |
| C37 | `C37_logp` | `T_propose` | A1, A2, A3, A4 |
| C37 | `C37_logp_value` | `T_propose` | A1, A2, A3, A4 |
| C37 | `C37_logp_same_string` | `T_propose` | A1, A2, A3, A4 |
| C37 | `C37_logp_refuted` | `T_propose` | A1, A2, A3, A4 |
| C37 | `C37_sampled_characters` | `T_propose` | A1, A2, A3, A4 |
| C37 | `C37_printable_refuted` | `T_propose` | A1, A2, A3, A4 |
| C37 | `C37_insertion_places_refuted` | `T_propose` | A1, A4 |
| C38 | `C38_domains` | `T_gendb_schema` | none |
| C38 | `C38_cyclic_does_not_end` | `T_gendb_schema` | none |
| C39 | `C39_links` | `T_gendb_schema` | none |
| C39 | `C39_links_exact` | `T_gendb_schema` | none |
| C39 | `C39_links_refuted` | `T_gendb_schema` | none |
| C40 | `C40_bookkeeping` | `T_gendb_state` | A1 |
| C40 | `C40_references_kept` | `T_gendb_state` | A1 |
| C40 | `C40_collision_refuted` | `T_gendb_state` | A1 |
| C41 | `C41_samples_file_refuted` | `T_pclean` | A1 |
| C41 | `C41_samples` | `T_pclean` | A1 |
| C41 | `C41_entity_names` | `T_pclean` | A1 |
| C42 | `C42_file` | `T_pclean_io` | none |
| C42 | `C42_round_trip` | `T_pclean_io` | none |
| C42 | `C42_out_of_bounds` | `T_pclean_io` | none |
| C42 | `C42_no_out_of_bounds_refuted` | `T_pclean_io` | none |
| C42 | `C42_lenient_refuted` | `T_pclean_io` | none |
| C43 | `C43_theta` | `T_nonconj` | A1, A2, A3, A4 |
| C43 | `C43_start` | `T_nonconj` | A1, A2, A4 |
| C43 | `C43_accepts_better` | `T_nonconj` | A1, A2, A3, A4 |
| C43 | `C43_acceptance` | `T_nonconj` | A1, A2, A3, A4 |
| C43 | `C43_detailed_balance` | `T_nonconj` | A1, A2, A4 |
| C43 | `C43_state` | `T_nonconj` | A1, A2, A3, A4 |
| C43 | `C43_score` | `T_nonconj` | A1, A2, A3, A4 |
| C43 | `C43_logp_is_score_increase` | `T_nonconj` | A1, A2, A3, A4 |
| C43 | `C43_order_independent` | `T_nonconj` | A1, A2, A3, A4 |
| C43 | `C43_unincorporate_incorporate` | `T_nonconj` | A1, A2, A3, A4 |
| C43 | `C43_sample` | `T_nonconj` | none |
| C43 | `C43_sample_matches_logp` | `T_nonconj` | A1, A2, A3, A4 |
| C43 | `C43_hyperparameters` | `T_nonconj` | A1, A2, A3, A4 |
| C44 | `C44_mixture` | `T_logp` | A1, A2, A3, A4 |
| C44 | `C44_ill_formed_rejected` | `T_logp` | A1, A2, A3, A4 |
| C44 | `C44_weights_sum` | `T_logp` | A1, A4 |
| C44 | `C44_succeeds` | `T_logp` | A1, A2, A3, A4 |
| C44 | `C44_known_entities` | `T_logp` | A1, A2, A3, A4 |
| C44 | `C44_weights_sum_refuted` | `T_logp` | A1, A2, A3, A4 |
| C45 | `C45_weights_are_posterior` | `T_dist` | A1, A2, A4 |
| C45 | `C45_beta_bernoulli` | `T_dist` | A1, A2, A3, A4 |
| C45 | `C45_dirichlet` | `T_dist` | A1, A2, A4 |
| C45 | `C45_normal` | `T_dist` | A1, A2, A3, A4 |
| C45 | `C45_zero_mean_normal` | `T_dist` | A1, A2, A3, A4 |
| C45 | `C45_bigram` | `T_dist` | A1, A2, A4 |
| C46 | `C46_gibbs_target` | `T_irm` | A1, A2, A3, A4 |
| C46 | `C46_candidates` | `T_irm` | A1, A2, A3, A4 |
| C47 | `C47_remove_relation` | `T_irm` | A1 |
| C47 | `C47_remove_keeps_entities_refuted` | `T_irm` | A1, A2, A3, A4 |
| C48 | `C48_entities_known` | `T_hirm` | A1, A2, A3, A4 |
| C48 | `C48_entities_linger_refuted` | `T_hirm` | A1, A2, A3, A4 |
| C49 | `C49_read` | `T_io` | none |
| C49 | `C49_unambiguous` | `T_io` | none |
| C49 | `C49_round_trip` | `T_io` | none |
| C49 | `C49_empty_name_refuted` | `T_io` | none |
| C49 | `C49_comma_refuted` | `T_io` | none |
| C49 | `C49_rejects` | `T_io` | none |
| C49 | `C49_new_entities` | `T_io` | none |
| C49 | `C49_new_names_fresh_refuted` | `T_io` | none |
| C50 | `C50_gaussian` | `T_emissions` | A1, A2, A3, A4 |
| C50 | `C50_sometimes` | `T_emissions` | A1, A2, A3, A4 |
| C50 | `C50_sometimes_bitflip` | `T_emissions` | A1, A2, A3, A4 |
| C50 | `C50_sometimes_gaussian` | `T_emissions` | A1, A2, A3, A4 |
| C50 | `C50_sometimes_bitflip_sums_to_one` | `T_emissions` | A1, A2, A3, A4 |
| C50 | `C50_sometimes_sums_to_one` | `T_emissions` | A1, A2, A3, A4 |
| C50 | `C50_categorical_predictive` | `T_corrupt` | A1, A2, A3, A4 |
| C50 | `C50_categorical_sums_to_one` | `T_corrupt` | A1, A2, A3, A4 |
| C50 | `C50_categorical` | `T_corrupt` | A1, A2, A3, A4 |
| C50 | `C50_categorical_empty` | `T_corrupt` | A1, A2, A3, A4 |
| C50 | `C50_categorical_outside` | `T_corrupt` | A1, A2, A3, A4 |
| C51 | `C51_relations` | `T_gendb_rels` | none |
| C51 | `C51_observed` | `T_gendb_rels` | none |
| C51 | `C51_bases` | `T_gendb_rels` | none |
| C51 | `C51_accepted` | `T_gendb_rels` | A1 |
| C51 | `C51_same_attribute_refuted` | `T_gendb_rels` | none |
| C52 | `C52_links` | `T_gendb_rels` | none |
| C52 | `C52_record_clean_refuted` | `T_gendb_rels` | none |
| C52 | `C52_only_final_refuted` | `T_gendb_rels` | none |
| C53 | `C53_vectors` | `T_gendb_state` | A1 |
| C53 | `C53_record_clean_refuted` | `T_gendb_rows` | A1 |
| C54 | `C54_row_stored` | `T_gendb_state` | A1 |
| C54 | `C54_row_once` | `T_gendb_state` | A1 |
| C54 | `C54_own_entities` | `T_gendb_rows` | A1 |
| C54 | `C54_unique_refuted` | `T_gendb_rows` | A1 |
| C54 | `C54_record_noisy_refuted` | `T_gendb_rows` | A1 |
| C54 | `C54_indices` | `T_gendb_rows` | none |
| C54 | `C54_indices_refuted` | `T_gendb_rows` | A1 |
| C55 | `C55_output_refuted` | `T_clusters` | A1 |
| C55 | `C55_observed_entity` | `T_clusters` | A1 |
| C56 | `C56_history` | `T_strdist` | A1, A4 |
| C56 | `C56_incorporate` | `T_strdist` | A1, A4 |
| C56 | `C56_int_round_trip` | `T_strdist` | none |
| C56 | `C56_sample_round_trip` | `T_strdist` | A1, A2, A3, A4 |
| C56 | `C56_string_skellam` | `T_strdist` | A1, A2, A3, A4 |
| C56 | `C56_text_is_zero` | `T_strdist` | none |
| C56 | `C56_rejects_refuted` | `T_strdist` | none |
| C56 | `C56_blank_refuted` | `T_strdist` | none |
| C57 | `C57_state` | `T_strdist` | A1, A2, A3, A4 |
| C57 | `C57_accepts` | `T_strdist` | A1, A2, A3, A4 |
| C57 | `C57_predictive` | `T_strdist` | A1, A2, A3, A4 |
| C57 | `C57_sums_to_one` | `T_strdist` | A1, A2, A3, A4 |
| C57 | `C57_sums_to_one_refuted` | `T_strdist` | A1, A2, A3, A4 |
| C57 | `C57_logp_is_score_increase` | `T_strdist` | A1, A2, A3, A4 |
| C57 | `C57_sample` | `T_strdist` | A1, A2, A3, A4 |
| C57 | `C57_sample_weights` | `T_strdist` | A1, A2, A3, A4 |
| C58 | `C58_type` | `T_strdist` | none |
| C58 | `C58_emission_type` | `T_strdist` | none |
| C58 | `C58_categorical` | `T_strdist` | none |
| C58 | `C58_categorical_args` | `T_strdist` | none |
| C58 | `C58_stringcat` | `T_strdist` | none |
| C58 | `C58_max_length` | `T_strdist` | none |
| C58 | `C58_max_length_round_trip` | `T_strdist` | none |
| C58 | `C58_negative_length_refuted` | `T_strdist` | none |
| C58 | `C58_blanks_refuted` | `T_strdist` | none |
| C58 | `C58_comma_refuted` | `T_strdist` | none |
| C59 | `C59_effect` | `T_restore` | A1 |
| C59 | `C59_total` | `T_restore` | A1 |
| C59 | `C59_round_trip` | `T_restore` | A1, A2, A3, A4 |
| C59 | `C59_irm` | `T_restore` | A1 |
| C59 | `C59_needs_bases_first` | `T_restore` | A1 |
| C59 | `C59_load_refuted` | `T_restore` | A1 |
| C60 | `C60_gaussian` | `T_corrupt` | A1, A2, A4 |
| C60 | `C60_gaussian_matches_logp_iff` | `T_corrupt` | A1, A2, A3, A4 |
| C60 | `C60_gaussian_matches_logp_refuted` | `T_corrupt` | A1, A2, A3, A4 |
| C60 | `C60_bitflip` | `T_corrupt` | A1 |
| C60 | `C60_categorical` | `T_corrupt` | A1, A2, A3, A4 |
| C60 | `C60_categorical_outside` | `T_corrupt` | A1, A2, A3, A4 |
| C60 | `C60_sometimes` | `T_corrupt` | A1, A2, A3, A4 |
| C60 | `C60_sometimes_law` | `T_corrupt` | A1, A2, A3, A4 |
| C61 | `C61_relation` | `T_sample` | A1, A2, A3, A4 |
| C61 | `C61_relation_fuel` | `T_sample` | A1, A2, A3, A4 |
| C61 | `C61_sample` | `T_sample` | A1, A2, A3, A4 |
| C61 | `C61_value_clean` | `T_sample` | A1 |
| C61 | `C61_value_noisy` | `T_sample` | A1 |
| C61 | `C61_sample_fuel` | `T_sample` | A1 |
| C61 | `C61_popularity` | `T_sample` | A1 |
| C61 | `C61_leaf_refuted` | `T_sample` | A1, A2, A3, A4 |
| C62 | `C62_logp_product` | `T_hirm_logp` | A1, A2, A3, A4 |
| C62 | `C62_logp_determined` | `T_hirm_logp` | A1, A2, A3, A4 |
| C62 | `C62_logp_known` | `T_hirm_logp` | A1, A2, A3, A4 |
| C62 | `C62_succeeds` | `T_hirm_logp` | A1, A2, A3, A4 |
| C63 | `C63_chain_rule` | `T_score` | A1, A2, A3, A4 |
| C63 | `C63_logp_is_score_increase` | `T_score` | A1, A2, A3, A4 |
| C63 | `C63_beta_bernoulli` | `T_score` | A1, A2, A3, A4 |
| C63 | `C63_dirichlet_categorical` | `T_score` | A1, A2, A3, A4 |
| C63 | `C63_normal` | `T_score` | A1, A2, A3, A4 |
| C63 | `C63_bigram` | `T_score` | A1, A2, A3, A4 |
| C63 | `C63_string_cat` | `T_score` | A1, A2, A3, A4 |
| C63 | `C63_gaussian` | `T_score` | A1, A2, A3, A4 |
| C63 | `C63_sometimes_bitflip` | `T_score` | A1, A2, A3, A4 |
| C63 | `C63_sometimes_gaussian` | `T_score` | A1, A2, A3, A4 |
| C64 | `C64_inference_keeps_observations` | `T_inference` | A1, A2, A3, A4 |
| C64 | `C64_any_schedule` | `T_inference` | A1, A2, A3, A4 |
| C64 | `C64_irm` | `T_inference` | A1, A2, A3, A4 |
| C64 | `C64_returns` | `T_inference` | A1, A2, A3, A4 |
| C64 | `C64_resamples` | `T_inference` | A1, A2, A3, A4 |
| C65 | `C65_transition_keeps_table` | `T_gendb_life` | A1, A2, A3, A4 |
| C65 | `C65_class_keeps_table` | `T_gendb_life` | A1, A2, A3, A4 |
| C65 | `C65_inference_keeps_table` | `T_gendb_life` | A1, A2, A3, A4 |
| C65 | `C65_table_vectors` | `T_gendb_life` | A1, A2, A3, A4 |
| C65 | `C65_one_value` | `T_gendb_life` | A1, A2, A3, A4 |
| C65 | `C65_inference_is_GR_infer` | `T_gendb_life` | A1, A2, A3, A4 |
| C66 | `C66_one_reference` | `T_gendb_life` | A1, A2, A3, A4 |
| C66 | `C66_bookkeeping` | `T_gendb_life` | A1, A2, A3, A4 |
| C66 | `C66_inference_keeps_references` | `T_gendb_life` | A1, A2, A3, A4 |
| C67 | `C67_abandoned_refuted` | `T_gendb_life` | A1, A2, A3, A4 |
| C67 | `C67_stale_refuted` | `T_gendb_life` | A1, A2, A3, A4 |
| C67 | `C67_shared_refuted` | `T_gendb_life` | A1, A2, A3, A4 |
| C68 | `C68_new` | `T_bigram_emis` | A1, A4 |
| C68 | `C68_incorporate` | `T_bigram_emis` | A1, A2, A3, A4 |
| C68 | `C68_totals` | `T_bigram_emis` | A1, A2, A3, A4 |
| C68 | `C68_hyperparameters` | `T_bigram_emis` | A1, A2, A4 |
| C68 | `C68_history` | `T_bigram_emis` | A1, A2, A3, A4 |
| C68 | `C68_unprintable_refuted` | `T_bigram_emis` | A1, A2, A3, A4 |
| C69 | `C69_shares` | `T_bigram_emis` | A1, A2, A3, A4 |
| C69 | `C69_likelier_refuted` | `T_bigram_emis` | A1, A2, A3, A4 |
| C69 | `C69_context_refuted` | `T_bigram_emis` | A1, A2, A3, A4 |
| C69 | `C69_undo_totals` | `T_bigram_emis` | A1, A2, A3, A4 |
| C69 | `C69_undo_empty` | `T_bigram_emis` | A1, A2, A3, A4 |
| C69 | `C69_undo_refuted` | `T_bigram_emis` | A1, A2, A3, A4 |
| C70 | `C70_sample` | `T_bigram_props` | A1, A4 |
| C70 | `C70_support` | `T_bigram_props` | A1, A4 |
| C70 | `C70_chain` | `T_bigram_props` | A1, A2, A3, A4 |
| C70 | `C70_logp_short` | `T_bigram_props` | A1, A2, A3, A4 |
| C70 | `C70_logp_refuted` | `T_bigram_props` | A1, A2, A3, A4 |
| C71 | `C71_vote` | `T_bigram_props` | A1, A2, A3, A4 |
| C71 | `C71_propose` | `T_bigram_props` | A1, A2, A3, A4 |
| C71 | `C71_agreement` | `T_bigram_props` | A1, A2, A3, A4 |
| C71 | `C71_agreement_refuted` | `T_bigram_props` | A1, A2, A3, A4 |
| C71 | `C71_order_refuted` | `T_bigram_props` | A1, A2, A3, A4 |
| C71 | `C71_weights` | `T_bigram_props` | A1, A2, A3, A4 |
| C71 | `C71_weights_refuted` | `T_bigram_props` | A1, A2, A3, A4 |
| C72 | `C72_mixture` | `T_rel_logp` | A1, A2, A3, A4 |
| C72 | `C72_ill_formed_rejected` | `T_rel_logp` | A1, A2, A3, A4 |
| C72 | `C72_agrees_with_irm` | `T_rel_logp` | A1, A2, A3, A4 |
| C72 | `C72_known_entities` | `T_rel_logp` | A1, A2, A3, A4 |
| C72 | `C72_total` | `T_rel_logp` | A1, A2, A3, A4 |
| C72 | `C72_total_beta_bernoulli` | `T_rel_logp` | A1, A2, A3, A4 |
| C72 | `C72_logp_is_score_increase` | `T_noisy_logp` | A1, A2, A3, A4 |
| C72 | `C72_repeated_refuted` | `T_rel_logp` | A1, A2, A3, A4 |
| C73 | `C73_scoring_is_pure` | `T_rel_approx` | A1, A4 |
| C73 | `C73_meaning` | `T_rel_approx` | A1, A4 |
| C73 | `C73_total` | `T_rel_approx` | A1, A4 |
| C73 | `C73_exact_if_separate` | `T_rel_approx` | A1, A4 |
| C73 | `C73_refuted` | `T_rel_approx` | A1, A2, A3, A4 |
| C74 | `C74_scores_the_file_irm` | `T_heldout` | A1, A2, A3, A4 |
| C74 | `C74_scores_the_file_hirm` | `T_heldout` | A1, A2, A3, A4 |
| C74 | `C74_order_irm` | `T_heldout` | A1, A2, A3, A4 |
| C74 | `C74_order_hirm` | `T_heldout` | A1, A2, A3, A4 |
| C74 | `C74_succeeds_irm` | `T_heldout` | A1, A2, A3, A4 |
| C74 | `C74_succeeds_hirm` | `T_heldout` | A1, A2, A3, A4 |
| C74 | `C74_rejects_irm` | `T_heldout` | A1, A2, A3, A4 |
| C74 | `C74_rejects_hirm` | `T_heldout` | A1, A2, A3, A4 |
| C74 | `C74_empty_hirm` | `T_heldout` | A1, A2, A3, A4 |
| C74 | `C74_empty_irm_refuted` | `T_heldout` | A1, A2, A3, A4 |
| C75 | `C75_mixture` | `T_noisy_logp` | A1, A2, A3, A4 |
| C75 | `C75_needs_base` | `T_noisy_logp` | A1, A2, A3, A4 |
| C75 | `C75_logp_is_score_increase` | `T_noisy_logp` | A1, A2, A3, A4 |
| C75 | `C75_total_bitflip` | `T_noisy_logp` | A1, A2, A3, A4 |
| C75 | `C75_approximate_scores` | `T_noisy_logp` | A1, A4 |
| C76 | `C76_resume` | `T_main` | A1, A2, A3, A4 |
| C76 | `C76_resume_exact` | `T_main` | A1, A2, A3, A4 |
| C76 | `C76_fresh_run` | `T_main` | A1, A2, A3, A4 |
| C76 | `C76_resumed_run` | `T_main` | A1, A2, A3, A4 |
| C76 | `C76_prints_heldout` | `T_main` | A1, A2, A3, A4 |
| C76 | `C76_irm_resume` | `T_main_irm` | A1, A2, A3, A4 |
| C76 | `C76_irm_prints_heldout` | `T_main_irm` | A1, A2, A3, A4 |
| C76 | `C76_irm_resume_heldout_refuted` | `T_main_irm` | A1, A2, A3, A4 |
| C76 | `C76_resume_heldout_refuted` | `T_main` | A1, A2, A3, A4 |
| C77 | `C77_samples` | `T_samples` | A1, A2, A3, A4 |
| C77 | `C77_distinct` | `T_samples` | none |
| C77 | `C77_made_up_names_refuted` | `T_samples` | A1 |
