-Q theories Verif
theories/M_base.v
theories/M_math.v
theories/M_crp.v
theories/M_domain.v
theories/S_crp.v
theories/P_base.v
theories/S_math.v
theories/P_math.v
theories/S_crp_state.v
theories/P_sum.v
theories/P_crp.v
theories/P_crp_score.v
theories/P_lgamma.v
theories/P_domain.v
theories/T_crp.v
theories/T_math.v
theories/M_dist.v
theories/M_distributions.v
theories/M_relation.v
theories/M_noisy.v
theories/M_irm.v
theories/M_logp.v
theories/M_hirm.v
theories/S_logp.v
theories/S_hirm.v
theories/P_logp.v
theories/P_hirm.v
theories/P_hirm_move.v
theories/P_hirm_trans.v
theories/P_hirm_history.v
theories/P_hirm_ctor.v
theories/S_dist.v
theories/S_relation.v
theories/S_irm.v
theories/P_relation.v
theories/P_relation_score.v
theories/P_relation_gibbs.v
theories/P_relation_history.v
theories/P_any.v
theories/P_irm.v
theories/P_irm_schema.v
theories/P_irm_history.v
theories/P_irm_gibbs.v
theories/P_irm_pos.v
theories/P_dist.v
theories/P_beta_bernoulli.v
theories/P_dirichlet.v
theories/P_normal.v
theories/P_bigram.v
theories/P_bigram_sample.v
theories/P_tally.v
theories/P_relation_refuted.v
theories/T_relation.v
theories/T_irm.v
theories/T_logp.v
theories/T_hirm.v
theories/S_latent.v
theories/P_noisy.v
theories/P_latent.v
theories/T_latent.v
theories/T_dist.v
theories/M_text.v
theories/M_parse.v
theories/M_schema.v
theories/S_parse.v
theories/S_schema.v
theories/P_parse.v
theories/P_text.v
theories/P_schema.v
theories/T_parse.v
theories/T_proposals.v
theories/M_io.v
theories/S_io.v
theories/P_io.v
theories/S_load.v
theories/P_load.v
theories/P_load_models.v
theories/T_io.v
theories/T_load.v
theories/M_csv.v
theories/S_csv.v
theories/P_csv.v
theories/T_csv.v
theories/M_pclean_io.v
theories/S_pclean_io.v
theories/P_pclean_io.v
theories/T_pclean_io.v
theories/M_align.v
theories/S_align.v
theories/P_align.v
theories/T_align.v
theories/M_emissions.v
theories/S_emissions.v
theories/P_weights.v
theories/P_emissions.v
theories/P_emission_laws.v
theories/P_propose.v
theories/T_weights.v
theories/T_propose.v
theories/T_emissions.v
theories/S_corrupt.v
theories/T_corrupt.v
theories/M_gendb.v
theories/S_gendb.v
theories/P_gendb.v
theories/P_gendb_links.v
theories/T_gendb_schema.v
theories/M_gendb_rels.v
theories/S_gendb_rels.v
theories/P_gendb_rels.v
theories/T_gendb_rels.v
theories/M_gendb_state.v
theories/M_pclean.v
theories/M_gendb_trans.v
theories/S_gendb_state.v
theories/S_gendb_life.v
theories/P_gendb_ents.v
theories/P_gendb_fill.v
theories/P_gendb_data.v
theories/P_gendb_blank.v
theories/P_gendb_vec.v
theories/P_gendb_reach.v
theories/T_gendb_state.v
theories/T_gendb_rows.v
theories/P_gendb_trans.v
theories/P_gendb_move.v
theories/P_gendb_life.v
theories/P_gendb_keep.v
theories/P_gendb_inv.v
theories/T_gendb_life.v
theories/T_pclean.v
theories/M_clusters.v
theories/S_clusters.v
theories/P_clusters.v
theories/P_clusters_hirm.v
theories/T_clusters.v
theories/M_nonconj.v
theories/S_nonconj.v
theories/P_nonconj.v
theories/T_nonconj.v
theories/M_strdist.v
theories/P_strdist.v
theories/T_strdist.v
theories/M_restore.v
theories/S_restore.v
theories/P_restore.v
theories/P_restore_place.v
theories/P_restore_load.v
theories/T_restore.v
theories/S_sample.v
theories/P_sample.v
theories/P_sample_crp.v
theories/P_sample_hirm.v
theories/T_sample.v
theories/P_reached.v
theories/S_hirm_logp.v
theories/S_score.v
theories/P_hirm_pos.v
theories/T_hirm_logp.v
theories/P_score.v
theories/T_score.v
theories/M_inference.v
theories/S_inference.v
theories/P_inference.v
theories/P_infer_ok.v
theories/T_inference.v
theories/M_bigram_emis.v
theories/S_bigram_emis.v
theories/P_bigram_emis.v
theories/P_bigram_costs.v
theories/P_bigram_reach.v
theories/P_bigram_totals.v
theories/P_bigram_shares.v
theories/P_bigram_undo.v
theories/T_bigram_emis.v
theories/P_bigram_vote.v
theories/P_bigram_propose.v
theories/P_bigram_double.v
theories/P_bigram_chain.v
theories/T_bigram_props.v
theories/M_rel_logp.v
theories/S_rel_logp.v
theories/P_rel_logp.v
theories/P_rel_agree.v
theories/T_rel_logp.v
theories/S_rel_approx.v
theories/P_rel_approx.v
theories/T_rel_approx.v
theories/M_heldout.v
theories/S_heldout.v
theories/P_logp_order.v
theories/P_heldout.v
theories/T_heldout.v
theories/M_noisy_logp.v
theories/P_noisy_logp.v
theories/T_noisy_logp.v
theories/M_main.v
theories/S_main.v
theories/T_main.v
theories/T_main_irm.v
theories/M_samples.v
theories/S_samples.v
theories/T_samples.v
