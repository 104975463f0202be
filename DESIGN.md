# Formal model of probcomp/hierarchical-irm (C++ part, `cxx/`) in Rocq / Coq 8.16.1

## 1. Layout

* `properties.jsonl` – the English properties (C01 …).
* `rocq/theories/` – model, specifications, proofs.  Naming convention:
  * `M_*.v`  model: Gallina transcription of C++ functions; every definition cites file:lines.
  * `S_*.v`  specification: small, model-independent vocabulary used by the theorem statements.
  * `P_*.v`  proofs (lemmas, invariants).
  * `T_*.v`  property theorems: only `Theorem … Proof. exact …. Qed.`, satisfiability `Example`s
    and `Print Assumptions`.
* `MANIFEST.json` – property → theorem names.
* `seeded/LOG.jsonl` – mutation experiments against the model.

## 2. Modelling conventions

| C++ | model |
| --- | --- |
| `int`, `size_t` | `Z` / `nat`, no overflow (simplification) |
| `double` | exact reals `R` for scores, `Z` for counts updated by ±1, `R`/`Q` for weighted counts (rounding not modelled) |
| `std::map`, `unordered_map`, `…_set` | std++ `gmap`/`gset` (canonical finite maps), key order recovered by min/max key where the code uses it; iteration order of hash containers is an explicit list argument, quantified over all permutations, whenever the result could depend on it |
| `std::mt19937*` | the random outcome is an argument of the function; theorems quantify over all outcomes the C++ sampler can return (an index inside the weight vector) |
| failed `assert`, `exit(1)`, thrown exception, undefined behaviour | distinct constructors of `outcome` (`AssertFail`, `Exits`, `Throws`, `UB`), never assumed away |
| `lgamma` | any function `lg` with `lg 1 = 0` and `lg (x+1) = lg x + ln x` for `x > 0`; theorems quantify over it, and an instance is constructed so the hypothesis is not empty |
| pointers to shared `Domain`s | one map of domains by name, threaded through the operations |

## 3. Plan per property

C01–C07 (CRP, Domain): records of finite maps; invariant by induction over arbitrary operation
lists; refinement to an abstract seating map `customer -> table`.  Scores in `R`.

C08–C11 (CleanRelation): relation = data map, per-entity index, map of blocks, each block being the
signed multiset of what was incorporated (the free commutative statistics); the conjugate
distributions are shown in C19–C23 to be functions of that multiset, so the statement transfers.
Invariant + refinement: blocks = grouping of data by current cluster ids.  C11 by splitting the sum
over blocks.

C12, C13 (IRM): map of domains + map of relations; invariants lifted through the loops over
relations and domains.

C14–C16 (schema construction, HIRM): fixpoint loop of the constructor with fuel = number of
relations, shown sufficient; invariants over histories.

C17, C18 (noisy relations, latent values): pairs of relations; exact effect of
`transition_latent_value` computed; the expected clause refuted by a concrete state.

C19–C24 (distributions): state machines over `Z`/`R` + real-number identities.

C25–C27 (math helpers): lists of reals.

C28–C33 (I/O): strings as lists of ASCII characters; round-trip theorems by induction.

C34, C35 (alignment): best-first search over a list heap with fuel; invariants (validity, frontier
covering, monotone cost) and the Levenshtein recursion as independent specification.

C36, C37 (emissions), C38–C42 (PClean), C43, C44: small executable functions and induction; the
GenDB class graph is walked with fuel shown to suffice for acyclic schemas.

C45 (hyperparameter grids), C46 (cluster transitions): the weights used by the sampler are shown to be
the joint score of the state each choice leads to, up to one constant.

C47, C48 (HIRM): a specification of the schema and of the world after a removal; per-IRM entity sets
as an invariant over histories.

C49 (observation files): text written, text read back; malformed lines as distinct outcomes.

C50, C60 (emission likelihoods and corruption): explicit formulas; sampling weights compared with the
likelihood value by value (refuted for the Gaussian emission, where they differ).

C51–C55 (GenDB): the HIRM schema is characterised relation by relation; entity links, item vectors
and rows by induction over the class graph; a whole run over a table by induction on its rows.

C56–C58 (strings): adapters, StringCat, construction of distributions and emissions from text.

C59 (loading a saved model): composition of the file readers with the HIRM operations; the saved files
of every reached model, read back, restore the partition and the data (refuted without the guard on
the order of relation names).

C61 (sampling): the HIRM after `sample_and_incorporate…` is compared with the HIRM before: which
keys are new, which values they carry, nothing else changed.

C62 (predictive probabilities), C63 (chain rule): the score of a reached model, block by block, and
the increase of the score under one observation.

C64 (inference keeps observations): a relation "same tuples, same values unless latent" between a model
and its successor, shown for every step of the loops from their code, and closed under sequences by
induction; success of the loop by showing that, without latent observations, it is a history of calls.

C65, C66 (resampling references): an invariant of all states, "the value of a query field lies at the
items that the present references give", kept by every phase of `transition_reference`: for each phase
it is shown which observations it takes out or puts in, and that the phases of one candidate cancel.
The pass over the classes and the inference loop follow by induction.

C67: counterexamples, reached by rows and one call, computed in the kernel.

C68, C69 (what the string emission `bigram` learns): the tables are modelled as they are, costs as exact
reals.  An observation is read off an alignment as a list of choices in `S_bigram_emis`; the effect of a call
on every entry is the sum over the alignments found.  Which alignments are found comes from C34.  The
counterexamples compute the tables of a new emission after one observation, as rational numbers.

C70, C71 (samples and proposals of that emission): the insertion loop ends because each turn uses up a random
number and no numbers left means "insert nothing"; support by giving the numbers.  A vote is the function
`elected` of a most likely alignment; a tournament is followed round by round.  Agreement: among the alignments
of a string with itself the matches are strictly most likely.

C72 (probability of a value asked from a relation): as C43/C44 for the IRM; the sum over separate choices per
position (the relation) and the sum over one choice per entity (the IRM) are equal if no entity without a
cluster is repeated, by induction over the positions.  Counterexample: Beta-Bernoulli, an unseen entity twice.

C73 (approximate scores of an entity's clusters): each value is taken out, scored and put back, so the loop
keeps the state; the sum over single observations is compared with the sum over the groups of C11.
Counterexample: two true values in one block.

C74 (held-out observations): `logp` of `util_io.cc` is modelled on top of the encoding and the two `logp`
methods.  The list it scores is characterised relation by relation; permutation invariance of the mixture over the
clusters of the mentioned entities makes the score independent of iteration order.

C75 (noisy relations score against the base): the scoring calls of `noisy_relation.hh` are modelled in `M_noisy_logp` on top
of the emission relation and the view of the base. The mixture follows from C72 for pairs (base value, value); the score
increase from the chain rule of C63; the sum to one by the invariant of C17 over all histories and C50.

C76 (resuming): `M_main` models a run of `hirm_main.cc` in modes `hirm` and `irm`, from the loaded files to the saved clusters and the printed
held-out log probability; `S_main` says what a chain of runs is. Induction over the chain, with C59 for each step. The program's encoding
includes the held-out observations and the one of `from_txt` does not, which refutes the property for a run that resumes with `--heldout`.

C77 (file of samples): `M_samples` models `--samples` of `hirm_main.cc`. Sampling is C61 (its proof is now for any consistent HIRM, so that it
applies to what a run of the program leaves, C76); writing is proved for entities with and without names, by the format lemmas of C49.

C78 onwards: see `properties.jsonl` and the notes in `MANIFEST.json`.

Properties that cannot be expressed: performance, convergence of the Markov chains, floating-point
rounding, the quality of `std::mt19937` – not modelled.

## 4. Trusted base

* The Coq 8.16.1 kernel, `coqc`, and the standard library.  std++ (finite maps, lists) is used as a
  library of definitions and closed lemmas; none of its lemmas used here adds an axiom.
* Axioms (`ASSUMPTIONS.md` lists them theorem by theorem, from `Print Assumptions`).  Only these
  standard-library axioms occur, and only through the real numbers:
  * `ClassicalDedekindReals.sig_forall_dec`, `ClassicalDedekindReals.sig_not_dec`
  * `FunctionalExtensionality.functional_extensionality_dep`
  * `Classical_Prop.classic`
* No axiom, parameter, section-less variable, `Admitted`, functor or module type of our own.
* The transcription itself: each `M_*.v` definition is a reading of the cited C++ lines by a person;
  nothing checks it mechanically against the C++.
* `lgamma`: theorems that mention it quantify over every function satisfying `lgamma_spec`
  (`lg 1 = 0`, `lg (x+1) = lg x + ln x`), which the C library function satisfies up to rounding.

## 5. What is modelled

| C++ (under `cxx/`) | model |
| --- | --- |
| `distributions/crp.*` | `M_crp` |
| `domain.hh` | `M_domain` |
| `util_math.*` | `M_math` |
| `distributions/{base.hh,beta_bernoulli,dirichlet_categorical,normal,zero_mean_normal,bigram}.*`, `string_nat.hh` | `M_dist`, `M_distributions` |
| `distributions/{nonconjugate.hh,skellam.*}` | `M_nonconj` |
| `distributions/{stringcat.*,adapter.hh}`, `get_prior` of `get_distribution.cc`, `get_emission.cc` | `M_strdist`, `M_schema` |
| `clean_relation.hh` | `M_relation`, `M_logp` |
| `noisy_relation.hh`, `transition_latent_value.hh`, `emissions/base.hh` | `M_noisy` |
| `irm.*`, `inference.cc` (IRM, HIRM) | `M_irm`, `M_logp`, `M_hirm`, `M_inference` |
| `hirm.*` | `M_hirm` |
| `emissions/{gaussian,bitflip,categorical,sometimes,simple_string,identity}.hh` | `M_emissions` |
| `emissions/string_alignment.*` | `M_align` |
| `util_parse.*`, schema reader of `util_io.cc` | `M_parse`, `M_schema` |
| `util_io.cc` observations, encodings, cluster files, `from_txt` | `M_io`, `M_clusters`, `M_restore` |
| `pclean/{csv,io,get_joint_relations,pclean_lib}.*`, `pclean/schema.hh` | `M_csv`, `M_pclean_io`, `M_gendb_rels`, `M_pclean` |
| `gendb.cc` domains, links, HIRM schema, entities, incorporation, sampling | `M_gendb`, `M_gendb_rels`, `M_gendb_state` |
| `gendb.cc` resampling of references, `inference_gendb` | `M_gendb_trans` |
| `emissions/bigram_string.*` | `M_bigram_emis` |
| `clean_relation.hh` (`logp`, `logp_gibbs_approx*`) | `M_rel_logp` |
| `noisy_relation.hh` (`logp`, `logp_score`, `logp_gibbs_approx`) | `M_noisy_logp` |
| `hirm_main.cc` (both modes, without option parsing and printing) | `M_main`, `M_samples` |
| `util_io.cc` (`logp`, `merge_observations`) | `M_heldout`, `M_io` |

## 6. What is not modelled

* `main` programs (`pclean/pclean.cc`, `hirm_main.cc`): option parsing, wall-clock timeouts, printing.
  The libraries they call are modelled; their observable defects are listed in section 7.
* Integer overflow, floating-point rounding, memory exhaustion, data races (the code is sequential).
* Raw pointers: ownership and lifetime.  `Domain*`/`Relation*` are keys into maps.
* Iteration order of hash containers is modelled as an arbitrary permutation.
* `typename_playground.cc`, `cxxopts.hpp`, tests.

## 7. Defects of the code found while proving

Each is stated by a theorem (usually with the suffix `_refuted`) or visible in the cited lines.

* Asserts are compiled out under `bazel build -c opt`; the model reports them as `AssertFail`.
* Latent-value transitions leave stored (clean, noisy) pairs of noisy relations out of step, and give
  all candidate values equal weight (C18).
* The Gibbs weights for moving a relation between IRMs leave out the CRP terms of the domains.
* `Gaussian` emission and `ZeroMeanNormal` sample from a wider t distribution than `logp` scores (C22, C60).
* `StringCat` with repeated strings does not sum to one (C57); `set_alpha` is declared, not defined.
* The numeric adapter treats unparsable strings as 0 and blank strings as an uninitialised value (C56).
* A negative `maxlength` wraps around; repeated blanks make empty strings; a comma cannot be a
  delimiter inside parentheses (C58).
* `base_to_noisy_relations` is not cleaned by `remove_relation`, so the former base is never sampled
  again (C61); the HIRM sampling loop has no bound.
* `from_txt` and the IRM constructor add relations in name order without retrying, so a schema whose
  noisy relation precedes its base by name cannot be loaded (C59).
* Cluster files with blanks, numerals or `irm=` in domain or entity names cannot be read back (C30).
* Entity codes depend on the iteration order of a hash container (C28).
* `NonconjugateDistribution` keeps keys of weight zero (C43).
* PClean: a noisy record class recurses for ever, a clean record class gets zero items and a throwing
  `get_domain_inds` (C54); a second row with a known id fails (C54); hash collisions of reference ids
  assert; `--output` throws, the samples file is always empty, unique-entities does not keep rows apart
  (C41, C55); an empty table is undefined behaviour; a failed schema read is ignored.
* Resampling a reference: the references of an abandoned entity are never removed, because
  `unincorporate_from_entity_cluster` recurses in the wrong branch of its test for an occupied table; values of unqueried attributes stay at stale
  items; an entity shared by two rows has all candidates at probability zero (C67).
* `bigram_string.cc`: `break` in `log_prob_distance` only leaves the `switch`; `incorporate` weights
  alignments by the reciprocal of their probability (C69), so unincorporating can leave negative counts;
  no "insert nothing" is recorded at the end of a string (C70); two equal strings can be voted into a doubled
  one, and `propose_clean_with_weights` resets the weight of a string without partner (C71); `get_index` may
  read out of bounds (C68).
* `CleanRelation::logp` gives an unseen entity that occurs at two positions a separate cluster for each (C72).
* `logp_gibbs_approx` scores every observation of the moved entity on its own, which differs from the exact
  score as soon as two of them share a block (C73).
* `NoisyRelation::logp` (and every call that looks up the base value) reads past the end of a tuple shorter than the base's arity (C75).
* Scoring an empty held-out file with an IRM takes the product of no lists, which reads out of bounds (C74).
* `hirm_main.cc` with `--load` and `--heldout` saves clusters, and scores held-out data, under the wrong names: `from_txt` numbers entities from the observations alone, `main` from both files (C76).
* `hirm_main.cc` with `--heldout` and `--samples` can write an entity the model has just made up under the name of a held-out entity: numbers not in the model are reused, and the held-out file has named them (C77).
* `hirm_main.cc` frees objects made with `new`.
