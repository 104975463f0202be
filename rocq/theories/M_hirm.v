(** Model of cxx/hirm.{hh,cc} and of cxx/inference.cc:43-71. *)
From stdpp Require Import gmap strings sorting.
From Coq Require Import ZArith Reals.
From Verif Require Import M_base M_math M_crp M_domain M_dist M_relation M_noisy M_irm M_logp.

Section Hirm.
Context {V : Type}.

(** hirm.hh:19-28.  The [IRM*] values of [irms] are the IRM objects themselves: no
    IRM is shared between two entries, and only [irms] and one local variable
    ([irm_aux]) ever point to one. *)
Record hirm := Hirm {
  h_schema : gmap string (t_rel V);
  h_irms : gmap Z (irm V);
  h_code : gmap string Z;
  h_rel : gmap Z string;
  h_b2n : gmap string (list string);
  h_crp : crp;
}.
Definition hirm_empty : hirm := Hirm ∅ ∅ ∅ ∅ ∅ crp_new.
Definition h_set_irms (h : hirm) irms := Hirm (h_schema h) irms (h_code h) (h_rel h) (h_b2n h) (h_crp h).
Definition h_set_crp (h : hirm) c := Hirm (h_schema h) (h_irms h) (h_code h) (h_rel h) (h_b2n h) c.

(** hirm.cc:53-56 [relation_to_table]. *)
Definition relation_to_table (h : hirm) (name : string) : outcome Z :=
  let* rc := at_ (h_code h !! name) in
  at_ (crp_assignments (h_crp h) !! rc).
(** hirm.cc:58-62 [relation_to_irm]. *)
Definition relation_to_irm (h : hirm) (name : string) : outcome (irm V) :=
  let* t := relation_to_table h name in
  at_ (h_irms h !! t).
(** hirm.cc:64-67 [get_relation]. *)
Definition get_relation (h : hirm) (name : string) : outcome (any_rel V) :=
  let* ir := relation_to_irm h name in
  at_ (i_rels ir !! name).
(** The live relation of a name, for following base pointers (see [n_base] in M_noisy). *)
Definition hirm_lookup (h : hirm) (name : string) : option (any_rel V) :=
  match get_relation h name with Ok a => Some a | _ => None end.

(** hirm.cc:42-46 [incorporate]. *)
Definition hirm_incorporate (h : hirm) (name : string) (items : items_t) (v : V) (r : rng) : outcome (hirm * rng) :=
  let* t := relation_to_table h name in
  let* ir := at_ (h_irms h !! t) in
  let* (ir', r') := irm_incorporate (hirm_lookup h) ir name items v r in
  Ok (h_set_irms h (<[t := ir']> (h_irms h)), r').
(** hirm.cc:48-51 [unincorporate]. *)
Definition hirm_unincorporate (o : orders) (h : hirm) (name : string) (items : items_t) : outcome hirm :=
  let* t := relation_to_table h name in
  let* ir := at_ (h_irms h !! t) in
  let* ir' := irm_unincorporate (hirm_lookup h) o ir name items in
  Ok (h_set_irms h (<[t := ir']> (h_irms h))).

(** hirm.cc:82-97 [add_relation_to_irm]. *)
Definition add_relation_to_irm (h : hirm) (ir : irm V) (name : string) (t : t_rel V) : outcome (irm V) :=
  match t with
  | TClean ds obs D sp => irm_add_clean ir name ds obs D sp
  | TNoisy ds obs E sp base =>
    let* _ := get_relation h base in
    irm_add_with_base ir name ds obs E sp base
  end.

(** hirm.cc:127-129, :220-222: give a relation object all observations of another. *)
Definition refill_step (lk : string -> option (any_rel V)) (name : string) (data : gmap items_t V)
    (st : irm V * rng) (items : items_t) : outcome (irm V * rng) :=
  let '(ir, r) := st in
  let* v := at_ (data !! items) in
  irm_incorporate lk ir name items v r.
Definition refill (lk : string -> option (any_rel V)) (o : orders) (ir : irm V) (name : string)
    (data : gmap items_t V) (r : rng) : outcome (irm V * rng) :=
  foldM (refill_step lk name data) (ir, r) (o_vecs o (dom data)).

(** hirm.cc:181-195 [update_base_relation]: every noisy relation listed for [name] is
    looked up, and then [name] itself.  Base pointers are names in the model, so the
    assignment itself changes nothing. *)
Definition update_base_step (h : hirm) (name : string) (_ : unit) (noisy_name : string) : outcome unit :=
  let* _ := get_relation h noisy_name in
  let* _ := get_relation h name in
  Ok tt.
Definition update_base_relation (h : hirm) (name : string) : outcome unit :=
  match h_b2n h !! name with
  | None => Ok tt
  | Some ns => foldM (update_base_step h name) tt ns
  end.

(** hirm.cc:169-174, :229-234: the assertions after a move. *)
Definition assert_clusters (h : hirm) : outcome unit :=
  let* _ := assert_ (bool_decide (size (h_irms h) = size (crp_tables (h_crp h)))) in
  assert_ (bool_decide (dom (h_irms h) ⊆ dom (crp_tables (h_crp h)))).

(** hirm.cc:111-139: put the relation into the IRM of one candidate table (a new
    auxiliary IRM when the table is not in [irms]) and score it there. *)
Record trial := Trial {
  tr_irms : gmap Z (irm V);
  tr_aux : option (Z * irm V);
  tr_logps : list R;
  tr_rng : rng;
}.
(** :123-132; the base of the relation is looked up in the model as it is then. *)
Definition try_fill (h : hirm) (o : orders) (name : string) (t : t_rel V) (data : gmap items_t V)
    (ir : irm V) (r : rng) : outcome (irm V * rng) :=
  let* ir := add_relation_to_irm h ir name t in
  refill (hirm_lookup h) o ir name data r.
Definition try_table (h : hirm) (o : orders) (name : string) (t : t_rel V) (data : gmap items_t V) (cur : Z)
    (w : gmap Z R) (st : trial) (table : Z) : outcome trial :=
  let h := h_set_irms h (tr_irms st) in
  match tr_irms st !! table with
  | Some ir =>
    let* (ir, r) := if bool_decide (table = cur) then Ok (ir, tr_rng st) else try_fill h o name t data ir (tr_rng st) in
    let* a := at_ (i_rels ir !! name) in
    Ok (Trial (<[table := ir]> (tr_irms st)) (tr_aux st)
              (tr_logps st ++ [(ln (default 0 (w !! table)) + any_score a)%R]) r)
  | None =>
    let* _ := assert_ (match tr_aux st with None => true | Some _ => false end) in
    let* (ir, r) := if bool_decide (table = cur) then Ok (irm_empty, tr_rng st) else try_fill h o name t data irm_empty (tr_rng st) in
    let* a := at_ (i_rels ir !! name) in
    Ok (Trial (tr_irms st) (Some (table, ir))
              (tr_logps st ++ [(ln (default 0 (w !! table)) + any_score a)%R]) r)
  end.

(** hirm.cc:145-157: take the relation out of an IRM that was not chosen, and the IRM out
    of [irms] when nothing is left in it. *)
Definition untry_table (o : orders) (c : crp) (name : string) (cur choice : Z) (irms : gmap Z (irm V)) (table : Z)
  : outcome (gmap Z (irm V)) :=
  let* ir := at_ (irms !! table) in
  let* ir :=
    if bool_decide (table = choice) then Ok ir
    else
      let* _ := assert_ (bool_decide (name ∈ dom (i_rels ir))) in
      irm_remove_relation o ir name in
  if bool_decide (i_rels ir = ∅) then
    let* s := at_ (crp_tables c !! table) in
    let* _ := assert_ (bool_decide (size s = 1)) in
    let* _ := assert_ (bool_decide (table = cur)) in
    Ok (delete table irms)
  else Ok (<[table := ir]> irms).

(** hirm.cc:99-139: the candidate tables and their unnormalised log probabilities. *)
Definition hirm_relation_logps (o : orders) (h : hirm) (name : string) (r : rng) : outcome (list Z * trial) :=
  let* cur := relation_to_table h name in
  let* a := get_relation h name in
  let* t := at_ (h_schema h !! name) in
  let* w := crp_tables_weights_gibbs (h_crp h) cur in
  let tables := sorted_keys w in
  let* st := foldM (try_table h o name t (any_data a) cur w) (Trial (h_irms h) None [] r) tables in
  Ok (tables, st).

(** hirm.cc:144-178: settle on the chosen table. *)
Definition hirm_settle (o : orders) (h : hirm) (name : string) (choice : Z) (st : trial) : outcome hirm :=
  let* rc := at_ (h_code h !! name) in
  let* cur := at_ (crp_assignments (h_crp h) !! rc) in
  let* irms := foldM (untry_table o (h_crp h) name cur choice) (tr_irms st) (sorted_keys (crp_tables (h_crp h))) in
  let irms := match tr_aux st with
              | Some (t, ir) => if bool_decide (choice = t) then <[choice := ir]> irms else irms
              | None => irms
              end in
  let* c := crp_unincorporate (h_crp h) rc in
  let* c := crp_incorporate c rc choice in
  let h := h_set_crp (h_set_irms h irms) c in
  let* _ := assert_clusters h in
  let* _ := update_base_relation h name in
  Ok h.

(** hirm.cc:99-179 [transition_cluster_assignment_relation]. *)
Definition hirm_transition_relation (o : orders) (h : hirm) (name : string) (r : rng) : outcome (hirm * rng) :=
  let* (tables, st) := hirm_relation_logps o h name r in
  let* (i, r) := log_choice (Some <$> tr_logps st) (tr_rng st) in
  let* choice := idx_ (tables !! i) in
  let* h := hirm_settle o h name choice st in
  Ok (h, r).
(** hirm.cc:75-80 [transition_cluster_assignments]. *)
Definition hirm_transition (o : orders) (h : hirm) (names : list string) (r : rng) : outcome (hirm * rng) :=
  foldM (fun '(h, r) name => hirm_transition_relation o h name r) (h, r) names.
(** hirm.cc:69-73 [transition_cluster_assignments_all]. *)
Definition hirm_transition_all (o : orders) (h : hirm) (r : rng) : outcome (hirm * rng) :=
  hirm_transition o h (o_names o (dom (h_code h))) r.

(** hirm.cc:197-235 [set_cluster_assignment_gibbs]. *)
Definition hirm_set_cluster (o : orders) (h : hirm) (name : string) (table : Z) (r : rng) : outcome (hirm * rng) :=
  let* _ := assert_ (bool_decide (size (h_irms h) = size (crp_tables (h_crp h)))) in
  let* rc := at_ (h_code h !! name) in
  let* cur := at_ (crp_assignments (h_crp h) !! rc) in
  let* a := get_relation h name in
  let* t := at_ (h_schema h !! name) in
  let* ir := relation_to_irm h name in
  let* ir := irm_remove_relation o ir name in
  let irms := if bool_decide (i_rels ir = ∅) then delete cur (h_irms h) else <[cur := ir]> (h_irms h) in
  let irms := match irms !! table with Some _ => irms | None => <[table := irm_empty]> irms end in
  let h := h_set_irms h irms in
  let* ir := at_ (irms !! table) in
  let* (ir, r) := try_fill h o name t (any_data a) ir r in
  let h := h_set_irms h (<[table := ir]> irms) in
  let* c := crp_unincorporate (h_crp h) rc in
  let* c := crp_incorporate c rc table in
  let h := h_set_crp h c in
  let* _ := update_base_relation h name in
  let* _ := assert_clusters h in
  Ok (h, r).

(** hirm.cc:237-269 [add_relation].  A noisy relation whose base has no code makes the
    code look the base up in [schema] (with [.at]) and add it; an entry found there
    makes the recursive call fail its first assertion. *)
Definition add_code (h : hirm) : Z := (1 + default 0 (max_key (h_rel h)))%Z.
Definition h_push_noisy (b2n : gmap string (list string)) (t : t_rel V) (name : string) : gmap string (list string) :=
  match t with
  | TClean _ _ _ _ => b2n
  | TNoisy _ _ _ _ base => <[base := default [] (b2n !! base) ++ [name]]> b2n
  end.
Definition hirm_add_relation (h : hirm) (name : string) (t : t_rel V) (r : rng) : outcome (hirm * rng) :=
  let* _ := assert_ (bool_decide (name ∉ dom (h_schema h))) in
  let schema := <[name := t]> (h_schema h) in
  let rc := add_code h in
  let* (table, r) := crp_sample (h_crp h) r in
  let* c := crp_incorporate (h_crp h) rc table in
  let irms := match h_irms h !! table with Some _ => h_irms h | None => <[table := irm_empty]> (h_irms h) end in
  let* _ := match t with
            | TClean _ _ _ _ => Ok tt
            | TNoisy _ _ _ _ base =>
              match h_code h !! base with
              | Some _ => Ok tt
              | None => match schema !! base with None => Throws | Some _ => AssertFail end
              end
            end in
  let h := Hirm schema irms (h_code h) (h_rel h) (h_push_noisy (h_b2n h) t name) c in
  let* ir := at_ (irms !! table) in
  let* ir := add_relation_to_irm h ir name t in
  let* _ := assert_ (bool_decide (name ∉ dom (h_code h))) in
  let* _ := assert_ (bool_decide (rc ∉ dom (h_rel h))) in
  Ok (Hirm schema (<[table := ir]> irms) (<[name := rc]> (h_code h)) (<[rc := name]> (h_rel h)) (h_b2n h) (h_crp h), r).

(** hirm.cc:274-289 [remove_relation]. *)
Definition hirm_remove_relation (o : orders) (h : hirm) (name : string) : outcome hirm :=
  let* rc := at_ (h_code h !! name) in
  let* table := at_ (crp_assignments (h_crp h) !! rc) in
  let* s := at_ (A:=gset Z) (crp_tables (h_crp h) !! table) in
  let* c := crp_unincorporate (h_crp h) rc in
  let* ir := at_ (h_irms h !! table) in
  let* ir := irm_remove_relation o ir name in
  let* irms :=
    if bool_decide (size s = 1) then
      let* _ := assert_ (bool_decide (i_rels ir = ∅)) in Ok (delete table (h_irms h))
    else Ok (<[table := ir]> (h_irms h)) in
  Ok (Hirm (delete name (h_schema h)) irms (delete name (h_code h)) (delete rc (h_rel h)) (h_b2n h) c).

(** hirm.cc:6-40 [HIRM::HIRM]: passes over the declarations in name order, adding every
    clean relation and every noisy one whose base is there already.  State of a pass:
    model, generator, [added_a_relation], [have_pending_relations]. *)
Definition ctor_visit (schema : gmap string (t_rel V)) (st : hirm * rng * bool * bool) (name : string)
  : outcome (hirm * rng * bool * bool) :=
  let '(h, r, added, pending) := st in
  if bool_decide (name ∈ dom (h_schema h)) then Ok st
  else
    let* t := at_ (schema !! name) in
    let ready := match t with
                 | TClean _ _ _ _ => true
                 | TNoisy _ _ _ _ base => bool_decide (base ∈ dom (h_schema h))
                 end in
    if ready then let* (h, r) := hirm_add_relation h name t r in Ok (h, r, true, pending)
    else Ok (h, r, added, true).
(** One extra unit of fuel per declared relation is enough: every pass but the last adds
    a relation (see [hirm_new_spec]). *)
Fixpoint ctor_loop (fuel : nat) (schema : gmap string (t_rel V)) (h : hirm) (r : rng) : outcome (hirm * rng) :=
  match fuel with
  | 0 => OutOfFuel
  | S fuel' =>
    let* (h, r, added, pending) := foldM (ctor_visit schema) (h, r, false, false) (sorted_names schema) in
    if negb pending then Ok (h, r)
    else if negb added then Exits
    else ctor_loop fuel' schema h r
  end.
Definition hirm_new (schema : gmap string (t_rel V)) (r : rng) : outcome (hirm * rng) :=
  ctor_loop (S (size schema)) schema hirm_empty r.

(** hirm.cc:291-306 [transition_latent_values_relation].  The noisy relations and the base
    may live in different IRMs. *)
Definition h_set_rel (h : hirm) (name : string) (a : any_rel V) : outcome hirm :=
  let* t := relation_to_table h name in
  let* ir := at_ (h_irms h !! t) in
  Ok (h_set_irms h (<[t := i_set_rel ir name a]> (h_irms h))).
Fixpoint h_noisies (h : hirm) (names : list string) : outcome (list (world * noisy V)) :=
  match names with
  | [] => Ok []
  | name :: names' =>
    let* ir := relation_to_irm h name in
    let* a := at_ (i_rels ir !! name) in
    let* n := as_noisy a in
    let* ns := h_noisies h names' in
    Ok ((i_domains ir, n) :: ns)
  end.
Definition h_latent_step (o : orders) (name : string) (names : list string) (st : hirm * rng) (bi : items_t) : outcome (hirm * rng) :=
  let '(h, r) := st in
  let* irb := relation_to_irm h name in
  let* base := at_ (i_rels irb !! name) in
  let* wns := h_noisies h names in
  let* (base', ns', r') := transition_latent_value (hirm_lookup h) o (i_domains irb) wns.*1 bi (base, wns.*2) r in
  let* h := foldM (fun h p => h_set_rel h p.1 (ANoisy p.2)) h (zip names ns') in
  let* h := h_set_rel h name base' in
  Ok (h, r').
Definition hirm_transition_latents (o : orders) (h : hirm) (name : string) (r : rng) : outcome (hirm * rng) :=
  let* base := get_relation h name in
  let* nl := at_ (h_b2n h !! name) in
  foldM (h_latent_step o name (o_names o (list_to_set nl))) (h, r) (o_vecs o (dom (any_data base))).

(** hirm.cc:308-328 [logp]: the observations of the relations of one IRM are scored
    together; [None] is minus infinity. *)
Definition group_by_table (h : hirm) (m : gmap Z (list (string * items_t * V))) (x : string * items_t * V)
  : outcome (gmap Z (list (string * items_t * V))) :=
  let* t := relation_to_table h x.1.1 in
  Ok (<[t := default [] (m !! t) ++ [x]]> m).
Definition hirm_logp (o : orders) (h : hirm) (obs : list (string * items_t * V)) (r : rng) : outcome (option R * rng) :=
  let* m := foldM (group_by_table h) ∅ obs in
  foldM (fun '(acc, r) t =>
    let* ir := at_ (h_irms h !! t) in
    let* (x, r) := irm_logp ir (default [] (m !! t)) r in
    Ok (lw_add acc x, r)) (Some 0%R, r) (o_ents o (dom m)).

(** hirm.cc:330-337 [logp_score]. *)
Definition hirm_logp_score (lg : R -> R) (h : hirm) : R :=
  (crp_logp_score lg (h_crp h) + map_fold (fun _ ir acc => (acc + irm_logp_score lg ir)%R) 0 (h_irms h))%R.

(** hirm.cc:339-361 [sample_and_incorporate_relation]; the value is returned itself, not its
    text.  The recursion follows the chain of bases; [fuel] bounds its length. *)
Fixpoint hirm_sample_relation (fuel : nat) (h : hirm) (name : string) (items : items_t) (r : rng)
  : outcome (V * hirm * rng) :=
  match fuel with
  | 0 => OutOfFuel
  | S fuel' =>
    let* t := at_ (h_schema h !! name) in
    let* (h, r) := match t with
      | TClean _ _ _ _ => Ok (h, r)
      | TNoisy _ _ _ _ base =>
        let* a := get_relation h name in
        let* n := as_noisy a in
        let* b := base_of (hirm_lookup h) n in
        let* bi := get_base_items b items in
        if bool_decide (bi ∈ dom (bv_data b)) then Ok (h, r)
        else let* (_, h, r) := hirm_sample_relation fuel' h base bi r in Ok (h, r)
      end in
    let* table := relation_to_table h name in
    let* ir := at_ (h_irms h !! table) in
    let* a := at_ (i_rels ir !! name) in
    let* (v, W, a', r) := any_sample_and_incorporate (hirm_lookup h) (i_domains ir) a items r in
    Ok (v, h_set_irms h (<[table := i_set_rel (i_set_domains ir W) name a']> (h_irms h)), r)
  end.

(** hirm.cc:407-421 [initialize_domain_crps]: one CRP per domain name over all IRMs, whose
    "tables" are the entities. *)
Definition crps_add (m : gmap string crp) (d : string) (e : Z) : outcome (gmap string crp) :=
  let c := default crp_new (m !! d) in
  let* c' := crp_incorporate c (Z.of_nat (size (crp_assignments c))) e in
  Ok (<[d := c']> m).
Definition initialize_domain_crps (o : orders) (h : hirm) : outcome (gmap string crp) :=
  foldM (fun m t =>
    let* ir := at_ (h_irms h !! t) in
    foldM (fun m d =>
      let* dm := at_ (i_domains ir !! d) in
      foldM (fun m e => crps_add m d e) m (o_ents o (dom (crp_assignments (dom_crp dm)))))
      m (o_names o (dom (i_domains ir)))) ∅ (o_ents o (dom (h_irms h))).

(** hirm.cc:375-385: draw one entity per domain of the relation. *)
Fixpoint draw_entities (m : gmap string crp) (ds : list string) (r : rng)
  : outcome (list Z * list (string * Z) * gmap string crp * rng) :=
  match ds with
  | [] => Ok ([], [], m, r)
  | d :: ds' =>
    let c := default crp_new (m !! d) in
    let* (e, r) := crp_sample c r in
    let i := Z.of_nat (size (crp_assignments c)) in
    let* c' := crp_incorporate c i e in
    let* (es, ps, m', r') := draw_entities (<[d := c']> m) ds' r in
    Ok (e :: es, (d, i) :: ps, m', r')
  end.
(** hirm.cc:396-399. *)
Definition undraw (m : gmap string crp) (p : string * Z) : outcome (gmap string crp) :=
  let* c' := crp_unincorporate (default crp_new (m !! p.1)) p.2 in
  Ok (<[p.1 := c']> m).
(** hirm.cc:373-401: the loop for one leaf relation.  It only ends when enough unseen
    tuples have been drawn; [fuel] bounds the number of rounds. *)
Fixpoint sample_rounds (fuel : nat) (h : hirm) (name : string) (ds : list string) (n : nat) (m : gmap string crp)
    (r : rng) : outcome (list (items_t * V) * hirm * gmap string crp * rng) :=
  match n with
  | 0 => Ok ([], h, m, r)
  | S n' =>
    match fuel with
    | 0 => OutOfFuel
    | S fuel' =>
      let* (es, ps, m', r) := draw_entities m ds r in
      let* a := get_relation h name in
      if bool_decide (es ∈ dom (any_data a)) then
        let* m'' := foldM undraw m' ps in
        sample_rounds fuel' h name ds n m'' r
      else
        let* (v, h, r) := hirm_sample_relation (S (size (h_schema h))) h name es r in
        let* (l, h, m'', r) := sample_rounds fuel' h name ds n' m' r in
        Ok ((es, v) :: l, h, m'', r)
    end
  end.
(** hirm.cc:363-405 [sample_and_incorporate]; [n <= 0] samples nothing. *)
Definition sample_leaf (fuel : nat) (n : nat) (st : gmap string (list (items_t * V)) * hirm * gmap string crp * rng)
    (name : string) : outcome (gmap string (list (items_t * V)) * hirm * gmap string crp * rng) :=
  let '(obs, h, m, r) := st in
  if bool_decide (name ∈ dom (h_b2n h)) then Ok st
  else
    let* t := at_ (h_schema h !! name) in
    let* (l, h, m, r) := sample_rounds fuel h name (t_domains t) n m r in
    Ok (if bool_decide (l = []) then obs else <[name := l]> obs, h, m, r).
Definition hirm_sample (o : orders) (fuel : nat) (h : hirm) (n : nat) (r : rng)
  : outcome (gmap string (list (items_t * V)) * hirm * rng) :=
  let* m := initialize_domain_crps o h in
  let* (obs, h, _, r) := foldM (sample_leaf fuel n) (∅, h, m, r) (sorted_names (h_schema h)) in
  Ok (obs, h, r).

(** hirm.cc:423-427 [cleanup_relation_clusters]. *)
Definition hirm_cleanup (h : hirm) : outcome hirm :=
  foldM (fun h name => let* a := get_relation h name in h_set_rel h name (any_cleanup_clusters a))
    h (sorted_names (h_schema h)).

(** inference.cc:43-71 [inference_hirm], one iteration (timing and printing left out). *)
Definition hirm_latents_one (o : orders) (st : hirm * rng) (name : string) : outcome (hirm * rng) :=
  let '(h, r) := st in
  let* t := at_ (h_schema h !! name) in
  if t_observed t then Ok (h, r) else hirm_transition_latents o h name r.
Definition hirm_irm_step (lg : R -> R) (o : orders) (st : hirm * rng) (t : Z) : outcome (hirm * rng) :=
  let '(h, r) := st in
  let* ir := at_ (h_irms h !! t) in
  let* (ir', r') := irm_single_step lg o ir false r in
  Ok (h_set_irms h (<[t := ir']> (h_irms h)), r').
Definition hirm_iteration (lg : R -> R) (o : orders) (h : hirm) (r : rng) : outcome (hirm * rng) :=
  let* (h, r) := foldM (hirm_latents_one o) (h, r) (o_names o (dom (h_b2n h))) in
  let* (h, r) := hirm_transition_all o h r in
  foldM (hirm_irm_step lg o) (h, r) (o_ents o (dom (h_irms h))).
End Hirm.
Global Arguments hirm V : clear implicits.
Global Arguments trial V : clear implicits.
