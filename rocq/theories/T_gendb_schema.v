(** C38 and C39: domain lists and reference links of PClean classes. *)
From stdpp Require Import gmap strings list sorting relations.
From Coq Require Import Lia.
From Verif Require Import M_base M_irm M_pclean_io M_gendb S_gendb P_base P_gendb P_gendb_links.

(** For declared, acyclic references the computation ends, and the domain list of every
    class is the lists of the classes it refers to, in field order, and then the class. *)
Theorem C38_domains : forall cs, closed_schema cs -> acyclic cs ->
  exists n dm, (forall fuel, n <= fuel -> compute_domains fuel cs = Ok dm) /\
    (forall c, is_Some (dm !! c) <-> is_Some (cs !! c)) /\
    forall c cl fks, cs !! c = Some cl -> reference_fields cl fks ->
      dm !! c = Some (concat (map (fun fk => default [] (dm !! fk.2)) fks) ++ [c]).
Proof.
  intros cs Hclo Hac.
  destruct (compute_domains_enough cs Hclo) as [n Hn]; [intros; by apply acyclic_acc|].
  destruct (Hn n) as [dm Hdm]; [done|]. exists n, dm.
  destruct (compute_domains_sound _ _ _ Hdm) as [Hi Hd]. split_and!; [|done|].
  - intros fuel Hf. destruct (Hn fuel Hf) as [dm' H]. rewrite H. f_equal. by eapply compute_domains_unique.
  - intros c cl fks Hc Hfk. apply reference_fields_unique in Hfk as ->.
    destruct (Hd c) as [_ [ds Hds]]; [eauto|]. rewrite Hds. apply Hi in Hds.
    inversion Hds as [c' cl' ds1 Hc' Hf]; subst. simplify_eq. f_equal. f_equal.
    eapply field_lists_concat; [done| |done].
    intros f k Hk. apply Hd. eapply Hclo. by eapply fields_refers.
Qed.
Print Assumptions C38_domains.

(** When some class reaches itself through references, the recursion has no end. *)
Theorem C38_cyclic_does_not_end : forall cs c, closed_schema cs -> is_Some (cs !! c) -> tc (references cs) c c ->
  forall fuel, compute_domains fuel cs = OutOfFuel.
Proof.
  intros cs c Hclo Hc Hcyc fuel. destruct (compute_domains_out cs fuel Hclo) as [[dm H]|H]; [exfalso|done].
  apply compute_domains_sound in H as [Hi Hd]. apply Hd in Hc as [ds Hds]. apply Hi in Hds.
  eapply acc_acyclic; [by eapply (proj1 (domain_list_acc cs))|done].
Qed.
Print Assumptions C38_cyclic_does_not_end.

(** The reference links of every class: each reference field of each entity leads to an
    entity of the class it refers to, and each entity but the last is the target of exactly
    one field.  The recorded links can contain more than these, see below. *)
Theorem C39_links : forall cs, closed_schema cs -> acyclic cs ->
  exists n dm cache, (forall fuel, n <= fuel -> compute_domains fuel cs = Ok dm) /\
    (forall fuel, n <= fuel -> exists cache', compute_refs fuel cs dm = Ok cache') /\
    compute_refs n cs dm = Ok cache /\
    forall c ds, dm !! c = Some ds -> links_right cs ds (default ∅ (cache !! c)).
Proof.
  intros cs Hclo Hac. destruct (C38_domains cs Hclo Hac) as (n1 & dm & H1 & Hd & _).
  destruct (compute_domains_sound cs n1 dm) as [Hi _]; [by apply H1|].
  destruct (compute_refs_enough cs dm (fun c => proj2 (Hd c)) Hclo) as [n2 H2]; [intros; by apply acyclic_acc|].
  destruct (H2 (n1 + n2)) as [cache Hc]; [lia|].
  exists (n1 + n2), dm, cache. split_and!; [intros; apply H1; lia|intros; apply H2; lia|done|].
  apply (compute_refs_sound cs dm Hi (fun c => proj2 (Hd c))) in Hc as [Hl Ht]; [|done].
  intros c ds Hds. destruct (treated_links cs dm Hi (fun c => proj2 (Hd c)) cache c Hl) as (ds' & Hds' & HL & _).
  - apply Ht, Hd. eauto.
  - apply Hd. eauto.
  - by simplify_eq.
Qed.
Print Assumptions C39_links.

(** The full statement, for all runs that end, and with nothing but the right links for
    classes from which no chain of three references starts. *)
Theorem C39_links_exact : forall cs fuel dm cache, closed_schema cs ->
  compute_domains fuel cs = Ok dm -> compute_refs fuel cs dm = Ok cache ->
  forall c ds, dm !! c = Some ds -> links_right cs ds (default ∅ (cache !! c)) /\
    (shallow cs c -> links_exact cs ds (default ∅ (cache !! c))).
Proof.
  intros cs fuel dm cache Hclo Hdm Hc. apply compute_domains_sound in Hdm as [Hi Hd].
  apply (compute_refs_sound cs dm Hi (fun c => proj2 (Hd c))) in Hc as [Hl Ht]; [|done].
  intros c ds Hds. destruct (treated_links cs dm Hi (fun c => proj2 (Hd c)) cache c Hl) as (ds' & Hds' & HL & HE & _).
  - apply Ht, Hd. eauto.
  - apply Hd. eauto.
  - by simplify_eq.
Qed.
Print Assumptions C39_links_exact.

(** Three classes: a record of a physician and a city, a physician of a school. *)
Definition C38_schema : gmap string pclass :=
  {[ "School" := {[ "name" := PScalar "string" ∅ ]};
     "City" := {[ "name" := PScalar "string" ∅ ]};
     "Physician" := {[ "degree" := PScalar "string" ∅; "school" := PClassVar "School" ]};
     "Record" := {[ "physician" := PClassVar "Physician"; "city" := PClassVar "City" ]} ]}.
Definition refs_in (c : string) (q : string * pvar) : list (string * string * string) :=
  match q.2 with PClassVar k => [(c, q.1, k)] | _ => [] end.
Definition all_refs (cs : gmap string pclass) : list (string * string * string) :=
  concat (map (fun p : string * pclass => concat (map (refs_in p.1) (map_to_list p.2))) (map_to_list cs)).
Lemma refers_cases (cs : gmap string pclass) c f k : refers cs c f k -> (c, f, k) ∈ all_refs cs.
Proof.
  intros (cl & Hc & Hf). unfold all_refs. apply elem_of_list_In, in_concat.
  eexists. split; [apply in_map, elem_of_list_In, elem_of_map_to_list, Hc|]. cbn.
  apply in_concat. eexists. split; [apply in_map, elem_of_list_In, elem_of_map_to_list, Hf|]. by left.
Qed.
(** The hypotheses can be decided by looking at all references. *)
Definition is_closed (cs : gmap string pclass) : bool := forallb (fun x => bool_decide (is_Some (cs !! x.2))) (all_refs cs).
Definition is_ranked (cs : gmap string pclass) (rank : string -> nat) : bool := forallb (fun x => rank x.2 <? rank x.1.1) (all_refs cs).
Definition is_shallow (cs : gmap string pclass) (c : string) : bool :=
  let next x := filter (fun y => y.1.1 = x) (all_refs cs) in
  bool_decide ((next c ≫= fun y => next y.2 ≫= fun z => next z.2) = []).
Lemma is_closed_ok cs : is_closed cs = true -> closed_schema cs.
Proof.
  intros H c f k Hr%refers_cases. unfold is_closed in H. rewrite forallb_forall in H.
  apply elem_of_list_In in Hr. specialize (H _ Hr). by apply bool_decide_eq_true in H.
Qed.
Lemma is_ranked_ok cs rank : is_ranked cs rank = true -> acyclic cs.
Proof.
  intros H. unfold is_ranked in H. rewrite forallb_forall in H.
  intros c Hc. assert (forall x y, tc (references cs) x y -> rank y < rank x) as Ht; [|specialize (Ht _ _ Hc); lia].
  assert (forall c f k, refers cs c f k -> rank k < rank c) as Hr.
  { intros a f k Hr%refers_cases. apply elem_of_list_In in Hr. specialize (H _ Hr). by apply Nat.ltb_lt in H. }
  intros x y Hxy. induction Hxy as [x y [f Hf]|x y z [f Hf] _ IH]; [by eapply Hr|]. apply Hr in Hf. lia.
Qed.
Lemma is_shallow_ok cs c : is_shallow cs c = true -> shallow cs c.
Proof.
  intros H%bool_decide_eq_true a b d [f1 H1%refers_cases] [f2 H2%refers_cases] [f3 H3%refers_cases].
  assert ((b, f3, d) ∈ @nil (string * string * string)) as Hin; [|by apply elem_of_nil in Hin].
  rewrite <- H. apply elem_of_list_bind. exists (c, f1, a). split; [|by apply elem_of_list_filter].
  apply elem_of_list_bind. exists (a, f2, b). split; [|by apply elem_of_list_filter]. by apply elem_of_list_filter.
Qed.
Example C38_schema_closed : closed_schema C38_schema.
Proof. apply is_closed_ok. vm_compute. reflexivity. Qed.
Example C38_schema_acyclic : acyclic C38_schema.
Proof.
  apply (is_ranked_ok _ (fun c => if bool_decide (c = "Record") then 2 else if bool_decide (c = "Physician") then 1 else 0)).
  vm_compute. reflexivity.
Qed.
Example C38_schema_result : (dm ← match compute_domains 3 C38_schema with Ok dm => Some dm | _ => None end; dm !! "Record") =
  Some ["City"; "School"; "Physician"; "Record"].
Proof. vm_compute. reflexivity. Qed.
Example C39_schema_shallow : shallow C38_schema "Record".
Proof. apply is_shallow_ok. vm_compute. reflexivity. Qed.
(** Two classes that refer to each other. *)
Definition C38_cycle : gmap string pclass :=
  {[ "A" := {[ "b" := PClassVar "B" ]}; "B" := {[ "a" := PClassVar "A" ]} ]}.
Example C38_cycle_hyps : closed_schema C38_cycle /\ is_Some (C38_cycle !! "A") /\ tc (references C38_cycle) "A" "A".
Proof.
  split_and!; [apply is_closed_ok; vm_compute; reflexivity|vm_compute; eauto|].
  eapply tc_l; [|apply tc_once].
  - exists "b", {[ "b" := PClassVar "B" ]}. done.
  - exists "a", {[ "a" := PClassVar "A" ]}. done.
Qed.

Definition unwrap {A} (d : A) (o : outcome A) : A := match o with Ok a => a | _ => d end.
Definition is_ok {A} (o : outcome A) : bool := match o with Ok _ => true | _ => false end.
Lemma unwrap_ok {A} (d : A) o : is_ok o = true -> o = Ok (unwrap d o).
Proof. by destruct o. Qed.
(** A chain of four classes: A refers to B, B to C, C to D.  The entity of class B in the
    item vectors of A gets the link of C's field as well. *)
Definition C39_chain : gmap string pclass :=
  {[ "A" := {[ "b" := PClassVar "B" ]}; "B" := {[ "c" := PClassVar "C" ]};
     "C" := {[ "d" := PClassVar "D" ]}; "D" := {[ "name" := PScalar "string" ∅ ]} ]}.
Theorem C39_links_refuted : exists cs dm cache ds, closed_schema cs /\ acyclic cs /\
  compute_domains 4 cs = Ok dm /\ compute_refs 4 cs dm = Ok cache /\
  dm !! "A" = Some ds /\ ds = ["D"; "C"; "B"; "A"] /\
  link (default ∅ (cache !! "A")) 2 "d" = Some 0 /\ (forall k, ~ refers cs "B" "d" k) /\
  ~ links_exact cs ds (default ∅ (cache !! "A")).
Proof.
  set (dm := unwrap ∅ (compute_domains 4 C39_chain)).
  assert (compute_domains 4 C39_chain = Ok dm) as E1 by (apply unwrap_ok; vm_compute; reflexivity).
  set (cache := unwrap ∅ (compute_refs 4 C39_chain dm)).
  assert (compute_refs 4 C39_chain dm = Ok cache) as E2 by (apply unwrap_ok; vm_compute; reflexivity).
  assert (link (default ∅ (cache !! "A")) 2 "d" = Some 0) as Hl by (vm_compute; reflexivity).
  assert (dm !! "A" = Some ["D"; "C"; "B"; "A"]) as HA by (vm_compute; reflexivity).
  clearbody cache. clearbody dm.
  assert (forall k, ~ refers C39_chain "B" "d" k) as Hno.
  { intros k (cl & H1 & H2). vm_compute in H1. injection H1 as <-. vm_compute in H2. discriminate. }
  exists C39_chain, dm, cache, ["D"; "C"; "B"; "A"]. split_and!; try done.
  - apply is_closed_ok. vm_compute. reflexivity.
  - apply (is_ranked_ok _ (fun c => if bool_decide (c = "A") then 3 else if bool_decide (c = "B") then 2 else if bool_decide (c = "C") then 1 else 0)).
    vm_compute. reflexivity.
  - intros He. destruct (He _ _ _ Hl) as (k & k' & Hk & Hr). cbn in Hk. injection Hk as <-. by apply Hno in Hr.
Qed.
Print Assumptions C39_links_refuted.
