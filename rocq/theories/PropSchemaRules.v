(** C97: the published schema and the library's rules together decide acceptance. *)
From Verif Require Import PyStr Value Types Rules Pydantic ClassTable Classes Linked SpecDump SpecParse ProofRules ProofParse SpecState JsonSchema SpecJsonSchema ProofJsonSchema PropJsonSchema SpecSchemaRules ProofSchemaRules Sample.
Local Open Scope string_scope.

Lemma meets_less root kws ds v : meets root (VDict (kws ++ [kw "$defs" ds])%list) v -> meets root (VDict kws) v.
Proof.
  intros H. unfold kw in H. inversion H as [|? ? G1 G2 G3 G4 G5 G6 G7 G8 G9 G10 G11]; subst.
  assert (Hm : forall k s, mentioned (kws ++ [(u "$defs", ds)])%list k s <-> mentioned kws k s).
  { intros k s. unfold mentioned. split; intros (ps & Hp & Ha); exists ps; (split; [|exact Ha]); [rewrite assoc_more in Hp by discriminate; exact Hp|rewrite assoc_more by discriminate; exact Hp]. }
  apply meets_keywords; intros;
    try (match goal with H : assoc ?k kws = _ |- _ => assert (Hk := H); rewrite <- (assoc_more k kws (u "$defs") ds) in Hk by discriminate end; eauto; fail).
  - eapply G7; eauto. apply Hm. assumption.
  - eapply G8; eauto; [|rewrite assoc_more by discriminate; assumption]. intros s' Hs'. apply Hm in Hs'. match goal with H : forall s', ~ mentioned _ _ s' |- _ => exact (H s' Hs') end.
Qed.
Lemma satisfies_class t v : In t all_types -> satisfies (model_json_schema t) v -> exists s, In s (alternatives t) /\ meets (model_json_schema t) s v.
Proof.
  intros Hi H. assert (Hd := defs_found t). unfold satisfies in H. assert (Hg : meets (model_json_schema t) (VDict (definition t)) v).
  { unfold model_json_schema in H at 2. generalize dependent (model_json_schema t). intros root H _. apply meets_less in H. exact H. }
  assert (Hc := table_class _ Hi). destruct t; try discriminate Hc; (eexists; split; [left; reflexivity|]); eapply meets_class; eauto; reflexivity.
Qed.
(** JSON with the specification's names is accepted, without conversions, exactly when it meets the schema and breaks none of the rules. *)
Theorem c97_decides E t v : In t all_types -> url_input_sized E -> is_json v -> python_dicts v -> spec_spelling t v ->
  (exists o, parse (strictly E) t v = Some o) <-> satisfies (model_json_schema t) v /\ ~ broken (strictly E) (model_json_schema t) t v.
Proof.
  intros Hi Hu Hj Hd Hs. split.
  - intros [o Hp]. split; [eapply c96_accepted_partial; eauto|]. intros Hb. apply parse_some in Hp as [n Hp].
    rewrite (broken_refused E _ Hu (defs_found t) t v Hb (linked_all _ Hi) (wf_all _ Hi) (or_introl (class_procs _ Hi)) Hj Hd Hs) in Hp. discriminate Hp.
  - intros [Hm Hn]. destruct (meets_decides (strictly E) _ (defs_found t) t (linked_all _ Hi) (wf_all _ Hi) (class_procs _ Hi) v Hj Hd Hs (satisfies_class _ _ Hi Hm)) as [[[o n] Hv]|Hb]; [|contradiction].
    exists o. apply parse_some. eauto.
Qed.
(** With or without conversions: a value that meets the schema is accepted, or one of the rules is broken. *)
Theorem c97_refused_for_a_rule E t v : In t all_types -> is_json v -> python_dicts v -> spec_spelling t v -> satisfies (model_json_schema t) v -> parse E t v = None ->
  broken E (model_json_schema t) t v.
Proof.
  intros Hi Hj Hd Hs Hm Hp. destruct (meets_decides E _ (defs_found t) t (linked_all _ Hi) (wf_all _ Hi) (class_procs _ Hi) v Hj Hd Hs (satisfies_class _ _ Hi Hm)) as [[[o n] Hv]|Hb]; [|exact Hb].
  assert (parse E t v = Some o) by (apply parse_some; eauto). congruence.
Qed.
Lemma rule_free_unbroken E root : assoc (u "$defs") root = Some (VDict (definitions all_types)) -> forall t v, broken E root t v -> rule_free t = true -> linked t = true -> wf_ty t = true ->
  (exists s, In s (alternatives t) /\ meets root s v) -> False.
Proof.
  intros Hr t v Hb. induction Hb as [s Hn|h s Hn|t l x Hi Hb IH|t d k x Hi Hb IH|c t d k x Hi Hb IH|c k fs d fi t x Hf Hi Hb IH|t v Hv Hb IH|ts v Hall IH|c k fs d fi t x y Hf Hi Hy Hn|c k fs d fv Hf Hn|c fs d key Hun Hn|c t d key Hk Hn|v Hn];
    intros Hfree Hl Hw (s0 & Hs & Hm); try discriminate Hfree; cbn [rule_free] in Hfree.
  - apply (IH Hfree Hl Hw). destruct Hs as [<-|[]]. unfold typed in Hm. inversion Hm as [|? ? G1 G2 G3 G4 G5 G6 G7 G8 G9 G10 G11]; subst. apply one_of_them_inv. eapply G9; [reflexivity|exact Hi|reflexivity].
  - apply (IH Hfree Hl Hw). destruct Hs as [<-|[]]. apply any_or_inv. exact (map_inv _ _ _ Hm _ _ Hi).
  - apply andb_prop in Hfree as [_ Hfree]. rewrite forallb_forall in Hfree. specialize (Hfree _ Hf). cbn [fst snd] in Hfree. apply andb_prop in Hfree as [_ Hfree].
    apply (IH Hfree (linked_sub _ _ _ _ Hl Hf) (wf_sub _ _ _ _ Hw Hf)). destruct Hs as [<-|[]]. apply (meets_ref root c (TModel c k fs)) in Hm; [|exact (linked_In _ _ _ Hl)|reflexivity|exact Hr].
    apply object_inv in Hm as (d' & He & _ & Hfs & _); [|apply shown_distinct; exact (aliases_distinct _ _ _ Hw)]. injection He as <-. apply (Hfs fi t x); [|exact Hi]. apply filter_In. split; [exact Hf|].
    cbn [snd]. destruct (skipped t) eqn:Es; [|reflexivity]. apply skipped_eq in Es. subst t. discriminate Hfree.
  - apply (IH Hfree Hl Hw). cbn [alternatives] in Hs. apply in_app_or in Hs as [Hs|[<-|[]]]; [eauto|]. exfalso. apply typed_inv in Hm. apply has_type_inv in Hm as (_ & _ & _ & Hm & _). exact (Hv (Hm eq_refl)).
  - rewrite forallb_forall in Hfree. cbn [alternatives] in Hs. apply in_flat_map in Hs as (t & Hi & Hs). apply (IH t Hi); [apply one_of_them_meets; eauto|auto|exact (linked_union _ _ Hl Hi)|exact (wf_union _ _ Hw Hi)|eauto].
  - apply andb_prop in Hfree as [_ Hfree]. rewrite forallb_forall in Hfree. specialize (Hfree _ Hf). cbn [fst snd] in Hfree. apply andb_prop in Hfree as [Hfree _]. destruct (f_val fi); try discriminate Hfree. apply Hn. exact I.
  - apply andb_prop in Hfree as [Hfree _]. apply andb_prop in Hfree as [_ Hfree]. apply negb_true_iff in Hfree. apply Hn. unfold cross_field_spec; repeat apply conj; intros ->; discriminate Hfree.
Qed.
(** A class without rules, at any depth: the schema alone decides. *)
Theorem c97_without_rules E t v : In t all_types -> rule_free t = true -> url_input_sized E -> is_json v -> python_dicts v -> spec_spelling t v ->
  (exists o, parse (strictly E) t v = Some o) <-> satisfies (model_json_schema t) v.
Proof.
  intros Hi Hf Hu Hj Hd Hs. rewrite (c97_decides E _ _ Hi Hu Hj Hd Hs). split; [tauto|]. intros Hm. split; [exact Hm|]. intros Hb.
  exact (rule_free_unbroken _ _ (defs_found t) t v Hb Hf (linked_all _ Hi) (wf_all _ Hi) (satisfies_class _ _ Hi Hm)).
Qed.
Example c97_free_ex : Forall (fun t => rule_free t = true) [T_Reference; T_MultiFormatSchema; T_AMQPExchange; T_SNSChannelBindings; T_SQSChannelBindings; T_KafkaTopicConfiguration].
Proof. repeat constructor. Qed.
(** Examples: a contact meets the schema, and is refused for its e-mail address; with a good one it is accepted. *)
Lemma contact_row : In T_Contact all_types.
Proof. in_table. Qed.
Definition contact (e : string) : pv := obj [("name", str "n"); ("email", str e)].
Lemma contact_data e : is_json (contact e) /\ python_dicts (contact e) /\ spec_spelling T_Contact (contact e).
Proof.
  split; [flat|]. split; [flat|]. unfold T_Contact, contact. cbn [spec_spelling obj map fst snd].
  repeat split; try exact I; try (intros Hne; exfalso; apply Hne; reflexivity).
Qed.
Example c97_ex : In T_Contact all_types /\ url_input_sized E1 /\ (exists o, parse (strictly E1) T_Contact (contact "me@example.com") = Some o)
  /\ satisfies (model_json_schema T_Contact) (contact "me@example.com") /\ parse (strictly E1) T_Contact (contact "me") = None
  /\ satisfies (model_json_schema T_Contact) (contact "me") /\ broken (strictly E1) (model_json_schema T_Contact) T_Contact (contact "me").
Proof.
  split; [exact contact_row|]. split; [exact E1_in|]. destruct (contact_data "me@example.com") as (J1 & J2 & J3). destruct (contact_data "me") as (K1 & K2 & K3).
  assert (Ha : exists o, parse (strictly E1) T_Contact (contact "me@example.com") = Some o) by (destruct (parse (strictly E1) T_Contact (contact "me@example.com")) eqn:Eo; [eauto|vm_compute in Eo; discriminate Eo]).
  assert (Hn : parse (strictly E1) T_Contact (contact "me") = None) by (vm_compute; reflexivity).
  assert (Hm : satisfies (model_json_schema T_Contact) (contact "me")).
  { apply class_satisfies; [exact contact_row|]. eexists. split; [left; reflexivity|]. eapply meets_class; [apply defs_found|exact contact_row|reflexivity|]. generalize (model_json_schema T_Contact). intros root.
    apply meets_object; [repeat constructor; cbn; intuition discriminate|intros fi t Hi; vm_compute in Hi; contradiction|].
    intros a x Hi. left. destruct Hi as [Hi|[Hi|[]]]; injection Hi as <- <-.
    - eexists _, (TOpt (TStr None)). split; [left; reflexivity|]. split; [reflexivity|]. apply one_of_them_meets. eexists. split; [left; reflexivity|]. apply meets_string; try reflexivity; intros; discriminate.
    - eexists _, (TOpt TEmail). split; [right; right; left; reflexivity|]. split; [reflexivity|]. apply one_of_them_meets. eexists. split; [left; reflexivity|]. apply meets_string; try reflexivity; intros; discriminate. }
  split; [exact Ha|]. split; [destruct Ha as [o Ha]; eapply c96_accepted_partial; eauto; [exact contact_row|exact E1_in]|]. split; [exact Hn|]. split; [exact Hm|]. apply c97_refused_for_a_rule; auto. exact contact_row.
Qed.
Print Assumptions c97_decides. Print Assumptions c97_refused_for_a_rule. Print Assumptions c97_without_rules.
