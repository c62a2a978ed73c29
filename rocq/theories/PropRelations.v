(** C71: the tag and external-documentation validators compared with the unified one. *)
From Verif Require Import PyStr Regex Value Types Rules Pydantic ClassTable Classes Canon Linked SpecParse Sample ProofRules ProofParse
  State SpecState ProofState PropState Resolve SpecResolve ProofResolve PropResolve Unified SpecUnified ProofUnified ProofCheck PropUnified
  Validators SpecValidators ProofValidators PropValidators.
Local Open Scope string_scope.

(** Every reference found is written '#/components/tags/<key>' (resp. externalDocs) or leads outside. *)
Definition plainly_written (locations : list (list dstep)) (prefix : pystr) (doc : pv) : Prop :=
  forall s, found locations doc s -> outside s \/ exists key, s = (prefix ++ key)%list /\ key <> [] /\ ~ In slash key.

Lemma selects_within v p r : selects v p r -> within r v.
Proof.
  induction 1 as [v|c fv ex f x p r H1 H2 IH|c fv ex f x p r H0 H1 H2 IH|l x p r H1 H2 IH|c d k x p r H1 H2 IH]; [constructor| | | |].
  - eapply w_field; [apply assoc_In; exact H1|exact IH].
  - eapply w_extra; [apply assoc_In; exact H1|exact IH].
  - eapply w_list; [exact H1|exact IH].
  - eapply w_root; [exact H1|exact IH].
Qed.
Lemma accepted_resolves E v doc r s e : parse E T_AsyncAPI3 v = Some doc -> no_objects v -> unified E doc = None -> within r doc -> is_reference r s ->
  resolve doc s <> Failed e.
Proof.
  intros Hp Hn Hu Hw Hs He. destruct (document_located E v doc r s Hp Hn Hw Hs) as (pos & p & D & _ & Hr).
  assert (Hc := proj1 (check_none E doc doc (u "spec")) Hu _ _ _ _ Hr Hs). unfold check_reference in Hc. rewrite He in Hc. discriminate Hc.
Qed.
Lemma no_prefix_inside prefix f key : family prefix f -> ~ In slash key -> erased prefix key key.
Proof.
  intros Hf Hk. induction key as [|c key IH]; [constructor|]. apply er_miss; [|apply IH; intros Hi; apply Hk; right; exact Hi].
  intros r Hr. apply Hk. rewrite Hr. apply in_or_app. left. destruct Hf as [[-> _]|[-> _]]; right; left; reflexivity.
Qed.
Lemma fam_factory prefix f : family prefix f -> exists pre, prefix = u pre /\ factory_ok pre ["components"; f] = true.
Proof. intros [[-> ->]|[-> ->]]; [exists "#/components/tags/"|exists "#/components/externalDocs/"]; split; try reflexivity; vm_compute; reflexivity. Qed.
Lemma family_entry E v doc prefix f key : parse E T_AsyncAPI3 v = Some doc -> family prefix f -> key <> [] -> ~ In slash key ->
  last_step doc (entry_at doc ["components"; f] key) (prefix ++ key)%list.
Proof.
  intros Hp Hf Hk1 Hk2. destruct (fam_factory _ _ Hf) as (pre & -> & Hok). exact (factory_resolves E v doc pre ["components"; f] key Hp Hok Hk1 Hk2).
Qed.
Lemma written_ok E v doc prefix f locations : parse E T_AsyncAPI3 v = Some doc -> no_objects v -> unified E doc = None -> family prefix f ->
  plainly_written locations prefix doc -> forall s, found locations doc s -> reference_ok doc prefix f s.
Proof.
  intros Hp Hn Hu Hf Hw s Hs. destruct (Hw s Hs) as [Ho|(key & -> & Hk1 & Hk2)]; [left; exact Ho|right]. split; [eauto|]. exists key.
  assert (Hl := family_entry E v doc prefix f key Hp Hf Hk1 Hk2). destruct (entry_at doc ["components"; f] key) as [o|] eqn:Eo.
  - exists o. split; [|reflexivity]. apply er_hit. eapply no_prefix_inside; eassumption.
  - exfalso. destruct Hs as (p & r & _ & Hr & Hs). exact (accepted_resolves E v doc r _ ENavigate Hp Hn Hu (selects_within _ _ _ Hr) Hs Hl).
Qed.
(** Accepted by the unified validator and plainly written: accepted by the two others. *)
Theorem c71_tags_partial E v doc : parse E T_AsyncAPI3 v = Some doc -> no_objects v -> unified E doc = None ->
  plainly_written tag_locations tag_prefix doc -> snd (tags_validator doc) = None.
Proof. intros Hp Hn Hu Hw. apply (c35_accepts_iff E doc (parsed_wt _ _ _ Hp)). exact (written_ok E v doc _ _ _ Hp Hn Hu fam_tags Hw). Qed.
Theorem c71_docs_partial E v doc : parse E T_AsyncAPI3 v = Some doc -> no_objects v -> unified E doc = None ->
  plainly_written docs_locations docs_prefix doc -> snd (docs_validator doc) = None.
Proof. intros Hp Hn Hu Hw. apply (c37_parsed E v doc Hp Hn). exact (written_ok E v doc _ _ _ Hp Hn Hu fam_docs Hw). Qed.
(** Without it: the unified validator also knows other spellings, and documentation given in place elsewhere. *)
Definition doc_spelled : pv :=
  spec [("channels", obj [("c", obj [("tags", VList [ref "#/components//tags/t"])])]); ("components", obj [("tags", obj [("t", obj [("name", str "n")])])])].
Definition doc_inplace : pv :=
  spec [("channels", obj [("c", obj [("externalDocs", ref "#/components/schemas/x/externalDocs")])]);
        ("components", obj [("schemas", obj [("x", obj [("externalDocs", obj [("url", str "http://e.org/")])])])])].
Theorem c71_subsumed_refuted :
  ~ (forall E v doc, parse E T_AsyncAPI3 v = Some doc -> no_objects v -> unified E doc = None -> snd (tags_validator doc) = None)
  /\ ~ (forall E v doc, parse E T_AsyncAPI3 v = Some doc -> no_objects v -> unified E doc = None -> snd (docs_validator doc) = None).
Proof.
  split; intros H.
  - specialize (H E0 doc_spelled (load_doc doc_spelled)). assert (Hx : snd (tags_validator (load_doc doc_spelled)) <> None) by (vm_compute; discriminate).
    apply Hx, H; [apply load_doc_ok; vm_compute; reflexivity|apply plain_dec; vm_compute; reflexivity|vm_compute; reflexivity].
  - specialize (H E0 doc_inplace (load_doc doc_inplace)). assert (Hx : snd (docs_validator (load_doc doc_inplace)) <> None) by (vm_compute; discriminate).
    apply Hx, H; [apply load_doc_ok; vm_compute; reflexivity|apply plain_dec; vm_compute; reflexivity|vm_compute; reflexivity].
Qed.
(** The other way round: a reference accepted by one of them and naming an entry given in place resolves to that entry. *)
Theorem c71_resolves_partial E v doc prefix f locations key s : parse E T_AsyncAPI3 v = Some doc -> no_objects v ->
  (prefix = tag_prefix /\ f = "tags" /\ locations = tag_locations /\ snd (tags_validator doc) = None
   \/ prefix = docs_prefix /\ f = "external_docs" /\ locations = docs_locations /\ snd (docs_validator doc) = None) ->
  found locations doc s -> s = (prefix ++ key)%list -> key <> [] -> ~ In slash key ->
  exists o, entry_at doc ["components"; f] key = Some o /\ ((forall s', ~ is_reference o s') -> exists p, resolve doc s = Resolved o p).
Proof.
  intros Hp Hn Hcase Hs -> Hk1 Hk2. assert (Hf : family prefix f) by (destruct Hcase as [(-> & -> & _)|(-> & -> & _)]; [exact fam_tags|exact fam_docs]).
  assert (Hok : reference_ok doc prefix f (prefix ++ key)%list).
  { destruct Hcase as [(-> & -> & -> & Ha)|(-> & -> & -> & Ha)].
    - exact (proj1 (c35_accepts_iff E doc (parsed_wt _ _ _ Hp)) Ha _ Hs).
    - exact (proj1 (c37_parsed E v doc Hp Hn) Ha _ Hs). }
  destruct Hok as [Ho|(_ & k & o & He & Ho)]; [exfalso; destruct Hf as [[-> _]|[-> _]]; eapply Ho; reflexivity|].
  assert (Hke := er_hit prefix key key (no_prefix_inside _ _ _ Hf Hk2)).
  apply erased_replace in He; [|eapply family_nonempty; exact Hf]. apply erased_replace in Hke; [|eapply family_nonempty; exact Hf]. rewrite Hke in He. subst k.
  exists o. split; [exact Ho|]. intros Hr. assert (Hl := family_entry E v doc prefix f key Hp Hf Hk1 Hk2). rewrite Ho in Hl. cbn [last_step] in Hl.
  destruct (ref_cases o) as [(s' & Hs' & _)|[_ Hz]]; [exfalso; exact (Hr _ Hs')|]. rewrite Hz in Hl. exact Hl.
Qed.
(** They do not follow references: a circular pair of tags passes. *)
Definition doc_circle : pv := spec [("components", obj [("tags", obj [("a", ref "#/components/tags/b"); ("b", ref "#/components/tags/a")])])].
Theorem c71_sound_refuted : ~ (forall E v doc s, parse E T_AsyncAPI3 v = Some doc -> no_objects v -> snd (tags_validator doc) = None ->
  found tag_locations doc s -> ~ outside s -> exists o p, resolve doc s = Resolved o p).
Proof.
  intros H. assert (Hp : parse E0 T_AsyncAPI3 doc_circle = Some (load_doc doc_circle)) by (apply load_doc_ok; vm_compute; reflexivity).
  destruct (H E0 doc_circle (load_doc doc_circle) (u "#/components/tags/a") Hp) as (o & p & Hr).
  - apply plain_dec. vm_compute. reflexivity.
  - vm_compute. reflexivity.
  - assert (Hin : In (u "#/components/tags/a") (gather [Attr "components"; Attr "tags"; Each] (load_doc doc_circle))) by (vm_compute; auto).
    apply gather_selects in Hin as (r & Hr & Hs). exists [Attr "components"; Attr "tags"; Each], r. split; [|auto].
    unfold tag_locations. do 12 right. left. reflexivity.
  - intros Ho. eapply Ho. reflexivity.
  - vm_compute in Hr. discriminate Hr.
Qed.
(** A document with tag and documentation references that all three accept. *)
Definition written_b (locations : list (list dstep)) (prefix : pystr) (doc : pv) : bool :=
  forallb (fun s => negb (starts_with (u "#") s)
    || (starts_with prefix s && (fun key => match key with [] => false | _ => negb (existsb (N.eqb 47) key) end) (skipn (length prefix) s)))
    (flat_map (fun p => gather p doc) locations).
Lemma starts_with_split p s : starts_with p s = true -> s = (p ++ skipn (length p) s)%list.
Proof.
  revert s. induction p as [|c p IH]; intros s H; [reflexivity|]. destruct s as [|d s]; [discriminate H|]. cbn [starts_with] in H. apply andb_prop in H as [H1 H2].
  apply N.eqb_eq in H1. subst d. cbn [length skipn app]. rewrite <- IH by exact H2. reflexivity.
Qed.
Lemma written_dec locations prefix doc : written_b locations prefix doc = true -> plainly_written locations prefix doc.
Proof.
  intros H s (p & r & Hp & Hr & Hs). assert (Hin : In s (flat_map (fun p => gather p doc) locations)).
  { apply in_flat_map. exists p. split; [exact Hp|]. apply gather_selects. eauto. }
  assert (Hb := proj1 (forallb_forall _ _) H s Hin). cbv beta in Hb. apply orb_prop in Hb as [Hb|Hb].
  - left. intros x ->. discriminate Hb.
  - right. apply andb_prop in Hb as [Hb1 Hb2]. exists (skipn (length prefix) s). split; [apply starts_with_split; exact Hb1|].
    set (key := skipn (length prefix) s) in *. clearbody key. destruct key as [|c key]; [discriminate Hb2|]. split; [discriminate|].
    apply negb_true_iff in Hb2. intros Hi. assert (Ht : existsb (N.eqb 47) (c :: key) = true) by (apply existsb_exists; exists slash; split; [exact Hi|reflexivity]). congruence.
Qed.
Definition doc_both : pv :=
  spec [("channels", obj [("c", obj [("tags", VList [ref "#/components/tags/t"; ref "https://e.org/t"]); ("externalDocs", ref "#/components/externalDocs/d")])]);
        ("components", obj [("tags", obj [("t", obj [("name", str "n")]); ("t2", ref "#/components/tags/t")]); ("externalDocs", obj [("d", obj [("url", str "http://e.org/")])])])].
Example c71_ex : parse E0 T_AsyncAPI3 doc_both = Some (load_doc doc_both) /\ no_objects doc_both /\ unified E0 (load_doc doc_both) = None
  /\ plainly_written tag_locations tag_prefix (load_doc doc_both) /\ plainly_written docs_locations docs_prefix (load_doc doc_both)
  /\ flat_map (fun p => gather p (load_doc doc_both)) tag_locations = [u "#/components/tags/t"; u "https://e.org/t"; u "#/components/tags/t"]
  /\ flat_map (fun p => gather p (load_doc doc_both)) docs_locations = [u "#/components/externalDocs/d"].
Proof.
  split; [apply load_doc_ok; vm_compute; reflexivity|]. split; [apply plain_dec; vm_compute; reflexivity|]. split; [vm_compute; reflexivity|].
  split; [apply written_dec; vm_compute; reflexivity|]. split; [apply written_dec; vm_compute; reflexivity|]. split; vm_compute; reflexivity.
Qed.
Print Assumptions c71_tags_partial.
Print Assumptions c71_docs_partial.
Print Assumptions c71_resolves_partial.
Print Assumptions c71_subsumed_refuted.
Print Assumptions c71_sound_refuted.
