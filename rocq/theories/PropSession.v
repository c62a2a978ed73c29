(** C105: a session of work.  A document is loaded, changed, and saved; what was saved loads to what was in memory. *)
From Verif Require Import PyStr Regex Value Types Rules Pydantic ClassTable Classes Canon Fix Linked SpecParse Sample ProofRules ProofParse
  State SpecState ProofState PropState Resolve SpecResolve ProofResolve PropResolve Unified SpecUnified ProofUnified ProofCheck PropUnified
  ProofDump Validators SpecValidators ProofValidators PropValidators Pipeline SpecPipeline PropPipeline Dump SpecDump PropDump SpecDeep PropDeep SpecAssign PropAssign SpecHistory PropHistory
  SpecRevalidate PropRevalidate PropReload PropLayout JsonSchema SpecJsonSchema ProofJsonSchema PropJsonSchema
  JsonText SpecJsonText ProofJsonText ProofJsonRead ProofJsonWrite PropJsonText SpecSession.
Local Open Scope string_scope.

Lemma valid_aliases E v : valid_throughout E v -> no_shadowing v -> own_aliases v.
Proof.
  intros Hv Hs c fv ex key Hw Hk Ha. destruct (Hv _ Hw) as (k & fs & Hi & _ & _ & Hx).
  assert (Hc : class_fields c = fs /\ class_kind c = k).
  { exact (linked_fields c k fs (linked_all _ Hi)). }
  destruct Hc as [Hc Hck]. rewrite Hc in Ha. apply in_map_iff in Ha as ([fi t] & <- & Hf). assert (Hd : declared fs (f_alias fi)) by (exists fi, t; auto).
  destruct k; cbn [extras_valid] in Hx.
  - exact (proj2 (Hx _ Hk) Hd).
  - subst ex. destruct Hk.
  - apply (Hs c fv ex _ Hw Hck Hk). rewrite Hc. exact Hd.
Qed.

(** ** C105 *)
(** Validating the edited document again changes nothing, and the data saved of it loads to it, processors aside. *)
Theorem c105_reload_partial E procs t v doc : url_idem E -> inert procs -> In t all_types -> session E procs t v doc -> savable t doc ->
  parse E t doc = Some doc /\ parse E t (dump doc) = Some (without_processors doc).
Proof.
  intros Hu Hn Hi H [H1 H2 H3 H4 H5 H6]. destruct H as [doc0 doc Hj Hp Hh]. destruct (proj1 (c89_loaded_partial E procs t v doc0 doc Hn Hi Hj Hp) Hh) as [Hv Ht].
  assert (Hs := c74_valid_unchanged E t doc Hi Hu H1 H3 H6 Ht Hv). split; [exact Hs|]. exact (c17_reload_partial E t doc doc Hu Hi H1 Hs H2 H3 H4 H5).
Qed.
(** What is saved meets the published schema, whether or not it is [savable] otherwise. *)
Theorem c105_schema E procs t v doc : inert procs -> In t all_types -> url_output_sized E -> session E procs t v doc -> no_shadowing doc ->
  satisfies (model_json_schema t) (dump doc).
Proof.
  intros Hn Hi Hu H Hs. destruct H as [doc0 doc Hj Hp Hh]. destruct (proj1 (c89_loaded_partial E procs t v doc0 doc Hn Hi Hj Hp) Hh) as [Hv Ht].
  exact (c95_changed E t doc Hi Hu Ht (valid_aliases E doc Hv Hs)).
Qed.
(** The same as text; any proper prefix of the text is refused; saving once more writes the same text. *)
Theorem c105_text_partial E F n procs t v doc text : url_idem E -> faithful F -> inert procs -> In t all_types -> session E procs t v doc -> savable t doc ->
  finite F doc -> nesting doc <= n -> write F doc = Some text ->
  load_json E F n t text = Some (without_processors doc) /\ write F (without_processors doc) = Some text
  /\ forall p q m t' o, text = (p ++ q)%list -> load_json E F m t' p = Some o -> q = [].
Proof.
  intros Hu HF Hin Hi H Hs Hf Hn Hw. destruct (c105_reload_partial E procs t v doc Hu Hin Hi H Hs) as [Hp Hr]. split; [|split].
  - unfold load_json. rewrite (c91_instance_roundtrip E F n t doc doc text HF Hi (sv_dicts _ _ Hs) Hp (sv_data _ _ Hs) Hf Hn Hw). exact Hr.
  - rewrite write_without. exact Hw.
  - intros p q m t' o Heq Hl. assert (Hc : container doc).
    { assert (Ht := parse_wt _ _ _ _ (wf_all _ Hi) Hp). assert (Hcl := table_class t Hi). destruct t; try discriminate Hcl; cbn [well_typed] in Ht; [destruct Ht as (fv & ex & -> & _)|destruct Ht as (d & -> & _)]; exact I. }
    destruct q as [|c q]; [reflexivity|]. exfalso. unfold load_json in Hl. rewrite (c92_cut_short F m doc text p (c :: q) HF Hc Hw Heq) in Hl by discriminate. discriminate Hl.
Qed.
(** The validators say of the document loaded again what they say of the one in memory. *)
Theorem c105_verdicts_partial E procs v doc doc' : url_idem E -> inert procs -> session E procs T_AsyncAPI3 v doc -> savable T_AsyncAPI3 doc ->
  parse E T_AsyncAPI3 (dump doc) = Some doc' ->
  (forall n, bundled E n doc' = bundled E n doc) /\ option_map fst (unified E doc') = option_map fst (unified E doc).
Proof.
  intros Hu Hin H Hs Hp'. destruct (c105_reload_partial E procs _ v doc Hu Hin in_root H Hs) as [Hp Hr]. destruct Hs as [H1 H2 H3 H4 H5 H6].
  exact (c69_verdicts_partial E doc doc doc' Hu H1 Hp H2 H3 H4 H5 Hp').
Qed.
(** Refuted: without conditions.  A field with a default is set to None: it loads again as the default. *)
Definition mq : pv := obj [("destination", str "q")].
Definition mq_loaded : pv := VObj "AnypointMQChannelBindings" [(u "destination", str "q"); (u "destination_type", str "queue"); (u "binding_version", str "0.1.0")] [].
Definition mq_changed : pv := VObj "AnypointMQChannelBindings" [(u "destination", str "q"); (u "destination_type", VNone); (u "binding_version", str "0.1.0")] [].
Theorem c105_reload_refuted E : ~ (forall procs t v doc, inert procs -> In t all_types -> session E procs t v doc -> parse E t (dump doc) = Some (without_processors doc)).
Proof.
  intros H. assert (Hs : session E no_procs T_AnypointMQChannelBindings mq mq_changed).
  { apply (sess _ _ _ _ mq_loaded); [apply json_dec; reflexivity|vm_compute; reflexivity|]. eapply h_more; [apply h_none|].
    eapply (edited_at _ _ _ _ _ []); [reflexivity| |reflexivity|intros _ fv ex; discriminate].
    apply (ed_attr _ _ _ _ (u "destination_type") VNone); [|apply atom_valid; exact I|vm_compute; reflexivity].
    intros c fv ex fi t Heq Hk. injection Heq as <- <- <-. vm_compute in Hk. discriminate Hk. }
  specialize (H no_procs T_AnypointMQChannelBindings _ _ (fun o => eq_refl) ltac:(in_table) Hs). vm_compute in H. discriminate H.
Qed.
(** The history of C89 is a session and ends in a savable document. *)
Example c105_ex : url_idem E0 /\ inert no_procs /\ session E0 no_procs T_AsyncAPI3 docF lastF /\ savable T_AsyncAPI3 lastF /\ finite F0 lastF /\ nesting lastF <= 8
  /\ exists text, write F0 lastF = Some text /\ lastF <> load_doc docF.
Proof.
  split; [exact E0_url_idem|]. split; [intros o; reflexivity|]. split; [exact (sess _ _ _ _ _ _ (proj1 docF_valid) (proj2 docF_valid) (proj1 c89_ex))|].
  split; [constructor|].
  - apply python_dicts_dec. vm_compute. reflexivity.
  - apply jd_dec. vm_compute. reflexivity.
  - apply no_shadowing_dec. vm_compute. reflexivity.
  - apply null_dec. vm_compute. reflexivity.
  - apply ambiguity_dec. vm_compute. reflexivity.
  - apply settled_dec. vm_compute. reflexivity.
  - split; [apply finite_dec; vm_compute; reflexivity|]. split; [apply Nat.leb_le; vm_compute; reflexivity|]. eexists. split; [vm_compute; reflexivity|]. exact (proj1 (proj2 c89_ex)).
Qed.
Print Assumptions c105_reload_partial. Print Assumptions c105_schema. Print Assumptions c105_text_partial. Print Assumptions c105_verdicts_partial. Print Assumptions c105_reload_refuted.
