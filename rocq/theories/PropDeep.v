(** Property C52: documents are valid at every depth. *)
From Verif Require Import PyStr Regex Value Types Rules Pydantic ClassTable Classes Canon Fix Linked SpecParse Sample ProofRules ProofParse
  State SpecState ProofState PropState Resolve SpecResolve ProofResolve Dump SpecDump ProofDump PropDump SpecDeep.
Local Open Scope string_scope.

Lemma extras_valid_canon E c k fs fv ex : wf_ty (TModel c k fs) = true -> after_ok E c k fv ex = true -> extras_valid E k fs ex.
Proof.
  intros Hw Ha. unfold after_ok in Ha. apply andb_prop in Ha as [Ha _]. cbn [wf_ty] in Hw. apply andb_prop in Hw as [Hm _]. unfold model_ok in Hm.
  apply andb_prop in Hm as [Hm _]. apply andb_prop in Hm as [Hm _]. apply andb_prop in Hm as [Hm _]. apply andb_prop in Hm as [_ Hx].
  destruct k; cbn [extras_ok extras_valid] in *; [|destruct ex; [reflexivity|discriminate Ha]|exact I].
  intros key Hk. apply in_map_iff in Hk as (kv & <- & Hi). rewrite forallb_forall in Ha. specialize (Ha kv Hi). split; [apply ext_key_iff; exact Ha|].
  intros Hd. apply declared_in_keys in Hd. rewrite forallb_forall in Hx. specialize (Hx _ Hd). apply ext_key_starts in Ha. rewrite Ha in Hx. discriminate Hx.
Qed.
Lemma canon_deep E t o : linked t = true -> wf_ty t = true -> canon is_json E t o -> valid_throughout E o.
Proof.
  intros Hl Hw Hc x Hx. destruct x as [| | | | | | | |c fv ex|c d| |]; try exact I.
  - destruct (obj_in _ _ _ _ _ _ Hl Hw Hc Hx) as (k & fs & Hl' & Hw' & Hc'). exists k, fs. split; [apply linked_in_table; exact Hl'|].
    assert (Hwt := canon_wt _ _ _ Hw' _ Hc'). cbn [canon] in Hc'. destruct Hc' as (fv' & ex' & Heq & _ & _ & Ha). injection Heq as <- <-.
    cbn [well_typed] in Hwt. destruct Hwt as (fv' & ex' & Heq & Hwt & _). injection Heq as <- <-. split; [exact Hwt|].
    split; [|eapply extras_valid_canon; eauto]. unfold after_ok in Ha. apply andb_prop in Ha as [_ Ha]. apply hook_iff. exact Ha.
  - destruct (canon_within _ _ _ Hl Hw _ Hc _ Hx I) as [(t' & Hm & Hl' & Hw' & Hc')|(a & Ha & Hi)].
    + destruct t'; try contradiction; cbn [canon] in Hc'; [destruct Hc' as (? & ? & He & _); discriminate He|]. destruct Hc' as (d' & He & Hd & Hk). injection He as -> <-.
      exists t'. split; [apply find_root_In; apply linked_root; exact Hl'|]. intros key y Hi. split.
      * unfold root_keys_ok in Hk. rewrite forallb_forall in Hk. apply patterned_key_iff. exact (Hk _ Hi).
      * rewrite Forall_forall in Hd. eapply canon_wt; [exact Hw'|exact (Hd _ Hi)].
    + exfalso. exact (Ha _ Hi).
Qed.
(** ** C52 *)
Theorem c52_parsed_valid E t v o : In t all_types -> is_json v -> parse E t v = Some o -> valid_throughout E o.
Proof. intros Hi Hj Hp. exact (canon_deep E t o (linked_all _ Hi) (wf_all _ Hi) (loaded_json _ _ _ _ Hi Hp Hj)). Qed.
(** Also for data that contains instances, as long as what it puts into untyped places is plain data. *)
Theorem c52_instances_valid E t v o : In t all_types -> parse E t v = Some o -> json_data t o -> valid_throughout E o.
Proof. intros Hi Hp Hj. exact (canon_deep E t o (linked_all _ Hi) (wf_all _ Hi) (parsed_json _ _ _ _ Hi Hp Hj)). Qed.
Example c52_ex : is_json doc0 /\ exists o fv, parse E0 T_AsyncAPI3 doc0 = Some o /\ within (VObj "Channel" fv []) o /\ get "address" fv = VStr (u "a/{p}").
Proof.
  split; [apply json_dec; vm_compute; reflexivity|].
  eexists. eexists. split; [vm_compute; reflexivity|]. split; [|shelve].
  eapply w_field; [do 5 right; left; reflexivity|]. eapply w_root; [left; reflexivity|]. apply w_self.
  Unshelve. vm_compute. reflexivity.
Qed.
(** The condition on untyped data is needed: an instance stored under an extension key is not looked at. *)
Definition bad_contact : pv := VObj "Contact" [(u "name", VInt 3)] [].
Theorem c52_needs_plain_data E : exists v o, parse E T_Info v = Some o /\ ~ valid_throughout E o.
Proof.
  exists (obj [("title", str "t"); ("version", str "1"); ("x-a", bad_contact)]).
  eexists. split; [vm_compute; reflexivity|]. intros H. 
  specialize (H bad_contact). cbv beta iota delta [bad_contact] in H. 
  destruct H as (k & fs & Hi & Hf & _).
  - eapply w_extra; [left; reflexivity|apply w_self].
  - apply linked_all, linked_class in Hi. vm_compute in Hi. injection Hi as <- <-. cbn in Hf. destruct Hf as (_ & [Hf|(s & Hf & _)] & _); discriminate Hf.
Qed.
Print Assumptions c52_parsed_valid.
