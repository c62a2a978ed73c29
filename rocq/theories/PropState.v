(** Properties C12-C16 and C46: what happens to validated objects when they are modified. *)
From Verif Require Import PyStr Regex Value Types Rules Pydantic ClassTable Classes Canon Linked SpecParse Sample ProofRules ProofParse
  State SpecState ProofState.
Local Open Scope string_scope.

(** ** C12.  The results of any sequence of mapping operations are those of an insertion-ordered
    dictionary with the same history (the history of the starting map is the writing of its items). *)
Theorem c12_history d ops : NoDup (map fst d) ->
  observations (map (fun kv => Wrote (fst kv) (snd kv)) d) ops (fst (root_run d ops)).
Proof.
  intros Hn. destruct (root_run d ops) as [rs d'] eqn:E. exact (proj1 (root_run_ok ops _ d rs d' (inv_initial d Hn) E)).
Qed.
(** The history determines every answer, so this pins the results down. *)
Theorem c12_holds_functional h k v w : holds h k v -> holds h k w -> v = w.
Proof. exact (holds_fun h k v w). Qed.
Theorem c12_error_unchanged d o d' : root_step d o = (RKeyError, d') -> d' = d.
Proof. exact (root_step_error d o d'). Qed.
Theorem c12_reads_pure d o r d' : root_step d o = (r, d') -> (forall k v, o <> RSet k v) -> (forall k, o <> RDel k) -> d' = d.
Proof. exact (root_step_pure d o r d'). Qed.
Example c12_ex : fst (root_run [(u "a", VInt 1)] [RSet (u "b") (VInt 2); RSet (u "a") (VInt 3); RDel (u "a"); RGet (u "a"); RSet (u "a") (VInt 4); RIter; RLen; RHas (u "b"); RDel (u "zz")])
  = [ROk; ROk; ROk; RKeyError; ROk; RKeys [u "b"; u "a"]; RNat 2; RBool true; RKeyError].
Proof. vm_compute. reflexivity. Qed.

(** ** C13.  Refuted: item assignment is not validated. *)
Theorem c13_item_assignment_refuted E :
  ~ (forall v d ops, parse E T_Tags v = Some (VRoot "Tags" d) ->
       well_typed E T_Tags (VRoot "Tags" (snd (root_run d ops)))
       /\ forall k, In k (map fst (snd (root_run d ops))) -> upto_nl doc_key k).
Proof.
  intros H. destruct (H (VDict []) [] [RSet (u "bad key!") (VInt 5)] eq_refl) as [H1 H2].
  cbn [root_run root_step dict_set snd] in H1. destruct H1 as (d & Hd & HF). inversion Hd; subst. inversion HF as [|? ? Hx _]; subst.
  cbn in Hx. destruct Hx as [(? & ? & Hx & _)|[(? & ? & Hx & _)|[]]]; discriminate.
Qed.
(** Strongest true version: operations keep maps valid exactly as far as the caller validates what is stored. *)
Theorem c13_items_partial E c t ops : forall d,
  well_typed E (TRoot c t) (VRoot c d) -> (forall k, In k (map fst d) -> upto_nl doc_key k) ->
  (forall k v, In (RSet k v) ops -> upto_nl doc_key k /\ well_typed E t v) ->
  well_typed E (TRoot c t) (VRoot c (snd (root_run d ops)))
  /\ forall k, In k (map fst (snd (root_run d ops))) -> upto_nl doc_key k.
Proof. exact (root_run_valid E c t ops). Qed.
Example c13_ex : exists d, parse E0 T_Tags (obj [("a", obj [("name", str "t")])]) = Some (VRoot "Tags" d)
  /\ snd (root_run d [RSet (u "b") (VObj "Reference" [(u "ref", str "#/x")] []); RDel (u "a")]) = [(u "b", VObj "Reference" [(u "ref", str "#/x")] [])].
Proof. eexists. split; [vm_compute; reflexivity|]. vm_compute; reflexivity. Qed.

(** ** C14.  [procs] is the effect of the configured processors on the document object (they run on
    every assignment to an AsyncAPI3 instance). *)
Theorem c14_assignments_keep_types E procs t v o l :
  In t all_types -> keeps E procs -> parse E t v = Some o -> never_shadowed E procs l o ->
  well_typed E t (assign_run E procs l o).
Proof.
  intros Ht Hk Hp Hs. apply assign_run_wt; [exact Hk|exact (linked_all _ Ht)|exact (wf_all _ Ht)| |exact Hs].
  eapply parse_wt; [exact (wf_all _ Ht)|exact Hp].
Qed.
(** A value that the field's type or validator rejects: raises, nothing changes. *)
Theorem c14_rejected_unchanged E procs c k fs fv ex fi t x :
  In (TModel c k fs) all_types -> In (fi, t) fs ->
  (parse E t x = None \/ exists y, parse E t x = Some y /\ ~ field_rule E (f_val fi) y) ->
  assign E procs (VObj c fv ex) (f_name fi) x = (false, VObj c fv ex).
Proof.
  intros Ht Hin H. assert (Hl := linked_all _ Ht). assert (Hwf := wf_all _ Ht).
  rewrite (assign_declared E procs c k fs fv ex fi t x Hl Hwf Hin).
  unfold parse in H. destruct (validate E t x) as [[y p]|]; [|reflexivity]. simpl in H.
  destruct H as [H|(z & H & Hr)]; [discriminate|]. inversion H; subst.
  destruct (fv_check E (f_val fi) z) eqn:Ef; [|reflexivity]. apply fv_check_iff in Ef. contradiction.
Qed.
(** An undeclared attribute of a closed class: raises, nothing changes. *)
Theorem c14_closed_unchanged E procs c fs fv ex name x :
  In (TModel c KForbid fs) all_types -> (forall fi t, In (fi, t) fs -> f_name fi <> name) ->
  assign E procs (VObj c fv ex) name x = (false, VObj c fv ex).
Proof. intros Ht Hn. exact (assign_undeclared E procs c KForbid fs fv ex name x (linked_all _ Ht) Hn). Qed.
(** An assignment that succeeds stores the validated value, changes no other field, and leaves the
    object satisfying the rules on several fields. *)
Theorem c14_accepted E procs c k fs fv ex fi t x o' :
  In (TModel c k fs) all_types -> c <> "AsyncAPI3" -> In (fi, t) fs ->
  assign E procs (VObj c fv ex) (f_name fi) x = (true, o') ->
  exists y fv' ex', parse E t x = Some y /\ field_rule E (f_val fi) y
    /\ o' = VObj c fv' ex' /\ attr (f_name fi) fv' = y /\ cross_field_spec c fv'
    /\ map fst fv' = map (fun ft => f_name (fst ft)) fs
    /\ (forall gi s, In (gi, s) fs -> f_name gi <> f_name fi -> ~ In (f_name gi) (map fst ex) -> attr (f_name gi) fv' = attr (f_name gi) fv).
Proof. exact (assign_accepted E procs c k fs fv ex fi t x o'). Qed.
(** The free-form exception is real: with extra data under a field's Python name, assigning another
    field moves the extra value into the typed field. *)
Definition shadowed_schema : pv := obj [("externalDocs", obj [("url", str "http://a/")]); ("external_docs", VInt 5)].
Theorem c48_assignment_refuted :
  ~ (forall E procs t v o l, In t all_types -> keeps E procs -> parse E t v = Some o -> well_typed E t (assign_run E procs l o)).
Proof.
  intros H. pose (l := [{| as_path := []; as_name := u "title"; as_value := str "x" |}]).
  destruct (parse E0 T_Schema shadowed_schema) as [o|] eqn:Ep; [|vm_compute in Ep; discriminate].
  specialize (H E0 (fun o => (true, o)) T_Schema shadowed_schema o l).
  assert (Hin : In T_Schema all_types) by (apply Linked.find_class_In; vm_compute; reflexivity).
  specialize (H Hin). vm_compute in Ep. inversion Ep as [Ho]. clear Ep.
  assert (Hw : well_typed E0 T_Schema (assign_run E0 (fun o => (true, o)) l o)).
  { apply H; [|rewrite <- Ho; vm_compute; reflexivity]. split; [intros; eexists; eexists; reflexivity|auto]. }
  clear H. rewrite <- Ho in Hw. clear Ho. destruct Hw as (fv & ex & Heq & Hf & _). vm_compute in Heq. injection Heq as <- <-.
  cbn in Hf. destruct Hf as (_ & _ & _ & _ & [Hx|[Hx|[Hx|[]]]] & _); [discriminate| |]; destruct Hx as (? & ? & Hx & _); discriminate.
Qed.
Example c14_ex : keeps E0 (fun o => (true, o)) /\ exists o,
  parse E0 T_Info (obj [("title", str "T"); ("version", str "1"); ("contact", obj [("name", str "n")])]) = Some o
  /\ (let l := [{| as_path := []; as_name := u "title"; as_value := VInt 3 |};
               {| as_path := [PField (u "contact")]; as_name := u "email"; as_value := str "a@b.cc" |};
               {| as_path := [PField (u "contact")]; as_name := u "email"; as_value := str "nobody" |}] in
      never_shadowed E0 (fun o => (true, o)) l o
      /\ get_in "email" (get_in "contact" (assign_run E0 (fun o => (true, o)) l o)) = str "a@b.cc"
      /\ get_in "title" (assign_run E0 (fun o => (true, o)) l o) = str "T").
Proof.
  split; [split; [intros; eexists; eexists; reflexivity|auto]|]. eexists. split; [vm_compute; reflexivity|].
  split; [|split; vm_compute; reflexivity].
  cbn [never_shadowed as_path]. repeat split; intros o Ho; vm_compute in Ho; inversion Ho; subst; clear Ho;
    intros c fv ex fi t Heq Hk; inversion Heq; subst; vm_compute in Hk; discriminate.
Qed.

(** ** C15.  Refuted: the rules relating several fields run after the new value has been stored. *)
Definition chan0 : pv := obj [("address", str "a/{p}"); ("parameters", obj [("p", obj [])])].
Theorem c15_failed_assignment_refuted :
  ~ (forall E procs v fv ex name x o', parse E T_Channel v = Some (VObj "Channel" fv ex) ->
       assign E procs (VObj "Channel" fv ex) name x = (false, o') ->
       exists fv' ex', o' = VObj "Channel" fv' ex' /\ cross_field_spec "Channel" fv').
Proof.
  intros H. destruct (parse E0 T_Channel chan0) as [o|] eqn:Ep; [|vm_compute in Ep; discriminate].
  assert (Hp := Ep). vm_compute in Hp. inversion Hp as [Ho]. rewrite <- Ho in Ep. clear Hp.
  destruct (assign E0 (fun o => (true, o)) o (u "address") VNone) as [b o'] eqn:Ea.
  assert (Ha := Ea). rewrite <- Ho in Ha. vm_compute in Ha. inversion Ha as [[Hb Ho']]. subst b.
  rewrite <- Ho in Ea. destruct (H E0 _ _ _ _ _ _ _ Ep Ea) as (fv' & ex' & Heq & Hc). rewrite <- Ho' in Heq. inversion Heq; subst fv'.
  destruct Hc as [Hc _]. specialize (Hc eq_refl). destruct Hc as (a & Hx & _); [discriminate|]. vm_compute in Hx. discriminate.
Qed.
(** ... and so does the rule on extension keys. *)
Theorem c15_extra_refuted :
  ~ (forall E procs v fv ex name x o', parse E T_Contact v = Some (VObj "Contact" fv ex) ->
       assign E procs (VObj "Contact" fv ex) name x = (false, o') ->
       exists fv' ex', o' = VObj "Contact" fv' ex' /\ forall k, In k (map fst ex') -> upto_nl (extension_key E) k).
Proof.
  intros H. destruct (parse E0 T_Contact (obj [])) as [o|] eqn:Ep; [|vm_compute in Ep; discriminate].
  assert (Hp := Ep). vm_compute in Hp. inversion Hp as [Ho]. rewrite <- Ho in Ep. clear Hp.
  destruct (assign E0 (fun o => (true, o)) o (u "nope") (VInt 1)) as [b o'] eqn:Ea.
  assert (Ha := Ea). rewrite <- Ho in Ha. vm_compute in Ha. inversion Ha as [[Hb Ho']]. subst b.
  rewrite <- Ho in Ea. destruct (H E0 _ _ _ _ _ _ _ Ep Ea) as (fv' & ex' & Heq & Hc). rewrite <- Ho' in Heq. inversion Heq; subst ex'.
  destruct (Hc (u "nope") (or_introl eq_refl)) as (w & (w' & -> & _) & [Hw|Hw]); vm_compute in Hw; discriminate.
Qed.
(** Strongest true versions.  In a class without such a rule a failed assignment of a declared field
    changes nothing ... *)
Theorem c15_unchanged_partial E procs c k fs v fv ex fi t x o' :
  In (TModel c k fs) all_types -> ~ In c cross_field_classes -> c <> "AsyncAPI3" ->
  parse E (TModel c k fs) v = Some (VObj c fv ex) -> In (fi, t) fs ->
  assign E procs (VObj c fv ex) (f_name fi) x = (false, o') -> o' = VObj c fv ex.
Proof. exact (failed_unchanged E procs c k fs v fv ex fi t x o'). Qed.
(** ... and in the nine classes with one, a failed assignment changes nothing or leaves an object that
    breaks the rule (never a silently different valid object). *)
Theorem c15_failure_modes_partial E procs c k fs v fv ex fi t x o' :
  In (TModel c k fs) all_types -> In c cross_field_classes -> python_dicts v ->
  parse E (TModel c k fs) v = Some (VObj c fv ex) -> In (fi, t) fs ->
  assign E procs (VObj c fv ex) (f_name fi) x = (false, o') ->
  o' = VObj c fv ex \/ exists y fv', parse E t x = Some y /\ o' = VObj c fv' ex /\ ~ cross_field_spec c fv'
                         /\ attr (f_name fi) fv' = y
                         /\ forall gi s, In (gi, s) fs -> f_name gi <> f_name fi -> attr (f_name gi) fv' = attr (f_name gi) fv.
Proof. exact (failed_modes E procs c k fs v fv ex fi t x o'). Qed.
Example c15_ex : exists o, parse E0 T_Contact (obj [("email", str "a@b.cc")]) = Some o
  /\ assign E0 (fun o => (true, o)) o (u "email") (str "no") = (false, o).
Proof. eexists. split; [vm_compute; reflexivity|]. vm_compute; reflexivity. Qed.

(** ** C16.  [url_idem]: normalising a normalised URL changes nothing (a fact about pydantic's URL type). *)
Theorem c16_revalidation E t v o :
  url_idem E -> In t all_types \/ In t annotations -> python_dicts v -> parse E t v = Some o -> no_shadowing o ->
  parse E t o = Some o.
Proof.
  intros Hu Ht. apply revalidate; [exact Hu|]. destruct Ht as [Ht|Ht]; [exact (wf_all _ Ht)|].
  exact (proj1 (forallb_forall _ _) annotations_wf t Ht).
Qed.
Lemma E0_url_idem : url_idem E0.
Proof. intros h s s' H. simpl in *. inversion H; reflexivity. Qed.
(** In particular a document can be passed back as the value of any field of its type. *)
Definition doc0 : pv :=
  obj [("info", obj [("title", str "T"); ("version", str "1"); ("x-a", VInt 1)]);
       ("channels", obj [("c", obj [("address", str "a/{p}"); ("parameters", obj [("p", ref "#/x")]);
                                    ("messages", obj [("m", obj [("payload", obj [("type", str "object"); ("whatever", VInt 3)])])])])]);
       ("servers", obj [("s", obj [("host", str "h"); ("protocol", str "kafka")])])].
Example c16_ex : url_idem E0 /\ python_dicts doc0 /\ exists o, parse E0 T_AsyncAPI3 doc0 = Some o /\ no_shadowing o.
Proof.
  split; [exact E0_url_idem|]. split.
  - apply python_dicts_dec. vm_compute. reflexivity.
  - eexists. split; [vm_compute; reflexivity|]. apply no_shadowing_dec. vm_compute. reflexivity.
Qed.
(** ** C46.  Refuted: without the side condition revalidation may fail ... *)
Theorem c46_revalidation_refuted :
  ~ (forall E t v o, url_idem E -> In t all_types -> python_dicts v -> parse E t v = Some o -> parse E t o = Some o).
Proof.
  intros H. destruct (parse E0 T_Schema shadowed_schema) as [o|] eqn:Ep; [|vm_compute in Ep; discriminate].
  assert (Hin : In T_Schema all_types) by (apply Linked.find_class_In; vm_compute; reflexivity).
  assert (Hx : parse E0 T_Schema o = Some o).
  { apply (H E0 T_Schema shadowed_schema o); [exact E0_url_idem|exact Hin| |exact Ep].
    apply python_dicts_dec. vm_compute. reflexivity. }
  vm_compute in Ep. inversion Ep; subst o. vm_compute in Hx. discriminate.
Qed.
(** ... and the strongest true version is [c16_revalidation]; for the closed and the extendable classes
    (all but three) there is no side condition on the object itself. *)
Theorem c46_no_free_form_partial E t v o :
  url_idem E -> In t all_types -> python_dicts v -> parse E t v = Some o ->
  (forall c fv ex, within (VObj c fv ex) o -> class_kind c <> KFree) -> parse E t o = Some o.
Proof.
  intros Hu Ht Hd Hp Hf. apply (c16_revalidation E t v o Hu (or_introl Ht) Hd Hp).
  intros c fv ex k Hw Hk. exfalso. exact (Hf c fv ex Hw Hk).
Qed.

Print Assumptions c12_history.
Print Assumptions c14_assignments_keep_types.
Print Assumptions c16_revalidation.
