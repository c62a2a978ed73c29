(** C87: assigning an attribute of a document that lists bundled processors - what is logged and what the caller is told. *)
From Verif Require Import PyStr Regex Value Types Rules Pydantic ClassTable Classes Canon Fix Linked SpecParse ProofRules ProofParse
  State SpecState ProofState ProofDump Sample Resolve SpecResolve Unified SpecUnified PropUnified PropResolve Validators SpecValidators ProofValidators PropValidators
  Pipeline SpecPipeline PropPipeline SpecDeep PropDeep SpecAssign PropAssign Messages SpecMessages Texts SpecPlaces Errors SpecErrors ProofErrors PropErrors
  Loading SpecLoading PropLoading Assigning PropAssigning.
Local Open Scope string_scope.

(** run_extra_processors (models/asyncapi.py:277-296) as the last mode="after" validator of the assignment, as in Loading.load_says.
    Simplification: documents that list other than bundled processors are not covered (the default is never reached under [all_bundled]). *)
Definition speaking (low : pystr -> pystr) (E : env) (doc : pv) : list pystr * option (option pystr) :=
  match processors doc "extra_converters", processors doc "extra_validators" with
  | Some l1, Some l2 => match processors_say low E (l1 ++ l2)%list doc with Some r => r | None => ([], Some None) end
  | _, _ => ([], Some None)
  end.

Lemma valid_after E k fs fv ex fi t y fv' : In (TModel "AsyncAPI3" k fs) all_types -> object_valid E "AsyncAPI3" fv ex -> In (fi, t) fs ->
  well_typed E t y -> field_rule E (f_val fi) y -> replaced (f_name fi) y fv fv' -> object_valid E "AsyncAPI3" fv' ex.
Proof.
  intros Ht (k' & fs' & Ht' & Hwt & _ & Hx) Hin Hy0 Hfr (Hm & Hy & Ho). assert (H1 := linked_class _ _ _ (linked_all _ Ht)). assert (H2 := linked_class _ _ _ (linked_all _ Ht')).
  rewrite H1 in H2. injection H2 as <- <-. assert (Hnn := names_NoDup _ _ _ (wf_all _ Ht)).
  exists k, fs. split; [exact Ht|]. split; [|split; [apply hook_iff; reflexivity|exact Hx]].
  apply wt_fields_iff; [exact Hnn|]. apply (wt_fields_iff E _ fs Hnn) in Hwt as [Hm0 Hwt]. split; [rewrite Hm; exact Hm0|]. intros gi s Hg.
  destruct (str_eqb (f_name gi) (f_name fi)) eqn:Ee.
  - apply str_eqb_eq in Ee. assert (Heq : (gi, s) = (fi, t)).
    { assert (E1 := find_field_in _ _ _ Hg Hnn). assert (E2 := find_field_in _ _ _ Hin Hnn). rewrite Ee, E2 in E1. injection E1 as <- <-. reflexivity. }
    injection Heq as -> ->. exists y. auto.
  - destruct (Hwt gi s Hg) as (z & Hz & G1 & G2). exists z. split; [|auto]. rewrite Ho; [exact Hz|]. intros Hq. rewrite Hq, str_eqb_refl in Ee. discriminate Ee.
Qed.
Lemma valid_typed E c k fs fv ex : In (TModel c k fs) all_types -> object_valid E c fv ex -> well_typed E (TModel c k fs) (VObj c fv ex).
Proof.
  intros Ht (k' & fs' & Ht' & Hwt & _ & Hx). assert (H1 := linked_class _ _ _ (linked_all _ Ht)). assert (H2 := linked_class _ _ _ (linked_all _ Ht')).
  rewrite H1 in H2. injection H2 as <- <-. cbn [well_typed]. exists fv, ex. split; [reflexivity|]. split; [exact Hwt|]. split; intros ->; cbn [extras_valid] in Hx; [exact Hx|].
  intros fi t' Hi Hn. destruct (Hx _ Hn) as [_ Hd]. apply Hd. exists fi, t'. auto.
Qed.
Lemma root_model : exists k fs, T_AsyncAPI3 = TModel "AsyncAPI3" k fs.
Proof. eexists _, _. reflexivity. Qed.

(** ** C87 *)
(** Assigning an admissible value to a declared attribute of a valid document: the value is stored, and the processors the changed document lists run on the
    changed document, in order, converters first, up to the first that objects: its objection is the one error, without location. *)
Theorem c87_assigned low E k fs fv ex fi t x y fv' conv vals log a :
  In (TModel "AsyncAPI3" k fs) all_types -> object_valid E "AsyncAPI3" fv ex -> NoDup (map fst ex) -> In (fi, t) fs ->
  parse E t x = Some y -> field_rule E (f_val fi) y -> replaced (f_name fi) y fv fv' ->
  listed (VObj "AsyncAPI3" fv' ex) "extra_converters" conv -> listed (VObj "AsyncAPI3" fv' ex) "extra_validators" vals -> all_bundled E conv -> all_bundled E vals ->
  no_root_keyword (VObj "AsyncAPI3" fv' ex) -> whole (VObj "AsyncAPI3" fv' ex) ->
  snd (assign E (reading (speaking low E)) (VObj "AsyncAPI3" fv ex) (f_name fi) x) = VObj "AsyncAPI3" fv' ex
  /\ (assign_says E (speaking low E) (VObj "AsyncAPI3" fv ex) (f_name fi) x = (log, a) <->
      exists e, proceeds low E (VObj "AsyncAPI3" fv' ex) (conv ++ vals)%list log e /\ a = match e with None => Returned | Some m => Refused [([], Says m)] end).
Proof.
  intros Ht Hv Hnd Hin Hp Hfr Hrep Lc Lv Ac Av Hn Hw.
  assert (Hk : k <> KFree). { intros ->. assert (Hl := linked_class _ _ _ (linked_all _ Ht)). vm_compute in Hl. discriminate Hl. }
  assert (Hwf := wf_all _ Ht). assert (Hwy := parse_wt _ _ _ _ (wf_sub _ _ _ _ Hwf Hin) Hp). assert (Hv' := valid_after E k fs fv ex fi t y fv' Ht Hv Hin Hwy Hfr Hrep).
  assert (Hfc : fv_check E (f_val fi) y = true) by (apply fv_check_iff; exact Hfr).
  destruct (valid_store E (reading (speaking low E)) "AsyncAPI3" k fs fv ex fi t y Ht Hk Hv Hnd Hin) as (fv1 & Hrep1 & Hx & Hs).
  assert (fv1 = fv').
  { clear - Hrep Hrep1 Hv Ht. destruct Hrep as (M1 & Y1 & O1), Hrep1 as (M2 & Y2 & O2).
    assert (Hnk : NoDup (map fst fv')).
    { destruct Hv as (k' & fs' & Ht' & Hwt & _). rewrite M1. rewrite (wt_fields_keys _ _ _ _ Hwt). exact (names_NoDup _ _ _ (wf_all _ Ht')). }
    assert (Hall : forall n, assoc n fv1 = assoc n fv').
    { intros n. destruct (str_eqb n (f_name fi)) eqn:Ee; [apply str_eqb_eq in Ee; subst n; congruence|]. assert (n <> f_name fi) by (intros ->; rewrite str_eqb_refl in Ee; discriminate Ee). rewrite O1, O2 by assumption. reflexivity. }
    assert (Hm : map fst fv1 = map fst fv') by congruence. clear - Hall Hm Hnk. revert fv1 Hm Hall. induction fv' as [|[n z] r IH]; intros [|[n1 z1] r1] Hm Hall; try discriminate Hm; [reflexivity|].
    cbn [map fst] in Hm. injection Hm as -> Hm. cbn [map fst] in Hnk. inversion Hnk as [|? ? Hni Hnk']; subst. f_equal.
    - specialize (Hall n). cbn [assoc] in Hall. rewrite str_eqb_refl in Hall. injection Hall as ->. reflexivity.
    - apply IH; [exact Hnk'|exact Hm|]. intros m. destruct (str_eqb m n) eqn:Ee.
      + apply str_eqb_eq in Ee. subst m. transitivity (@None pv); [apply assoc_None; rewrite Hm; exact Hni|symmetry; apply assoc_None; exact Hni].
      + specialize (Hall m). cbn [assoc] in Hall. rewrite Ee in Hall. exact Hall. }
  subst fv1. unfold after_ok in Hs. rewrite Hx, no_hook in Hs. cbn [andb] in Hs. change (String.eqb "AsyncAPI3" "AsyncAPI3") with true in Hs. cbn iota in Hs.
  assert (Hst := stored E (speaking low E) "AsyncAPI3" k fs fv ex (f_name fi) y). rewrite Hs in Hst. unfold reading in Hst. cbn [snd] in Hst. injection Hst as Hfv Hex.
  assert (Hval : exists n, validate E t x = Some (y, n)). { unfold parse in Hp. destruct (validate E t x) as [[y0 n]|]; [|discriminate Hp]. injection Hp as ->. eauto. } destruct Hval as (nn & Hval).
  split.
  { rewrite (assign_declared E _ "AsyncAPI3" k fs fv ex fi t x (linked_all _ Ht) Hwf Hin), Hval, Hfc, Hs. reflexivity. }
  assert (Ha : all_bundled E (conv ++ vals)%list) by (intros q Hq; apply in_app_or in Hq as [Hq|Hq]; auto).
  assert (Hwt : well_typed E T_AsyncAPI3 (VObj "AsyncAPI3" fv' ex)).
  { destruct root_model as (k0 & fs0 & Er). rewrite Er. apply valid_typed; [rewrite <- Er; in_table|exact Hv']. }
  destruct (processors_speak low E _ (conv ++ vals)%list Hwt (conj Hn Hw) Ha) as (log0 & e0 & Hsay & Hpr). apply listed_processors in Lc, Lv.
  assert (Hsp : speaking low E (VObj "AsyncAPI3" fv' ex) = (log0, option_map Some e0)) by (unfold speaking; rewrite Lc, Lv, Hsay; reflexivity).
  assert (Haft : after_says E "AsyncAPI3" k fv' ex = None).
  { apply after_agrees; [|unfold after_ok; rewrite Hx, no_hook; reflexivity]. intros ->. cbn [extras_ok] in Hx. destruct Hv as (k' & fs' & Ht' & _ & _ & Hxv).
    assert (H1 := linked_class _ _ _ (linked_all _ Ht)). assert (H2 := linked_class _ _ _ (linked_all _ Ht')). rewrite H1 in H2. injection H2 as <- <-. exact Hxv. }
  assert (Hl : assign_says E (speaking low E) (VObj "AsyncAPI3" fv ex) (f_name fi) x = (log0, match e0 with None => Returned | Some m => Refused [([], Says m)] end)).
  { rewrite (says_declared E _ "AsyncAPI3" k fs fv ex fi t x Ht Hin), Hval, (proj2 (field_says_none E (f_name fi) (f_val fi) y) Hfc). unfold store_says. cbv zeta.
    rewrite <- Hfv, <- Hex, Haft. change (String.eqb "AsyncAPI3" "AsyncAPI3") with true. cbn iota. rewrite Hsp. destruct e0; reflexivity. }
  rewrite Hl. split.
  - intros [= <- <-]. eauto.
  - intros (e & He & ->). destruct (proceeds_fun low E _ _ Hn _ _ _ _ Hpr He) as [-> ->]. reflexivity.
Qed.
(** A value the attribute does not admit reaches no processor: nothing is logged. *)
Theorem c87_refused_value low E k fs fv ex fi t x : In (TModel "AsyncAPI3" k fs) all_types -> In (fi, t) fs ->
  (parse E t x = None \/ exists y, parse E t x = Some y /\ ~ field_rule E (f_val fi) y) ->
  exists errs, assign_says E (speaking low E) (VObj "AsyncAPI3" fv ex) (f_name fi) x = ([], Refused errs) /\ errs <> []
    /\ (forall p why, In (p, why) errs -> exists q, p = AtKey (f_name fi) :: q)
    /\ snd (assign E (reading (speaking low E)) (VObj "AsyncAPI3" fv ex) (f_name fi) x) = VObj "AsyncAPI3" fv ex.
Proof.
  intros Ht Hi Hb. destruct (c84_bad_value E (speaking low E) "AsyncAPI3" k fs fv ex fi t x Ht Hi Hb) as (errs & H1 & H2 & H3 & H4). exists errs. split; [exact H1|]. split; [exact H2|]. split; [|exact H4].
  intros p why H. apply H3 in H as (q & -> & _). eauto.
Qed.
(** The loaded document with tags and references checked: a new channel map with a dangling tag reference is stored and refused, the external tag of info is warned of
    again. *)
Definition docA : pv := load_doc (docL "https://e.org/u").
Definition newA : pv := obj [("d", obj [("tags", VList [ref "#/components/tags/gone"])])].
Definition changedA : pv := snd (assign E0 (reading (speaking (fun s => s) E0)) docA (u "channels") newA).
Example c87_ex : (exists fv, docA = VObj "AsyncAPI3" fv [] /\ object_valid E0 "AsyncAPI3" fv []) /\ changedA <> docA
  /\ listed changedA "extra_converters" [] /\ listed changedA "extra_validators" [VProc (u "TagsRefValidator"); VProc (u "UnifiedReferencesValidator")]
  /\ no_root_keyword changedA
  /\ assign_says E0 (speaking (fun s => s) E0) docA (u "channels") newA
     = ([u "Info tag reference 'https://e.org/t' is external. Cannot validate external references."],
        Refused [([], Says (u "Channel 'd' references tag 'gone' but tag does not exist in components/tags."))])
  /\ assign_says E0 (speaking (fun s => s) E0) docA (u "channels") VNone
     = ([u "Info tag reference 'https://e.org/t' is external. Cannot validate external references."; u "External reference 'https://e.org/t' cannot be validated locally"], Returned).
Proof.
  split; [|split; [vm_compute; discriminate|split; [|split; [|split]]]].
  - assert (Hp : parse E0 T_AsyncAPI3 (docL "https://e.org/u") = Some docA) by (apply load_doc_ok; vm_compute; reflexivity).
    eexists. split; [vm_compute; reflexivity|]. refine (parsed_object_valid E0 _ _ _ (docL "https://e.org/u") _ _ _ Hp). in_table.
  - vm_compute. eexists _, _, _. split; [reflexivity|]. auto.
  - vm_compute. eexists _, _, _. split; [reflexivity|]. auto.
  - apply no_root_dec. vm_compute. reflexivity.
  - split; [vm_compute; reflexivity|]. vm_compute. reflexivity.
Qed.
Print Assumptions c87_assigned. Print Assumptions c87_refused_value.
