(** Properties C17-C20: serialisation. *)
From Verif Require Import PyStr Regex Value Types Rules Pydantic ClassTable Classes Canon Fix Linked SpecParse Sample ProofRules ProofParse
  State SpecState ProofState Resolve SpecResolve ProofResolve Dump SpecDump ProofDump.
Local Open Scope string_scope.

Lemma parsed_json E t v o : In t all_types -> parse E t v = Some o -> json_data t o -> canon is_json E t o.
Proof. intros Hi Hp Hj. apply json_data_canon; [|exact Hj]. eapply parse_canon; [exact (wf_all _ Hi)|exact Hp]. Qed.
Lemma loaded_json E t v o : In t all_types -> parse E t v = Some o -> is_json v -> canon is_json E t o.
Proof.
  intros Hi Hp Hj. apply parse_some in Hp as [n Hv]. exact (validate_canon is_json is_json E t json_closed (fun _ h => h) (wf_all _ Hi) _ _ _ Hj Hv).
Qed.
Lemma loaded_json_data E t v o : In t all_types -> is_json v -> parse E t v = Some o -> json_data t o.
Proof. intros Hi Hj Hp. eapply canon_json_data; [exact (wf_all _ Hi)|]. eapply loaded_json; eauto. Qed.
Lemma in_types c k fs : find_class c all_types = Some (k, fs) -> In (TModel c k fs) all_types.
Proof. apply find_class_In. Qed.

(** Deciding the side conditions on concrete values. *)
Definition json_b (v : pv) : bool := match v with VUrl _ | VObj _ _ _ | VRoot _ _ | VProc _ | VOpaque _ => false | _ => true end.
Lemma json_dec v : all_within json_b v = true -> is_json v.
Proof. intros H x Hx. assert (Hb := all_within_spec _ _ _ Hx H). destruct x; try discriminate Hb; exact I. Qed.
Definition null_in (fv : fields) (l : list (finfo * ty)) : bool :=
  forallb (fun ft => match f_def (fst ft), assoc (f_name (fst ft)) fv with Some d, Some VNone => is_none d | _, _ => true end) l.
Definition null_b (v : pv) : bool := match v with VObj c fv _ => null_in fv (class_fields c) | _ => true end.
Lemma null_in_spec fv l fi t d : null_in fv l = true -> In (fi, t) l -> f_def fi = Some d -> d <> VNone -> assoc (f_name fi) fv <> Some VNone.
Proof.
  intros Hb Hi Hd Hne Ha. assert (Hg := proj1 (forallb_forall _ _) Hb _ Hi). cbn [fst] in Hg. rewrite Hd, Ha in Hg. apply is_none_iff in Hg. exact (Hne Hg).
Qed.
Lemma null_b_obj c fv ex : null_b (VObj c fv ex) = null_in fv (class_fields c).
Proof. reflexivity. Qed.
Lemma null_dec v : all_within null_b v = true -> no_null_over_default v.
Proof.
  intros H c fv ex fi t d Hx. assert (Hb := all_within_spec _ _ _ Hx H). rewrite null_b_obj in Hb. revert Hb. generalize (class_fields c). intros l Hb Hi.
  exact (null_in_spec fv l fi t d Hb Hi).
Qed.
Definition ambiguous_b (v : pv) : bool :=
  match v with
  | VObj c fv ex =>
      negb (String.eqb c "Schema" && (has_key (u "schema") ex || match ex with [_] => has_key (u "$ref") ex || has_key (u "ref") ex | _ => false end))
      && negb (String.eqb c "MultiFormatSchema" && existsb (fun kv => declaredb (class_fields "Schema") (fst kv)) ex)
  | _ => true end.
Lemma ambiguity_dec v : all_within ambiguous_b v = true -> no_ambiguity v.
Proof.
  intros H x Hx Hm. assert (Hb := all_within_spec _ _ _ Hx H). destruct x as [| | | | | | | |c fv ex| | |]; try contradiction.
  cbn [ambiguous_b] in Hb. apply andb_prop in Hb as [H1 H2]. apply negb_true_iff in H1, H2.
  destruct Hm as [[-> Hm]|[-> Hm]].
  - cbn [String.eqb Ascii.eqb Bool.eqb andb] in H1. apply orb_false_elim in H1 as [H1 H3]. destruct Hm as [Hm|(k & s & Hk & -> & _)].
    + apply has_key_iff in Hm. rewrite Hm in H1. discriminate H1.
    + destruct Hk as [->| ->]; discriminate H3.
  - cbn [String.eqb Ascii.eqb Bool.eqb andb] in H2. destruct Hm as (k & Hk & Hd). apply in_map_iff in Hk as (kv & <- & Hk). revert H2 Hd. generalize (class_fields "Schema"). intros l H2 Hd.
    apply declaredb_iff in Hd. assert (He : existsb (fun kv => declaredb l (fst kv)) ex = true); [|rewrite He in H2; discriminate H2].
    apply existsb_exists. exists kv. split; [exact Hk|exact Hd].
Qed.

(** ** C17.  Refuted: an explicit null in an optional field with a non-null default is dropped, and reads back as the default. *)
Definition reloads (E : env) (t : ty) (o : pv) : Prop := parse E t (dump o) = Some (without_processors o).
Definition null_input : pv := obj [("destination", str "q"); ("destinationType", VNone)].
Theorem c17_reload_refuted E : ~ (forall t v o, In t all_types -> is_json v -> python_dicts v -> parse E t v = Some o -> reloads E t o).
Proof.
  intros H. assert (Hin : In T_AnypointMQChannelBindings all_types) by in_table.
  assert (Hp : parse E T_AnypointMQChannelBindings null_input
    = Some (VObj "AnypointMQChannelBindings" [(u "destination", str "q"); (u "destination_type", VNone); (u "binding_version", str "0.1.0")] [])) by (vm_compute; reflexivity).
  specialize (H _ _ _ Hin (json_dec null_input eq_refl) (python_dicts_dec null_input eq_refl) Hp). vm_compute in H. discriminate H.
Qed.
(** Strongest true version: instances without such nulls, without extra keys spelled like a declared field, and without
    free-form objects that look like another alternative of their union, read back equal; whatever they were built from, as long as
    their untyped data is JSON. *)
Theorem c17_reload_partial E t v o :
  url_idem E -> In t all_types -> python_dicts v -> parse E t v = Some o -> json_data t o ->
  no_shadowing o -> no_null_over_default o -> no_ambiguity o -> reloads E t o.
Proof.
  intros Hu Hi Hp Ho Hj Hs Hn Ha. destruct (any_back E t o Hu Hi (parsed_json _ _ _ _ Hi Ho Hj)) as [n Hb].
  - split; [eapply parse_pd; [exact (wf_all _ Hi)|exact Hp|exact Ho]|]. auto.
  - apply parse_some. eauto.
Qed.
(** In particular everything loaded from JSON. *)
Theorem c17_json_data E t v o : In t all_types -> is_json v -> parse E t v = Some o -> json_data t o.
Proof. exact (loaded_json_data E t v o). Qed.
Theorem c17_reload_loaded_partial E t v o :
  url_idem E -> In t all_types -> python_dicts v -> is_json v -> parse E t v = Some o ->
  no_shadowing o -> no_null_over_default o -> no_ambiguity o -> reloads E t o.
Proof. intros Hu Hi Hp Hj Ho. apply (c17_reload_partial E t v o Hu Hi Hp Ho). eapply loaded_json_data; eauto. Qed.
(** Each exclusion is needed, already for JSON input. *)
Theorem c17_needs_no_null_over_default E : exists v o, is_json v /\ python_dicts v /\ parse E T_AnypointMQChannelBindings v = Some o
  /\ no_shadowing o /\ no_ambiguity o /\ ~ reloads E T_AnypointMQChannelBindings o.
Proof.
  exists null_input. eexists. split; [apply json_dec; reflexivity|]. split; [apply python_dicts_dec; reflexivity|]. split; [vm_compute; reflexivity|].
  split; [apply no_shadowing_dec; vm_compute; reflexivity|]. split; [apply ambiguity_dec; vm_compute; reflexivity|]. intros H. vm_compute in H. discriminate H.
Qed.
Theorem c17_needs_no_shadowing E : exists v o, is_json v /\ python_dicts v /\ parse E T_Schema v = Some o
  /\ no_null_over_default o /\ no_ambiguity o /\ ~ reloads E T_Schema o.
Proof.
  exists (obj [("externalDocs", VNone); ("external_docs", ref "#/a")]). eexists. split; [apply json_dec; reflexivity|]. split; [apply python_dicts_dec; reflexivity|].
  split; [vm_compute; reflexivity|]. split; [apply null_dec; vm_compute; reflexivity|]. split; [apply ambiguity_dec; vm_compute; reflexivity|].
  intros H. vm_compute in H. discriminate H.
Qed.
(** A schema holding a reference and an explicit null reads back as a bare reference; one with a keyword "schema" and explicit nulls as a MultiFormatSchema. *)
Theorem c17_needs_no_ambiguity E : forall v, In v [obj [("$ref", str "#/a"); ("deprecated", VNone)]; obj [("schema", str "x"); ("deprecated", VNone); ("discriminator", VNone)]] ->
  exists o, is_json v /\ python_dicts v /\ parse E T_Schemas (obj [("k", v)]) = Some o
  /\ no_null_over_default o /\ no_shadowing o /\ ~ reloads E T_Schemas o.
Proof.
  intros v [<-|[<-|[]]]; eexists; (split; [apply json_dec; reflexivity|]); (split; [apply python_dicts_dec; reflexivity|]); (split; [vm_compute; reflexivity|]);
    (split; [apply null_dec; vm_compute; reflexivity|]); (split; [apply no_shadowing_dec; vm_compute; reflexivity|]); intros H; vm_compute in H; discriminate H.
Qed.
Definition sample_doc : pv := obj
  [("asyncapi", str "3.0.0"); ("id", str "urn:x"); ("info", obj [("title", str "t"); ("version", str "1"); ("x-team", VList [VInt 1; obj [("a", VNone)]])]);
   ("channels", obj [("c", obj [("address", VNone); ("messages", obj [("m", obj [("payload", obj [("type", str "object"); ("deprecated", VBool true)]); ("headers", obj [("schemaFormat", str "f"); ("schema", VInt 3)])])])])]);
   ("operations", obj [("o", obj [("action", str "send"); ("channel", ref "#/channels/c")])]);
   ("components", obj [("schemas", obj [("S", obj [("$ref", str "#/x"); ("extra", VBool true)]); ("R", ref "#/components/schemas/S")]); ("tags", obj [("T", obj [("name", str "n")])])])].
Example c17_ex : exists o, is_json sample_doc /\ python_dicts sample_doc /\ parse E0 T_AsyncAPI3 sample_doc = Some o
  /\ no_shadowing o /\ no_null_over_default o /\ no_ambiguity o /\ dump o <> sample_doc.
Proof.
  eexists. split; [apply json_dec; vm_compute; reflexivity|]. split; [apply python_dicts_dec; vm_compute; reflexivity|]. split; [vm_compute; reflexivity|].
  split; [apply no_shadowing_dec; vm_compute; reflexivity|]. split; [apply null_dec; vm_compute; reflexivity|]. split; [apply ambiguity_dec; vm_compute; reflexivity|].
  intros H. vm_compute in H. discriminate H.
Qed.

(** ** C18.  Keys and nulls, for every object at any depth. *)
Theorem c18_keys E t v o c fv ex d key y :
  In t all_types -> parse E t v = Some o -> json_data t o -> within (VObj c fv ex) o ->
  dump (VObj c fv ex) = VDict d -> assoc key d = Some y ->
  In (key, y) ex
  \/ exists fi t' x, In (fi, t') (class_fields c) /\ f_excl fi = false /\ key = f_alias fi /\ assoc (f_name fi) fv = Some x /\ y = dump x
     /\ (y = VNone -> In (c, key) nullable_keys).
Proof.
  intros Hi Ho Hj Hx Hd Ha. destruct (obj_in E t o c fv ex (linked_all _ Hi) (wf_all _ Hi) (parsed_json _ _ _ _ Hi Ho Hj) Hx) as (k & fs & Hl & Hw & Hc).
  rewrite (proj1 (linked_fields c k fs Hl)). destruct (keys_spec E c k fs fv ex d Hl Hw Hc Hd key y Ha) as [H|H]; [left|right; exact H].
  cbn [canon] in Hc. destruct Hc as (fv' & ex' & He & _ & Hje & _). injection He as <- <-. rewrite (dump_entries_json ex Hje) in H. exact H.
Qed.
(** Nothing else is lost: every declared field that is set is there (unless an extra entry has the same key). *)
Theorem c18_present E t v o c fv ex d fi t' x :
  In t all_types -> parse E t v = Some o -> json_data t o -> within (VObj c fv ex) o -> dump (VObj c fv ex) = VDict d ->
  In (fi, t') (class_fields c) -> f_excl fi = false -> assoc (f_name fi) fv = Some x -> x <> VNone -> ~ In (f_alias fi) (map fst ex) ->
  assoc (f_alias fi) d = Some (dump x).
Proof.
  intros Hi Ho Hj Hx Hd Hf He Ha Hn Hne. destruct (obj_in E t o c fv ex (linked_all _ Hi) (wf_all _ Hi) (parsed_json _ _ _ _ Hi Ho Hj) Hx) as (k & fs & Hl & Hw & Hc).
  rewrite (proj1 (linked_fields c k fs Hl)) in Hf. eapply present_spec; eauto. unfold written. rewrite He. destruct x; try (rewrite andb_false_r; reflexivity). congruence.
Qed.
(** Channel.address is written even when it is null. *)
Theorem c18_address E v fv ex d : parse E T_Channel v = Some (VObj "Channel" fv ex) -> json_data T_Channel (VObj "Channel" fv ex) ->
  dump (VObj "Channel" fv ex) = VDict d -> has_key (u "address") d = true.
Proof.
  assert (Hi : In T_Channel all_types) by in_table. intros Ho Hj Hd. assert (Hc := parsed_json _ _ _ _ Hi Ho Hj). assert (Hl := linked_all _ Hi). assert (Hw := wf_all _ Hi).
  unfold T_Channel in Hl, Hw, Hc.
  match type of Hc with canon _ _ (TModel _ _ ?l) _ => set (fs := l) in * end.
  assert (Hf : In (fld "address" "address" (Some VNone) false false FvNone, TOpt (TStr None)) fs) by (left; reflexivity).
  destruct (canon_field _ _ _ _ _ _ _ _ _ Hc (names_NoDup _ _ _ Hw) Hf) as [_ _].
  assert (Hn : map fst fv = map (fun ft => f_name (fst ft)) fs) by (cbn [canon] in Hc; destruct Hc as (fv' & ex' & He & Hcf & _); injection He as <- <-; exact (canon_fields_names _ _ _ _ Hcf)).
  destruct (assoc (u "address") fv) as [x|] eqn:Ex.
  - apply has_key_iff. rewrite (dump_zip _ _ _ _ _ Hl Hw Hn) in Hd. injection Hd as <-. apply dict_update_key. left.
    apply in_map_iff. exists (u "address", dump x). split; [reflexivity|].
    exact (zdump_has fs fv _ _ x Hn (names_NoDup _ _ _ Hw) Hf (assoc_In _ _ _ Ex) eq_refl).
  - exfalso. apply assoc_None in Ex. apply Ex. rewrite Hn. apply (in_map (fun ft => f_name (fst ft)) fs _ Hf).
Qed.
(** Everything in the output is the output of something in the instance, and the output is JSON. *)
Theorem c18_nested o w : within w (dump o) -> exists x, within x o /\ w = dump x.
Proof. exact (dump_within o w). Qed.
Theorem c18_json E t v o : In t all_types -> parse E t v = Some o -> json_data t o -> is_json (dump o).
Proof. intros Hi Ho Hj. exact (any_json E t o Hi (parsed_json _ _ _ _ Hi Ho Hj)). Qed.
Theorem c18_no_processors E v o d : parse E T_AsyncAPI3 v = Some o -> json_data T_AsyncAPI3 o -> dump o = VDict d ->
  ~ In (u "extra_converters") (map fst d) /\ ~ In (u "extra_validators") (map fst d).
Proof.
  assert (Hi : In T_AsyncAPI3 all_types) by in_table. intros Ho Hj Hd. assert (Hc := parsed_json _ _ _ _ Hi Ho Hj).
  assert (Hob : exists fv ex, o = VObj "AsyncAPI3" fv ex /\ forall k, In k (map fst ex) -> starts_with (u "x-") k = true).
  { assert (Hc' := Hc). unfold T_AsyncAPI3 in Hc'. cbn [canon] in Hc'. destruct Hc' as (fv & ex & -> & _ & _ & Ha). exists fv, ex. split; [reflexivity|].
    intros k Hk. unfold after_ok in Ha. apply andb_prop in Ha as [Ha _]. cbn [extras_ok] in Ha. rewrite forallb_forall in Ha.
    apply in_map_iff in Hk as (kv & <- & Hk). eapply ext_key_starts. exact (Ha _ Hk). }
  destruct Hob as (fv & ex & -> & Hex).
  assert (Hno : forall k, In k [u "extra_converters"; u "extra_validators"] -> ~ In k (map fst d)).
  { intros k Hk Hin. apply in_map_iff in Hin as ([k' y] & Hkk & Hin). cbn [fst] in Hkk. subst k'.
    destruct (assoc k d) as [z|] eqn:Ez; [|apply assoc_None in Ez; apply Ez; change k with (fst (k, y)); apply in_map; exact Hin].
    destruct (c18_keys E _ _ _ _ _ _ _ _ _ Hi Ho Hj (w_self _) Hd Ez) as [H|(fi & t' & x & H1 & H2 & H3 & _)].
    - assert (Hs : starts_with (u "x-") k = true) by (apply Hex; change k with (fst (k, z)); apply in_map; exact H). destruct Hk as [<-|[<-|[]]]; discriminate Hs.
    - assert (Hl := linked_all _ Hi). unfold T_AsyncAPI3 in Hl. rewrite (proj1 (linked_fields _ _ _ Hl)) in H1. clear Hl Hc Ho Hj Hi.
      cbn [In] in H1. repeat (destruct H1 as [H1|H1]; [injection H1 as <- _; destruct Hk as [<-|[<-|[]]]; first [discriminate H2|discriminate H3]|]). exact H1. }
  split; apply Hno; [left|right; left]; reflexivity.
Qed.
(** The input of the example has an unset, a null and a set field, an alias that differs from the Python name, and extension data. *)
Example c18_ex : exists o, parse E0 T_Channel (obj [("external_docs", obj [("url", str "u:x")]); ("summary", VNone); ("x-a", VNone)]) = Some o
  /\ json_data T_Channel o
  /\ dump o = obj [("address", VNone); ("externalDocs", obj [("url", str "u:x")]); ("x-a", VNone)].
Proof.
  assert (Hin : In T_Channel all_types) by in_table.
  eexists. split; [vm_compute; reflexivity|]. split; [|vm_compute; reflexivity].
  apply (loaded_json_data E0 _ _ _ Hin (json_dec (obj [("external_docs", obj [("url", str "u:x")]); ("summary", VNone); ("x-a", VNone)]) eq_refl)).
  vm_compute. reflexivity.
Qed.
Example c18_processors_ex : exists o d, parse E0 T_AsyncAPI3 (obj [("info", obj [("title", str "t"); ("version", str "1")]); ("extra_validators", VList [VProc (u "V")])]) = Some o
  /\ dump o = VDict d /\ map fst d = [u "asyncapi"; u "info"] /\ without_processors o <> o.
Proof. eexists. eexists. split; [vm_compute; reflexivity|]. split; [vm_compute; reflexivity|]. split; [reflexivity|]. intros H. vm_compute in H. discriminate H. Qed.

(** ** C19 *)
Theorem c19_binding_version E t v o c fv ex d fi t' :
  In t all_types -> parse E t v = Some o -> json_data t o -> within (VObj c fv ex) o ->
  In (fi, t') (class_fields c) -> f_name fi = u "binding_version" -> dump (VObj c fv ex) = VDict d ->
  exists s, assoc (u "bindingVersion") d = Some (VStr s) /\ assoc (u "binding_version") fv = Some (VStr s).
Proof.
  intros Hi Ho Hj Hx Hf Hn Hd. destruct (obj_in E t o c fv ex (linked_all _ Hi) (wf_all _ Hi) (parsed_json _ _ _ _ Hi Ho Hj) Hx) as (k & fs & Hl & Hw & Hc).
  rewrite (proj1 (linked_fields c k fs Hl)) in Hf. eapply bv_present; eauto.
Qed.
(** Which string: the given one, or the class default. *)
Theorem c19_given_or_default E c k fs kvs o d fi t' :
  In (TModel c k fs) all_types -> In (fi, t') fs -> f_name fi = u "binding_version" -> is_json (VDict kvs) ->
  parse E (TModel c k fs) (VDict kvs) = Some o -> dump o = VDict d ->
  exists s, assoc (u "bindingVersion") d = Some (VStr s)
    /\ (assoc (u "bindingVersion") kvs = Some (VStr s)
        \/ (assoc (u "bindingVersion") kvs = None /\ assoc (u "binding_version") kvs = Some (VStr s))
        \/ (assoc (u "bindingVersion") kvs = None /\ assoc (u "binding_version") kvs = None /\ f_def fi = Some (VStr s))).
Proof.
  intros Hi Hf Hn Hj Ho Hd. assert (Hl := linked_all _ Hi). assert (Hw := wf_all _ Hi). assert (Hc := loaded_json _ _ _ _ Hi Ho Hj).
  destruct (bv_field c k fs fi t' Hl Hf Hn) as (Ha & _ & _ & _ & -> & _).
  apply parse_some in Ho as [n Hv]. cbn [validate] in Hv. apply vmodel_obj in Hv as (fv & Hvf & -> & _).
  destruct (bv_present E c k fs fv (extras fs kvs) d fi (TStr None) Hl Hw Hc Hf Hn Hd) as (s & H1 & H2). exists s. split; [exact H1|].
  clear Hd Hc H1. rewrite <- Ha, <- Hn in *. assert (Hnd := names_NoDup _ _ _ Hw). clear Hl Hw Hi.
  revert fv n Hvf H2 Hf Hnd. induction fs as [|[gi s'] fs IH]; intros fv n Hvf H2 Hf Hnd; [contradiction|]. rewrite vfields_cons in Hvf.
  cbn [map fst] in Hnd. inversion Hnd as [|? ? Hni Hnd']; subst.
  destruct Hf as [Hf|Hf].
  - injection Hf as -> ->. destruct (lookup_field fi kvs) as [x|] eqn:El.
    + destruct (validate E (TStr None) x) as [[x' m]|] eqn:Ex; [|discriminate Hvf]. destruct (fv_check E (f_val fi) x'); [|discriminate Hvf].
      destruct (vfields E (validate E) kvs fs) as [[r q]|]; [|discriminate Hvf]. injection Hvf as <- _. cbn [assoc] in H2. rewrite str_eqb_refl in H2. injection H2 as ->.
      cbn [validate] in Ex. destruct x; try discriminate Ex. cbn [len_ok] in Ex. injection Ex as -> _.
      unfold lookup_field in El. destruct (assoc (f_alias fi) kvs) as [z|] eqn:Ez; [left; exact El|right; left; split; [reflexivity|exact El]].
    + apply lookup_None in El as [El1 El2]. right. right. destruct (f_def fi) as [df|]; [|discriminate Hvf].
      destruct (vfields E (validate E) kvs fs) as [[r q]|]; [|discriminate Hvf]. injection Hvf as <- _. cbn [assoc] in H2. rewrite str_eqb_refl in H2. injection H2 as ->. auto.
  - assert (Hne : str_eqb (f_name fi) (f_name gi) = false).
    { destruct (str_eqb (f_name fi) (f_name gi)) eqn:Ee; [|reflexivity]. apply str_eqb_eq in Ee. exfalso. apply Hni. rewrite <- Ee.
      apply in_map_iff. exists (fi, TStr None). split; [reflexivity|exact Hf]. }
    destruct (lookup_field gi kvs) as [x|].
    + destruct (validate E s' x) as [[x' m]|]; [|discriminate Hvf]. destruct (fv_check E (f_val gi) x'); [|discriminate Hvf].
      destruct (vfields E (validate E) kvs fs) as [[r q]|] eqn:Er; [|discriminate Hvf]. injection Hvf as <- _. cbn [assoc] in H2. rewrite Hne in H2. eapply IH; eauto.
    + destruct (f_def gi); [|discriminate Hvf]. destruct (vfields E (validate E) kvs fs) as [[r q]|] eqn:Er; [|discriminate Hvf]. injection Hvf as <- _. cbn [assoc] in H2. rewrite Hne in H2. eapply IH; eauto.
Qed.
(** 34 classes declare binding_version. *)
Definition declares_bv (t : ty) : bool := match t with TModel _ _ fs => existsb (fun ft => str_eqb (f_name (fst ft)) (u "binding_version")) fs | _ => false end.
Example c19_count : length (filter declares_bv all_types) = 34.
Proof. vm_compute. reflexivity. Qed.
Example c19_ex : exists o, parse E0 T_MQTTMessageBindings (obj [("contentType", str "a/b")]) = Some o /\ dump o = obj [("contentType", str "a/b"); ("bindingVersion", str "0.2.0")].
Proof. eexists. split; vm_compute; reflexivity. Qed.

(** ** C20 *)
Theorem c20_extension_data E c k fs kvs o d : In (TModel c k fs) all_types -> python_dicts (VDict kvs) -> is_json (VDict kvs) ->
  parse E (TModel c k fs) (VDict kvs) = Some o -> dump o = VDict d -> undeclared fs d = undeclared fs kvs.
Proof. intros Hi. exact (extras_kept E c k fs kvs o d (linked_all _ Hi) (wf_all _ Hi)). Qed.
Example c20_ex : exists o d, parse E0 T_Schema (obj [("zeta", VList [VNone; obj [("externalDocs", VInt 1)]]); ("deprecated", VBool true); ("alpha", VFloat (u "1.5"))]) = Some o
  /\ dump o = VDict d
  /\ undeclared (class_fields "Schema") d = [(u "zeta", VList [VNone; obj [("externalDocs", VInt 1)]]); (u "alpha", VFloat (u "1.5"))].
Proof. eexists. eexists. split; [vm_compute; reflexivity|]. split; vm_compute; reflexivity. Qed.
