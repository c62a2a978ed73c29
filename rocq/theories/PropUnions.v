(** C98-C100: what a value becomes where a field allows several kinds of objects. *)
From Verif Require Import PyStr Value Types Rules Pydantic ClassTable Classes Linked Canon Resolve Unified SpecParse ProofParse SpecResolve SpecUnified SpecUnions ProofUnions PropParse PropResolve PropUnified Sample.
Local Open Scope string_scope.

(** ** C98 *)
(** Without Schema among the alternatives: what one alternative reads, the whole reads, so there is at most one reading and
    neither the order of the alternatives nor the preference rule of smart unions matters. *)
Theorem c98_one_reading E ts t v o : In (TUnion ts) annotations -> ~ allows_schema ts -> In t ts -> parse E t v = Some o -> parse E (TUnion ts) v = Some o.
Proof. exact (alone E ts t v o). Qed.
Theorem c98_some_alternative E ts v o : In (TUnion ts) annotations -> parse E (TUnion ts) v = Some o -> exists t, In t ts /\ parse E t v = Some o.
Proof. intros _. exact (some_member E ts v o). Qed.
(** An instance stays an instance of its class. *)
Theorem c98_instance E ts c fv ex o : In (TUnion ts) annotations -> parse E (TUnion ts) (VObj c fv ex) = Some o -> instance_of c o.
Proof.
  intros Ha Hp. destruct (some_member E ts _ _ Hp) as (t & Ht & Hpt). apply parse_some in Hpt as [n Hv].
  pose proof (proj1 (forallb_forall _ _) ref_makers _ Ha) as Hm. cbn beta iota in Hm. rewrite forallb_forall in Hm. specialize (Hm t Ht).
  unfold ref_maker in Hm. apply orb_prop in Hm as [Hm|Hm].
  - apply ty_eqb_eq in Hm. subst t. unfold T_Reference in Hv. cbn [validate] in Hv. destruct (String.eqb "Reference" c) eqn:Ec; [|discriminate Hv].
    apply String.eqb_eq in Ec. subst c. apply vmodel_obj in Hv as (fv' & _ & -> & _). eexists; eexists; reflexivity.
  - destruct t as [| | | | | | | | | | | | |c' k fs|]; try discriminate Hm; cbn [validate] in Hv; try discriminate Hv.
    destruct (String.eqb c' c) eqn:Ec; [|discriminate Hv]. apply String.eqb_eq in Ec. subst c'. apply vmodel_obj in Hv as (fv' & _ & -> & _). eexists; eexists; reflexivity.
Qed.
(** A mapping is read as a Reference exactly when $ref (or ref) is all it has, with a string. *)
Theorem c98_reference E ts kvs s : In (TUnion ts) annotations -> In T_Reference ts -> NoDup (map fst kvs) ->
  parse E (TUnion ts) (VDict kvs) = Some (the_reference s) <-> names kvs s.
Proof. exact (reference_iff E ts kvs s). Qed.
(** Schema or Reference, possibly also a number, a string or a plain dict. *)
Theorem c98_schema E ts kvs : In (TUnion ts) annotations -> allows_schema ts -> ~ In T_MultiFormatSchema ts -> NoDup (map fst kvs) -> (forall s, ~ names kvs s) ->
  (forall o, parse E T_Schema (VDict kvs) = Some o -> parse E (TUnion ts) (VDict kvs) = Some o)
  /\ (parse E T_Schema (VDict kvs) = None -> In (TDict TAny) ts -> parse E (TUnion ts) (VDict kvs) = Some (VDict kvs))
  /\ (parse E T_Schema (VDict kvs) = None -> ~ In (TDict TAny) ts -> parse E (TUnion ts) (VDict kvs) = None).
Proof. intros Ha Hs. exact (schema_in_union E ts kvs (schema_union ts Ha Hs)). Qed.
(** Multi Format Schema, Schema or Reference. *)
Theorem c98_multi E ts kvs : In (TUnion ts) annotations -> allows_schema ts -> In T_MultiFormatSchema ts -> NoDup (map fst kvs) -> (forall s, ~ names kvs s) ->
  (forall o, parse E T_MultiFormatSchema (VDict kvs) = Some o -> (forall k, In k schema_keys -> ~ In k (map fst kvs)) -> parse E (TUnion ts) (VDict kvs) = Some o)
  /\ (forall o, parse E T_MultiFormatSchema (VDict kvs) = Some o -> parse E T_Schema (VDict kvs) = None -> parse E (TUnion ts) (VDict kvs) = Some o)
  /\ (parse E T_MultiFormatSchema (VDict kvs) = None -> parse E (TUnion ts) (VDict kvs) = parse E T_Schema (VDict kvs)).
Proof. intros Ha Hs. exact (multi_in_union E ts kvs (schema_union ts Ha Hs)). Qed.
(** What can be read as a Multi Format Schema at all. *)
Theorem c98_multi_format E kvs : (exists o, parse E T_MultiFormatSchema (VDict kvs) = Some o) <->
  In (u "schema") (map fst kvs) /\ forall x, gives (fld "schema_format" "schemaFormat" None false false FvNone) kvs x -> exists s, x = VStr s.
Proof. exact (multi_iff E kvs). Qed.

Lemma annotated_multi : In (TUnion [T_MultiFormatSchema; T_Schema; T_Reference]) annotations.
Proof. exact (proj1 c21_ex). Qed.
Lemma annotated_message : In (TUnion [T_Message; T_Reference]) annotations.
Proof. exact (proj2 c21_ex). Qed.
Definition schema_or_ref : list ty := [T_Schema; T_Reference].
Definition kafka_key : list ty := [T_Schema; T_Reference; TDict TAny].
Lemma annotated_of ts : existsb (ty_eqb (TUnion ts)) annotations = true -> In (TUnion ts) annotations.
Proof. intros Hx. apply existsb_exists in Hx as (t & Ht & He). apply ty_eqb_eq in He. rewrite He. exact Ht. Qed.
Example c98_annotated : In (TUnion schema_or_ref) annotations /\ In (TUnion kafka_key) annotations /\ In (TUnion [TInt; T_Schema; T_Reference]) annotations.
Proof. split; [|split]; apply annotated_of; vm_compute; reflexivity. Qed.
Example c98_allows : allows_schema [T_MultiFormatSchema; T_Schema; T_Reference] /\ allows_schema kafka_key /\ ~ allows_schema [T_Message; T_Reference].
Proof.
  split; [|split].
  - eexists; eexists. right. left. reflexivity.
  - eexists; eexists. left. reflexivity.
  - intros (k & fs & [Hx|[Hx|[]]]); discriminate Hx.
Qed.
(** Both members accept: the one with more recognised fields is taken, here the Schema although schema is given. *)
Example c98_ex_both : exists fv ex, parse E0 (TUnion [T_MultiFormatSchema; T_Schema; T_Reference])
  (obj [("schema", obj [("type", str "string")]); ("discriminator", str "kind"); ("deprecated", VBool true)]) = Some (VObj "Schema" fv ex).
Proof. eexists; eexists; vm_compute; reflexivity. Qed.
Example c98_ex_multi : exists fv ex, parse E0 (TUnion [T_MultiFormatSchema; T_Schema; T_Reference])
  (obj [("schemaFormat", str "application/vnd.apache.avro;version=1.9.0"); ("schema", obj [("type", str "record")])]) = Some (VObj "MultiFormatSchema" fv ex).
Proof. eexists; eexists; vm_compute; reflexivity. Qed.
(** The key ref alone makes a Reference of what could be a schema. *)
Example c98_ex_name : parse E0 (TUnion schema_or_ref) (obj [("ref", str "#/components/schemas/s")]) = Some (the_reference (u "#/components/schemas/s")).
Proof. vm_compute. reflexivity. Qed.
Example c98_ex_key : exists fv ex, parse E0 (TUnion kafka_key) (obj [("type", str "string")]) = Some (VObj "Schema" fv ex)
  /\ parse E0 (TUnion kafka_key) (obj [("deprecated", VList [])]) = Some (obj [("deprecated", VList [])]).
Proof. eexists; eexists; split; vm_compute; reflexivity. Qed.

(** ** C99: the AsyncAPI specification on the Reference Object: "any properties added SHALL be ignored", so a mapping with a $ref is
    that reference whatever else it has. *)
Theorem c99_siblings_refuted : ~ (forall E ts kvs s o, In (TUnion ts) annotations -> In T_Reference ts -> NoDup (map fst kvs) -> In (u "$ref", VStr s) kvs ->
  parse E (TUnion ts) (VDict kvs) = Some o -> o = the_reference s).
Proof.
  intros Hall. assert (Hx : exists fv ex, parse E0 (TUnion schema_or_ref) (VDict [(u "$ref", str "#/a"); (u "description", str "text")]) = Some (VObj "Schema" fv ex))
    by (eexists; eexists; vm_compute; reflexivity).
  destruct Hx as (fv & ex & Hx). apply (Hall E0 schema_or_ref _ (u "#/a")) in Hx.
  - discriminate Hx.
  - exact (proj1 c98_annotated).
  - right. left. reflexivity.
  - cbn [map fst]. constructor; [intros [Hi|[]]; discriminate Hi|]. constructor; [intros []|constructor].
  - left. reflexivity.
Qed.
(** Where no Schema is allowed, other keys beside $ref are refused. *)
Theorem c99_refused_partial E ts kvs s o : In (TUnion ts) annotations -> In T_Reference ts -> ~ allows_schema ts -> NoDup (map fst kvs) -> In (u "$ref", VStr s) kvs ->
  parse E (TUnion ts) (VDict kvs) = Some o -> o = the_reference s /\ kvs = [(u "$ref", VStr s)].
Proof. exact (sibling_refused E ts kvs s o). Qed.
(** Where a Schema is allowed, the mapping is accepted and $ref is kept as a piece of free-form data of a schema (or, for the key of
    a Kafka message, of a dict). *)
Theorem c99_schema_partial E ts kvs s o : In (TUnion ts) annotations -> allows_schema ts -> NoDup (map fst kvs) -> In (u "$ref", VStr s) kvs -> (2 <= List.length kvs)%nat ->
  parse E (TUnion ts) (VDict kvs) = Some o ->
  (exists c fv ex, (c = "Schema" \/ c = "MultiFormatSchema") /\ o = VObj c fv ex /\ In (u "$ref", VStr s) ex) \/ o = VDict kvs.
Proof. exact (sibling_kept E ts kvs s o). Qed.
(** Then nothing checks it: a document whose only reference leads nowhere is accepted, by the bundled validator too; without the description it is rejected. *)
Definition doc_sibling (more : list (string * pv)) : pv :=
  spec [("components", obj [("messages", obj [("m", obj [("payload", obj (("$ref", str "#/components/schemas/gone") :: more))])])])].
Theorem c99_unchecked : exists doc, parse E0 T_AsyncAPI3 (doc_sibling [("description", str "text")]) = Some doc /\ unified E0 doc = None.
Proof.
  exists (load_doc (doc_sibling [("description", str "text")])). split; [apply load_doc_ok; vm_compute; reflexivity|vm_compute; reflexivity].
Qed.
Example c99_ex_alone : exists doc, parse E0 T_AsyncAPI3 (doc_sibling []) = Some doc /\ unified E0 doc <> None.
Proof. exists (load_doc (doc_sibling [])). split; [apply load_doc_ok; vm_compute; reflexivity|vm_compute; discriminate]. Qed.
Example c99_ex_refused : parse E0 (TUnion [T_Message; T_Reference]) (obj [("$ref", str "#/components/messages/m"); ("description", str "text")]) = None.
Proof. vm_compute. reflexivity. Qed.

(** ** C100: a Multi Format Schema is read as one or refused. *)
Theorem c100_multi_refuted : ~ (forall E kvs o, NoDup (map fst kvs) -> In (u "schemaFormat") (map fst kvs) ->
  parse E (TUnion [T_MultiFormatSchema; T_Schema; T_Reference]) (VDict kvs) = Some o -> instance_of "MultiFormatSchema" o).
Proof.
  intros Hall. assert (Hx : exists fv ex, parse E0 (TUnion [T_MultiFormatSchema; T_Schema; T_Reference]) (VDict [(u "schemaFormat", str "application/json")]) = Some (VObj "Schema" fv ex))
    by (eexists; eexists; vm_compute; reflexivity).
  destruct Hx as (fv & ex & Hx). apply Hall in Hx.
  - destruct Hx as (fv' & ex' & Hx). discriminate Hx.
  - cbn [map fst]. constructor; [intros []|constructor].
  - left. reflexivity.
Qed.
(** What a well-formed one needs: schema, a string as schemaFormat, and no key the Schema Object declares.  Missing: with faults it is taken for a Schema. *)
Theorem c100_multi_partial E kvs : NoDup (map fst kvs) -> In (u "schema") (map fst kvs) -> (forall k, In k schema_keys -> ~ In k (map fst kvs)) ->
  (forall x, gives (fld "schema_format" "schemaFormat" None false false FvNone) kvs x -> exists s, x = VStr s) ->
  exists o, parse E (TUnion [T_MultiFormatSchema; T_Schema; T_Reference]) (VDict kvs) = Some o /\ instance_of "MultiFormatSchema" o.
Proof.
  intros Hd Hs Hk Hf. destruct (proj2 (multi_iff E kvs) (conj Hs Hf)) as [o Ho]. exists o. split.
  - assert (Hn : forall s, ~ names kvs s) by (intros s [->| ->]; destruct Hs as [Hs|[]]; discriminate Hs).
    exact (proj1 (c98_multi E _ kvs annotated_multi (proj1 c98_allows) (or_introl eq_refl) Hd Hn) o Ho Hk).
  - apply parse_some in Ho as [n Ho]. unfold T_MultiFormatSchema in Ho. cbn [validate] in Ho. apply vmodel_obj in Ho as (fv & _ & -> & _). eexists; eexists; reflexivity.
Qed.
(** A faulty one is never half-read: whatever is called a Multi Format Schema has schema and a string as its format. *)
Theorem c100_sound E kvs fv ex : parse E (TUnion [T_MultiFormatSchema; T_Schema; T_Reference]) (VDict kvs) = Some (VObj "MultiFormatSchema" fv ex) ->
  In (u "schema") (map fst kvs) /\ exists s, get "schema_format" fv = VStr s.
Proof.
  intros Hp. apply some_member in Hp as (t & Ht & Hp). apply parse_some in Hp as [n Hv].
  destruct Ht as [<-|[<-|[<-|[]]]].
  - split.
    + destruct (in_dec str_eq_dec (u "schema") (map fst kvs)) as [Hi|Hi]; [exact Hi|]. destruct (multi_needs E kvs _ Hi Hv).
    + unfold T_MultiFormatSchema in Hv. cbn [validate] in Hv. apply vmodel_obj in Hv as (fv' & Hf & Heq & _). assert (fv = fv') by congruence. subst fv'. clear Heq.
      rewrite vfields_cons in Hf. destruct (lookup_field _ kvs) as [x|].
      * cbn [validate] in Hf. destruct x; try discriminate Hf. cbn [len_ok fv_check f_val fld] in Hf.
        destruct (vfields E (validate E) kvs _) as [[r m]|]; [|discriminate Hf]. assert (Hfv : fv = (u "schema_format", VStr s) :: r) by (cbn [f_name fld] in Hf; congruence).
        subst fv. exists s. reflexivity.
      * cbn [f_def fld] in Hf. destruct (vfields E (validate E) kvs _) as [[r m]|]; [|discriminate Hf].
        assert (Hfv : fv = (u "schema_format", VStr (u "application/vnd.aai.asyncapi;version=3.0.0")) :: r) by (cbn [f_name fld] in Hf; congruence).
        subst fv. eexists. reflexivity.
  - unfold T_Schema in Hv. cbn [validate] in Hv. apply vmodel_obj in Hv as (fv' & _ & Heq & _). discriminate Heq.
  - unfold T_Reference in Hv. cbn [validate] in Hv. apply vmodel_obj in Hv as (fv' & _ & Heq & _). discriminate Heq.
Qed.
Example c100_ex_wrong_format : exists fv ex, parse E0 (TUnion [T_MultiFormatSchema; T_Schema; T_Reference]) (obj [("schemaFormat", VInt 3); ("schema", obj [])]) = Some (VObj "Schema" fv ex).
Proof. eexists; eexists; vm_compute; reflexivity. Qed.

Print Assumptions c98_one_reading.
Print Assumptions c98_instance.
Print Assumptions c98_reference.
Print Assumptions c98_schema.
Print Assumptions c98_multi.
Print Assumptions c98_multi_format.
Print Assumptions c99_siblings_refuted.
Print Assumptions c99_refused_partial.
Print Assumptions c99_schema_partial.
Print Assumptions c99_unchecked.
Print Assumptions c100_multi_refuted.
Print Assumptions c100_multi_partial.
Print Assumptions c100_sound.
