(** Properties C01-C11, C21, C47: what parsing accepts. *)
From Verif Require Import PyStr Regex Value Types Rules Pydantic ClassTable Classes SpecParse Sample ProofRules ProofParse.
Local Open Scope string_scope.

(** ** C01.  A patterned map (class [c], values of annotation [t]) accepts a mapping iff every key
    is an acceptable key and every value is accepted; the result has the same keys in order. *)
Theorem c01_patterned_keys E c t d o :
  parse E (TRoot c t) (VDict d) = Some o <->
  exists r, o = VRoot c r
    /\ (forall k, In k (map fst d) -> upto_nl doc_key k)
    /\ Forall2 (fun a b => fst a = fst b /\ parse E t (snd a) = Some (snd b)) d r.
Proof. exact (root_parse_iff E c t d o). Qed.
(** Anything that is not a mapping with string keys (or an instance of the class, whose keys are
    checked again) is rejected. *)
Theorem c01_only_maps E c t v o : parse E (TRoot c t) v = Some o ->
  (exists d, (v = VDict d \/ v = VRoot c d) /\ forall k, In k (map fst d) -> upto_nl doc_key k).
Proof.
  intros H. destruct v; try discriminate.
  - apply root_parse_iff in H as (r & _ & Hk & _). eauto.
  - unfold parse in H. cbn [validate] in H. destruct (String.eqb_spec c c0) as [->|]; [|discriminate].
    change (parse E (TRoot c0 t) (VDict d) = Some o) in H. apply root_parse_iff in H as (r & _ & Hk & _). eauto.
Qed.
(** The classes this is about: every map of the components object, and the root maps. *)
Definition patterned_field (ft : finfo * ty) : Prop := exists c t, snd ft = TOpt (TRoot c t) /\ In (TRoot c t) all_types.
Theorem c01_components_maps : Forall patterned_field (class_fields "Components").
Proof.
  repeat (constructor; [eexists; eexists; split; [reflexivity|unfold all_types; repeat (first [left; reflexivity|right])]|]).
  constructor.
Qed.
Theorem c01_root_maps : forall f, In f ["servers"; "channels"; "operations"] ->
  exists fi c t, In (fi, TOpt (TRoot c t)) (class_fields "AsyncAPI3") /\ f_name fi = u f.
Proof.
  intros f [<-|[<-|[<-|[]]]]; do 3 eexists; (split; [unfold class_fields; simpl|]);
    [do 3 right; left; reflexivity|reflexivity|do 5 right; left; reflexivity|reflexivity
    |do 6 right; left; reflexivity|reflexivity].
Qed.
Example c01_ex : exists o, parse E0 T_Tags (obj [("my-tag_1", obj [("name", str "t")]); ("B", ref "#/x")]) = Some o.
Proof. eexists. vm_compute. reflexivity. Qed.
Example c01_ex_bad : parse E0 T_Tags (obj [("my tag", obj [("name", str "t")])]) = None.
Proof. vm_compute. reflexivity. Qed.

(** ** C47.  README: keys contain only letters, digits, hyphens and underscores.  Refuted: Python's
    [$] lets a trailing newline through. *)
Theorem c47_newline_key_refuted E :
  ~ (forall d o, parse E T_Tags (VDict d) = Some o -> forall k, In k (map fst d) -> doc_key k).
Proof.
  intros H. specialize (H [(u "a" ++ nl, VDict [(u "name", VStr (u "t"))])%list]). 
  assert (Hp : parse E T_Tags (VDict [((u "a" ++ nl)%list, VDict [(u "name", VStr (u "t"))])])
     = Some (VRoot "Tags" [((u "a" ++ nl)%list, VObj "Tag" [(u "name", VStr (u "t")); (u "description", VNone); (u "external_docs", VNone)] [])])).
  { reflexivity. }
  specialize (H _ Hp _ (or_introl eq_refl)). destruct H as [_ H]. inversion H as [|? ? _ H2]; subst.
  inversion H2 as [|? ? H3 _]; subst. unfold letter, digit09 in H3. lia.
Qed.
(** Strongest true version: only a final newline may be added to a documented key. *)
Theorem c47_keys_partial E c t d o : parse E (TRoot c t) (VDict d) = Some o ->
  forall k, In k (map fst d) -> doc_key k \/ exists w, doc_key w /\ k = (w ++ nl)%list.
Proof.
  intros H k Hk. apply root_parse_iff in H as (r & _ & Hd & _). destruct (Hd k Hk) as (w & Hw & [->| ->]); eauto.
Qed.

(** ** C50.  Refuted: the docstrings of these three classes allow dots, their common base class does not. *)
Ltac chars := match goal with |- Forall _ ?l => let l' := eval vm_compute in l in change l with l' end; unfold letter, digit09;
  repeat (apply Forall_cons; [lia|]); apply Forall_nil.
Definition dotted_classes : list ty := [T_Channels; T_Messages; T_Parameters].
Theorem c50_docstring_refuted E : forall t, In t dotted_classes ->
  ~ (forall k, docstring_key k -> exists o, parse E t (VDict [(k, VDict [(u "$ref", VStr (u "x"))])]) = Some o).
Proof.
  intros t Ht H. destruct (H (u "a.b")) as (o & Ho).
  - split; [discriminate|]. chars.
  - destruct Ht as [<-|[<-|[<-|[]]]]; apply root_parse_iff in Ho as (r & _ & Hk & _);
      (destruct (Hk (u "a.b") (or_introl eq_refl)) as (w & [_ Hw] & [<-|Hn]);
       [inversion Hw as [|? ? _ H2]; subst; inversion H2 as [|? ? H3 _]; subst; unfold letter, digit09 in H3; lia
       |apply (f_equal (@rev N)) in Hn; rewrite rev_app_distr in Hn; discriminate Hn]).
Qed.
(** Keys with a dot are never accepted by any patterned class; documented keys without a dot always are, in the three classes. *)
Theorem c50_dot_rejected E c t d o k : parse E (TRoot c t) (VDict d) = Some o -> In k (map fst d) -> ~ In 46%N k.
Proof.
  intros H Hk Hdot. apply root_parse_iff in H as (r & _ & Hd & _). destruct (Hd k Hk) as (w & [_ Hw] & [->| ->]); rewrite Forall_forall in Hw.
  - specialize (Hw _ Hdot). unfold letter, digit09 in Hw. lia.
  - apply in_app_or in Hdot as [Hdot|[Hdot|[]]]; [specialize (Hw _ Hdot); unfold letter, digit09 in Hw; lia|discriminate Hdot].
Qed.
Theorem c50_docstring_partial E : forall t, In t dotted_classes -> forall k s, docstring_key k -> ~ In 46%N k ->
  exists o, parse E t (VDict [(k, VDict [(u "$ref", VStr s)])]) = Some o.
Proof.
  intros t Ht k s [Hk Hf] Hdot.
  assert (Hd : doc_key k).
  { split; [exact Hk|]. rewrite Forall_forall in *. intros c Hc. destruct (Hf c Hc) as [H|[H|[H|[H|H]]]]; auto. subst c. contradiction. }
  assert (Hu : forall c t', (forall s, parse E t' (VDict [(u "$ref", VStr s)]) = Some (VObj "Reference" [(u "ref", VStr s)] [])) ->
    exists o, parse E (TRoot c t') (VDict [(k, VDict [(u "$ref", VStr s)])]) = Some o).
  { intros c t' Hp. eexists. apply root_parse_iff. exists [(k, VObj "Reference" [(u "ref", VStr s)] [])]. split; [reflexivity|].
    split; [intros k' [<-|[]]; exists k; auto|]. constructor; [|constructor]. split; [reflexivity|apply Hp]. }
  destruct Ht as [<-|[<-|[<-|[]]]]; apply Hu; intros; reflexivity.
Qed.
Example c50_ex : docstring_key (u "user.signedup") /\ In 46%N (u "user.signedup") /\ docstring_key (u "user_1") /\ ~ In 46%N (u "user_1")
  /\ parse E0 T_Channels (obj [("user.signedup", ref "x")]) = None.
Proof.
  split; [split; [discriminate|chars]|]. split; [vm_compute; intuition|].
  split; [split; [discriminate|chars]|]. split; [vm_compute; intuition discriminate|vm_compute; reflexivity].
Qed.

(** ** C02.  Extendable classes: undeclared keys are exactly the x- extensions. *)
Theorem c02_extensions E c fs kvs :
  (exists o, parse E (TModel c KExt fs) (VDict kvs) = Some o) <->
  (exists o, parse E (TModel c KExt fs) (VDict (only_declared fs kvs)) = Some o)
  /\ forall k, In k (map fst kvs) -> ~ declared fs k -> upto_nl (extension_key E) k.
Proof. exact (extension_iff E c fs kvs). Qed.
Theorem c02_prefix E c fs kvs o k :
  parse E (TModel c KExt fs) (VDict kvs) = Some o -> In k (map fst kvs) -> ~ declared fs k -> exists w, k = (u "x-" ++ w)%list.
Proof.
  intros H Hk Hd. destruct (proj1 (extension_iff E c fs kvs) (ex_intro _ o H)) as [_ H2].
  destruct (H2 k Hk Hd) as (w & (w' & -> & _) & [->| ->]); [eauto|]. exists (w' ++ nl)%list. rewrite app_assoc. reflexivity.
Qed.
(** The closed and the extendable classes are the documented ones. *)
Example c02_classes : class_kind "Info" = KExt /\ class_kind "Channel" = KExt /\ class_kind "AsyncAPI3" = KExt
  /\ class_kind "Components" = KExt /\ class_kind "Message" = KExt /\ class_kind "Reference" = KForbid.
Proof. repeat split. Qed.
Example c02_ex : exists o, parse E0 T_Info (obj [("title", str "t"); ("version", str "1"); ("x-foo.bar", VInt 3)]) = Some o.
Proof. eexists. vm_compute. reflexivity. Qed.
Example c02_ex_bad : parse E0 T_Info (obj [("title", str "t"); ("version", str "1"); ("foo", VInt 3)]) = None.
Proof. vm_compute. reflexivity. Qed.

(** ** C03.  Closed classes. *)
Theorem c03_closed E c fs kvs o :
  parse E (TModel c KForbid fs) (VDict kvs) = Some o ->
  (forall k, In k (map fst kvs) -> declared fs k) /\ exists fv, o = VObj c fv [].
Proof. exact (closed_reject E c fs kvs o). Qed.
Theorem c03_no_extra E c fs v o : parse E (TModel c KForbid fs) v = Some o -> exists fv, o = VObj c fv [].
Proof. exact (closed_no_extra E c fs v o). Qed.
(** Every class of the bindings (reachable from the four bindings objects) is closed, except
    KafkaTopicConfiguration, Schema and MultiFormatSchema. *)
Fixpoint classes_in (t : ty) : list (string * kind) :=
  match t with
  | TList t' | TDict t' | TOpt t' | TRoot _ t' => classes_in t'
  | TUnion ts => flat_map classes_in ts
  | TModel c k fs => (c, k) :: flat_map (fun ft => classes_in (snd ft)) fs
  | _ => []
  end.
Definition binding_classes : list (string * kind) :=
  flat_map (fun c => flat_map (fun ft => classes_in (snd ft)) (class_fields c))
    ["ServerBindingsObject"; "ChannelBindingsObject"; "OperationBindingsObject"; "MessageBindingsObject"].
Theorem c03_bindings_closed c k : In (c, k) binding_classes ->
  k = KForbid \/ In c ["KafkaTopicConfiguration"; "Schema"; "MultiFormatSchema"; "ExternalDocumentation"].
Proof.
  assert (H : forallb (fun ck => match snd ck with KForbid => true
      | _ => existsb (String.eqb (fst ck)) ["KafkaTopicConfiguration"; "Schema"; "MultiFormatSchema"; "ExternalDocumentation"] end) binding_classes = true)
    by (vm_compute; reflexivity).
  rewrite forallb_forall in H. intros Hin. specialize (H _ Hin). cbn [fst snd] in H.
  destruct k; [right|left; reflexivity|right]; apply existsb_exists in H as (x & Hx & He); apply String.eqb_eq in He; subst; exact Hx.
Qed.
Example c03_ex : exists o, parse E0 T_Reference (ref "#/a") = Some o. Proof. eexists; vm_compute; reflexivity. Qed.
Example c03_ex_bad : parse E0 T_Reference (obj [("$ref", str "#/a"); ("x-a", VNone)]) = None.
Proof. vm_compute. reflexivity. Qed.

(** ** C04. *)
Theorem c04_email E s o : parse E TEmail (VStr s) = Some o <-> o = VStr s /\ email_spec s.
Proof. exact (email_parse_iff E s o). Qed.
Theorem c04_contact E v fv ex : parse E T_Contact v = Some (VObj "Contact" fv ex) ->
  get "email" fv = VNone \/ exists s, get "email" fv = VStr s /\ email_spec s.
Proof. exact (contact_email E v fv ex). Qed.
Theorem c04_shape s : email_spec s ->
  (exists a b, s = (a ++ u "@" ++ b)%list /\ ~ In 64%N a /\ ~ In 64%N b)
  /\ (forall c, In c s -> (c <= 32)%N -> c = 10%N /\ exists w, s = (w ++ nl)%list).
Proof. intros H. split; [exact (email_one_at s H)|intros c; exact (email_no_space s c H)]. Qed.
Example c04_ex : exists o, parse E0 T_Contact (obj [("email", str "a.b+c@ex-a.mple.org")]) = Some o.
Proof. eexists; vm_compute; reflexivity. Qed.
Example c04_ex_bad : Forall (fun s => parse E0 T_Contact (obj [("email", str s)]) = None)
  ["a@b"; "a..b@c.de"; "@b.de"; "a@b.c"; "a@b@c.de"; "a b@c.de"; ""].
Proof. repeat (constructor; [vm_compute; reflexivity|]). constructor. Qed.

(** ** C05. *)
Theorem c05_version E s i i' : parse E T_Info i = Some i' ->
  ((exists o, parse E T_AsyncAPI3 (VDict [(u "asyncapi", VStr s); (u "info", i)]) = Some o) <-> version_spec E s).
Proof. exact (version_parse_iff E s i i'). Qed.
Theorem c05_document E v fv ex : parse E T_AsyncAPI3 v = Some (VObj "AsyncAPI3" fv ex) ->
  exists s, get "asyncapi" fv = VStr s /\ version_spec E s.
Proof. exact (document_version E v fv ex). Qed.
Definition info0 : pv := obj [("title", str "t"); ("version", str "1")].
Example c05_ex : Forall (fun s => exists o, parse E0 T_AsyncAPI3 (obj [("asyncapi", str s); ("info", info0)]) = Some o)
  ["3.0.0"; "3.1.12-rc.1"; "003.0.0"].
Proof. repeat (constructor; [eexists; vm_compute; reflexivity|]). constructor. Qed.
Example c05_ex_bad : Forall (fun s => parse E0 T_AsyncAPI3 (obj [("asyncapi", str s); ("info", info0)]) = None)
  ["2.6.0"; "30.0.0"; "3.0"; "3.0.0.0"; "3.0.0-"; "v3.0.0"; "13.0.0"; "4.0.0"; ""].
Proof. repeat (constructor; [vm_compute; reflexivity|]). constructor. Qed.

(** ** C06-C09, C11.  A mapping is accepted by one of these classes iff its declared fields are typed,
    its extra keys follow the class policy, and the rule of the class holds; and every accepted
    value, whatever it was built from, satisfies the rule. *)
Definition accepts (E : env) (t : ty) (kvs : fields) : Prop := exists o, parse E t (VDict kvs) = Some o.
Definition accepted_under (E : env) (c : string) (kvs : fields) (rule : fields -> Prop) : Prop :=
  exists fv, typed_fields E kvs (class_fields c) fv /\ extra_policy E (class_kind c) (class_fields c) kvs /\ rule fv.
Ltac rule_iff :=
  unfold accepts, accepted_under; split;
  [intros [o H]; apply model_parse_iff in H as (fv & _ & Ht & Hx & Hc); exists fv; split; [exact Ht|]; split; [exact Hx|];
   unfold cross_field_spec in Hc; intuition
  |intros (fv & Ht & Hx & Hc); eexists; apply model_parse_iff; exists fv; split; [reflexivity|]; split; [exact Ht|];
   split; [exact Hx|]; unfold cross_field_spec; repeat apply conj; intros HH; try discriminate HH; exact Hc].
Ltac rule_sound := intros H; apply accepted_rules in H; unfold cross_field_spec in H; intuition.

Theorem c06_channel E kvs : accepts E T_Channel kvs <-> accepted_under E "Channel" kvs channel_spec.
Proof. rule_iff. Qed.
Theorem c06_channel_sound E v fv ex : parse E T_Channel v = Some (VObj "Channel" fv ex) -> channel_spec fv.
Proof. rule_sound. Qed.
Example c06_ex : exists o, parse E0 T_Channel (obj [("address", str "a/{id}"); ("parameters", obj [("id", obj [])])]) = Some o.
Proof. eexists; vm_compute; reflexivity. Qed.
Example c06_ex_bad : Forall (fun a => parse E0 T_Channel (obj [("address", a); ("parameters", obj [("id", obj [])])]) = None)
  [VNone; str "a"; str "{}"; str "{a"; str "a}"].
Proof. repeat (constructor; [vm_compute; reflexivity|]). constructor. Qed.

Theorem c07_security E kvs : accepts E T_SecurityScheme kvs <-> accepted_under E "SecurityScheme" kvs security_spec.
Proof. rule_iff. Qed.
Theorem c07_security_sound E v fv ex : parse E T_SecurityScheme v = Some (VObj "SecurityScheme" fv ex) -> security_spec fv.
Proof. rule_sound. Qed.
Example c07_ex : Forall (fun d => exists o, parse E0 T_SecurityScheme d = Some o)
  [obj [("type", str "apiKey"); ("in", str "user")];
   obj [("type", str "http"); ("scheme", str "bearer"); ("bearerFormat", str "JWT")];
   obj [("type", str "httpApiKey"); ("name", str "n"); ("in", str "cookie")];
   obj [("type", str "plain")]].
Proof. repeat (constructor; [eexists; vm_compute; reflexivity|]). constructor. Qed.
Example c07_ex_bad : Forall (fun d => parse E0 T_SecurityScheme d = None)
  [obj [("type", str "apiKey"); ("in", str "query")];
   obj [("type", str "http"); ("scheme", str "basic"); ("bearerFormat", str "JWT")];
   obj [("type", str "httpApiKey"); ("in", str "cookie")]; obj [("type", str "http")];
   obj [("type", str "oauth2")]; obj [("type", str "openIdConnect")];
   obj [("type", str "plain"); ("scopes", VList [])]].
Proof. repeat (constructor; [vm_compute; reflexivity|]). constructor. Qed.

Theorem c08_oauth E kvs : accepts E T_OAuthFlows kvs <-> accepted_under E "OAuthFlows" kvs oauth_flows_spec.
Proof. rule_iff. Qed.
Theorem c08_oauth_sound E v fv ex : parse E T_OAuthFlows v = Some (VObj "OAuthFlows" fv ex) -> oauth_flows_spec fv.
Proof. rule_sound. Qed.
Definition flow (l : list (string * pv)) := obj (("availableScopes", obj []) :: l).
Example c08_ex : exists o, parse E0 T_OAuthFlows (obj [("implicit", flow [("authorizationUrl", str "http://a")]);
  ("authorizationCode", flow [("authorizationUrl", str "http://a"); ("tokenUrl", str "http://b")])]) = Some o.
Proof. eexists; vm_compute; reflexivity. Qed.
Example c08_ex_bad : Forall (fun d => parse E0 T_OAuthFlows d = None)
  [obj [("implicit", flow [("tokenUrl", str "http://a")])]; obj [("password", flow [])]; obj [("clientCredentials", flow [])];
   obj [("authorizationCode", flow [("tokenUrl", str "http://b")])]].
Proof. repeat (constructor; [vm_compute; reflexivity|]). constructor. Qed.

Theorem c09_amqp_channel E kvs : accepts E T_AMQPChannelBindings kvs <-> accepted_under E "AMQPChannelBindings" kvs amqp_channel_spec.
Proof. rule_iff. Qed.
Theorem c09_amqp_channel_sound E v fv ex : parse E T_AMQPChannelBindings v = Some (VObj "AMQPChannelBindings" fv ex) -> amqp_channel_spec fv.
Proof. rule_sound. Qed.
Theorem c09_ibmmq_channel E kvs : accepts E T_IBMMQChannelBindings kvs <-> accepted_under E "IBMMQChannelBindings" kvs ibmmq_channel_spec.
Proof. rule_iff. Qed.
Theorem c09_ibmmq_channel_sound E v fv ex : parse E T_IBMMQChannelBindings v = Some (VObj "IBMMQChannelBindings" fv ex) -> ibmmq_channel_spec fv.
Proof. rule_sound. Qed.
Theorem c09_ibmmq_message E kvs : accepts E T_IBMMQMessageBindings kvs <-> accepted_under E "IBMMQMessageBindings" kvs ibmmq_message_spec.
Proof. rule_iff. Qed.
Theorem c09_ibmmq_message_sound E v fv ex : parse E T_IBMMQMessageBindings v = Some (VObj "IBMMQMessageBindings" fv ex) -> ibmmq_message_spec fv.
Proof. rule_sound. Qed.
Theorem c09_kafka_server E kvs : accepts E T_KafkaServerBindings kvs <-> accepted_under E "KafkaServerBindings" kvs kafka_server_spec.
Proof. rule_iff. Qed.
Theorem c09_kafka_server_sound E v fv ex : parse E T_KafkaServerBindings v = Some (VObj "KafkaServerBindings" fv ex) -> kafka_server_spec fv.
Proof. rule_sound. Qed.
Theorem c09_solace_destination E kvs : accepts E T_SolaceDestination kvs <-> accepted_under E "SolaceDestination" kvs solace_destination_spec.
Proof. rule_iff. Qed.
Theorem c09_solace_destination_sound E v fv ex : parse E T_SolaceDestination v = Some (VObj "SolaceDestination" fv ex) -> solace_destination_spec fv.
Proof. rule_sound. Qed.
(** In every other class a mapping is accepted iff its fields are typed and its extra keys allowed:
    no rule beyond the listed ones exists. *)
Theorem c09_no_other_rules E c k fs kvs :
  ~ In c ["Channel"; "MessageExample"; "OAuthFlows"; "SecurityScheme"; "AMQPChannelBindings"; "IBMMQChannelBindings";
          "IBMMQMessageBindings"; "KafkaServerBindings"; "SolaceDestination"] ->
  accepts E (TModel c k fs) kvs <-> exists fv, typed_fields E kvs fs fv /\ extra_policy E k fs kvs.
Proof.
  intros Hn. unfold accepts. split.
  - intros [o H]. apply model_parse_iff in H as (fv & _ & Ht & Hx & _). eauto.
  - intros (fv & Ht & Hx). eexists. apply model_parse_iff. exists fv. repeat (split; [first [reflexivity|eassumption]|]).
    unfold cross_field_spec. repeat apply conj; intros ->; exfalso; apply Hn; simpl; tauto.
Qed.
Example c09_ex : Forall (fun d => exists o, parse E0 T_AMQPChannelBindings d = Some o)
  [obj [("is", str "routingKey"); ("exchange", obj [("name", str "e"); ("type", str "topic")])];
   obj [("is", str "queue"); ("queue", obj [("name", str "q")])]].
Proof. repeat (constructor; [eexists; vm_compute; reflexivity|]). constructor. Qed.
Example c09_ex_bad : Forall (fun d => parse E0 T_AMQPChannelBindings d = None)
  [obj [("is", str "routingKey")]; obj [("is", str "queue"); ("queue", obj []); ("exchange", obj [("name", str "e"); ("type", str "topic")])]].
Proof. repeat (constructor; [vm_compute; reflexivity|]). constructor. Qed.
Example c09_ex2 : exists o, parse E0 T_SolaceDestination (obj [("destinationType", str "queue"); ("queue", obj [])]) = Some o.
Proof. eexists; vm_compute; reflexivity. Qed.
Example c09_ex3 : exists o, parse E0 T_IBMMQChannelBindings (obj [("destinationType", str "queue"); ("queue", obj [("objectName", str "q")])]) = Some o.
Proof. eexists; vm_compute; reflexivity. Qed.
Example c09_ex4 : exists o, parse E0 T_KafkaServerBindings (obj [("schemaRegistryUrl", str "http://r"); ("schemaRegistryVendor", str "v")]) = Some o.
Proof. eexists; vm_compute; reflexivity. Qed.

(** ** C10. *)
Theorem c10_kafka E v fv ex : parse E T_KafkaChannelBindings v = Some (VObj "KafkaChannelBindings" fv ex) ->
  opt_int_in 1 None (get "partitions" fv) /\ opt_int_in 1 None (get "replicas" fv).
Proof. exact (limits_kafka E v fv ex). Qed.
Theorem c10_amqp_expiration E v fv ex : parse E T_AMQPOperationBindings v = Some (VObj "AMQPOperationBindings" fv ex) ->
  opt_int_in 0 None (get "expiration" fv).
Proof. exact (limit_amqp_op E v fv ex). Qed.
Theorem c10_ibmmq_expiry E v fv ex : parse E T_IBMMQMessageBindings v = Some (VObj "IBMMQMessageBindings" fv ex) ->
  opt_int_in 0 None (get "expiry" fv).
Proof. exact (limit_ibm_msg E v fv ex). Qed.
Theorem c10_ibmmq_heartbeat E v fv ex : parse E T_IBMMQServerBindings v = Some (VObj "IBMMQServerBindings" fv ex) ->
  opt_int_in 0 (Some 999999%Z) (get "heart_beat_interval" fv).
Proof. exact (limit_ibm_server E v fv ex). Qed.
Theorem c10_ibmmq_max_msg E v fv ex : parse E T_IBMMQChannelBindings v = Some (VObj "IBMMQChannelBindings" fv ex) ->
  opt_int_in 0 (Some 104857600%Z) (get "max_msg_length" fv).
Proof. exact (limit_ibm_channel E v fv ex). Qed.
Theorem c10_solace_priority E v fv ex : parse E T_SolaceOperationBindings v = Some (VObj "SolaceOperationBindings" fv ex) ->
  forall z, get "priority" fv = VInt z -> (0 <= z <= 255)%Z.
Proof. exact (limit_solace E v fv ex). Qed.
Theorem c10_solace_client E v fv ex : parse E T_SolaceServerBindings v = Some (VObj "SolaceServerBindings" fv ex) ->
  opt_str_max 160 (get "client_name" fv).
Proof. exact (limit_solace_server E v fv ex). Qed.
Theorem c10_nats_queue E v fv ex : parse E T_NATSOperationBindings v = Some (VObj "NATSOperationBindings" fv ex) ->
  opt_str_max 255 (get "queue" fv).
Proof. exact (limit_nats E v fv ex). Qed.
Theorem c10_amqp_exchange E v fv ex : parse E T_AMQPExchange v = Some (VObj "AMQPExchange" fv ex) -> opt_str_max 255 (get "name" fv).
Proof. exact (limit_amqp_exchange E v fv ex). Qed.
Theorem c10_amqp_queue E v fv ex : parse E T_AMQPQueue v = Some (VObj "AMQPQueue" fv ex) -> opt_str_max 255 (get "name" fv).
Proof. exact (limit_amqp_queue E v fv ex). Qed.
Theorem c10_ibmmq_queue E v fv ex : parse E T_IBMMQQueue v = Some (VObj "IBMMQQueue" fv ex) -> opt_str_max 48 (get "object_name" fv).
Proof. exact (limit_ibm_queue E v fv ex). Qed.
Theorem c10_ibmmq_topic E v fv ex : parse E T_IBMMQTopic v = Some (VObj "IBMMQTopic" fv ex) ->
  opt_str_max 10240 (get "string" fv) /\ opt_str_max 48 (get "object_name" fv).
Proof. exact (limit_ibm_topic E v fv ex). Qed.
(** Boundary values: the limits are exact. *)
Example c10_ex : Forall (fun td => exists o, parse E0 (fst td) (snd td) = Some o)
  [(T_KafkaChannelBindings, obj [("partitions", VInt 1); ("replicas", VInt 1)]);
   (T_AMQPOperationBindings, obj [("expiration", VInt 0)]); (T_IBMMQMessageBindings, obj [("expiry", VInt 0)]);
   (T_IBMMQServerBindings, obj [("heartBeatInterval", VInt 0)]); (T_IBMMQServerBindings, obj [("heartBeatInterval", VInt 999999)]);
   (T_IBMMQChannelBindings, obj [("maxMsgLength", VInt 104857600)]); (T_IBMMQChannelBindings, obj [("maxMsgLength", VInt 0)]);
   (T_SolaceOperationBindings, obj [("priority", VInt 0)]); (T_SolaceOperationBindings, obj [("priority", VInt 255)]);
   (T_SolaceServerBindings, obj [("clientName", VStr (repeat 97%N 160))]); (T_NATSOperationBindings, obj [("queue", VStr (repeat 97%N 255))]);
   (T_AMQPExchange, obj [("name", VStr (repeat 97%N 255)); ("type", str "topic")]); (T_AMQPQueue, obj [("name", VStr (repeat 97%N 255))]);
   (T_IBMMQQueue, obj [("objectName", VStr (repeat 97%N 48))]); (T_IBMMQTopic, obj [("objectName", VStr (repeat 97%N 48))])].
Proof. repeat (constructor; [eexists; vm_compute; reflexivity|]). constructor. Qed.
Example c10_ex_bad : Forall (fun td => parse E0 (fst td) (snd td) = None)
  [(T_KafkaChannelBindings, obj [("partitions", VInt 0)]); (T_KafkaChannelBindings, obj [("replicas", VInt 0)]);
   (T_AMQPOperationBindings, obj [("expiration", VInt (-1))]); (T_IBMMQMessageBindings, obj [("expiry", VInt (-1))]);
   (T_IBMMQServerBindings, obj [("heartBeatInterval", VInt 1000000)]); (T_IBMMQServerBindings, obj [("heartBeatInterval", VInt (-1))]);
   (T_IBMMQChannelBindings, obj [("maxMsgLength", VInt 104857601)]); (T_SolaceOperationBindings, obj [("priority", VInt 256)]);
   (T_SolaceServerBindings, obj [("clientName", VStr (repeat 97%N 161))]); (T_NATSOperationBindings, obj [("queue", VStr (repeat 97%N 256))]);
   (T_AMQPQueue, obj [("name", VStr (repeat 97%N 256))]); (T_IBMMQQueue, obj [("objectName", VStr (repeat 97%N 49))])].
Proof. repeat (constructor; [vm_compute; reflexivity|]). constructor. Qed.

(** ** C11. *)
Theorem c11_example E kvs : accepts E T_MessageExample kvs <-> accepted_under E "MessageExample" kvs example_spec.
Proof. rule_iff. Qed.
Theorem c11_example_sound E v fv ex : parse E T_MessageExample v = Some (VObj "MessageExample" fv ex) -> example_spec fv.
Proof. rule_sound. Qed.
Theorem c11_correlation E v fv ex : parse E T_CorrelationID v = Some (VObj "CorrelationID" fv ex) ->
  exists s, get "location" fv = VStr (u "$message." ++ s)%list.
Proof. exact (correlation_location E v fv ex). Qed.
Theorem c11_correlation_iff E l :
  (exists o, parse E T_CorrelationID (VDict [(u "location", VStr l)]) = Some o) <-> exists s, l = (u "$message." ++ s)%list.
Proof. exact (correlation_iff E l). Qed.
Example c11_ex : exists o, parse E0 T_MessageExample (obj [("payload", VInt 0)]) = Some o.
Proof. eexists; vm_compute; reflexivity. Qed.
Example c11_ex_bad : parse E0 T_MessageExample (obj [("name", str "n"); ("payload", VNone)]) = None.
Proof. vm_compute; reflexivity. Qed.

(** ** C21.  [annotations]: every annotation written in a class of the library. *)
Theorem c21_reference E s ts : In (TUnion ts) annotations -> In T_Reference ts ->
  parse E (TUnion ts) (VDict [(u "$ref", VStr s)]) = Some (VObj "Reference" [(u "ref", VStr s)] []).
Proof. exact (ref_read E s ts). Qed.
Example c21_ex : In (TUnion [T_MultiFormatSchema; T_Schema; T_Reference]) annotations /\ In (TUnion [T_Message; T_Reference]) annotations.
Proof.
  split.
  - unfold annotations. apply in_flat_map. exists T_Schemas. split; [unfold all_types; repeat (first [left; reflexivity|right])|].
    right; left; reflexivity.
  - unfold annotations. apply in_flat_map. exists T_Messages. split; [unfold all_types; repeat (first [left; reflexivity|right])|].
    right; left; reflexivity.
Qed.

Print Assumptions c01_patterned_keys.
Print Assumptions c05_version.
Print Assumptions c07_security.
Print Assumptions c21_reference.
