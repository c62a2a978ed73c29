(** Specification of the processor pipeline and of as_builder. *)
From Verif Require Import PyStr Value Types Rules Pydantic ClassTable Classes SpecParse SpecState Resolve SpecResolve Unified Validators Pipeline.
Local Open Scope string_scope.

(** The processors listed in a field of a document (None counts as no processor). *)
Definition listed (doc : pv) (f : string) (l : list pv) : Prop :=
  exists c fv ex, doc = VObj c fv ex /\ (assoc (u f) fv = Some (VList l) \/ (assoc (u f) fv = Some VNone /\ l = [])).
(** The document after some calls. *)
Definition state_after (doc : pv) (calls : list call) : pv := last (map c_out calls) doc.
(** Each call gets the document the previous one left, the first one [doc]. *)
Definition chained (doc : pv) (calls : list call) : Prop :=
  forall before c after, calls = (before ++ c :: after)%list -> c_in c = state_after doc before.
(** Each call is something the processor may do. *)
Definition real (acts : pv -> pv * list pv -> bool -> pv * list pv -> Prop) (calls : list call) : Prop :=
  forall c, In c calls -> exists live live', acts (c_proc c) (c_in c, live) (c_ok c) (c_out c, live').
(** Processors neither edit the list being iterated in place nor leave a typed document ill-typed. *)
Definition well_behaved (E : env) (acts : pv -> pv * list pv -> bool -> pv * list pv -> Prop) : Prop :=
  forall p d l ok d' l', acts p (d, l) ok (d', l') -> l' = l /\ (well_typed E T_AsyncAPI3 d -> well_typed E T_AsyncAPI3 d').
(** Every processor call ends. *)
Definition total (acts : pv -> pv * list pv -> bool -> pv * list pv -> Prop) : Prop :=
  forall p s, exists ok s', acts p s ok s'.

(** What as_builder should produce: everything present and empty. *)
Definition empty_components : pv := VObj "Components"
  (map (fun p => (u (fst p), VRoot (snd p) []))
    [("schemas", "Schemas"); ("servers", "Servers"); ("channels", "Channels"); ("operations", "Operations"); ("messages", "Messages");
     ("security_schemes", "SecuritySchemes"); ("server_variables", "ServerVariables"); ("parameters", "Parameters");
     ("correlation_ids", "CorrelationIDs"); ("replies", "Replies"); ("reply_addresses", "ReplyAddresses"); ("external_docs", "ExternalDocs");
     ("tags", "Tags"); ("operation_traits", "OperationTraits"); ("message_traits", "MessageTraits"); ("server_bindings", "ServerBindings");
     ("channel_bindings", "ChannelBindings"); ("operation_bindings", "OperationBindings"); ("message_bindings", "MessageBindings")]) [].
Definition unified_validator : pv := VProc (u "UnifiedReferencesValidator").
Definition empty_document (info : pv) : pv := VObj "AsyncAPI3"
  [(u "asyncapi", VStr (u "3.0.0")); (u "id", VNone); (u "info", info); (u "servers", VRoot "Servers" []); (u "default_content_type", VNone);
   (u "channels", VRoot "Channels" []); (u "operations", VRoot "Operations" []); (u "components", empty_components);
   (u "extra_converters", VList []); (u "extra_validators", VList [unified_validator])] [].
(** The caller passed the field, by name or alias. *)
Definition passed (fi : finfo) (kwargs : fields) : Prop := In (f_name fi) (map fst kwargs) \/ In (f_alias fi) (map fst kwargs).
(** The metadata parameters of as_builder and their defaults: README "Builder", signature of the method. *)
Definition metadata : list (string * pv) :=
  [("title", VStr (u "Sample APP")); ("version", VStr (u "0.0.1")); ("description", VNone); ("terms_of_service", VNone);
   ("contact", VNone); ("license", VNone); ("tags", VNone); ("external_docs", VNone)]%string.
(** What the caller says for a parameter. *)
Definition argument (args : fields) (n : string) (d : pv) : pv := match assoc (u n) args with Some a => a | None => d end.
