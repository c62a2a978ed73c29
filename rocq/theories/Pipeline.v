(** The processor pipeline and as_builder of the root model, models/asyncapi.py:157-253 and :277-296, and the
    bundled processors, validators/__init__.py. *)
From Verif Require Import PyStr Value Types Rules Pydantic ClassTable Classes Resolve Unified Validators.
Local Open Scope string_scope.

(** One call [processor = cls(); processor(self)]: the class, the document before, whether it returned
    normally, the document afterwards. *)
Record call := Call { c_proc : pv; c_in : pv; c_ok : bool; c_out : pv }.

(** self.<f> as the loops read it; [None]: not a list (TypeError) *)
Definition processors (doc : pv) (f : string) : option (list pv) :=
  match getattr doc f with
  | Some v => if truthy v then match v with VList l => Some l | _ => None end else Some []
  | None => None
  end.

Section Loop.
  (** What calling [p] may do: [acts p (doc, live) ok (doc', live')], where [live] is the list object the loop
      iterates over (a processor may edit it in place) and the document is changed in place. *)
  Context (acts : pv -> pv * list pv -> bool -> pv * list pv -> Prop).
  (** for cls in self.extra_...: :286-289 and :293-296, at index [i] of the list *)
  Inductive loop : nat -> pv -> list pv -> list call -> bool -> pv -> Prop :=
  | lp_end i doc live : nth_error live i = None -> loop i doc live [] true doc
  | lp_next i doc live p doc1 live1 calls ok doc2 :
      nth_error live i = Some p -> acts p (doc, live) true (doc1, live1) -> loop (S i) doc1 live1 calls ok doc2 ->
      loop i doc live (Call p doc true doc1 :: calls) ok doc2
  | lp_stop i doc live p doc1 live1 :
      nth_error live i = Some p -> acts p (doc, live) false (doc1, live1) ->
      loop i doc live [Call p doc false doc1] false doc1.
  (** :277-282 run_extra_processors: the calls made, whether it returned normally, the document afterwards *)
  Inductive run (doc : pv) : list call -> bool -> pv -> Prop :=
  | run_both l1 calls1 doc1 l2 calls2 ok doc2 :
      processors doc "extra_converters" = Some l1 -> loop 0 doc l1 calls1 true doc1 ->
      processors doc1 "extra_validators" = Some l2 -> loop 0 doc1 l2 calls2 ok doc2 ->
      run doc (calls1 ++ calls2)%list ok doc2
  | run_converter l1 calls1 doc1 :
      processors doc "extra_converters" = Some l1 -> loop 0 doc l1 calls1 false doc1 -> run doc calls1 false doc1
  | run_bad_converters : processors doc "extra_converters" = None -> run doc [] false doc
  | run_bad_validators l1 calls1 doc1 :
      processors doc "extra_converters" = Some l1 -> loop 0 doc l1 calls1 true doc1 ->
      processors doc1 "extra_validators" = None -> run doc calls1 false doc1.
  (** AsyncAPI3(data): field validation, then the processors as the last mode="after" validator (:277).  The
      result is the document, or [None] for an exception. *)
  Inductive construct (E : env) (v : pv) : list call -> option pv -> Prop :=
  | cs_invalid : parse E T_AsyncAPI3 v = None -> construct E v [] None
  | cs_done doc calls doc1 : parse E T_AsyncAPI3 v = Some doc -> run doc calls true doc1 -> construct E v calls (Some doc1)
  | cs_raise doc calls doc1 : parse E T_AsyncAPI3 v = Some doc -> run doc calls false doc1 -> construct E v calls None.
End Loop.

(** ** The bundled processors, validators/__init__.py:1-22.  __call__ of each either raises or returns its
    argument; none of them assigns to the document (read from the source, every module of validators/). *)
Definition stubs : list string :=
  ["ChannelBindingsRefValidator"; "ChannelsRefValidator"; "CorrelationIdsRefValidator"; "MessageBindingsRefValidator";
   "MessageTraitsRefValidator"; "MessagesRefValidator"; "OperationBindingsRefValidator"; "OperationTraitsRefValidator";
   "OperationsRefValidator"; "ParametersRefValidator"; "RepliesRefValidator"; "ReplyAddressesRefValidator";
   "SchemasRefValidator"; "SecuritySchemesRefValidator"; "ServerBindingsRefValidator"; "ServerVariablesRefValidator";
   "ServersRefValidator"].
(** Whether the call returns normally; [None]: not a bundled processor. *)
Definition returns {X} (o : option X) : bool := match o with None => true | Some _ => false end.
Definition bundled (E : env) (n : pystr) (doc : pv) : option bool :=
  if str_eqb n (u "UnifiedReferencesValidator") then Some (returns (unified E doc))
  else if str_eqb n (u "TagsRefValidator") then Some (returns (snd (tags_validator doc)))
  else if str_eqb n (u "ExternalDocsRefValidator") then Some (returns (snd (docs_validator doc)))
  else if existsb (fun s => str_eqb n (u s)) stubs then Some true
  else None.
(** A runtime in which the bundled names mean the bundled classes. *)
Definition standard (E : env) (acts : pv -> pv * list pv -> bool -> pv * list pv -> Prop) : Prop :=
  forall n doc live ok b st, bundled E n doc = Some b -> (acts (VProc n) (doc, live) ok st <-> ok = b /\ st = (doc, live)).

(** ** as_builder :157-253 *)
(** Info(title=title, ...): the eight named parameters with their defaults, :160-168 and :196-205 *)
Definition given (args : fields) (n : string) (d : pv) : pv := match assoc (u n) args with Some v => v | None => d end.
Definition builder_info (args : fields) : pv :=
  VDict [(u "title", given args "title" (VStr (u "Sample APP"))); (u "version", given args "version" (VStr (u "0.0.1")));
         (u "description", given args "description" VNone); (u "terms_of_service", given args "terms_of_service" VNone);
         (u "contact", given args "contact" VNone); (u "license", given args "license" VNone);
         (u "tags", given args "tags" VNone); (u "external_docs", given args "external_docs" VNone)].
(** Components(schemas=Schemas({}), ...), :207-227 *)
Definition builder_components : pv :=
  VDict (map (fun p => (u (fst p), VRoot (snd p) []))
    [("schemas", "Schemas"); ("servers", "Servers"); ("channels", "Channels"); ("operations", "Operations"); ("messages", "Messages");
     ("security_schemes", "SecuritySchemes"); ("server_variables", "ServerVariables"); ("parameters", "Parameters");
     ("correlation_ids", "CorrelationIDs"); ("replies", "Replies"); ("reply_addresses", "ReplyAddresses"); ("external_docs", "ExternalDocs");
     ("tags", "Tags"); ("operation_traits", "OperationTraits"); ("message_traits", "MessageTraits"); ("server_bindings", "ServerBindings");
     ("channel_bindings", "ChannelBindings"); ("operation_bindings", "OperationBindings"); ("message_bindings", "MessageBindings")]).
(** init_params before **kwargs, :229-249 *)
Definition builder_defaults (info components : pv) : fields :=
  [(u "info", info); (u "servers", VRoot "Servers" []); (u "channels", VRoot "Channels" []); (u "operations", VRoot "Operations" []);
   (u "components", components); (u "extra_converters", VList []);
   (u "extra_validators", VList [VProc (u "UnifiedReferencesValidator")])].
(** The whole method: [args] are the named arguments given, [kwargs] the remaining ones (neither has a key of the other). *)
Inductive as_builder (E : env) (acts : pv -> pv * list pv -> bool -> pv * list pv -> Prop) (args kwargs : fields) : list call -> option pv -> Prop :=
| ab_bad_info : parse E T_Info (builder_info args) = None -> as_builder E acts args kwargs [] None
| ab_bad_components info : parse E T_Info (builder_info args) = Some info -> parse E T_Components builder_components = None ->
    as_builder E acts args kwargs [] None
| ab_build info components calls r : parse E T_Info (builder_info args) = Some info -> parse E T_Components builder_components = Some components ->
    construct acts E (VDict (dict_update (builder_defaults info components) kwargs)) calls r ->
    as_builder E acts args kwargs calls r.
