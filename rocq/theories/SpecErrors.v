(** Specification vocabulary for the errors a rejected input is reported with: what is wrong where, written from the class
    documentation and the AsyncAPI rules quoted there.  Uses the value type, the class table, [parse] and the rules of SpecParse.v;
    of the model of error reporting only the type of locations and causes. *)
From Verif Require Import PyStr Value Types Rules Pydantic ClassTable SpecParse Errors.

(** The mapping a class is validated from: a dict, or the contents of an instance of the class. *)
Inductive mapping (c : string) : pv -> fields -> Prop :=
| map_dict kvs : mapping c (VDict kvs) kvs
| map_instance fv ex : mapping c (VObj c fv ex) (dict_update fv ex).
(** The entries a patterned map is validated from. *)
Inductive entries (c : string) : pv -> fields -> Prop :=
| ent_dict d : entries c (VDict d) d
| ent_instance d : entries c (VRoot c d) d.
(** The field is given, under this key. *)
Inductive given (fi : finfo) (kvs : fields) : pystr -> pv -> Prop :=
| gi_alias x : assoc (f_alias fi) kvs = Some x -> given fi kvs (f_alias fi) x
| gi_name x : assoc (f_alias fi) kvs = None -> assoc (f_name fi) kvs = Some x -> given fi kvs (f_name fi) x.

(** From a value and its annotation, a location leads to a part and to the annotation of that part.  A union is only entered if all
    its members reject the value. *)
Inductive leads_to (E : env) : ty -> pv -> list locstep -> ty -> pv -> Prop :=
| lt_here t v : leads_to E t v [] t v
| lt_item t l i x p t' v' : nth_error l i = Some x -> leads_to E t x p t' v' -> leads_to E (TList t) (VList l) (AtIndex i :: p) t' v'
| lt_value t d k x p t' v' : In (k, x) d -> leads_to E t x p t' v' -> leads_to E (TDict t) (VDict d) (AtKey k :: p) t' v'
| lt_optional t v p t' v' : v <> VNone -> leads_to E t v p t' v' -> leads_to E (TOpt t) v p t' v'
| lt_member ts i t v p t' v' : (forall s, In s ts -> parse E s v = None) -> nth_error ts i = Some t -> leads_to E t v p t' v' ->
    leads_to E (TUnion ts) v (AtMember i :: p) t' v'
| lt_field c k fs v kvs fi t key x p t' v' : mapping c v kvs -> In (fi, t) fs -> given fi kvs key x -> leads_to E t x p t' v' ->
    leads_to E (TModel c k fs) v (AtKey key :: p) t' v'
| lt_entry c t v d k x p t' v' : entries c v d -> In (k, x) d -> leads_to E t x p t' v' -> leads_to E (TRoot c t) v (AtKey k :: p) t' v'.

(** The documented limits of single fields, and what is said about a value outside them. *)
Definition field_texts : list (fvalidator * string * string) := [
  (FvRuntimeExpr, "location", "location must be a runtime expression starting with '$message.'");
  (FvNonNeg, "expiration", "expiration must be greater than or equal to zero");
  (FvNonNeg, "expiry", "expiry value MUST be either zero (unlimited) or greater than zero");
  (FvPositive, "partitions", "partitions must be positive");
  (FvPositive, "replicas", "replicas must be positive");
  (FvHeartBeat, "heart_beat_interval", "heartBeatInterval MUST be 0-999999");
  (FvMaxMsg, "max_msg_length", "maxMsgLength MUST be 0-104,857,600 bytes (100 MB)");
  (FvPriority, "priority", "priority must be between 0 and 255")]%string.
Inductive objection (E : env) (fi : finfo) : pv -> cause -> Prop :=
| ob_limit v name text : In (f_val fi, name, text) field_texts -> f_name fi = u name -> ~ field_rule E (f_val fi) v ->
    objection E fi v (Says (u text))
| ob_version s : f_val fi = FvVersion -> (forall major, ~ upto_nl (version_shape E major) s) ->
    objection E fi (VStr s) (Says (u "asyncapi must be in semantic versioning format: major.minor.patch[-suffix]"))
| ob_major s major : f_val fi = FvVersion -> upto_nl (version_shape E major) s -> (N.of_nat (length major) <= 4300)%N -> ~ denotes3 E major ->
    objection E fi (VStr s) (Says (u "asyncapi version " ++ s ++ u " is not supported. This application only supports AsyncAPI 3.x.x versions"))
| ob_digits s major : f_val fi = FvVersion -> upto_nl (version_shape E major) s -> (4300 < N.of_nat (length major))%N ->
    objection E fi (VStr s) PythonSays.

(** The rules relating several fields, in the order in which they are checked, with what is said when one is violated. *)
Definition rules_of (fs : fields) : list (string * list (Prop * string)) :=
  let type := get "type_" fs in
  let is_ := get "is_" fs in
  let dest := get "destination_type" fs in
  let has f := present (get f fs) in
  let has_in o f := present (get_in f (get o fs)) in
  [
  ("Channel", [
      (has "parameters" -> exists a, get "address" fs = VStr a, "parameters must not be provided when address is null or absent");
      (forall a, has "parameters" -> get "address" fs = VStr a -> has_address_expression a,
         "parameters must not be provided when address does not contain Channel Address Expressions")]);
  ("MessageExample", [(has "headers" \/ has "payload", "MessageExample MUST contain either headers and/or payload fields")]);
  ("OAuthFlows", [
      (has "implicit" -> has_in "implicit" "authorization_url", "authorizationUrl is required for implicit flow");
      (has "password" -> has_in "password" "token_url", "tokenUrl is required for password flow");
      (has "client_credentials" -> has_in "client_credentials" "token_url", "tokenUrl is required for clientCredentials flow");
      (has "authorization_code" -> has_in "authorization_code" "authorization_url", "authorizationUrl is required for authorizationCode flow");
      (has "authorization_code" -> has_in "authorization_code" "token_url", "tokenUrl is required for authorizationCode flow")]);
  ("SecurityScheme", [
      (type = S_ "apiKey" -> has "in_", "in is required for apiKey type");
      (type = S_ "apiKey" -> In (get "in_" fs) [S_ "user"; S_ "password"], "in must be 'user' or 'password' for apiKey type");
      (has "bearer_format" -> type = S_ "http" /\ get "scheme" fs = S_ "bearer", "bearerFormat can only be used with http type and bearer scheme");
      (type = S_ "httpApiKey" -> has "name", "name is required for httpApiKey type");
      (type = S_ "httpApiKey" -> has "in_", "in is required for httpApiKey type");
      (type = S_ "httpApiKey" -> In (get "in_" fs) [S_ "query"; S_ "header"; S_ "cookie"], "in must be 'query', 'header', or 'cookie' for httpApiKey type");
      (type = S_ "http" -> has "scheme", "scheme is required for http type");
      (type = S_ "oauth2" -> has "flows", "flows is required for oauth2 type");
      (type = S_ "openIdConnect" -> has "open_id_connect_url", "openIdConnectUrl is required for openIdConnect type");
      (has "scopes" -> type = S_ "oauth2" \/ type = S_ "openIdConnect", "scopes can only be used with oauth2 or openIdConnect type")]);
  ("AMQPChannelBindings", [
      (is_ = S_ "routingKey" -> has "exchange", "exchange must be provided when is='routingKey'");
      (is_ = S_ "routingKey" -> ~ has "queue", "queue must not be provided when is='routingKey'");
      (is_ = S_ "queue" -> has "queue", "queue must be provided when is='queue'");
      (is_ = S_ "queue" -> ~ has "exchange", "exchange must not be provided when is='queue'")]);
  ("IBMMQChannelBindings", [
      (~ (has "queue" /\ has "topic"), "queue and topic fields MUST NOT coexist within a channel binding");
      (dest = S_ "queue" -> has "queue", "queue must be provided when destinationType='queue'")]);
  ("IBMMQMessageBindings", [
      (In (get "type" fs) [S_ "string"; S_ "jms"] -> ~ has "headers", "headers MUST NOT be specified if type = 'string' or 'jms'")]);
  ("KafkaServerBindings", [(has "schema_registry_vendor" -> has "schema_registry_url", "schemaRegistryVendor requires schemaRegistryUrl")]);
  ("SolaceDestination", [
      (dest = S_ "queue" -> has "queue", "queue required for destinationType 'queue'");
      (dest = S_ "queue" -> ~ has "topic", "topic not allowed for destinationType 'queue'");
      (dest = S_ "topic" -> has "topic", "topic required for destinationType 'topic'");
      (dest = S_ "topic" -> ~ has "queue", "queue not allowed for destinationType 'topic'")])
  ]%string.
Inductive first_violated : list (Prop * string) -> pystr -> Prop :=
| fi_hit (P : Prop) t r : ~ P -> first_violated ((P, t) :: r) (u t)
| fi_skip (P : Prop) t r m : P -> first_violated r m -> first_violated ((P, t) :: r) m.
(** The first key, in the order of the input, that is concerned and not allowed. *)
Definition first_key (concerned allowed : pystr -> Prop) (d : fields) (k : pystr) : Prop :=
  exists a x b, d = a ++ (k, x) :: b /\ concerned k /\ ~ allowed k /\ forall k', In k' (map fst a) -> concerned k' -> allowed k'.
(** What is said about an object whose fields are fine. *)
Inductive object_rule (E : env) (c : string) (k : kind) (fs : list (finfo * ty)) (kvs fv : fields) : pystr -> Prop :=
| or_extension key : k = KExt -> first_key (unclaimed fs kvs) (upto_nl (extension_key E)) kvs key ->
    object_rule E c k fs kvs fv (u "Field '" ++ key ++ u "' does not match specification extension pattern. Extensions must start with 'x-' and contain only word characters, digits, dots, hyphens, and underscores.")
| or_rule rules m : (k = KExt -> forall key, unclaimed fs kvs key -> upto_nl (extension_key E) key) -> In (c, rules) (rules_of fv) -> first_violated rules m ->
    object_rule E c k fs kvs fv m.

Definition leaf (t : ty) : Prop :=
  match t with TAny | TStr _ | TInt | TBool | TUrl _ | TLitS _ | TLitI _ => True | _ => False end.
(** What is wrong with a value itself, for its annotation: the place relative to it, and the cause. *)
Inductive broken (E : env) : ty -> pv -> list locstep -> cause -> Prop :=
| br_leaf t v : leaf t -> parse E t v = None -> broken E t v [] WrongInput
| br_email_input v : (forall s, v <> VStr s) -> broken E TEmail v [] WrongInput
| br_email s : ~ email_spec s -> broken E TEmail (VStr s) [] (Says (u "Invalid email format"))
| br_list t v : (forall l, v <> VList l) -> broken E (TList t) v [] WrongInput
| br_dict t v : (forall d, v <> VDict d) -> broken E (TDict t) v [] WrongInput
| br_processors v : (forall l, v <> VList l) -> broken E TProcs v [] WrongInput
| br_processor l i x : nth_error l i = Some x -> (forall n, x <> VProc n) -> broken E TProcs (VList l) [AtIndex i] WrongInput
| br_model c k fs v : (forall kvs, ~ mapping c v kvs) -> broken E (TModel c k fs) v [] WrongInput
| br_root c t v : (forall d, ~ entries c v d) -> broken E (TRoot c t) v [] WrongInput
| br_missing c k fs v kvs fi t : mapping c v kvs -> In (fi, t) fs -> f_def fi = None -> assoc (f_alias fi) kvs = None -> assoc (f_name fi) kvs = None ->
    broken E (TModel c k fs) v [AtKey (f_alias fi)] NoField
| br_extra c fs v kvs key : mapping c v kvs -> unclaimed fs kvs key -> broken E (TModel c KForbid fs) v [AtKey key] NotAllowed
| br_field c k fs v kvs fi t key x x' why : mapping c v kvs -> In (fi, t) fs -> given fi kvs key x -> parse E t x = Some x' -> objection E fi x' why ->
    broken E (TModel c k fs) v [AtKey key] why
| br_object c k fs v kvs fv m : mapping c v kvs -> typed_fields E kvs fs fv -> (k = KForbid -> forall key, ~ unclaimed fs kvs key) ->
    object_rule E c k fs kvs fv m -> broken E (TModel c k fs) v [] (Says m)
| br_key c t v d k : entries c v d -> (forall k' x, In (k', x) d -> parse E t x <> None) -> first_key (fun _ => True) (upto_nl doc_key) d k ->
    broken E (TRoot c t) v [] (Says (u "Field '" ++ k ++ u "' does not match patterned object key pattern. Keys must contain letters, digits, hyphens, and underscores.")).
(** The faults of a value. *)
Definition fault (E : env) (t : ty) (v : pv) (p : list locstep) (why : cause) : Prop :=
  exists q r t' v', p = q ++ r /\ leads_to E t v q t' v' /\ broken E t' v' r why.

(** Following a location in the value the user passed: union members are not part of it; an instance has its attributes and its
    extra attributes. *)
Inductive found_in : pv -> list locstep -> pv -> Prop :=
| fo_here v : found_in v [] v
| fo_key d k x p w : assoc k d = Some x -> found_in x p w -> found_in (VDict d) (AtKey k :: p) w
| fo_entry c d k x p w : assoc k d = Some x -> found_in x p w -> found_in (VRoot c d) (AtKey k :: p) w
| fo_extra c fv ex k x p w : assoc k ex = Some x -> found_in x p w -> found_in (VObj c fv ex) (AtKey k :: p) w
| fo_attr c fv ex k x p w : assoc k ex = None -> assoc k fv = Some x -> found_in x p w -> found_in (VObj c fv ex) (AtKey k :: p) w
| fo_index l i x p w : nth_error l i = Some x -> found_in x p w -> found_in (VList l) (AtIndex i :: p) w
| fo_member v i p w : found_in v p w -> found_in v (AtMember i :: p) w.
