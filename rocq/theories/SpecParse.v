(** Specification vocabulary for the parsing properties: written from the README, the class
    documentation and the AsyncAPI 3.0 rules they quote, without the model's helper functions
    (only the value type, the class table and [parse]). *)
From Verif Require Import PyStr Value Types Rules Pydantic ClassTable.

Definition nl : pystr := [10%N].
(** Python's [$] tolerates one trailing newline. *)
Definition upto_nl (P : pystr -> Prop) (s : pystr) : Prop := exists w, P w /\ (s = w \/ s = w ++ nl).

Definition letter (c : N) : Prop := (97 <= c <= 122)%N \/ (65 <= c <= 90)%N.
Definition digit09 (c : N) : Prop := (48 <= c <= 57)%N.

(** README "Patterned Object Key Validation": letters, digits, hyphens, underscores. *)
Definition doc_key (k : pystr) : Prop :=
  k <> [] /\ Forall (fun c => letter c \/ digit09 c \/ c = 45%N \/ c = 95%N) k.

(** Docstrings of Channels, Parameters (channel.py:72-73, :205-206) and Messages (message.py:282-283): ^[A-Za-z0-9\.\-_]+$ *)
Definition docstring_key (k : pystr) : Prop :=
  k <> [] /\ Forall (fun c => letter c \/ digit09 c \/ c = 45%N \/ c = 95%N \/ c = 46%N) k.

(** Specification extension keys ^x-[\w\d.\-_]+$ *)
Definition extension_key (E : env) (k : pystr) : Prop :=
  exists w, k = u "x-" ++ w /\ w <> []
    /\ Forall (fun c => is_word E c = true \/ is_digit E c = true \/ c = 46%N \/ c = 45%N \/ c = 95%N) w.

(** k names a declared field of the class, by Python name or by alias. *)
Definition declared (fs : list (finfo * ty)) (k : pystr) : Prop :=
  exists fi t, In (fi, t) fs /\ (k = f_name fi \/ k = f_alias fi).

(** local@domain.tld *)
Definition email_shape (s : pystr) : Prop :=
  exists loc dom tld,
    s = loc ++ u "@" ++ dom ++ u "." ++ tld
    /\ loc <> [] /\ Forall (fun c => letter c \/ digit09 c \/ In c (u "._%+-")) loc
    /\ dom <> [] /\ Forall (fun c => letter c \/ digit09 c \/ In c (u ".-")) dom
    /\ 2 <= List.length tld /\ Forall letter tld.
Definition email_spec (s : pystr) : Prop :=
  upto_nl email_shape s /\ ~ exists a b, s = a ++ u ".." ++ b.

(** A digit string that denotes the number 3: zeros, then one digit of value 3
    (digits of any script). *)
Definition denotes3 (E : env) (a : pystr) : Prop :=
  exists zs d, a = zs ++ [d] /\ Forall (fun z => digit_val E z = Some 0%N) zs /\ digit_val E d = Some 3%N.
Definition digits (E : env) (a : pystr) : Prop := a <> [] /\ Forall (fun c => is_digit E c = true) a.
Definition version_shape (E : env) (major : pystr) (s : pystr) : Prop :=
  exists minor patch suf,
    s = major ++ u "." ++ minor ++ u "." ++ patch ++ suf
    /\ digits E major /\ digits E minor /\ digits E patch
    /\ (suf = [] \/ exists w, suf = u "-" ++ w /\ w <> []
          /\ Forall (fun c => is_word E c = true \/ c = 46%N \/ c = 45%N) w).
(** 4300: CPython's limit on int(str). *)
Definition version_spec (E : env) (s : pystr) : Prop :=
  exists major, upto_nl (version_shape E major) s /\ denotes3 E major
                /\ (N.of_nat (List.length major) <= 4300)%N.

(** The address contains an expression {name}, name non-empty and without a closing brace. *)
Definition has_address_expression (a : pystr) : Prop :=
  exists pre name post, a = pre ++ u "{" ++ name ++ u "}" ++ post /\ name <> [] /\ ~ In 125%N name.

(** Rules on one field. *)
Definition field_rule (E : env) (f : fvalidator) (v : pv) : Prop :=
  match f with
  | FvNone => True
  | FvVersion => exists s, v = VStr s /\ version_spec E s
  | FvRuntimeExpr => exists s, v = VStr (u "$message." ++ s)
  | FvNonNeg => forall z, v = VInt z -> (0 <= z)%Z
  | FvPositive => forall z, v = VInt z -> (1 <= z)%Z
  | FvHeartBeat => forall z, v = VInt z -> (0 <= z <= 999999)%Z
  | FvMaxMsg => forall z, v = VInt z -> (0 <= z <= 104857600)%Z
  | FvPriority => forall z, v = VInt z -> (0 <= z <= 255)%Z
  end.

(** Typed field values of a mapping: what every declared field gets, independently of any
    rule relating several fields. *)
Definition gives (fi : finfo) (kvs : fields) (x : pv) : Prop :=
  assoc (f_alias fi) kvs = Some x \/ (assoc (f_alias fi) kvs = None /\ assoc (f_name fi) kvs = Some x).
Definition field_value (E : env) (kvs : fields) (fi : finfo) (t : ty) (v : pv) : Prop :=
  (exists x, gives fi kvs x /\ parse E t x = Some v /\ field_rule E (f_val fi) v)
  \/ (assoc (f_alias fi) kvs = None /\ assoc (f_name fi) kvs = None /\ f_def fi = Some v).
Definition typed_fields (E : env) (kvs : fields) (fs : list (finfo * ty)) (fv : fields) : Prop :=
  Forall2 (fun ft kv => fst kv = f_name (fst ft) /\ field_value E kvs (fst ft) (snd ft) (snd kv)) fs fv.

(** Keys of a mapping that no declared field consumes (a field given by alias does not consume
    its Python name). *)
Definition unclaimed (fs : list (finfo * ty)) (kvs : fields) (k : pystr) : Prop :=
  In k (map fst kvs) /\
  forall fi t, In (fi, t) fs ->
    k <> f_alias fi /\ (k = f_name fi -> In (f_alias fi) (map fst kvs)).
Definition extra_policy (E : env) (k : kind) (fs : list (finfo * ty)) (kvs : fields) : Prop :=
  match k with
  | KExt => forall key, unclaimed fs kvs key -> upto_nl (extension_key E) key
  | KForbid => forall key, ~ unclaimed fs kvs key
  | KFree => True
  end.

(** Reading a field of an instance. *)
Definition get (f : string) (fs : fields) : pv := attr (u f) fs.
Definition S_ (s : string) : pv := VStr (u s).
Definition present (v : pv) : Prop := v <> VNone.
Definition get_in (f : string) (o : pv) : pv := match o with VObj _ fs _ => get f fs | _ => VNone end.

(** Channel Object *)
Definition channel_spec (fs : fields) : Prop :=
  present (get "parameters" fs) -> exists a, get "address" fs = VStr a /\ has_address_expression a.
(** Message Example Object *)
Definition example_spec (fs : fields) : Prop := present (get "headers" fs) \/ present (get "payload" fs).
(** OAuth Flows Object *)
Definition oauth_flows_spec (fs : fields) : Prop :=
  (present (get "implicit" fs) -> present (get_in "authorization_url" (get "implicit" fs)))
  /\ (present (get "password" fs) -> present (get_in "token_url" (get "password" fs)))
  /\ (present (get "client_credentials" fs) -> present (get_in "token_url" (get "client_credentials" fs)))
  /\ (present (get "authorization_code" fs) ->
        present (get_in "authorization_url" (get "authorization_code" fs))
        /\ present (get_in "token_url" (get "authorization_code" fs))).
(** Security Scheme Object *)
Definition security_spec (fs : fields) : Prop :=
  let type := get "type_" fs in let in_ := get "in_" fs in
  (type = S_ "apiKey" -> In in_ [S_ "user"; S_ "password"])
  /\ (type = S_ "httpApiKey" -> present (get "name" fs) /\ In in_ [S_ "query"; S_ "header"; S_ "cookie"])
  /\ (type = S_ "http" -> present (get "scheme" fs))
  /\ (present (get "bearer_format" fs) -> type = S_ "http" /\ get "scheme" fs = S_ "bearer")
  /\ (type = S_ "oauth2" -> present (get "flows" fs))
  /\ (type = S_ "openIdConnect" -> present (get "open_id_connect_url" fs))
  /\ (present (get "scopes" fs) -> type = S_ "oauth2" \/ type = S_ "openIdConnect").
(** Bindings *)
Definition amqp_channel_spec (fs : fields) : Prop :=
  (get "is_" fs = S_ "routingKey" -> present (get "exchange" fs) /\ get "queue" fs = VNone)
  /\ (get "is_" fs = S_ "queue" -> present (get "queue" fs) /\ get "exchange" fs = VNone).
Definition ibmmq_channel_spec (fs : fields) : Prop :=
  ~ (present (get "queue" fs) /\ present (get "topic" fs))
  /\ (get "destination_type" fs = S_ "queue" -> present (get "queue" fs)).
Definition ibmmq_message_spec (fs : fields) : Prop :=
  In (get "type" fs) [S_ "string"; S_ "jms"] -> get "headers" fs = VNone.
Definition kafka_server_spec (fs : fields) : Prop :=
  present (get "schema_registry_vendor" fs) -> present (get "schema_registry_url" fs).
Definition solace_destination_spec (fs : fields) : Prop :=
  (get "destination_type" fs = S_ "queue" -> present (get "queue" fs) /\ get "topic" fs = VNone)
  /\ (get "destination_type" fs = S_ "topic" -> present (get "topic" fs) /\ get "queue" fs = VNone).

(** All rules that relate several fields, by class; other classes have none. *)
Definition cross_field_spec (c : string) (fs : fields) : Prop :=
  (c = "Channel"%string -> channel_spec fs)
  /\ (c = "MessageExample"%string -> example_spec fs)
  /\ (c = "OAuthFlows"%string -> oauth_flows_spec fs)
  /\ (c = "SecurityScheme"%string -> security_spec fs)
  /\ (c = "AMQPChannelBindings"%string -> amqp_channel_spec fs)
  /\ (c = "IBMMQChannelBindings"%string -> ibmmq_channel_spec fs)
  /\ (c = "IBMMQMessageBindings"%string -> ibmmq_message_spec fs)
  /\ (c = "KafkaServerBindings"%string -> kafka_server_spec fs)
  /\ (c = "SolaceDestination"%string -> solace_destination_spec fs).

(** Bounds. *)
Definition opt_int_in (lo : Z) (hi : option Z) (v : pv) : Prop :=
  v = VNone \/ exists z, v = VInt z /\ (lo <= z)%Z /\ (forall h, hi = Some h -> (z <= h)%Z).
Definition opt_str_max (n : N) (v : pv) : Prop :=
  v = VNone \/ exists s, v = VStr s /\ (N.of_nat (List.length s) <= n)%N.

(** Annotations occurring (at any depth, but inside this class) in an annotation. *)
Fixpoint inner (t : ty) : list ty :=
  t :: match t with
       | TList t' | TDict t' | TOpt t' | TRoot _ t' => inner t'
       | TUnion ts => flat_map inner ts
       | _ => []
       end.
(** All annotations written in the classes of the library. *)
Definition annotations : list ty :=
  flat_map (fun t => match t with
                     | TModel _ _ fs => flat_map (fun ft => inner (snd ft)) fs
                     | t => inner t end) all_types.
