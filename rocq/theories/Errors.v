(** What a pydantic ValidationError lists when a value is rejected: where (loc) and why.  The same control flow as
    [Pydantic.validate], which only tells acceptance from rejection; the messages of the library's own validators are kept word for
    word (pydantic prefixes them with "Value error, "), the wording of pydantic's own errors is not modelled.
    Trusted reading of pydantic (DESIGN.md section 3): all items of a list or dict and all fields of a model are visited even if
    one fails; mode="after" validators of a class run only when its fields are fine, those of the base class first, and the first
    ValueError ends them; a union reports the errors of all its members; a field is located by the key the input uses. *)
From Verif Require Import PyStr Regex Value Types Rules Pydantic.

(** One element of error["loc"].  pydantic puts a label of the union member (a str) into loc; here its index. *)
Inductive locstep := AtKey (k : pystr) | AtIndex (i : nat) | AtMember (i : nat).
(** [NoField]: "missing"; [NotAllowed]: "extra_forbidden"; [WrongInput]: every other error of pydantic's own; [Says]: the ValueError of
    one of the library's validators; [PythonSays]: the ValueError of int() on more than 4300 digits. *)
Inductive cause := NoField | NotAllowed | WrongInput | Says (text : pystr) | PythonSays.
Definition error := (list locstep * cause)%type.

(** helpers.py:34-38 *)
Definition key_text (k : pystr) : pystr :=
  u "Field '" ++ k ++ u "' does not match patterned object key pattern. Keys must contain letters, digits, hyphens, and underscores.".
(** base_models.py:49-53 *)
Definition extension_text (k : pystr) : pystr :=
  u "Field '" ++ k ++ u "' does not match specification extension pattern. Extensions must start with 'x-' and contain only word characters, digits, dots, hyphens, and underscores.".
(** asyncapi.py:255-275 validate_asyncapi_version *)
Definition version_says (E : env) (s : pystr) : option cause :=
  if py_full (version_rx E) s then
    match split 46 s with
    | major :: _ => match py_int_digits E major with
                    | Some n => if N.eqb n 3 then None
                                else Some (Says (u "asyncapi version " ++ s ++ u " is not supported. This application only supports AsyncAPI 3.x.x versions"))
                    | None => Some PythonSays
                    end
    | [] => Some PythonSays
    end
  else Some (Says (u "asyncapi must be in semantic versioning format: major.minor.patch[-suffix]")).
Definition says_unless (b : bool) (text : pystr) : option cause := if b then None else Some (Says text).
(** The field validators, on the validated value; [name]: the Python name of the field. *)
Definition field_says (E : env) (name : pystr) (f : fvalidator) (v : pv) : option cause :=
  match f with
  | FvNone => None
  | FvVersion => match v with VStr s => version_says E s | _ => Some WrongInput end
  (* security.py:55-58; the annotation is str *)
  | FvRuntimeExpr => says_unless (fv_check E FvRuntimeExpr v) (u "location must be a runtime expression starting with '$message.'")
  (* bindings/amqp.py:233-234, bindings/ibmmq.py:335-338 *)
  | FvNonNeg => says_unless (fv_check E FvNonNeg v)
      (if str_eqb name (u "expiration") then u "expiration must be greater than or equal to zero"
       else u "expiry value MUST be either zero (unlimited) or greater than zero")
  (* bindings/kafka.py:200-201, :208-209 *)
  | FvPositive => says_unless (fv_check E FvPositive v) (name ++ u " must be positive")
  (* bindings/ibmmq.py:105-108 *)
  | FvHeartBeat => says_unless (fv_check E FvHeartBeat v) (u "heartBeatInterval MUST be 0-999999")
  (* bindings/ibmmq.py:251-254 *)
  | FvMaxMsg => says_unless (fv_check E FvMaxMsg v) (u "maxMsgLength MUST be 0-104,857,600 bytes (100 MB)")
  (* bindings/solace.py:243-244 *)
  | FvPriority => says_unless (fv_check E FvPriority v) (u "priority must be between 0 and 255")
  end.

(** a; b : the first complaint *)
Definition or_else (a b : option pystr) : option pystr := match a with Some m => Some m | None => b end.
Definition complain (bad : bool) (text : string) : option pystr := if bad then Some (u text) else None.
Definition none_at (f : string) (fs : fields) : bool := is_none (at_ f fs).
(** channel.py:173-198 validate_parameters *)
Definition channel_says (fs : fields) : option pystr :=
  if none_at "parameters" fs then None
  else match at_ "address" fs with
       | VStr a => complain (negb (py_search addr_expr_rx a)) "parameters must not be provided when address does not contain Channel Address Expressions"
       | _ => Some (u "parameters must not be provided when address is null or absent")
       end.
(** message.py:59-72 *)
Definition message_example_says (fs : fields) : option pystr :=
  complain (none_at "headers" fs && none_at "payload" fs) "MessageExample MUST contain either headers and/or payload fields".
(** security.py:143-183 *)
Definition flow_lacks (flow field : string) (fs : fields) : bool :=
  negb (none_at flow fs) && is_none (sub_attr field (at_ flow fs)).
Definition oauth_flows_says (fs : fields) : option pystr :=
  or_else (complain (flow_lacks "implicit" "authorization_url" fs) "authorizationUrl is required for implicit flow")
  (or_else (complain (flow_lacks "password" "token_url" fs) "tokenUrl is required for password flow")
  (or_else (complain (flow_lacks "client_credentials" "token_url" fs) "tokenUrl is required for clientCredentials flow")
  (or_else (complain (flow_lacks "authorization_code" "authorization_url" fs) "authorizationUrl is required for authorizationCode flow")
           (complain (flow_lacks "authorization_code" "token_url" fs) "tokenUrl is required for authorizationCode flow")))).
(** security.py:308-375 *)
Definition type_is (t : string) (fs : fields) : bool := is_str (u t) (at_ "type_" fs).
Definition security_scheme_says (fs : fields) : option pystr :=
  (* :326-332 *)
  or_else (if type_is "apiKey" fs
           then or_else (complain (none_at "in_" fs) "in is required for apiKey type")
                        (complain (negb (one_of ["user"; "password"]%string (at_ "in_" fs))) "in must be 'user' or 'password' for apiKey type")
           else None)
  (* :351-358 *)
  (or_else (complain (negb (none_at "bearer_format" fs) && (negb (type_is "http" fs) || negb (is_str (u "bearer") (at_ "scheme" fs))))
              "bearerFormat can only be used with http type and bearer scheme")
  (* :334-344 *)
  (or_else (if type_is "httpApiKey" fs
            then or_else (complain (none_at "name" fs) "name is required for httpApiKey type")
                (or_else (complain (none_at "in_" fs) "in is required for httpApiKey type")
                         (complain (negb (one_of ["query"; "header"; "cookie"]%string (at_ "in_" fs))) "in must be 'query', 'header', or 'cookie' for httpApiKey type"))
            else None)
  (* :346-349 *)
  (or_else (complain (type_is "http" fs && none_at "scheme" fs) "scheme is required for http type")
  (* :360-363 *)
  (or_else (complain (type_is "oauth2" fs && none_at "flows" fs) "flows is required for oauth2 type")
  (* :365-368 *)
  (or_else (complain (type_is "openIdConnect" fs && none_at "open_id_connect_url" fs) "openIdConnectUrl is required for openIdConnect type")
  (* :370-375 *)
           (complain (negb (none_at "scopes" fs) && negb (one_of ["oauth2"; "openIdConnect"]%string (at_ "type_" fs)))
              "scopes can only be used with oauth2 or openIdConnect type")))))).
(** bindings/amqp.py:137-155 *)
Definition amqp_channel_says (fs : fields) : option pystr :=
  if is_str (u "routingKey") (at_ "is_" fs)
  then or_else (complain (none_at "exchange" fs) "exchange must be provided when is='routingKey'")
               (complain (negb (none_at "queue" fs)) "queue must not be provided when is='routingKey'")
  else if is_str (u "queue") (at_ "is_" fs)
  then or_else (complain (none_at "queue" fs) "queue must be provided when is='queue'")
               (complain (negb (none_at "exchange" fs)) "exchange must not be provided when is='queue'")
  else None.
(** bindings/ibmmq.py:257-269 *)
Definition ibmmq_channel_says (fs : fields) : option pystr :=
  or_else (complain (negb (none_at "queue" fs) && negb (none_at "topic" fs)) "queue and topic fields MUST NOT coexist within a channel binding")
          (complain (is_str (u "queue") (at_ "destination_type" fs) && none_at "queue" fs) "queue must be provided when destinationType='queue'").
(** bindings/ibmmq.py:341-348 *)
Definition ibmmq_message_says (fs : fields) : option pystr :=
  complain (one_of ["string"; "jms"]%string (at_ "type" fs) && negb (none_at "headers" fs)) "headers MUST NOT be specified if type = 'string' or 'jms'".
(** bindings/kafka.py:55-60 *)
Definition kafka_server_says (fs : fields) : option pystr :=
  complain (none_at "schema_registry_url" fs && negb (none_at "schema_registry_vendor" fs)) "schemaRegistryVendor requires schemaRegistryUrl".
(** bindings/solace.py:178-191 *)
Definition solace_destination_says (fs : fields) : option pystr :=
  if is_str (u "queue") (at_ "destination_type" fs)
  then or_else (complain (none_at "queue" fs) "queue required for destinationType 'queue'")
               (complain (negb (none_at "topic" fs)) "topic not allowed for destinationType 'queue'")
  else if is_str (u "topic") (at_ "destination_type" fs)
  then or_else (complain (none_at "topic" fs) "topic required for destinationType 'topic'")
               (complain (negb (none_at "queue" fs)) "queue not allowed for destinationType 'topic'")
  else None.
(** The mode="after" validators a class declares itself, as [Rules.hooks]. *)
Definition speakers : list (string * (fields -> option pystr)) := [
  ("Channel", channel_says);
  ("MessageExample", message_example_says);
  ("OAuthFlows", oauth_flows_says);
  ("SecurityScheme", security_scheme_says);
  ("AMQPChannelBindings", amqp_channel_says);
  ("IBMMQChannelBindings", ibmmq_channel_says);
  ("IBMMQMessageBindings", ibmmq_message_says);
  ("KafkaServerBindings", kafka_server_says);
  ("SolaceDestination", solace_destination_says)]%string.
Fixpoint speaker (c : string) (l : list (string * (fields -> option pystr))) : option (fields -> option pystr) :=
  match l with
  | [] => None
  | (c', h) :: l' => if String.eqb c c' then Some h else speaker c l'
  end.
Definition hook_says (c : string) (fs : fields) : option pystr :=
  match speaker c speakers with Some h => h fs | None => None end.
(** base_models.py:35-54 and :108-121: the first key that does not match *)
Fixpoint first_bad (ok : pystr -> bool) (d : fields) : option pystr :=
  match d with
  | [] => None
  | (k, _) :: r => if ok k then first_bad ok r else Some k
  end.
Definition after_says (E : env) (c : string) (k : kind) (fs ex : fields) : option pystr :=
  or_else (match k with KExt => option_map extension_text (first_bad (ext_key_ok E) ex) | _ => None end) (hook_says c fs).
Definition keys_say (d : fields) : option pystr := option_map key_text (first_bad patterned_key_ok d).

Definition under (s : locstep) (l : list error) : list error := map (fun e => (s :: fst e, snd e)) l.
Definition here_ (o : option cause) : list error := match o with Some c => [([], c)] | None => [] end.
Definition here_says (o : option pystr) : list error := here_ (option_map Says o).
Section Report.
  Context (E : env) (rep : ty -> pv -> list error).
  Definition rlist (t : ty) : nat -> list pv -> list error :=
    fix go i l := match l with [] => [] | x :: r => under (AtIndex i) (rep t x) ++ go (S i) r end.
  Definition rdict (t : ty) : fields -> list error :=
    fix go d := match d with [] => [] | (k, x) :: r => under (AtKey k) (rep t x) ++ go r end.
  (** the declared fields: missing ones are located by alias; a field validator sees only well-typed values *)
  Definition rfields (kvs : fields) : list (finfo * ty) -> list error :=
    fix go fs := match fs with
      | [] => []
      | (fi, t) :: r =>
          match lookup_field fi kvs with
          | Some x =>
              under (AtKey (used_key kvs fi))
                (rep t x ++ match validate E t x with Some (x', _) => here_ (field_says E (f_name fi) (f_val fi) x') | None => [] end)
          | None => match f_def fi with None => [([AtKey (f_alias fi)], NoField)] | Some _ => [] end
          end ++ go r
      end.
  (** extra="forbid" *)
  Definition rextras (k : kind) (ex : fields) : list error :=
    match k with KForbid => map (fun kv => ([AtKey (fst kv)], NotAllowed)) ex | _ => [] end.
  Definition rmodel (c : string) (k : kind) (fs : list (finfo * ty)) (kvs : fields) : list error :=
    let ex := extras fs kvs in
    rfields kvs fs ++ rextras k ex
    ++ match vfields E (validate E) kvs fs with
       | Some (fvals, _) => match rextras k ex with [] => here_says (after_says E c k fvals ex) | _ => [] end
       | None => []
       end.
  Definition rroot (t : ty) (d : fields) : list error :=
    rdict t d ++ match vdict (validate E) t d with Some (d', _) => here_says (keys_say d') | None => [] end.
End Report.
Definition unless_fine (E : env) (t : ty) (v : pv) : list error :=
  match validate E t v with Some _ => [] | None => [([], WrongInput)] end.
Fixpoint members (i : nat) (l : list (list error)) : list error :=
  match l with [] => [] | es :: r => under (AtMember i) es ++ members (S i) r end.
Fixpoint wrong_items (i : nat) (l : list pv) : list error :=
  match l with [] => [] | x :: r => (if is_proc x then [] else [([AtIndex i], WrongInput)]) ++ wrong_items (S i) r end.
(** The errors of validating [v] against [t]; [] when it is accepted. *)
Fixpoint report (E : env) (t : ty) (v : pv) {struct t} : list error :=
  let wrong := [([], WrongInput)] in
  match t with
  | TEmail => match v with VStr s => if email_ok s then [] else [([], Says (u "Invalid email format"))] | _ => wrong end (* helpers.py:57-58 *)
  | TList t' => match v with VList l => rlist (report E) t' 0 l | _ => wrong end
  | TDict t' => match v with VDict d => rdict (report E) t' d | _ => wrong end
  | TOpt t' => match v with VNone => [] | _ => report E t' v end
  | TUnion ts => match validate E (TUnion ts) v with Some _ => [] | None => members 0 (map (fun t' => report E t' v) ts) end
  | TProcs => match v with VList l => wrong_items 0 l | _ => wrong end
  | TModel c k fs =>
      match v with
      | VDict kvs => rmodel E (report E) c k fs kvs
      | VObj c' fv ex => if String.eqb c c' then rmodel E (report E) c k fs (dict_update fv ex) else wrong
      | _ => wrong
      end
  | TRoot c t' =>
      match v with
      | VDict d => rroot E (report E) t' d
      | VRoot c' d => if String.eqb c c' then rroot E (report E) t' d else wrong
      | _ => wrong
      end
  | _ => unless_fine E t v
  end.
