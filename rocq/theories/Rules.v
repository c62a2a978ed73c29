(** The custom validators of models/**: patterned keys, extensions, e-mail, version, and the
    cross-field rules.  Each returns [true] iff the Python validator does not raise. *)
From Verif Require Import PyStr Regex Value Types.

(** helpers.py:21-43 validate_patterned_key, regex ^[A-Za-z0-9_\-]+$ with re.match. *)
Definition key_char (c : N) : bool := ascii_alpha c || ascii_digit c || N.eqb c 95 || N.eqb c 45.
Definition key_rx : rx := RPlus (RChr key_char).
Definition patterned_key_ok (k : pystr) : bool := py_full key_rx k.

(** base_models.py:35-54 validate_extensions, regex ^x-[\w\d\.\x2d_]+$ with re.match. *)
Definition ext_char (E : env) (c : N) : bool :=
  is_word E c || is_digit E c || N.eqb c 46 || N.eqb c 45 || N.eqb c 95.
Definition ext_rx (E : env) : rx := RSeq (rchar 120) (RSeq (rchar 45) (RPlus (RChr (ext_char E)))).
Definition ext_key_ok (E : env) (k : pystr) : bool := py_full (ext_rx E) k.

(** helpers.py:46-60 EmailStr._validate_email,
    ^(?!.*\.\.)[a-zA-Z0-9._%+-]+@[a-zA-Z0-9.-]+\.[a-zA-Z]{2,}$ with re.match.
    The negative lookahead fails iff some prefix of the string matches ".*\.\.". *)
Definition email_local (c : N) : bool :=
  ascii_alpha c || ascii_digit c || N.eqb c 46 || N.eqb c 95 || N.eqb c 37 || N.eqb c 43 || N.eqb c 45.
Definition email_dom (c : N) : bool := ascii_alpha c || ascii_digit c || N.eqb c 46 || N.eqb c 45.
Definition email_rx : rx :=
  RSeq (RPlus (RChr email_local)) (RSeq (rchar 64) (RSeq (RPlus (RChr email_dom)) (RSeq (rchar 46)
    (RSeq (RChr ascii_alpha) (RPlus (RChr ascii_alpha)))))).
Definition dotdot_rx : rx := RSeq (RStar rdot) (RSeq (rchar 46) (RSeq (rchar 46) (RStar rany))).
Definition email_ok (s : pystr) : bool := negb (rmatch dotdot_rx s) && py_full email_rx s.

(** asyncapi.py:255-275 validate_asyncapi_version,
    ^\d+\.\d+\.\d+(-[\w\.\-]+)?$ with re.match, then int(version.split(".")[0]) == 3.
    int() of a digit string: positional value, Unicode decimal digits allowed; ValueError (hence
    rejection) above 4300 digits (CPython's default sys.set_int_max_str_digits). *)
Definition suffix_char (E : env) (c : N) : bool := is_word E c || N.eqb c 46 || N.eqb c 45.
Definition version_rx (E : env) : rx :=
  let ds := RPlus (RChr (is_digit E)) in
  RSeq ds (RSeq (rchar 46) (RSeq ds (RSeq (rchar 46) (RSeq ds
    (ROpt (RSeq (rchar 45) (RPlus (RChr (suffix_char E))))))))).
Definition dval (E : env) (c : N) : N := match digit_val E c with Some d => d | None => 0%N end.
Definition int_value (E : env) (s : pystr) : N := fold_left (fun acc c => (acc * 10 + dval E c)%N) s 0%N.
Definition py_int_digits (E : env) (s : pystr) : option N :=
  if N.leb (N.of_nat (List.length s)) 4300 then Some (int_value E s) else None.
Definition version_ok (E : env) (s : pystr) : bool :=
  py_full (version_rx E) s &&
  match split 46 s with
  | major :: _ => match py_int_digits E major with Some n => N.eqb n 3 | None => false end
  | [] => false
  end.

(** Field validators. *)
Definition fv_check (E : env) (f : fvalidator) (v : pv) : bool :=
  match f with
  | FvNone => true
  (* asyncapi.py:255-275 *)
  | FvVersion => match v with VStr s => version_ok E s | _ => false end
  (* security.py:46-59 *)
  | FvRuntimeExpr => match v with VStr s => starts_with (u "$message.") s | _ => false end
  (* bindings/amqp.py:229-235, bindings/ibmmq.py:332-339 *)
  | FvNonNeg => match v with VInt z => Z.leb 0 z | _ => true end
  (* bindings/kafka.py:196-210 *)
  | FvPositive => match v with VInt z => Z.ltb 0 z | _ => true end
  (* bindings/ibmmq.py:100-109 *)
  | FvHeartBeat => match v with VInt z => Z.leb 0 z && Z.leb z 999999 | _ => true end
  (* bindings/ibmmq.py:248-255 *)
  | FvMaxMsg => match v with VInt z => Z.leb 0 z && Z.leb z 104857600 | _ => true end
  (* bindings/solace.py:239-245 *)
  | FvPriority => match v with VInt z => Z.leb 0 z && Z.leb z 255 | _ => true end
  end.

Definition notnone (v : pv) : bool := negb (is_none v).
Definition sub_attr (f : string) (v : pv) : pv :=
  match v with VObj _ fs _ => attr (u f) fs | _ => VNone end.
Definition one_of (l : list string) (v : pv) : bool := existsb (fun s => is_str (u s) v) l.

Definition fields := list (pystr * pv).
Definition at_ (f : string) (fs : fields) : pv := attr (u f) fs.

(** channel.py:173-198 validate_parameters; search of \{[^}]+\} *)
Definition addr_expr_rx : rx :=
  RSeq (rchar 123) (RSeq (RPlus (RChr (fun c => negb (N.eqb c 125)))) (rchar 125)).
Definition channel_rule (fs : fields) : bool :=
  if is_none (at_ "parameters" fs) then true
  else match at_ "address" fs with
       | VStr a => py_search addr_expr_rx a
       | _ => false
       end.
(** message.py:59-72 validate_headers_or_payload *)
Definition message_example_rule (fs : fields) : bool :=
  negb (is_none (at_ "headers" fs) && is_none (at_ "payload" fs)).
(** security.py:157-160 *)
Definition implicit_rule (fs : fields) : bool :=
  negb (notnone (at_ "implicit" fs) && is_none (sub_attr "authorization_url" (at_ "implicit" fs))).
(** security.py:162-165 *)
Definition password_rule (fs : fields) : bool :=
  negb (notnone (at_ "password" fs) && is_none (sub_attr "token_url" (at_ "password" fs))).
(** security.py:167-173 *)
Definition client_credentials_rule (fs : fields) : bool :=
  negb (notnone (at_ "client_credentials" fs) && is_none (sub_attr "token_url" (at_ "client_credentials" fs))).
(** security.py:175-183 *)
Definition authorization_code_rule (fs : fields) : bool :=
  if notnone (at_ "authorization_code" fs)
  then negb (is_none (sub_attr "authorization_url" (at_ "authorization_code" fs)))
       && negb (is_none (sub_attr "token_url" (at_ "authorization_code" fs)))
  else true.
(** security.py:143-155 *)
Definition oauth_flows_rule (fs : fields) : bool :=
  implicit_rule fs && password_rule fs && client_credentials_rule fs && authorization_code_rule fs.
(** security.py:326-332 *)
Definition api_key_rule (fs : fields) : bool :=
  if is_str (u "apiKey") (at_ "type_" fs)
  then negb (is_none (at_ "in_" fs)) && one_of ["user"; "password"]%string (at_ "in_" fs) else true.
(** security.py:334-344 *)
Definition http_api_key_rule (fs : fields) : bool :=
  if is_str (u "httpApiKey") (at_ "type_" fs)
  then negb (is_none (at_ "name" fs)) && negb (is_none (at_ "in_" fs))
       && one_of ["query"; "header"; "cookie"]%string (at_ "in_" fs)
  else true.
(** security.py:346-349 *)
Definition http_rule (fs : fields) : bool :=
  negb (is_str (u "http") (at_ "type_" fs) && is_none (at_ "scheme" fs)).
(** security.py:351-358 *)
Definition bearer_rule (fs : fields) : bool :=
  negb (notnone (at_ "bearer_format" fs)
        && (negb (is_str (u "http") (at_ "type_" fs)) || negb (is_str (u "bearer") (at_ "scheme" fs)))).
(** security.py:360-363 *)
Definition oauth2_rule (fs : fields) : bool :=
  negb (is_str (u "oauth2") (at_ "type_" fs) && is_none (at_ "flows" fs)).
(** security.py:365-368 *)
Definition openid_rule (fs : fields) : bool :=
  negb (is_str (u "openIdConnect") (at_ "type_" fs) && is_none (at_ "open_id_connect_url" fs)).
(** security.py:370-375 *)
Definition scopes_rule (fs : fields) : bool :=
  negb (notnone (at_ "scopes" fs) && negb (one_of ["oauth2"; "openIdConnect"]%string (at_ "type_" fs))).
(** security.py:308-324 validate_security_scheme_dependencies *)
Definition security_scheme_rule (fs : fields) : bool :=
  api_key_rule fs && bearer_rule fs && http_api_key_rule fs && http_rule fs
  && oauth2_rule fs && openid_rule fs && scopes_rule fs.
(** bindings/amqp.py:137-155 *)
Definition amqp_channel_rule (fs : fields) : bool :=
  if is_str (u "routingKey") (at_ "is_" fs)
  then negb (is_none (at_ "exchange" fs)) && is_none (at_ "queue" fs)
  else if is_str (u "queue") (at_ "is_" fs)
  then negb (is_none (at_ "queue" fs)) && is_none (at_ "exchange" fs)
  else true.
(** bindings/ibmmq.py:257-269 *)
Definition ibmmq_channel_rule (fs : fields) : bool :=
  if notnone (at_ "queue" fs) && notnone (at_ "topic" fs) then false
  else negb (is_str (u "queue") (at_ "destination_type" fs) && is_none (at_ "queue" fs)).
(** bindings/ibmmq.py:341-348 *)
Definition ibmmq_message_rule (fs : fields) : bool :=
  negb (one_of ["string"; "jms"]%string (at_ "type" fs) && notnone (at_ "headers" fs)).
(** bindings/kafka.py:55-60 *)
Definition kafka_server_rule (fs : fields) : bool :=
  negb (is_none (at_ "schema_registry_url" fs) && notnone (at_ "schema_registry_vendor" fs)).
(** bindings/solace.py:178-191 *)
Definition solace_destination_rule (fs : fields) : bool :=
  if is_str (u "queue") (at_ "destination_type" fs)
  then negb (is_none (at_ "queue" fs)) && is_none (at_ "topic" fs)
  else if is_str (u "topic") (at_ "destination_type" fs)
  then negb (is_none (at_ "topic" fs)) && is_none (at_ "queue" fs)
  else true.

(** The mode="after" validators a class declares itself.  AsyncAPI3.run_extra_processors is in
    Pipeline.v (it runs arbitrary processors). *)
Definition hooks : list (string * (fields -> bool)) := [
  ("Channel", channel_rule);
  ("MessageExample", message_example_rule);
  ("OAuthFlows", oauth_flows_rule);
  ("SecurityScheme", security_scheme_rule);
  ("AMQPChannelBindings", amqp_channel_rule);
  ("IBMMQChannelBindings", ibmmq_channel_rule);
  ("IBMMQMessageBindings", ibmmq_message_rule);
  ("KafkaServerBindings", kafka_server_rule);
  ("SolaceDestination", solace_destination_rule)]%string.
Fixpoint hook_of (c : string) (l : list (string * (fields -> bool))) : option (fields -> bool) :=
  match l with
  | [] => None
  | (c', h) :: l' => if String.eqb c c' then Some h else hook_of c l'
  end.
Definition hook (c : string) (fs : fields) : bool :=
  match hook_of c hooks with Some h => h fs | None => true end.
