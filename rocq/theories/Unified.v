(** UnifiedReferencesValidator, validators/unified_references_validator.py. *)
From Verif Require Import PyStr Value Types Rules Pydantic ClassTable Classes Resolve.

(** REFERENCE_TYPE_MAPPINGS, :48-126: pattern and expected classes (several: a union). *)
Definition mappings : list (pystr * list string) := [
  (u "**.channel", ["Channel"]);
  (u "**.channels.*", ["Channel"]);
  (u "**.reply.channel", ["Channel"]);
  (u "**.channel_bindings.*", ["ChannelBindingsObject"]);
  (u "**.channels.*.bindings", ["ChannelBindingsObject"]);
  (u "**.correlation_id", ["CorrelationID"]);
  (u "**.correlation_ids.*", ["CorrelationID"]);
  (u "**.external_docs", ["ExternalDocumentation"]);
  (u "**.external_docs.*", ["ExternalDocumentation"]);
  (u "**.messages", ["Message"]);
  (u "**.messages.*", ["Message"]);
  (u "**.reply.messages", ["Message"]);
  (u "**.message_bindings.*", ["MessageBindingsObject"]);
  (u "**.message_traits.*.bindings", ["MessageBindingsObject"]);
  (u "**.messages.*.bindings", ["MessageBindingsObject"]);
  (u "**.messages.*.traits.*.bindings", ["MessageBindingsObject"]);
  (u "**.messages.*.traits.bindings", ["MessageBindingsObject"]);
  (u "**.message_traits.*", ["MessageTrait"]);
  (u "**.messages.*.traits", ["MessageTrait"]);
  (u "**.messages.*.traits.*", ["MessageTrait"]);
  (u "**.message_traits.*.headers", ["MultiFormatSchema"; "Schema"]);
  (u "**.messages.*.headers", ["MultiFormatSchema"; "Schema"]);
  (u "**.messages.*.payload", ["MultiFormatSchema"; "Schema"]);
  (u "**.messages.*.traits.*.headers", ["MultiFormatSchema"; "Schema"]);
  (u "**.messages.*.traits.headers", ["MultiFormatSchema"; "Schema"]);
  (u "**.schemas.*", ["MultiFormatSchema"; "Schema"]);
  (u "**.operations.*", ["Operation"]);
  (u "**.operation_bindings.*", ["OperationBindingsObject"]);
  (u "**.operation_traits.*.bindings", ["OperationBindingsObject"]);
  (u "**.operations.*.bindings", ["OperationBindingsObject"]);
  (u "**.operations.*.traits.*.bindings", ["OperationBindingsObject"]);
  (u "**.operations.*.traits.bindings", ["OperationBindingsObject"]);
  (u "**.replies.*", ["OperationReply"]);
  (u "**.reply", ["OperationReply"]);
  (u "**.replies.*.address", ["OperationReplyAddress"]);
  (u "**.reply.address", ["OperationReplyAddress"]);
  (u "**.reply_addresses.*", ["OperationReplyAddress"]);
  (u "**.operation_traits.*", ["OperationTrait"]);
  (u "**.operations.*.traits", ["OperationTrait"]);
  (u "**.operations.*.traits.*", ["OperationTrait"]);
  (u "**.parameters.*", ["Parameter"]);
  (u "**.*_bindings.*.*.client_id", ["Schema"]);
  (u "**.*_bindings.*.*.correlation_data", ["Schema"]);
  (u "**.*_bindings.*.*.group_id", ["Schema"]);
  (u "**.*_bindings.*.*.headers", ["Schema"]);
  (u "**.*_bindings.*.*.key", ["Schema"]);
  (u "**.*_bindings.*.*.maximum_packet_size", ["Schema"]);
  (u "**.*_bindings.*.*.message_expiry_interval", ["Schema"]);
  (u "**.*_bindings.*.*.priority", ["Schema"]);
  (u "**.*_bindings.*.*.query", ["Schema"]);
  (u "**.*_bindings.*.*.response_topic", ["Schema"]);
  (u "**.*_bindings.*.*.session_expiry_interval", ["Schema"]);
  (u "**.*_bindings.*.*.time_to_live", ["Schema"]);
  (u "**.bindings.*.client_id", ["Schema"]);
  (u "**.bindings.*.correlation_data", ["Schema"]);
  (u "**.bindings.*.group_id", ["Schema"]);
  (u "**.bindings.*.headers", ["Schema"]);
  (u "**.bindings.*.key", ["Schema"]);
  (u "**.bindings.*.maximum_packet_size", ["Schema"]);
  (u "**.bindings.*.message_expiry_interval", ["Schema"]);
  (u "**.bindings.*.priority", ["Schema"]);
  (u "**.bindings.*.query", ["Schema"]);
  (u "**.bindings.*.response_topic", ["Schema"]);
  (u "**.bindings.*.session_expiry_interval", ["Schema"]);
  (u "**.bindings.*.time_to_live", ["Schema"]);
  (u "**.operations.*.traits.*.security.*", ["SecurityScheme"]);
  (u "**.security", ["SecurityScheme"]);
  (u "**.security.*", ["SecurityScheme"]);
  (u "**.security_schemes.*", ["SecurityScheme"]);
  (u "**.servers", ["Server"]);
  (u "**.servers.*", ["Server"]);
  (u "**.server_bindings.*", ["ServerBindingsObject"]);
  (u "**.servers.*.bindings", ["ServerBindingsObject"]);
  (u "**.server_variables.*", ["ServerVariable"]);
  (u "**.servers.*.variables.*", ["ServerVariable"]);
  (u "**.tags", ["Tag"]);
  (u "**.tags.*", ["Tag"])]%string.

(** ** Paths *)
(** :399-401 _escape_path_segment *)
Definition escape (s : pystr) : pystr := replace (u ".") (u "\.") (replace (u "\") (u "\\") s).
(** :403-424 _split_path; [cur] is the reversed list of pending characters *)
Fixpoint split_path_go (cur : pystr) (escaped : bool) (s : pystr) : list pystr :=
  match s with
  | [] => [rev (if escaped then 92%N :: cur else cur)]
  | c :: s' =>
      if escaped then split_path_go (c :: cur) false s'
      else if N.eqb c 92 then split_path_go cur true s'
      else if N.eqb c 46 then rev cur :: split_path_go [] false s'
      else split_path_go (c :: cur) false s'
  end.
Definition split_path (s : pystr) : list pystr := split_path_go [] false s.
(** re.sub(r"\[\d+\]", "", s): [idx_len] is the length of a match at the start of the string. *)
Fixpoint digits_close (E : env) (s : pystr) : option nat :=
  match s with
  | [] => None
  | c :: s' => if is_digit E c then option_map S (digits_close E s') else if N.eqb c 93 then Some 1 else None
  end.
Definition idx_len (E : env) (s : pystr) : option nat :=
  match s with
  | 91%N :: c :: s' => if is_digit E c then option_map (fun n => S (S n)) (digits_close E s') else None
  | _ => None
  end.
Fixpoint sub_idx (E : env) (skip : nat) (s : pystr) : pystr :=
  match s with
  | [] => []
  | c :: s' =>
      match skip with
      | S k => sub_idx E k s'
      | O => match idx_len E s with
             | Some n => sub_idx E (n - 1) s'
             | None => c :: sub_idx E 0 s'
             end
      end
  end.
(** :392-397 _normalize_path *)
Definition normalize (E : env) (path : pystr) : pystr :=
  let p := replace (u ".root.") (u ".") path in
  let p := if ends_with (u ".root") p then firstn (length p - 5) p else p in
  sub_idx E 0 p.

(** ** Patterns *)
(** fnmatch.fnmatch on POSIX: [*] any characters, [?] one character.  Bracket expressions are not
    modelled (no pattern of the table has one). *)
Fixpoint glob (p : pystr) (s : pystr) {struct p} : bool :=
  match p with
  | [] => match s with [] => true | _ => false end
  | c :: p' =>
      if N.eqb c 42 then
        (fix any (s : pystr) : bool := glob p' s || match s with [] => false | _ :: s' => any s' end) s
      else match s with
           | [] => false
           | x :: s' => (N.eqb c 63 || N.eqb c x) && glob p' s'
           end
  end.
(** :444-450 _segment_matches *)
Definition segment_matches (p s : pystr) : bool :=
  if str_eqb p (u "*") then true
  else if contains (u "*") p then glob p s
  else str_eqb p s.
(** :452-492 _path_matches_recursive; the indices are the remaining lists *)
Fixpoint parts_match (ps xs : list pystr) {struct ps} : bool :=
  match ps with
  | [] => match xs with [] => true | _ => false end
  | p :: ps' =>
      if str_eqb p (u "**") then
        match ps' with
        | [] => true
        | _ => (fix any (xs : list pystr) : bool := parts_match ps' xs || match xs with [] => false | _ :: r => any r end) xs
        end
      else match xs with
           | [] => false
           | x :: xs' => segment_matches p x && parts_match ps' xs'
           end
  end.
(** :426-442 _path_matches *)
Definition path_matches (pattern path : pystr) : bool := parts_match (split_path pattern) (split_path path).
(** :494-515 _pattern_specificity *)
Definition score := (Z * Z * Z * Z)%type.
Definition specificity (pattern : pystr) : score :=
  let parts := split_path pattern in
  let doubles := Z.of_nat (length (filter (fun p => str_eqb p (u "**")) parts)) in
  let wild := Z.of_nat (length (filter (fun p => str_eqb p (u "**") || contains (u "*") p) parts)) in
  let literal := Z.of_nat (length (filter (fun p => negb (str_eqb p (u "**")) && negb (contains (u "*") p)) parts)) in
  (literal, - doubles, - wild, Z.of_nat (length parts))%Z.
(** tuple comparison score > best *)
Definition score_gtb (a b : score) : bool :=
  let '(a1, a2, a3, a4) := a in let '(b1, b2, b3, b4) := b in
  (Z.ltb b1 a1 || (Z.eqb a1 b1 && (Z.ltb b2 a2 || (Z.eqb a2 b2 && (Z.ltb b3 a3 || (Z.eqb a3 b3 && Z.ltb b4 a4))))))%bool.
(** :359-390 _get_expected_type_for_path over the table; [None]: the ValueError "Unknown reference type" *)
Fixpoint best_match (path : pystr) (best : option (score * list string)) (table : list (pystr * list string)) : option (score * list string) :=
  match table with
  | [] => best
  | (p, ty) :: r =>
      if path_matches p path then
        match best with
        | None => best_match path (Some (specificity p, ty)) r
        | Some (s, _) => if score_gtb (specificity p) s then best_match path (Some (specificity p, ty)) r else best_match path best r
        end
      else best_match path best r
  end.
Definition expected_in (E : env) (table : list (pystr * list string)) (path : pystr) : option (list string) :=
  option_map snd (best_match (normalize E path) None table).
Definition expected (E : env) (path : pystr) : option (list string) := expected_in E mappings path.

(** ** Validation of one reference *)
(** type(obj).__name__ *)
Definition type_name (v : pv) : string :=
  match v with
  | VNone => "NoneType" | VBool _ => "bool" | VInt _ => "int" | VFloat _ => "float" | VStr _ => "str" | VUrl _ => "AnyUrl"
  | VList _ => "list" | VDict _ => "dict" | VObj c _ _ | VRoot c _ => c | VProc _ => "type" | VOpaque _ => "object"
  end%string.
(** :517-543 _is_type_compatible.  No model class is a subclass of an expected class. *)
Definition compatible (actual : string) (tys : list string) : bool := existsb (String.eqb actual) tys.
(** "Invalid reference at", "Unknown reference type for path", "resolved to ... expected" *)
Inductive uerror := UInvalid (e : rerror) | UUnknown | UType.
(** :250-296 validate_reference *)
Definition check_reference (E : env) (doc : pv) (path ref : pystr) : option uerror :=
  match resolve doc ref with
  | Failed e => Some (UInvalid e)
  | External => None
  | Resolved o _ =>
      match expected E path with
      | None => Some UUnknown
      | Some tys => if compatible (type_name o) tys then None else Some UType
      end
  end.

(** ** Traversal *)
Definition excluded (c : string) (f : pystr) : bool :=
  existsb (fun fi => str_eqb (f_name fi) f && f_excl fi) (class_infos c).
(** :180-248 validate_references_recursive with _validate_list_references (:298-314),
    _validate_mapping_references (:316-333), _validate_model_references (:335-357).  Values here are
    trees, so the visited set never hits (object graphs with sharing and cycles: [gcheck]).  A patterned map is a
    model with the single field [root], a dict.  The fields of an instance are stored in
    class order.  The result is the path and kind of the first error; None: no error. *)
Fixpoint check (E : env) (doc v : pv) (path : pystr) {struct v} : option (pystr * uerror) :=
  let entries := fix go (path : pystr) (d : list (pystr * pv)) : option (pystr * uerror) :=
    match d with
    | [] => None
    | (k, x) :: r => match check E doc x (path ++ u "." ++ escape k) with Some e => Some e | None => go path r end
    end in
  match as_reference v with
  | Some s => option_map (fun e => (path, e)) (check_reference E doc path s)
  | None =>
      match v with
      | VList l =>
          (fix go (i : nat) (l : list pv) : option (pystr * uerror) :=
             match l with
             | [] => None
             | x :: r => match check E doc x (path ++ u "[" ++ str_of_nat i ++ u "]") with Some e => Some e | None => go (S i) r end
             end) 0 l
      | VDict d => entries path d
      | VRoot _ d => entries (path ++ u ".root") d
      | VObj c fv _ =>
          (fix go (fv : list (pystr * pv)) : option (pystr * uerror) :=
             match fv with
             | [] => None
             | (f, x) :: r =>
                 match (if is_none x || excluded c f then None else check E doc x (path ++ u "." ++ f)) with
                 | Some e => Some e
                 | None => go r
                 end
             end) fv
      | _ => None
      end
  end.
(** :145-178 __call__: the document is returned as it is, or an error is raised. *)
Definition unified (E : env) (doc : pv) : option (pystr * uerror) := check E doc doc (u "spec").


(** ** Traversal of an object graph: objects are identified by their index in the heap (id(obj)), so that
    they can be shared or contain themselves.  A patterned map is an object with one field [root]. *)
Inductive node :=
| NAtom (v : pv)
| NList (l : list nat)
| NDict (d : list (pystr * nat))
| NObj (c : string) (fv ex : list (pystr * nat)).
Definition heap := list node.
Definition load (h : heap) (n : nat) : node := nth n h (NAtom VNone).
(** isinstance(obj, Reference) and obj.ref *)
Definition node_reference (h : heap) (n : nat) : option pystr :=
  match load h n with
  | NObj c fv _ =>
      if String.eqb c "Reference" then
        match assoc (u "ref") fv with Some m => match load h m with NAtom (VStr s) => Some s | _ => None end | None => None end
      else None
  | _ => None
  end.
Fixpoint items (i : nat) (l : list nat) : list (pystr * nat) :=
  match l with [] => [] | m :: r => (u "[" ++ str_of_nat i ++ u "]", m) :: items (S i) r end.
(** What the loops of :298-357 visit below an object: path suffix and object. *)
Definition parts (h : heap) (n : nat) : list (pystr * nat) :=
  match load h n with
  | NAtom _ => []
  | NList l => items 0 l
  | NDict d => map (fun kv => (u "." ++ escape (fst kv), snd kv)) d
  | NObj c fv _ =>
      map (fun kv => (u "." ++ fst kv, snd kv))
        (filter (fun kv => negb (match load h (snd kv) with NAtom VNone => true | _ => false end || excluded c (fst kv))) fv)
  end.
(** :180-248 with the set visited_objects of the objects being visited (:207-211, :247-248);
    [chk path s] is the outcome of validate_reference (:250-296).  [None]: fuel exhausted. *)
Fixpoint gcheck (chk : pystr -> pystr -> option uerror) (h : heap) (fuel : nat) (visited : list nat) (n : nat) (path : pystr) : option (option (pystr * uerror)) :=
  match fuel with
  | O => None
  | S f =>
      if existsb (Nat.eqb n) visited then Some None
      else match node_reference h n with
        | Some s => Some (option_map (fun e => (path, e)) (chk path s))
        | None =>
            (fix go (l : list (pystr * nat)) : option (option (pystr * uerror)) :=
               match l with
               | [] => Some None
               | (t, m) :: r => match gcheck chk h f (n :: visited) m (path ++ t) with
                                | Some None => go r
                                | x => x
                                end
               end) (parts h n)
        end
  end.
