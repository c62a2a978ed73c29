(** Reference resolution: validators/utils.py, and the Reference factories: models/base.py:42-144. *)
From Verif Require Import PyStr Value Types Rules Pydantic ClassTable Classes.

(** isinstance(v, Reference) and v.ref.  A Reference instance always has a string [ref]
    (base.py:21-32); a [VObj "Reference"] without one does not occur. *)
Definition as_reference (v : pv) : option pystr :=
  match v with
  | VObj c fv _ =>
      if String.eqb c "Reference" then match assoc (u "ref") fv with Some (VStr s) => Some s | _ => None end else None
  | _ => None
  end.

(** utils.py:93-95 _is_external_reference *)
Definition is_external (ref : pystr) : bool := starts_with (u "http://") ref || starts_with (u "https://") ref.

(** The ValueErrors: "Circular reference detected" (:88), "Unsupported reference format" (:101),
    "Invalid reference path" (:104), and the navigation errors (:63, :154, :171, :184, :187, :208). *)
Inductive rerror := ECircular | EFormat | EPath | ENavigate.

(** utils.py:98-105 _parse_reference_path *)
Definition parse_ref (ref : pystr) : rerror + list pystr :=
  if starts_with (u "#") ref then
    match split 47 (strip 47 (tl ref)) with
    | [[]] => inl EPath
    | parts => inr parts
    end
  else inl EFormat.

(** utils.py:159-161 _has_root_mapping: [root] is the field of a patterned map, or an extra attribute of
    a model instance (extra data is reachable as an attribute); other values have no attribute [root]. *)
Definition root_mapping (v : pv) : option fields :=
  match v with
  | VRoot _ d => Some d
  | VObj _ _ ex => match assoc (u "root") ex with Some (VDict d) => Some d | _ => None end
  | _ => None
  end.
(** utils.py:191-198 _find_model_field_name: the first field with this name or alias *)
Fixpoint find_field_name (part : pystr) (fs : list finfo) : option pystr :=
  match fs with
  | [] => None
  | fi :: r => if str_eqb (f_name fi) part || str_eqb (f_alias fi) part then Some (f_name fi) else find_field_name part r
  end.
(** utils.py:130-156 _resolve_path_part with _resolve_from_root (:164-173), _resolve_from_model
    (:176-188), _resolve_from_dict (:201-210); [None]: ValueError or AttributeError, both reported as
    ValueError (:57-63).  A patterned map always has a root mapping, so its model branch is not reached. *)
Definition resolve_part (v : pv) (part : pystr) : option pv :=
  match root_mapping v with
  | Some d => assoc part d
  | None =>
      match v with
      | VObj c fv _ =>
          match find_field_name part (class_infos c) with
          | Some name => match attr name fv with VNone => None | x => Some x end
          | None => None
          end
      | VDict d => assoc part d
      | _ => None
      end
  end.
(** utils.py:108-127 _resolve_path_parts: the object and the path "spec.a.b" *)
Fixpoint resolve_parts (v : pv) (path : pystr) (parts : list pystr) : option (pv * pystr) :=
  match parts with
  | [] => Some (v, path)
  | p :: r =>
      match p with
      | [] => resolve_parts v path r                        (* :118 if not part: continue *)
      | _ => match resolve_part v p with
             | Some v' => resolve_parts v' (path ++ u "." ++ p) r
             | None => None
             end
      end
  end.

Inductive resolution :=
| Resolved (v : pv) (path : pystr)       (* resolved_object, whose type is resolved_type, and path *)
| External                               (* None *)
| Failed (e : rerror).

(** utils.py:29-77 resolve_reference; [visited] is the set visited_refs.  The recursion is not
    structural: [None] is "fuel exhausted", shown impossible in Proof/PropResolve (C22). *)
Fixpoint resolve_fuel (fuel : nat) (doc : pv) (visited : list pystr) (ref : pystr) : option resolution :=
  match fuel with
  | O => None
  | S n =>
      if mem_str ref visited then Some (Failed ECircular)                   (* :87-88 *)
      else if is_external ref then Some External                            (* :51-53 *)
      else match parse_ref ref with
        | inl e => Some (Failed e)
        | inr parts =>
            match resolve_parts doc (u "spec") parts with
            | None => Some (Failed ENavigate)
            | Some (v, path) =>
                match as_reference v with
                | Some next => resolve_fuel n doc (ref :: visited) next     (* :65-71 *)
                | None => Some (Resolved v path)
                end
            end
        end
  end.
(** All Reference objects of a value. *)
Fixpoint reference_strings (v : pv) : list pystr :=
  match as_reference v with Some s => [s] | None => [] end
  ++ match v with
     | VList l => flat_map reference_strings l
     | VDict d | VRoot _ d => flat_map (fun kv => match kv with (_, x) => reference_strings x end) d
     | VObj _ fv ex => flat_map (fun kv => match kv with (_, x) => reference_strings x end) fv
                       ++ flat_map (fun kv => match kv with (_, x) => reference_strings x end) ex
     | _ => []
     end.
(** resolve_reference(ref, spec): enough fuel for any document. *)
Definition resolve (doc : pv) (ref : pystr) : resolution :=
  match resolve_fuel (2 + List.length (reference_strings doc)) doc [] ref with
  | Some r => r
  | None => Failed ECircular
  end.

(** ** The factories, base.py:42-144: method name and string prefix. *)
Definition factories : list (string * string) := [
  ("to_root_server_name", "#/servers/"); (* :46-47 *)
  ("to_root_channel_name", "#/channels/"); (* :50-51 *)
  ("to_root_operation_name", "#/operations/"); (* :54-55 *)
  ("to_component_schema_name", "#/components/schemas/"); (* :58-59 *)
  ("to_component_server_name", "#/components/servers/"); (* :62-63 *)
  ("to_component_channel_name", "#/components/channels/"); (* :66-67 *)
  ("to_component_operation_name", "#/components/operations/"); (* :70-71 *)
  ("to_component_message_name", "#/components/messages/"); (* :74-75 *)
  ("to_component_security_scheme_name", "#/components/securitySchemes/"); (* :78-81 *)
  ("to_component_server_variable_name", "#/components/serverVariables/"); (* :84-87 *)
  ("to_component_parameter_name", "#/components/parameters/"); (* :90-91 *)
  ("to_component_correlation_id_name", "#/components/correlationIds/"); (* :94-95 *)
  ("to_component_reply_name", "#/components/replies/"); (* :98-99 *)
  ("to_component_reply_address_name", "#/components/replyAddresses/"); (* :102-103 *)
  ("to_component_external_doc_name", "#/components/externalDocs/"); (* :106-107 *)
  ("to_component_tag_name", "#/components/tags/"); (* :110-111 *)
  ("to_component_operation_trait_name", "#/components/operationTraits/"); (* :114-117 *)
  ("to_component_message_trait_name", "#/components/messageTraits/"); (* :120-121 *)
  ("to_component_server_binding_name", "#/components/serverBindings/"); (* :124-125 *)
  ("to_component_channel_binding_name", "#/components/channelBindings/"); (* :128-131 *)
  ("to_component_operation_binding_name", "#/components/operationBindings/"); (* :134-138 *)
  ("to_component_message_binding_name", "#/components/messageBindings/")]%string. (* :141-144 *)
(** cls(ref=f"<prefix>{name}"): [ref] is a plain str field, so construction always succeeds. *)
Definition make_reference (prefix : string) (name : pystr) : pv := VObj "Reference" [(u "ref", VStr (u prefix ++ name))] [].
(** Reference.__hash__, base.py:34-40, for an arbitrary str hash. *)
Definition reference_hash (h : pystr -> Z) (v : pv) : option Z := option_map h (as_reference v).
