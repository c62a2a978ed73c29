(** model_json_schema(): the JSON Schema pydantic publishes for a class, as JSON data.  Trusted reading of pydantic's generator; the repository
    contributes the classes (ClassTable.v), EmailStr.__get_pydantic_json_schema__ (models/helpers.py:74-85) and SkipJsonSchema on the two
    processor fields (models/asyncapi.py:137, 146).  Both modes give the same here: the only fields with exclude=True are the skipped ones
    ([c95_modes]).  Simplifications: titles, descriptions, defaults and other annotations are left out; all classes are listed under
    "$defs", pydantic lists those that are used; an empty "required" is left out there. *)
From Verif Require Import PyStr Value Types Rules ClassTable.

Definition kw (k : string) (a : pv) : pystr * pv := (u k, a).
Definition typed (name : string) (more : fields) : pv := VDict (kw "type" (VStr (u name)) :: more).
(** one literal: "const", several: "enum" *)
Definition literals (l : list pv) : fields := match l with [x] => [kw "const" x] | _ => [kw "enum" (VList l)] end.
Definition null_schema : pv := typed "null" [].
(** additionalProperties of dict[str, T]: true for Any *)
Definition any_or (t : ty) (s : pv) : pv := match t with TAny => VBool true | _ => s end.
Definition defs_prefix : pystr := u "#/$defs/".
Definition one_of_them (l : list pv) : pv := match l with [s] => s | _ => VDict [kw "anyOf" (VList l)] end.
(** The alternatives of an annotation; unions and Optional are flattened into one "anyOf". *)
Fixpoint alternatives (t : ty) : list pv :=
  match t with
  | TAny => [VDict []]
  | TStr None => [typed "string" []]
  | TStr (Some n) => [typed "string" [kw "maxLength" (VInt (Z.of_N n))]]
  | TEmail => [typed "string" [kw "format" (VStr (u "email"))]]                              (* helpers.py:83-85 *)
  | TInt => [typed "integer" []]
  | TBool => [typed "boolean" []]
  | TUrl false => [typed "string" [kw "format" (VStr (u "uri")); kw "minLength" (VInt 1)]]
  | TUrl true => [typed "string" [kw "format" (VStr (u "uri")); kw "minLength" (VInt 1); kw "maxLength" (VInt 2083)]]
  | TLitS l => [typed "string" (literals (map VStr l))]
  | TLitI l => [typed "integer" (literals (map VInt l))]
  | TList t' => [typed "array" [kw "items" (one_of_them (alternatives t'))]]
  | TDict t' => [typed "object" [kw "additionalProperties" (any_or t' (one_of_them (alternatives t')))]]
  | TOpt t' => alternatives t' ++ [null_schema]
  | TUnion ts => flat_map alternatives ts
  | TProcs => []                                                                              (* SkipJsonSchema: the field is left out, see [skipped] *)
  | TModel c _ _ | TRoot c _ => [VDict [kw "$ref" (VStr (defs_prefix ++ u c))]]
  end.
Definition schema_at (t : ty) : pv := one_of_them (alternatives t).
(** asyncapi.py:137, 146: SkipJsonSchema[list[type[ProcessorProtocol]] | None] *)
Definition skipped (t : ty) : bool := match t with TOpt TProcs => true | _ => false end.
Definition shown (fs : list (finfo * ty)) : list (finfo * ty) := filter (fun ft => negb (skipped (snd ft))) fs.
Definition needed (fs : list (finfo * ty)) : list (finfo * ty) := filter (fun ft => match f_def (fst ft) with None => true | _ => false end) (shown fs).
(** base_models.py:26-33, 64-71: extra="allow" / "forbid" *)
Definition open_kind (k : kind) : bool := match k with KForbid => false | _ => true end.
(** The definition of a class. *)
Definition definition (t : ty) : fields :=
  match t with
  | TModel c k fs =>
      [kw "type" (VStr (u "object"));
       kw "properties" (VDict (map (fun ft => (f_alias (fst ft), schema_at (snd ft))) (shown fs)));
       kw "required" (VList (map (fun ft => VStr (f_alias (fst ft))) (needed fs)));
       kw "additionalProperties" (VBool (open_kind k))]
  | TRoot _ t' => [kw "type" (VStr (u "object")); kw "additionalProperties" (any_or t' (schema_at t'))]
  | _ => []
  end.
Definition definitions (l : list ty) : fields :=
  flat_map (fun t => match t with TModel c _ _ | TRoot c _ => [(u c, VDict (definition t))] | _ => [] end) l.
(** C.model_json_schema() *)
Definition model_json_schema (t : ty) : fields := definition t ++ [kw "$defs" (VDict (definitions all_types))].
