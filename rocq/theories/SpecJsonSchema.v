(** Specification for C95, C96: JSON Schema (draft 2020-12, the keywords pydantic uses) as a relation between a schema and a JSON value,
    both JSON data.  "format" and annotations assert nothing.  Independent of the library. *)
From Verif Require Import PyStr Value Types Rules.

(** "type" *)
Definition has_type (name : pystr) (v : pv) : Prop :=
  (name = u "string" /\ exists s, v = VStr s) \/ (name = u "integer" /\ exists z, v = VInt z) \/ (name = u "boolean" /\ exists b, v = VBool b)
  \/ (name = u "null" /\ v = VNone) \/ (name = u "array" /\ exists l, v = VList l) \/ (name = u "object" /\ exists d, v = VDict d).
(** "$ref": "#/$defs/NAME" (the names of the classes contain no character JSON Pointer would escape) *)
Definition refers (root : fields) (r : pystr) (s : pv) : Prop :=
  exists name ds, r = u "#/$defs/" ++ name /\ assoc (u "$defs") root = Some (VDict ds) /\ assoc name ds = Some s.
(** Is there a schema for this key under "properties"? *)
Definition mentioned (kws : fields) (k : pystr) (s : pv) : Prop := exists ps, assoc (u "properties") kws = Some (VDict ps) /\ assoc k ps = Some s.
(** [meets root s v]: the value [v] is valid under the schema [s] of the schema document [root]. *)
Inductive meets (root : fields) : pv -> pv -> Prop :=
| meets_true v : meets root (VBool true) v
| meets_keywords kws v :
    (forall a, assoc (u "type") kws = Some (VStr a) -> has_type a v) ->
    (forall a, assoc (u "const") kws = Some a -> v = a) ->
    (forall l, assoc (u "enum") kws = Some (VList l) -> In v l) ->
    (forall n s, assoc (u "maxLength") kws = Some (VInt n) -> v = VStr s -> (Z.of_nat (List.length s) <= n)%Z) ->
    (forall n s, assoc (u "minLength") kws = Some (VInt n) -> v = VStr s -> (n <= Z.of_nat (List.length s))%Z) ->
    (forall ks k d, assoc (u "required") kws = Some (VList ks) -> In (VStr k) ks -> v = VDict d -> In k (map fst d)) ->
    (forall s k x d, v = VDict d -> In (k, x) d -> mentioned kws k s -> meets root s x) ->
    (forall s k x d, v = VDict d -> In (k, x) d -> (forall s', ~ mentioned kws k s') -> assoc (u "additionalProperties") kws = Some s -> meets root s x) ->
    (forall s x l, v = VList l -> In x l -> assoc (u "items") kws = Some s -> meets root s x) ->
    (forall l, assoc (u "anyOf") kws = Some (VList l) -> exists s, In s l /\ meets root s v) ->
    (forall r, assoc (u "$ref") kws = Some (VStr r) -> exists s, refers root r s /\ meets root s v) ->
    meets root (VDict kws) v.
(** A value is valid under a schema document. *)
Definition satisfies (doc : fields) (v : pv) : Prop := meets doc (VDict doc) v.

(** ** For C96 *)
(** No implicit conversions: "5" for 5, "yes" or 1 for true. *)
Definition strictly (E : env) : env :=
  {| e_digit := e_digit E; e_word := e_word E; e_int := fun _ => None; e_bool := fun _ => None; e_url := e_url E |}.
(** Every field is spelled as in the specification (alias), not by its Python name. *)
Fixpoint spec_spelling (t : ty) (v : pv) {struct t} : Prop :=
  match t with
  | TList t' => match v with VList l => Forall (spec_spelling t') l | _ => True end
  | TDict t' | TRoot _ t' => match v with VDict d => Forall (fun kv => spec_spelling t' (snd kv)) d | _ => True end
  | TOpt t' => spec_spelling t' v
  | TUnion ts => (fix go ts := match ts with [] => True | t' :: r => spec_spelling t' v /\ go r end) ts
  | TModel _ _ fs =>
      match v with
      | VDict d => (fix go fs := match fs with
          | [] => True
          | (fi, t') :: r => (f_name fi <> f_alias fi -> ~ In (f_name fi) (map fst d)) /\ (forall x, In (f_alias fi, x) d -> spec_spelling t' x) /\ go r
          end) fs
      | _ => True
      end
  | _ => True
  end.
(** What URL parsing guarantees about lengths (AnyUrl: not empty; HttpUrl: at most 2083 characters), for the text given and for the normalised one. *)
Definition url_size (h : bool) (s : pystr) : Prop := s <> [] /\ (h = true -> (List.length s <= 2083)%nat).
Definition url_input_sized (E : env) : Prop := forall h s s', e_url E h s = Some s' -> url_size h s.
Definition url_output_sized (E : env) : Prop := forall h s s', e_url E h s = Some s' -> url_size h s'.
