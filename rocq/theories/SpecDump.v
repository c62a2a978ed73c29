(** Specification of serialisation. *)
From Verif Require Import PyStr Value Types Rules Pydantic ClassTable Classes SpecParse SpecState.

(** Plain JSON data. *)
Definition is_json (v : pv) : Prop :=
  forall x, within x v -> match x with VUrl _ | VObj _ _ _ | VRoot _ _ | VProc _ | VOpaque _ => False | _ => True end.

(** Processor fields are not serialised; what is left of a document without them. *)
Definition without_processors (v : pv) : pv :=
  match v with
  | VObj c fv ex =>
      VObj c (map (fun kv => if mem_str (fst kv) [u "extra_converters"; u "extra_validators"] && String.eqb c "AsyncAPI3"
                             then (fst kv, VNone) else kv) fv) ex
  | _ => v
  end.

(** No object holds null in a field whose default is not null. *)
Definition no_null_over_default (v : pv) : Prop :=
  forall c fv ex fi t d, within (VObj c fv ex) v -> In (fi, t) (class_fields c) -> f_def fi = Some d -> d <> VNone ->
    assoc (f_name fi) fv <> Some VNone.

(** Free-form objects that could be mistaken for another alternative of their union:
    a Schema with an extra entry "schema", a Schema whose whole content is one entry "$ref" (or "ref") with a string,
    a MultiFormatSchema with an extra entry named like a Schema field. *)
Definition ambiguous (x : pv) : Prop :=
  match x with
  | VObj c fv ex =>
      (c = "Schema"%string /\
         (In (u "schema") (map fst ex)
          \/ (exists k s, (k = u "$ref" \/ k = u "ref") /\ ex = [(k, VStr s)] /\ Forall (fun kv => snd kv = VNone) fv)))
      \/ (c = "MultiFormatSchema"%string /\ exists k, In k (map fst ex) /\ declared (class_fields "Schema") k)
  | _ => False
  end.
Definition no_ambiguity (v : pv) : Prop := forall x, within x v -> ~ ambiguous x.

(** The untyped parts of a value of annotation [t] (what is declared as Any, and extra data) are plain
    JSON.  Holds of everything parsed from JSON; an instance built in Python may hold other objects there. *)
Definition json_fields (jd : ty -> pv -> Prop) : list (finfo * ty) -> fields -> Prop :=
  fix go fs fv := match fs, fv with
    | (_, t) :: fs', (_, x) :: fv' => jd t x /\ go fs' fv'
    | _, _ => True
    end.
Definition each (P : ty -> Prop) : list ty -> Prop := fix go ts := match ts with [] => True | t :: r => P t /\ go r end.
Fixpoint json_data (t : ty) (v : pv) {struct t} : Prop :=
  match t with
  | TAny => is_json v
  | TList t' => match v with VList l => Forall (json_data t') l | _ => True end
  | TDict t' => match v with VDict d => Forall (fun kv => json_data t' (snd kv)) d | _ => True end
  | TOpt t' => v = VNone \/ json_data t' v
  | TUnion ts => each (fun t' => json_data t' v) ts
  | TModel c _ fs => match v with
      | VObj c' fv ex => c' = c -> json_fields json_data fs fv /\ Forall (fun kv => is_json (snd kv)) ex
      | _ => True end
  | TRoot c t' => match v with VRoot c' d => c' = c -> Forall (fun kv => json_data t' (snd kv)) d | _ => True end
  | _ => True
  end.

(** The entries of a mapping whose key is not the name or alias of a declared field, in order. *)
Definition undeclared (fs : list (finfo * ty)) (d : fields) : fields :=
  filter (fun kv => negb (existsb (fun ft => str_eqb (fst kv) (f_name (fst ft)) || str_eqb (fst kv) (f_alias (fst ft))) fs)) d.

(** Declared fields that are written even when they are null. *)
Definition nullable_keys : list (string * pystr) := [("Channel", u "address"); ("MultiFormatSchema", u "schema")]%string.
