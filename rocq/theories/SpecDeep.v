(** Specification: validity of a document at every depth. *)
From Verif Require Import PyStr Value Types Rules Pydantic ClassTable Classes SpecParse SpecState.

(** Extra data of an instance: extension keys only, none spelled like a declared field (extendable classes); none at all
    (closed classes); anything (free-form classes). *)
Definition extras_valid (E : env) (k : kind) (fs : list (finfo * ty)) (ex : fields) : Prop :=
  match k with
  | KExt => forall key, In key (map fst ex) -> upto_nl (extension_key E) key /\ ~ declared fs key
  | KForbid => ex = []
  | KFree => True
  end.
(** An instance of a library class that obeys everything its class says: fields typed, rules on single fields, rules
    relating fields, extra data. *)
Definition object_valid (E : env) (c : string) (fv ex : fields) : Prop :=
  exists k fs, In (TModel c k fs) all_types /\ wt_fields E (well_typed E) fs fv /\ cross_field_spec c fv /\ extras_valid E k fs ex.
(** A map of the library: documented keys, typed entries. *)
Definition map_valid (E : env) (c : string) (d : fields) : Prop :=
  exists t, In (TRoot c t) all_types /\ forall key x, In (key, x) d -> upto_nl doc_key key /\ well_typed E t x.
(** ... and so for every object and map in the value. *)
Definition valid_throughout (E : env) (v : pv) : Prop :=
  forall x, within x v -> match x with VObj c fv ex => object_valid E c fv ex | VRoot c d => map_valid E c d | _ => True end.
