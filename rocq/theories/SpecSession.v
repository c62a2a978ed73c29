(** Specification for C105: a session of work on a document. *)
From Verif Require Import PyStr Value Types Rules Pydantic ClassTable Classes SpecParse State SpecState Dump SpecDump SpecDeep SpecHistory SpecRevalidate.

(** Loaded from JSON data [v], then edited any number of times. *)
Inductive session (E : env) (procs : pv -> bool * pv) (t : ty) (v : pv) : pv -> Prop :=
| sess doc doc' : is_json v -> parse E t v = Some doc -> history false E procs doc doc' -> session E procs t v doc'.

(** What the document must not contain in order to be saved without loss: untyped data other than JSON, an explicit null where leaving the
    field out means something else, extra data spelled like a declared field, free-form objects that look like another kind of object. *)
Record savable (t : ty) (doc : pv) : Prop := {
  sv_dicts : python_dicts doc;
  sv_data : json_data t doc;
  sv_names : no_shadowing doc;
  sv_nulls : no_null_over_default doc;
  sv_kinds : no_ambiguity doc;
  sv_settled : settled doc }.
