(** Vocabulary of C98-C100: fields that allow several kinds of objects. *)
From Verif Require Import PyStr Value Types Rules Pydantic ClassTable.

(** Annotations with the alternative Schema (asyncapi3/models/schema.py). *)
Definition allows_schema (ts : list ty) : Prop := exists k fs, In (TModel "Schema" k fs) ts.
(** A mapping with the one key $ref, or the Python name of that field, and a string. *)
Definition names (kvs : fields) (s : pystr) : Prop := kvs = [(u "$ref", VStr s)] \/ kvs = [(u "ref", VStr s)].
(** The Reference object with that string. *)
Definition the_reference (s : pystr) : pv := VObj "Reference" [(u "ref", VStr s)] [].
(** Keys the Schema Object declares here, by either spelling; all other keywords of JSON Schema are extra data. *)
Definition schema_keys : list pystr := [u "discriminator"; u "externalDocs"; u "external_docs"; u "deprecated"].
Definition instance_of (c : string) (v : pv) : Prop := exists fv ex, v = VObj c fv ex.
