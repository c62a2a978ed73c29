(** Specification: a document with its forgotten nulls filled in (C17, C93). *)
From Verif Require Import PyStr Value Types Rules Pydantic ClassTable Classes.

(** What a null in field [k] of an object of class [c] reads back as: the default of the field if nulls are left out of what is written, null otherwise. *)
Definition null_default (c : string) (k : pystr) : pv :=
  match find (fun ft => str_eqb k (f_name (fst ft))) (class_fields c) with
  | Some (fi, _) => if f_exnull fi then match f_def fi with Some d => d | None => VNone end else VNone
  | None => VNone
  end.
(** ... in every object of a value. *)
Fixpoint with_defaults (v : pv) : pv :=
  match v with
  | VList l => VList (map with_defaults l)
  | VDict d => VDict (map (fun kv => match kv with (k, x) => (k, with_defaults x) end) d)
  | VRoot c d => VRoot c (map (fun kv => match kv with (k, x) => (k, with_defaults x) end) d)
  | VObj c fv ex => VObj c (map (fun kv => match kv with (k, x) => (k, match x with VNone => null_default c k | _ => with_defaults x end) end) fv) ex
  | _ => v
  end.
