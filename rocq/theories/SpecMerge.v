(** Specification for C107: combining two documents into one. *)
From Verif Require Import PyStr Value Types Rules Pydantic ClassTable Classes SpecParse SpecState.
Local Open Scope string_scope.

(** Where both dictionaries have a key, they have the same value there. *)
Definition agree (d e : fields) : Prop := forall k x y, In (k, x) d -> In (k, y) e -> x = y.
(** {**d, **e} for such dictionaries: the entries of [d], then those of [e] under other keys. *)
Definition union (d e : fields) : fields := (d ++ filter (fun kv => negb (mem_str (fst kv) (map fst d))) e)%list.
(** The document and its components object are combined attribute by attribute, patterned maps key by key; an attribute only one of the
    two has is taken over, and what is in both and is not a map must be the same. *)
Inductive combined : pv -> pv -> pv -> Prop :=
| co_same v : combined v v v
| co_left v : combined v VNone v
| co_right v : combined VNone v v
| co_map c d e : agree d e -> combined (VRoot c d) (VRoot c e) (VRoot c (union d e))
| co_object c fv gv hv ex ey : In c ["AsyncAPI3"; "Components"] -> combined_fields fv gv hv -> agree ex ey ->
    combined (VObj c fv ex) (VObj c gv ey) (VObj c hv (union ex ey))
with combined_fields : fields -> fields -> fields -> Prop :=
| cf_end : combined_fields [] [] []
| cf_field k x y z fv gv hv : combined x y z -> combined_fields fv gv hv -> combined_fields ((k, x) :: fv) ((k, y) :: gv) ((k, z) :: hv).
