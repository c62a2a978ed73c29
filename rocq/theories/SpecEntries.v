(** Specification: one entry more or less in a patterned map of a document. *)
From Verif Require Import PyStr Value Types Rules Pydantic ClassTable Classes SpecParse SpecState Resolve SpecResolve Unified SpecUnified.

(** [v'] is [v] with the entry [k: x] added under a new key to one patterned map that the unified validator visits;
    [t] is the location of the entry below [v], as the validator prints it. *)
Inductive added_at (x : pv) (k : pystr) : pystr -> pv -> pv -> Prop :=
| aa_here c d1 d2 : ~ In k (map fst (d1 ++ d2)) ->
    added_at x k (u ".root." ++ escape k) (VRoot c (d1 ++ d2)) (VRoot c (d1 ++ (k, x) :: d2))
| aa_list t l1 v v' l2 : added_at x k t v v' ->
    added_at x k ((u "[" ++ str_of_nat (length l1) ++ u "]") ++ t) (VList (l1 ++ v :: l2)) (VList (l1 ++ v' :: l2))
| aa_dict t d1 k0 v v' d2 : added_at x k t v v' ->
    added_at x k ((u "." ++ escape k0) ++ t) (VDict (d1 ++ (k0, v) :: d2)) (VDict (d1 ++ (k0, v') :: d2))
| aa_root t c d1 k0 v v' d2 : added_at x k t v v' ->
    added_at x k ((u ".root." ++ escape k0) ++ t) (VRoot c (d1 ++ (k0, v) :: d2)) (VRoot c (d1 ++ (k0, v') :: d2))
| aa_field t c d1 f v v' d2 ex : added_at x k t v v' ->
    (forall s, ~ is_reference (VObj c (d1 ++ (f, v) :: d2) ex) s) ->
    (forall fi ty, In (fi, ty) (class_fields c) -> f_name fi = f -> f_excl fi = false) ->
    added_at x k ((u "." ++ f) ++ t) (VObj c (d1 ++ (f, v) :: d2) ex) (VObj c (d1 ++ (f, v') :: d2) ex).
(** The reference string has the segment [k]. *)
Definition mentions (s k : pystr) : Prop := exists r l, s = u "#" ++ r /\ segments r l /\ In k l.
