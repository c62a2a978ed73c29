(** Specification: different spellings of the same data. *)
From Verif Require Import PyStr Value Types Rules Pydantic ClassTable Classes SpecParse.

(** [v'] is [v] with some fields, at any depth, written under the Python name instead of the specification name, or the other way round.
    A change inside an alternative must be a change of spelling for every alternative that does not reject both versions. *)
Inductive respelled (E : env) : ty -> pv -> pv -> Prop :=
| rs_same t v : respelled E t v v
| rs_more t v v1 v' : respelled E t v v1 -> respelled E t v1 v' -> respelled E t v v'
| rs_key c k fs fi t d1 d2 x a b : In (fi, t) fs -> In a [f_alias fi; f_name fi] -> In b [f_alias fi; f_name fi] ->
    ~ In (f_alias fi) (map fst (d1 ++ d2)) -> ~ In (f_name fi) (map fst (d1 ++ d2)) ->
    respelled E (TModel c k fs) (VDict (d1 ++ (a, x) :: d2)) (VDict (d1 ++ (b, x) :: d2))
| rs_field c k fs fi t d1 d2 x x' a : In (fi, t) fs -> In a [f_alias fi; f_name fi] ->
    ~ In (f_alias fi) (map fst (d1 ++ d2)) -> ~ In (f_name fi) (map fst (d1 ++ d2)) -> respelled E t x x' ->
    respelled E (TModel c k fs) (VDict (d1 ++ (a, x) :: d2)) (VDict (d1 ++ (a, x') :: d2))
| rs_item t l1 l2 x x' : respelled E t x x' -> respelled E (TList t) (VList (l1 ++ x :: l2)) (VList (l1 ++ x' :: l2))
| rs_entry t d1 d2 key x x' : respelled E t x x' -> respelled E (TDict t) (VDict (d1 ++ (key, x) :: d2)) (VDict (d1 ++ (key, x') :: d2))
| rs_map c t d1 d2 key x x' : respelled E t x x' -> respelled E (TRoot c t) (VDict (d1 ++ (key, x) :: d2)) (VDict (d1 ++ (key, x') :: d2))
| rs_opt t x x' : x <> VNone -> x' <> VNone -> respelled E t x x' -> respelled E (TOpt t) x x'
| rs_union ts x x' : (forall t, In t ts -> respelled E t x x' \/ (parse E t x = None /\ parse E t x' = None)) -> respelled E (TUnion ts) x x'.
(** [v'] is [v] without some explicit nulls (at any depth) for fields whose default is null.  Inside an alternative, only where no other
    alternative accepts either version. *)
Inductive nulls_dropped (E : env) : ty -> pv -> pv -> Prop :=
| nd_same t v : nulls_dropped E t v v
| nd_more t v v1 v' : nulls_dropped E t v v1 -> nulls_dropped E t v1 v' -> nulls_dropped E t v v'
| nd_key c k fs fi t d1 d2 a : In (fi, t) fs -> f_def fi = Some VNone -> In a [f_alias fi; f_name fi] ->
    ~ In (f_alias fi) (map fst (d1 ++ d2)) -> ~ In (f_name fi) (map fst (d1 ++ d2)) ->
    nulls_dropped E (TModel c k fs) (VDict (d1 ++ (a, VNone) :: d2)) (VDict (d1 ++ d2))
| nd_field c k fs fi t d1 d2 x x' a : In (fi, t) fs -> In a [f_alias fi; f_name fi] ->
    ~ In (f_alias fi) (map fst (d1 ++ d2)) -> ~ In (f_name fi) (map fst (d1 ++ d2)) -> nulls_dropped E t x x' ->
    nulls_dropped E (TModel c k fs) (VDict (d1 ++ (a, x) :: d2)) (VDict (d1 ++ (a, x') :: d2))
| nd_item t l1 l2 x x' : nulls_dropped E t x x' -> nulls_dropped E (TList t) (VList (l1 ++ x :: l2)) (VList (l1 ++ x' :: l2))
| nd_entry t d1 d2 key x x' : nulls_dropped E t x x' -> nulls_dropped E (TDict t) (VDict (d1 ++ (key, x) :: d2)) (VDict (d1 ++ (key, x') :: d2))
| nd_map c t d1 d2 key x x' : nulls_dropped E t x x' -> nulls_dropped E (TRoot c t) (VDict (d1 ++ (key, x) :: d2)) (VDict (d1 ++ (key, x') :: d2))
| nd_opt t x x' : x <> VNone -> x' <> VNone -> nulls_dropped E t x x' -> nulls_dropped E (TOpt t) x x'
| nd_union ts1 t ts2 x x' : nulls_dropped E t x x' -> (forall s, In s (ts1 ++ ts2) -> parse E s x = None /\ parse E s x' = None) ->
    nulls_dropped E (TUnion (ts1 ++ t :: ts2)) x x'.
