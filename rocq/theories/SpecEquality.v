(** Specification for C90: when two values are equal. *)
From Verif Require Import PyStr Value Rules SpecState.

Definition numeric (v : pv) : Prop := match v with VBool _ | VInt _ | VFloat _ => True | _ => False end.
Definition container (v : pv) : Prop := match v with VList _ | VDict _ | VObj _ _ _ | VRoot _ _ => True | _ => False end.
(** The value of a number: True is 1, False is 0. *)
Inductive value_of (fnum : pystr -> Z + pystr) : pv -> Z + pystr -> Prop :=
| vo_true : value_of fnum (VBool true) (inl 1%Z)
| vo_false : value_of fnum (VBool false) (inl 0%Z)
| vo_int z : value_of fnum (VInt z) (inl z)
| vo_float t : value_of fnum (VFloat t) (fnum t).
(** Two dicts have the same keys and equal values under each: the order does not count. *)
Definition like_entries (eq : pv -> pv -> Prop) (d d' : fields) : Prop :=
  (forall k, In k (map fst d) <-> In k (map fst d')) /\ forall k x x', In (k, x) d -> In (k, x') d' -> eq x x'.
(** Numbers are equal by value, lists item by item, dicts and patterned maps entry by entry, instances if they are of the same class and have equal fields and equal extra data;
    anything else only if it is the same. *)
Inductive equal (fnum : pystr -> Z + pystr) : pv -> pv -> Prop :=
| eq_number v v' n : value_of fnum v n -> value_of fnum v' n -> equal fnum v v'
| eq_same v : ~ numeric v -> ~ container v -> equal fnum v v
| eq_list l l' : Forall2 (equal fnum) l l' -> equal fnum (VList l) (VList l')
| eq_dict d d' : like_entries (equal fnum) d d' -> equal fnum (VDict d) (VDict d')
| eq_root c d d' : like_entries (equal fnum) d d' -> equal fnum (VRoot c d) (VRoot c d')
| eq_obj c fv fv' ex ex' : like_entries (equal fnum) fv fv' -> like_entries (equal fnum) ex ex' -> equal fnum (VObj c fv ex) (VObj c fv' ex').
