(** Specification for C89: what may happen to a document between loading it and writing it. *)
From Verif Require Import PyStr Value Types Rules Pydantic ClassTable Classes SpecParse State SpecState SpecDeep SpecAssign.
Local Open Scope string_scope.

(** Valid at every depth, as [valid_throughout]; but if [free], OAuth Flows objects are let off the rule about their own flows (that a flow
    of a kind carries the URLs this kind needs). *)
Definition object_but (free : bool) (E : env) (c : string) (fv ex : fields) : Prop :=
  exists k fs, In (TModel c k fs) all_types /\ wt_fields E (well_typed E) fs fv
    /\ (c <> "OAuthFlows" \/ free = false -> cross_field_spec c fv) /\ extras_valid E k fs ex.
Definition valid_but (free : bool) (E : env) (v : pv) : Prop :=
  forall x, within x v -> match x with VObj c fv ex => object_but free E c fv ex | VRoot c d => map_valid E c d | _ => True end.

(** Replacing the contents of a list or dict. *)
Inductive same_container : pv -> pv -> Prop :=
| sc_list l l' : same_container (VList l) (VList l')
| sc_dict d d' : same_container (VDict d) (VDict d').

(** One edit of an object or map, made through a reference to it.  [procs] is what the listed processors do to a document. *)
Inductive edit (free : bool) (E : env) (procs : pv -> bool * pv) : pv -> pv -> Prop :=
(* o.name = x, which returns normally; the data in x is valid *)
| ed_attr o name x o' : not_shadowed o -> valid_but free E x -> assign E procs o name x = (true, o') -> edit free E procs o o'
(* o.name.append(x), del o.name["k"], ...: a list or dict held by a declared field is changed in place, to contents of the declared type *)
| ed_inside c k fs fv ex fi t z z' fv' : In (TModel c k fs) all_types -> In (fi, t) fs -> assoc (f_name fi) fv = Some z -> same_container z z' ->
    well_typed E t z' -> valid_but free E z' -> replaced (f_name fi) z' fv fv' -> edit free E procs (VObj c fv ex) (VObj c fv' ex)
(* m[k] = x with a documented key and an entry of the declared type *)
| ed_set c t d k x : In (TRoot c t) all_types -> upto_nl doc_key k -> well_typed E t x -> valid_but free E x ->
    edit free E procs (VRoot c d) (VRoot c (dict_set k x d))
(* del m[k] *)
| ed_del c d k : edit free E procs (VRoot c d) (VRoot c (dict_del k d))
(* the values of extra data are changed in place *)
| ed_extra c fv ex ex' : map fst ex' = map fst ex -> (forall k x, In (k, x) ex' -> valid_but free E x) -> edit free E procs (VObj c fv ex) (VObj c fv ex').

(** ... of the object that a path from the document leads to.  Unless [free], it is not a flow of an OAuth Flows object. *)
Inductive edited (free : bool) (E : env) (procs : pv -> bool * pv) (doc doc' : pv) : Prop :=
| edited_at p o o' : get_path p doc = Some o -> edit free E procs o o' -> at_path p (fun _ => (true, o')) doc = Some (true, doc') ->
    (free = false -> forall fv ex, o <> VObj "OAuthFlow" fv ex) -> edited free E procs doc doc'.
Inductive history (free : bool) (E : env) (procs : pv -> bool * pv) : pv -> pv -> Prop :=
| h_none doc : history free E procs doc doc
| h_more doc doc1 doc2 : history free E procs doc doc1 -> edited free E procs doc1 doc2 -> history free E procs doc doc2.

(** The processors write nothing (the bundled ones: C41). *)
Definition inert (procs : pv -> bool * pv) : Prop := forall o, snd (procs o) = o.
