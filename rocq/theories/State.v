(** Mutation of validated objects: the mapping protocol of patterned objects and attribute
    assignment. *)
From Verif Require Import PyStr Regex Value Types Rules Pydantic ClassTable Classes Linked.

(** ** PatternedRootModel as a mapping, models/base_models.py:90-106.  [root] is a dict; the
    methods delegate to it without any validation. *)
Inductive rop :=
| RGet (k : pystr)               (* obj[k]        :93-94 *)
| RSet (k : pystr) (v : pv)      (* obj[k] = v    :96-97 *)
| RDel (k : pystr)               (* del obj[k]    :99-100 *)
| RHas (k : pystr)               (* k in obj      :102-103 *)
| RLen                           (* len(obj)      :105-106 *)
| RIter.                         (* list(obj)     :90-91 *)
Inductive rres := ROk | RVal (v : pv) | RBool (b : bool) | RNat (n : nat) | RKeys (l : list pystr) | RKeyError.

(** del d[k] *)
Fixpoint dict_del (k : pystr) (d : fields) : fields :=
  match d with
  | [] => []
  | (k', v) :: d' => if str_eqb k k' then d' else (k', v) :: dict_del k d'
  end.
Definition root_step (d : fields) (o : rop) : rres * fields :=
  match o with
  | RGet k => match assoc k d with Some v => (RVal v, d) | None => (RKeyError, d) end
  | RSet k v => (ROk, dict_set k v d)
  | RDel k => if has_key k d then (ROk, dict_del k d) else (RKeyError, d)
  | RHas k => (RBool (has_key k d), d)
  | RLen => (RNat (length d), d)
  | RIter => (RKeys (map fst d), d)
  end.
Fixpoint root_run (d : fields) (ops : list rop) : list rres * fields :=
  match ops with
  | [] => ([], d)
  | o :: ops' => let (r, d') := root_step d o in let (rs, d'') := root_run d' ops' in (r :: rs, d'')
  end.

(** ** Attribute assignment with validate_assignment=True (base_models.py:26-33, 64-71, 83-89).
    pydantic: a declared field (by Python name) is validated first; then the instance's field and
    extra dictionaries are replaced; then the mode="after" validators run on the changed instance
    (for AsyncAPI3 the last of them runs the processors, asyncapi.py:277-296; [procs] is what that
    does to the document and whether it returned normally).  An undeclared name raises in closed
    classes and patterned maps and is stored as extra data otherwise.
    Returns whether the assignment returned normally, and the object afterwards. *)
Fixpoint find_field (name : pystr) (fs : list (finfo * ty)) : option (finfo * ty) :=
  match fs with
  | [] => None
  | ft :: r => if str_eqb name (f_name (fst ft)) then Some ft else find_field name r
  end.
Section Assign.
  Context (E : env) (procs : pv -> bool * pv).
  Definition store_in (fs : list (finfo * ty)) (k : kind) (c : string) (fv ex : fields) (name : pystr) (v : pv) : bool * pv :=
    let new := dict_set name v (dict_update fv ex) in
    let fv' := map (fun ft => (f_name (fst ft), attr (f_name (fst ft)) new)) fs in
    let ex' := filter (fun kv => negb (mem_str (fst kv) (map (fun ft => f_name (fst ft)) fs))) new in
    let o := VObj c fv' ex' in
    if after_ok E c k fv' ex'
    then (if String.eqb c "AsyncAPI3" then procs o else (true, o))
    else (false, o).
  Definition store (c : string) := store_in (class_fields c) (class_kind c) c.
  Definition assign (o : pv) (name : pystr) (v : pv) : bool * pv :=
    match o with
    | VObj c fv ex =>
        match find_field name (class_fields c) with
        | Some (fi, t) =>
            match validate E t v with
            | Some (v', _) => if fv_check E (f_val fi) v' then store c fv ex name v' else (false, o)
            | None => (false, o)
            end
        | None => match class_kind c with KForbid => (false, o) | _ => store c fv ex name v end
        end
    | VRoot c d =>
        if str_eqb name (u "root") then
          match find_root c all_types, v with
          | Some t, VDict d0 =>
              match vdict (validate E) t d0 with
              | Some (d', _) => (root_keys_ok d', VRoot c d')
              | None => (false, o)
              end
          | _, _ => (false, o)
          end
        else (false, o)
    | _ => (false, o)              (* plain data has no assignable attributes *)
    end.
End Assign.

(** Assignment to an object nested in another one ([doc.info.contact.email = ...]): the path of
    attribute accesses, extra attributes, subscripts of maps and list indices that leads to it. *)
Inductive pstep := PField (f : pystr) | PExtra (k : pystr) | PKey (k : pystr) | PIdx (i : nat).
(** Replace the value of the (unique) key [k] by the result of [f]. *)
Definition upd_key (f : pv -> option (bool * pv)) (k : pystr) : fields -> option (bool * fields) :=
  fix go d := match d with
    | [] => None
    | (k', x) :: d' =>
        if str_eqb k k' then option_map (fun r => (fst r, (k', snd r) :: d')) (f x)
        else option_map (fun r => (fst r, (k', x) :: snd r)) (go d')
    end.
Fixpoint upd_idx (f : pv -> option (bool * pv)) (i : nat) (l : list pv) : option (bool * list pv) :=
  match l, i with
  | [], _ => None
  | x :: l', O => option_map (fun r => (fst r, snd r :: l')) (f x)
  | x :: l', S i' => option_map (fun r => (fst r, x :: snd r)) (upd_idx f i' l')
  end.
(** [None]: the path does not exist (AttributeError / KeyError before any assignment). *)
Fixpoint at_path (p : list pstep) (f : pv -> bool * pv) (v : pv) : option (bool * pv) :=
  match p with
  | [] => Some (f v)
  | s :: p' =>
      match s, v with
      | PField n, VObj c fv ex => option_map (fun r => (fst r, VObj c (snd r) ex)) (upd_key (at_path p' f) n fv)
      | PExtra n, VObj c fv ex => option_map (fun r => (fst r, VObj c fv (snd r))) (upd_key (at_path p' f) n ex)
      | PKey n, VDict d => option_map (fun r => (fst r, VDict (snd r))) (upd_key (at_path p' f) n d)
      | PKey n, VRoot c d => option_map (fun r => (fst r, VRoot c (snd r))) (upd_key (at_path p' f) n d)
      | PIdx i, VList l => option_map (fun r => (fst r, VList (snd r))) (upd_idx (at_path p' f) i l)
      | _, _ => None
      end
  end.
Record assignment := { as_path : list pstep; as_name : pystr; as_value : pv }.
Definition assign_at (E : env) (procs : pv -> bool * pv) (a : assignment) (v : pv) : option (bool * pv) :=
  at_path (as_path a) (fun o => assign E procs o (as_name a) (as_value a)) v.
(** A sequence of assignments; exceptions are caught by the caller, who goes on with the same object. *)
Definition assign_run (E : env) (procs : pv -> bool * pv) (l : list assignment) (v : pv) : pv :=
  fold_left (fun v a => match assign_at E procs a v with Some (_, v') => v' | None => v end) l v.
