(** The part of pydantic v2 the library relies on.  Trusted reading of pydantic (see
    DESIGN.md section 3); the repository only declares classes and calls this machinery. *)
From Verif Require Import PyStr Regex Value Types Rules.

(** d[k] = v on an insertion-ordered dict *)
Fixpoint dict_set (k : pystr) (v : pv) (d : fields) : fields :=
  match d with
  | [] => [(k, v)]
  | (k', v') :: d' => if str_eqb k k' then (k', v) :: d' else (k', v') :: dict_set k v d'
  end.
(** d.update(e) *)
Definition dict_update (d e : fields) : fields :=
  fold_left (fun acc kv => dict_set (fst kv) (snd kv) acc) e d.

(** Field lookup with validate_by_alias and validate_by_name: alias first, then name. *)
Definition lookup_field (fi : finfo) (kvs : fields) : option pv :=
  match assoc (f_alias fi) kvs with
  | Some v => Some v
  | None => assoc (f_name fi) kvs
  end.
(** The key a field consumes. *)
Definition used_key (kvs : fields) (fi : finfo) : pystr :=
  if has_key (f_alias fi) kvs then f_alias fi else f_name fi.
Definition extras {T} (fs : list (finfo * T)) (kvs : fields) : fields :=
  filter (fun kv => negb (mem_str (fst kv) (map (fun ft => used_key kvs (fst ft)) fs))) kvs.

(** Extra-data policy of a class plus its own mode="after" validators. *)
Definition extras_ok (E : env) (k : kind) (ex : fields) : bool :=
  match k with
  | KExt => forallb (fun kv => ext_key_ok E (fst kv)) ex       (* base_models.py:35-54 *)
  | KForbid => match ex with [] => true | _ => false end       (* extra="forbid" *)
  | KFree => true
  end.
Definition after_ok (E : env) (c : string) (k : kind) (fs ex : fields) : bool :=
  extras_ok E k ex && hook c fs.
(** base_models.py:108-121 validate_patterned_keys *)
Definition root_keys_ok (d : fields) : bool := forallb (fun kv => patterned_key_ok (fst kv)) d.

(** Smart union: the first accepting member with the largest number of set fields. *)
Fixpoint best_of (l : list (option (pv * nat))) : option (pv * nat) :=
  match l with
  | [] => None
  | None :: r => best_of r
  | Some (v, n) :: r =>
      match best_of r with
      | Some (v', n') => if Nat.ltb n n' then Some (v', n') else Some (v, n)
      | None => Some (v, n)
      end
  end.

Section Generic.
  Context (E : env) (val : ty -> pv -> option (pv * nat)).
  (** list[T] *)
  Definition vlist (t : ty) : list pv -> option (list pv * nat) :=
    fix go l := match l with
      | [] => Some ([], 0)
      | x :: r => match val t x with
        | None => None
        | Some (x', n) => match go r with None => None | Some (r', m) => Some (x' :: r', n + m) end
        end
      end.
  (** dict[str, T] *)
  Definition vdict (t : ty) : fields -> option (fields * nat) :=
    fix go d := match d with
      | [] => Some ([], 0)
      | (k, x) :: r => match val t x with
        | None => None
        | Some (x', n) => match go r with None => None | Some (r', m) => Some ((k, x') :: r', n + m) end
        end
      end.
  (** the declared fields of a model, from a mapping *)
  Definition vfields (kvs : fields) : list (finfo * ty) -> option (fields * nat) :=
    fix go fs := match fs with
      | [] => Some ([], 0)
      | (fi, t) :: r =>
        match lookup_field fi kvs with
        | Some x =>
          match val t x with
          | None => None
          | Some (x', n) =>
            if fv_check E (f_val fi) x' then
              match go r with
              | None => None
              | Some (r', m) => Some ((f_name fi, x') :: r', S (n + m))
              end
            else None
          end
        | None =>
          match f_def fi with
          | None => None                      (* required field missing *)
          | Some d => match go r with None => None | Some (r', m) => Some ((f_name fi, d) :: r', m) end
          end
        end
      end.
  Definition vmodel (c : string) (k : kind) (fs : list (finfo * ty)) (kvs : fields) : option (pv * nat) :=
    match vfields kvs fs with
    | None => None
    | Some (fvals, n) =>
      let ex := extras fs kvs in
      if after_ok E c k fvals ex then Some (VObj c fvals ex, n) else None
    end.
End Generic.

Definition len_ok (m : option N) (s : pystr) : bool :=
  match m with None => true | Some n => N.leb (N.of_nat (List.length s)) n end.
Definition is_proc (v : pv) : bool := match v with VProc _ => true | _ => false end.
Definition mem_Z (z : Z) (l : list Z) : bool := existsb (Z.eqb z) l.

(** T.model_validate / nested validation of a value against an annotation: the validated
    value and the number of fields set (used by smart unions only).  [None]: ValidationError. *)
Fixpoint validate (E : env) (t : ty) (v : pv) {struct t} : option (pv * nat) :=
  match t with
  | TAny => Some (v, 0)
  | TStr m => match v with VStr s => if len_ok m s then Some (VStr s, 0) else None | _ => None end
  | TEmail => match v with VStr s => if email_ok s then Some (VStr s, 0) else None | _ => None end
  | TInt => match v with
            | VInt z => Some (VInt z, 0)
            | VBool _ | VStr _ | VFloat _ =>
                match e_int E v with Some z => Some (VInt z, 0) | None => None end
            | _ => None end
  | TBool => match v with
             | VBool b => Some (VBool b, 0)
             | VInt _ | VStr _ | VFloat _ =>
                 match e_bool E v with Some b => Some (VBool b, 0) | None => None end
             | _ => None end
  | TUrl h => match v with
              | VStr s | VUrl s => match e_url E h s with Some s' => Some (VUrl s', 0) | None => None end
              | _ => None end
  | TLitS l => match v with VStr s => if mem_str s l then Some (VStr s, 0) else None | _ => None end
  | TLitI l => match v with VInt z => if mem_Z z l then Some (VInt z, 0) else None | _ => None end
  | TList t' => match v with
                | VList l => match vlist (validate E) t' l with Some (l', n) => Some (VList l', n) | None => None end
                | _ => None end
  | TDict t' => match v with
                | VDict d => match vdict (validate E) t' d with Some (d', n) => Some (VDict d', n) | None => None end
                | _ => None end
  | TOpt t' => match v with VNone => Some (VNone, 0) | _ => validate E t' v end
  | TUnion ts => best_of (map (fun t' => validate E t' v) ts)
  | TProcs => match v with VList l => if forallb is_proc l then Some (VList l, 0) else None | _ => None end
  | TModel c k fs =>
      match v with
      | VDict kvs => vmodel E (validate E) c k fs kvs
      | VObj c' fv ex =>             (* revalidate_instances="always" *)
          if String.eqb c c' then vmodel E (validate E) c k fs (dict_update fv ex) else None
      | _ => None
      end
  | TRoot c t' =>
      match v with
      | VDict d =>
          match vdict (validate E) t' d with
          | Some (d', n) => if root_keys_ok d' then Some (VRoot c d', n) else None
          | None => None end
      | VRoot c' d =>
          if String.eqb c c' then
            match vdict (validate E) t' d with
            | Some (d', n) => if root_keys_ok d' then Some (VRoot c d', n) else None
            | None => None end
          else None
      | _ => None
      end
  end.

(** Result of validation without the union bookkeeping. *)
Definition parse (E : env) (t : ty) (v : pv) : option pv := option_map fst (validate E t v).
