(** Validation and attribute assignment with object identity.  [Pydantic.v] and [State.v] treat values as trees; here the
    mutable ones (lists, dicts, model instances) live at addresses of a memory, so that sharing, aliasing and in-place
    modification can be expressed.  Same sources as Pydantic.v / State.v: base_models.py:26-33, 64-71, 83-89
    (revalidate_instances="always", validate_assignment=True) and pydantic's reading of them: containers and instances are
    rebuilt by validation, values of type Any are passed on as they are. *)
From Verif Require Import PyStr Regex Value Types Rules Pydantic ClassTable Classes Linked State.

(** [HA]: an immutable value.  [HL]: a mutable object, by its address (id(obj)). *)
Inductive hv := HA (v : pv) | HL (l : nat).
Definition hfields := list (pystr * hv).
(** A patterned map is an instance whose attribute root is a dict of its own. *)
Inductive cell :=
| CList (l : list hv)
| CDict (d : hfields)
| CObj (c : string) (fs ex : hfields)
| CRoot (c : string) (root : nat).
Definition mem := list cell.
Definition look (M : mem) (l : nat) : option cell := nth_error M l.
Definition alloc (c : cell) (M : mem) : mem * hv := (M ++ [c], HL (length M)).

(** d[k] = v and d.update(e), as in Pydantic.v, for any kind of values *)
Section Dicts.
  Context {A : Type}.
  Fixpoint pset (k : pystr) (v : A) (d : list (pystr * A)) : list (pystr * A) :=
    match d with
    | [] => [(k, v)]
    | (k', v') :: d' => if str_eqb k k' then (k', v) :: d' else (k', v') :: pset k v d'
    end.
  Definition pupdate (d e : list (pystr * A)) : list (pystr * A) :=
    fold_left (fun acc kv => pset (fst kv) (snd kv) acc) e d.
  (** alias first, then name *)
  Definition plookup (fi : finfo) (kvs : list (pystr * A)) : option A :=
    match assoc (f_alias fi) kvs with Some v => Some v | None => assoc (f_name fi) kvs end.
  Definition pused (kvs : list (pystr * A)) (fi : finfo) : pystr :=
    if has_key (f_alias fi) kvs then f_alias fi else f_name fi.
  Definition pextras {T} (fs : list (finfo * T)) (kvs : list (pystr * A)) : list (pystr * A) :=
    filter (fun kv => negb (mem_str (fst kv) (map (fun ft => pused kvs (fst ft)) fs))) kvs.
  (** the keys only (all the extra-key rule looks at) *)
  Definition keys_only (kvs : list (pystr * A)) : fields := map (fun kv => (fst kv, VNone)) kvs.
End Dicts.

(** What the rules of Rules.v look at: an immutable value itself; of an instance its class and its fields, one level deep;
    of other mutable objects only that they are there.  (The rules test for None and compare strings, of the fields and,
    for OAuthFlows, of the fields of the flows: security.py:157-183.) *)
Definition peek0 (h : hv) : pv := match h with HA v => v | HL _ => VOpaque [] end.
Definition peek (M : mem) (h : hv) : pv :=
  match h with
  | HA v => v
  | HL l => match look M l with
            | Some (CObj c fs _) => VObj c (map (fun kv => (fst kv, peek0 (snd kv))) fs) []
            | _ => VOpaque []
            end
  end.
Definition peeks (M : mem) (fs : hfields) : fields := map (fun kv => (fst kv, peek M (snd kv))) fs.

(** Smart union, as [best_of] *)
Definition better (a b : option (hv * nat)) : option (hv * nat) :=
  match a, b with
  | None, _ => b
  | Some _, None => a
  | Some (_, n), Some (_, n') => if Nat.ltb n n' then b else a
  end.

Section Generic.
  Context (E : env) (val : ty -> hv -> mem -> mem * option (hv * nat)).
  Definition hlist (t : ty) : list hv -> mem -> mem * option (list hv * nat) :=
    fix go l M := match l with
      | [] => (M, Some ([], 0))
      | x :: r =>
        let (M1, a) := val t x M in
        match a with
        | None => (M1, None)
        | Some (x', n) => let (M2, b) := go r M1 in
            match b with None => (M2, None) | Some (r', m) => (M2, Some (x' :: r', n + m)) end
        end
      end.
  Definition hdict (t : ty) : hfields -> mem -> mem * option (hfields * nat) :=
    fix go d M := match d with
      | [] => (M, Some ([], 0))
      | (k, x) :: r =>
        let (M1, a) := val t x M in
        match a with
        | None => (M1, None)
        | Some (x', n) => let (M2, b) := go r M1 in
            match b with None => (M2, None) | Some (r', m) => (M2, Some ((k, x') :: r', n + m)) end
        end
      end.
  Definition hfield (kvs : hfields) : list (finfo * ty) -> mem -> mem * option (hfields * nat) :=
    fix go fs M := match fs with
      | [] => (M, Some ([], 0))
      | (fi, t) :: r =>
        match plookup fi kvs with
        | Some x =>
          let (M1, a) := val t x M in
          match a with
          | None => (M1, None)
          | Some (x', n) =>
            if fv_check E (f_val fi) (peek M1 x') then
              let (M2, b) := go r M1 in
              match b with None => (M2, None) | Some (r', m) => (M2, Some ((f_name fi, x') :: r', S (n + m))) end
            else (M1, None)
          end
        | None =>
          match f_def fi with
          | None => (M, None)
          | Some d => let (M2, b) := go r M in
              match b with None => (M2, None) | Some (r', m) => (M2, Some ((f_name fi, HA d) :: r', m)) end
          end
        end
      end.
  (** a new instance *)
  Definition hmodel (c : string) (k : kind) (fs : list (finfo * ty)) (kvs : hfields) (M : mem) : mem * option (hv * nat) :=
    let (M1, a) := hfield kvs fs M in
    match a with
    | None => (M1, None)
    | Some (fvals, n) =>
      let ex := pextras fs kvs in
      if after_ok E c k (peeks M1 fvals) (keys_only ex)
      then let (M2, h) := alloc (CObj c fvals ex) M1 in (M2, Some (h, n))
      else (M1, None)
    end.
  (** a new patterned map with a new dict *)
  Definition hroot (c : string) (t : ty) (d : hfields) (M : mem) : mem * option (hv * nat) :=
    let (M1, a) := hdict t d M in
    match a with
    | None => (M1, None)
    | Some (d', n) =>
      if root_keys_ok (keys_only d')
      then let M2 := M1 ++ [CDict d'] in let (M3, h) := alloc (CRoot c (length M1)) M2 in (M3, Some (h, n))
      else (M1, None)
    end.
  Definition hunion (h : hv) : list ty -> mem -> mem * option (hv * nat) :=
    fix go ts M := match ts with
      | [] => (M, None)
      | t :: r => let (M1, a) := val t h M in let (M2, b) := go r M1 in (M2, better a b)
      end.
End Generic.

Definition is_hproc (h : hv) : bool := match h with HA v => is_proc v | HL _ => false end.
(** Validation of the value [h] against [t] in memory [M]: the memory afterwards and the result ([None]: ValidationError). *)
Fixpoint hvalidate (E : env) (t : ty) (h : hv) (M : mem) {struct t} : mem * option (hv * nat) :=
  match t with
  | TAny => (M, Some (h, 0))
  | TList t' =>
      match h with
      | HL l => match look M l with
          | Some (CList xs) =>
              let (M1, a) := hlist (hvalidate E) t' xs M in
              match a with
              | Some (xs', n) => let (M2, h') := alloc (CList xs') M1 in (M2, Some (h', n))
              | None => (M1, None) end
          | _ => (M, None) end
      | HA _ => (M, None) end
  | TDict t' =>
      match h with
      | HL l => match look M l with
          | Some (CDict d) =>
              let (M1, a) := hdict (hvalidate E) t' d M in
              match a with
              | Some (d', n) => let (M2, h') := alloc (CDict d') M1 in (M2, Some (h', n))
              | None => (M1, None) end
          | _ => (M, None) end
      | HA _ => (M, None) end
  | TOpt t' => match h with HA VNone => (M, Some (HA VNone, 0)) | _ => hvalidate E t' h M end
  | TUnion ts => hunion (hvalidate E) h ts M
  | TProcs =>
      match h with
      | HL l => match look M l with
          | Some (CList xs) => if forallb is_hproc xs then let (M1, h') := alloc (CList xs) M in (M1, Some (h', 0)) else (M, None)
          | _ => (M, None) end
      | HA _ => (M, None) end
  | TModel c k fs =>
      match h with
      | HL l => match look M l with
          | Some (CDict kvs) => hmodel E (hvalidate E) c k fs kvs M
          | Some (CObj c' fv ex) => if String.eqb c c' then hmodel E (hvalidate E) c k fs (pupdate fv ex) M else (M, None)
          | _ => (M, None) end
      | HA _ => (M, None) end
  | TRoot c t' =>
      match h with
      | HL l => match look M l with
          | Some (CDict d) => hroot (hvalidate E) c t' d M
          | Some (CRoot c' r) =>
              if String.eqb c c' then match look M r with Some (CDict d) => hroot (hvalidate E) c t' d M | _ => (M, None) end
              else (M, None)
          | _ => (M, None) end
      | HA _ => (M, None) end
  | _ =>                                  (* strings, numbers, literals, URLs: immutable *)
      match h with
      | HA v => (M, match validate E t v with Some (v', n) => Some (HA v', n) | None => None end)
      | HL _ => (M, None)
      end
  end.

(** ** Attribute assignment in place (State.v [assign]).  The instance at the address keeps its identity: its field and
    extra dictionaries are replaced, then the mode="after" validators run.  Simplification: processors are functions of the document
    that do not write to it ([verdict]); processors that do are in Pipeline.v. *)
Definition write (M : mem) (l : nat) (c : cell) : mem := firstn l M ++ c :: skipn (S l) M.
Definition hattr (f : pystr) (fs : hfields) : hv := match assoc f fs with Some v => v | None => HA VNone end.
Section Assign.
  Context (E : env) (verdict : mem -> nat -> bool).
  Definition hstore (M : mem) (l : nat) (c : string) (fv ex : hfields) (name : pystr) (h : hv) : mem * bool :=
    let fs := class_fields c in
    let new := pset name h (pupdate fv ex) in
    let fv' := map (fun ft => (f_name (fst ft), hattr (f_name (fst ft)) new)) fs in
    let ex' := filter (fun kv => negb (mem_str (fst kv) (map (fun ft => f_name (fst ft)) fs))) new in
    let M' := write M l (CObj c fv' ex') in
    (M', after_ok E c (class_kind c) (peeks M' fv') (keys_only ex') && (if String.eqb c "AsyncAPI3" then verdict M' l else true)).
  (** obj.name = h for the object at address [l] *)
  Definition hassign (M : mem) (l : nat) (name : pystr) (h : hv) : mem * bool :=
    match look M l with
    | Some (CObj c fv ex) =>
        match find_field name (class_fields c) with
        | Some (fi, t) =>
            let (M1, a) := hvalidate E t h M in
            match a with
            | Some (h', _) => if fv_check E (f_val fi) (peek M1 h') then hstore M1 l c fv ex name h' else (M1, false)
            | None => (M1, false)
            end
        | None => match class_kind c with KForbid => (M, false) | _ => hstore M l c fv ex name h end
        end
    | Some (CRoot c r) =>
        if str_eqb name (u "root") then
          match find_root c all_types, h with
          | Some t, HL l0 =>
              match look M l0 with
              | Some (CDict d0) =>
                  let (M1, a) := hdict (hvalidate E) t d0 M in
                  match a with
                  | Some (d', _) => (write (M1 ++ [CDict d']) l (CRoot c (length M1)), root_keys_ok (keys_only d'))
                  | None => (M1, false)
                  end
              | _ => (M, false)
              end
          | _, _ => (M, false)
          end
        else (M, false)
    | _ => (M, false)
    end.
End Assign.
(** obj[k] = v on a patterned map (base_models.py:96-97): stores into its dict as it is. *)
Definition hsetitem (M : mem) (l : nat) (k : pystr) (h : hv) : option mem :=
  match look M l with
  | Some (CRoot _ r) => match look M r with Some (CDict d) => Some (write M r (CDict (pset k h d))) | _ => None end
  | _ => None
  end.
