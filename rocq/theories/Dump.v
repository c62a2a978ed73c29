(** Serialisation: model_dump(mode="json") / model_dump_json() of the models.
    Trusted reading of pydantic: declared fields in class order under their alias
    (serialize_by_alias=True, models/base_models.py:26-33, 64-71, 83-89), without those declared with
    exclude=True and without those with exclude_if=is_null (models/helpers.py:13-18) that hold None;
    then the extra data; URLs as strings; a patterned map as its root dict. *)
From Verif Require Import PyStr Value Types Rules Pydantic ClassTable Classes.

Definition find_info (k : pystr) (infos : list finfo) : option finfo := find (fun fi => str_eqb (f_name fi) k) infos.
(** The key a field is written under, if it is written. *)
Definition out_key (infos : list finfo) (k : pystr) (x : pv) : option pystr :=
  match find_info k infos with
  | Some fi => if f_excl fi || (f_exnull fi && is_none x) then None else Some (f_alias fi)
  | None => None
  end.
(** Writing the same key twice keeps the last value (a dict; a JSON reader does the same). *)
Fixpoint dump (v : pv) {struct v} : pv :=
  match v with
  | VUrl s => VStr s
  | VList l => VList (map dump l)
  | VDict d => VDict (map (fun kv => match kv with (k, x) => (k, dump x) end) d)
  | VRoot _ d => VDict (map (fun kv => match kv with (k, x) => (k, dump x) end) d)
  | VObj c fv ex =>
      VDict (dict_update
        ((fix go (fv : fields) : fields :=
           match fv with
           | [] => []
           | (k, x) :: r => match out_key (class_infos c) k x with Some a => (a, dump x) :: go r | None => go r end
           end) fv)
        (map (fun kv => match kv with (k, x) => (k, dump x) end) ex))
  | _ => v
  end.
