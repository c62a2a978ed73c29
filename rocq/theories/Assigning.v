(** obj.name = v as its caller sees it (validate_assignment=True, base_models.py:26-33, 64-71, 83-89): the same control flow as
    [State.assign], with the errors of the ValidationError.  Trusted reading of pydantic (DESIGN.md section 3): an error of the value is
    located under the attribute's name; an attribute a closed class does not declare is one error under that name ("no_such_attribute"); the ValueError of a
    mode="after" validator is one error without location; assigning the root of a patterned map has no outer location.
    Simplification: the processors of a document do not write to it ([say], as Loading.processors_say: the log lines; None when they return, else the text of the
    exception of the first that raises; None for an exception of Python itself).  The result is the log and the answer. *)
From Verif Require Import PyStr Regex Value Types Rules Pydantic ClassTable Classes Linked State Errors.

Inductive answer := Returned | Refused (errors : list error) | Broke.
Section Assign.
  Context (E : env) (say : pv -> list pystr * option (option pystr)).
  (** State.store_in *)
  Definition store_says (fs : list (finfo * ty)) (k : kind) (c : string) (fv ex : fields) (name : pystr) (v : pv) : list pystr * answer :=
    let new := dict_set name v (dict_update fv ex) in
    let fv' := map (fun ft => (f_name (fst ft), attr (f_name (fst ft)) new)) fs in
    let ex' := filter (fun kv => negb (mem_str (fst kv) (map (fun ft => f_name (fst ft)) fs))) new in
    match after_says E c k fv' ex' with
    | Some m => ([], Refused [([], Says m)])
    | None =>
        if String.eqb c "AsyncAPI3"
        then match say (VObj c fv' ex') with
             | (log, None) => (log, Returned)
             | (log, Some (Some m)) => (log, Refused [([], Says m)])
             | (log, Some None) => (log, Broke)
             end
        else ([], Returned)
    end.
  (** State.assign *)
  Definition assign_says (o : pv) (name : pystr) (v : pv) : list pystr * answer :=
    match o with
    | VObj c fv ex =>
        match find_field name (class_fields c) with
        | Some (fi, t) =>
            match validate E t v with
            | None => ([], Refused (under (AtKey name) (report E t v)))
            | Some (v', _) =>
                match field_says E (f_name fi) (f_val fi) v' with
                | Some why => ([], Refused [([AtKey name], why)])
                | None => store_says (class_fields c) (class_kind c) c fv ex name v'
                end
            end
        | None =>
            match class_kind c with
            | KForbid => ([], Refused [([AtKey name], WrongInput)])
            | _ => store_says (class_fields c) (class_kind c) c fv ex name v
            end
        end
    | VRoot c _ =>
        if str_eqb name (u "root") then
          match find_root c all_types, v with
          | Some t, VDict d0 =>
              match vdict (validate E) t d0 with
              | Some (d', _) => match keys_say d' with Some m => ([], Refused [([], Says m)]) | None => ([], Returned) end
              | None => ([], Refused (rdict (report E) t d0))
              end
          | _, _ => ([], Refused [([], WrongInput)])
          end
        else ([], Refused [([AtKey name], WrongInput)])
    | _ => ([], Broke)                   (* AttributeError: plain data has no assignable attributes *)
    end.
End Assign.
