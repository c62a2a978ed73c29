(** The texts of the ValueErrors and of the log warnings of reference checking:
    validators/utils.py and validators/unified_references_validator.py.
    The same control flow as [Resolve.resolve] and [Unified.unified], which keep only the kind of error;
    here an error is its message (str(exc)) and the warnings written by logger.warning are collected in order.
    logger.debug lines are not modelled. *)
From Verif Require Import PyStr Value Types Rules Pydantic ClassTable Classes Resolve Unified.

(** Outcome of a call that may raise ValueError(message). *)
Inductive outcome (X : Type) := Raises (message : pystr) | Returns (x : X).
Arguments Raises {X} message.
Arguments Returns {X} x.

(** utils.py:130-156 _resolve_path_part with _resolve_from_root (:164-173), _resolve_from_model (:176-188),
    _resolve_from_dict (:201-210).  [ref] is only needed for the AttributeError of getattr (:183), which
    resolve_reference turns into a ValueError (:60-63); BaseModel.__getattr__ words it
    "'C' object has no attribute 'f'". *)
Definition step_text_of (ref : pystr) (v : pv) (part full : pystr) : outcome pv :=
  let from_dict d := match assoc part d with
                     | Some x => Returns x
                     | None => Raises (u "Reference key '" ++ part ++ u "' not found in " ++ full) (* :170-171, :207-208 *)
                     end in
  match root_mapping v with
  | Some d => from_dict d
  | None =>
      match v with
      | VObj c fv _ =>
          match find_field_name part (class_infos c) with
          | None => Raises (u "Field '" ++ part ++ u "' not found in model at " ++ full) (* :184 *)
          | Some name =>
              match assoc name fv with
              | None => Raises (u "Failed to resolve reference '" ++ ref ++ u "': '" ++ u c ++ u "' object has no attribute '" ++ name ++ u "'") (* :63 *)
              | Some VNone => Raises (u "Reference path '" ++ full ++ u "' is None") (* :187 *)
              | Some x => Returns x
              end
          end
      | VDict d => from_dict d
      | _ => Raises (u "Cannot navigate to '" ++ part ++ u "' in " ++ full ++ u " (not a model or dict)") (* :154-156 *)
      end
  end.
(** utils.py:108-127 _resolve_path_parts *)
Fixpoint steps_text_of (ref : pystr) (v : pv) (path : pystr) (parts : list pystr) : outcome (pv * pystr) :=
  match parts with
  | [] => Returns (v, path)
  | [] :: r => steps_text_of ref v path r
  | p :: r =>
      match step_text_of ref v p (path ++ u "." ++ p) with
      | Raises m => Raises m
      | Returns v' => steps_text_of ref v' (path ++ u "." ++ p) r
      end
  end.
(** The warning of utils.py:52 *)
Definition external_warning (ref : pystr) : pystr := u "External reference '" ++ ref ++ u "' cannot be validated locally".
(** utils.py:29-77 resolve_reference: the warnings, and the error or the result ([Returns None]: external). *)
Fixpoint resolve_says_fuel (fuel : nat) (doc : pv) (visited : list pystr) (ref : pystr)
  : option (list pystr * outcome (option (pv * pystr))) :=
  match fuel with
  | O => None
  | S n =>
      if mem_str ref visited then Some ([], Raises (u "Circular reference detected: " ++ ref))         (* :88 *)
      else if is_external ref then Some ([external_warning ref], Returns None)                         (* :51-53 *)
      else match parse_ref ref with
        | inl EPath => Some ([], Raises (u "Invalid reference path: " ++ ref))                         (* :104 *)
        | inl _ => Some ([], Raises (u "Unsupported reference format: " ++ ref))                       (* :101 *)
        | inr parts =>
            match steps_text_of ref doc (u "spec") parts with
            | Raises m => Some ([], Raises m)
            | Returns (v, path) =>
                match as_reference v with
                | Some next => resolve_says_fuel n doc (ref :: visited) next
                | None => Some ([], Returns (Some (v, path)))
                end
            end
        end
  end.
Definition resolve_says (doc : pv) (ref : pystr) : list pystr * outcome (option (pv * pystr)) :=
  match resolve_says_fuel (2 + List.length (reference_strings doc)) doc [] ref with
  | Some r => r
  | None => ([], Raises [])
  end.

(** unified_references_validator.py:545-556 _format_type_name: a union is its members joined by " | ". *)
Definition type_text (tys : list string) : pystr := join (u " | ") (map u tys).
(** :250-296 validate_reference: warnings and error text *)
Definition reference_says (E : env) (doc : pv) (path ref : pystr) : list pystr * option pystr :=
  match resolve_says doc ref with
  | (w, Raises m) => (w, Some (u "Invalid reference at " ++ path ++ u ": " ++ m))                       (* :276 *)
  | (w, Returns None) => (w, None)
  | (w, Returns (Some (o, at_path))) =>
      (w, match expected E path with
          | None => Some (u "Unknown reference type for path: " ++ normalize E path ++ u ", you should extend `REFERENCE_TYPE_MAPPINGS`") (* :387-390 *)
          | Some tys => if compatible (type_name o) tys then None
                        else Some (u "Reference at " ++ path ++ u " resolved to " ++ at_path ++ u " with type "
                                   ++ u (type_name o) ++ u ", expected " ++ type_text tys)              (* :291-294 *)
          end)
  end.
(** a ; b, where an error of a ends it *)
Definition then_ (a b : list pystr * option pystr) : list pystr * option pystr :=
  match snd a with Some m => a | None => (fst a ++ fst b, snd b) end.
(** :180-248 validate_references_recursive, as [Unified.check] *)
Fixpoint check_says (E : env) (doc v : pv) (path : pystr) {struct v} : list pystr * option pystr :=
  let entries := fix go (path : pystr) (d : list (pystr * pv)) : list pystr * option pystr :=
    match d with
    | [] => ([], None)
    | (k, x) :: r => then_ (check_says E doc x (path ++ u "." ++ escape k)) (go path r)
    end in
  match as_reference v with
  | Some s => reference_says E doc path s
  | None =>
      match v with
      | VList l =>
          (fix go (i : nat) (l : list pv) : list pystr * option pystr :=
             match l with
             | [] => ([], None)
             | x :: r => then_ (check_says E doc x (path ++ u "[" ++ str_of_nat i ++ u "]")) (go (S i) r)
             end) 0 l
      | VDict d => entries path d
      | VRoot _ d => entries (path ++ u ".root") d
      | VObj c fv _ =>
          (fix go (fv : list (pystr * pv)) : list pystr * option pystr :=
             match fv with
             | [] => ([], None)
             | (f, x) :: r => then_ (if is_none x || excluded c f then ([], None) else check_says E doc x (path ++ u "." ++ f)) (go r)
             end) fv
      | _ => ([], None)
      end
  end.
(** :145-178 __call__: the warnings written, and the text of the ValueError raised, if any. *)
Definition unified_says (E : env) (doc : pv) : list pystr * option pystr := check_says E doc doc (u "spec").
