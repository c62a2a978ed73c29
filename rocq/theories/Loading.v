(** AsyncAPI3.model_validate(data) as its caller sees it, for documents that list bundled processors only: the log lines written and
    the document, or the errors of the ValidationError.  The ValueError of a processor, raised inside the mode="after" validator
    run_extra_processors (models/asyncapi.py:277-282), becomes the single error of the root. *)
From Verif Require Import PyStr Value Types Rules Pydantic ClassTable Classes Resolve Unified Validators Pipeline Messages Texts Errors.
Local Open Scope string_scope.

(** Calling a bundled processor: log lines; None if it returns, else the text of the exception (None: an exception of Python itself). *)
Definition bundled_says (low : pystr -> pystr) (E : env) (n : pystr) (doc : pv) : option (list pystr * option (option pystr)) :=
  if str_eqb n (u "UnifiedReferencesValidator") then Some (fst (unified_says E doc), option_map Some (snd (unified_says E doc)))
  else if str_eqb n (u "TagsRefValidator") then Some (tags_says low doc)
  else if str_eqb n (u "ExternalDocsRefValidator") then Some (docs_says low doc)
  else if existsb (fun s => str_eqb n (u s)) stubs then Some ([], None)
  else None.
(** models/asyncapi.py:284-296, both loops one after the other (bundled processors change nothing).  None: some processor that would be called is
    not bundled. *)
Fixpoint processors_say (low : pystr -> pystr) (E : env) (l : list pv) (doc : pv) : option (list pystr * option (option pystr)) :=
  match l with
  | [] => Some ([], None)
  | VProc n :: r =>
      match bundled_says low E n doc with
      | Some (log, None) => match processors_say low E r doc with Some (log', e) => Some (log ++ log', e)%list | None => None end
      | Some (log, Some e) => Some (log, Some e)
      | None => None
      end
  | _ :: _ => None
  end.
(** The exception is a ValidationError with these errors, or another exception. *)
Inductive loaded := Loaded (doc : pv) | Invalid (errors : list error) | Crashed.
Definition load_says (low : pystr -> pystr) (E : env) (v : pv) : option (list pystr * loaded) :=
  match parse E T_AsyncAPI3 v with
  | None => Some ([], Invalid (report E T_AsyncAPI3 v))
  | Some doc =>
      match processors doc "extra_converters", processors doc "extra_validators" with
      | Some l1, Some l2 =>
          match processors_say low E (l1 ++ l2) doc with
          | Some (log, None) => Some (log, Loaded doc)
          | Some (log, Some (Some m)) => Some (log, Invalid [([], Says m)])
          | Some (log, Some None) => Some (log, Crashed)
          | None => None
          end
      | _, _ => Some ([], Crashed)
      end
  end.
