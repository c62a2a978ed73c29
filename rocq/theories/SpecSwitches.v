(** Specification for C111: the bundled processors as switches of a load. *)
From Verif Require Import PyStr Value Types Rules.
Local Open Scope string_scope.

(** AsyncAPI3( **data, extra_converters=conv, extra_validators=vals) *)
Definition switched (data : fields) (conv vals : list pv) : pv :=
  VDict (data ++ [(u "extra_converters", VList conv); (u "extra_validators", VList vals)])%list.
(** The data itself says nothing about processors. *)
Definition silent (data : fields) : Prop := ~ In (u "extra_converters") (map fst data) /\ ~ In (u "extra_validators") (map fst data).
(** The class of that name is in one of the two lists, anywhere. *)
Definition on (n : string) (conv vals : list pv) : Prop := In (VProc (u n)) conv \/ In (VProc (u n)) vals.
(** The bundled classes that look at the document at all. *)
Definition working : list string := ["UnifiedReferencesValidator"; "TagsRefValidator"; "ExternalDocsRefValidator"].
