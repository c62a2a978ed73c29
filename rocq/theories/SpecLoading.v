(** Specification of what the caller of AsyncAPI3.model_validate sees, from the specifications of the single validators. *)
From Verif Require Import PyStr Value Types Rules Pydantic ClassTable Classes SpecParse SpecState Resolve SpecResolve Unified SpecUnified
  Validators Pipeline SpecPipeline SpecMessages SpecValidators SpecPlaces.
Local Open Scope string_scope.

(** What a bundled validator writes to the log, and its objection. *)
Inductive speaks_out (low : pystr -> pystr) (E : env) (doc : pv) : pystr -> list pystr -> option pystr -> Prop :=
| so_references n l log : n = u "UnifiedReferencesValidator" -> lists_references doc l -> Forall (fine E doc) l -> warned doc l log ->
    speaks_out low E doc n log None
| so_bad_reference n l a pos p s b log m : n = u "UnifiedReferencesValidator" -> lists_references doc l ->
    l = (a ++ (pos, (p, s)) :: b)%list -> Forall (fine E doc) a -> warned doc a log -> complaint E doc p s m -> speaks_out low E doc n log (Some m)
| so_tags n log e : n = u "TagsRefValidator" -> report tag_texts low doc tag_prefix "tags" (agenda tag_places doc) log e -> speaks_out low E doc n log e
| so_docs n log e : n = u "ExternalDocsRefValidator" -> report docs_texts low doc docs_prefix "external_docs" (agenda docs_places doc) log e ->
    speaks_out low E doc n log e
| so_stub n s : In s stubs -> n = u s -> speaks_out low E doc n [] None.
(** The listed validators, one after the other, up to the first objection. *)
Inductive proceeds (low : pystr -> pystr) (E : env) (doc : pv) : list pv -> list pystr -> option pystr -> Prop :=
| pr_end : proceeds low E doc [] [] None
| pr_next n l log log' e : speaks_out low E doc n log None -> proceeds low E doc l log' e -> proceeds low E doc (VProc n :: l) (log ++ log')%list e
| pr_stop n l log m : speaks_out low E doc n log (Some m) -> proceeds low E doc (VProc n :: l) log (Some m).
