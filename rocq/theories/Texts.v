(** The texts of the log warnings and of the ValueErrors of TagsRefValidator (validators/tags_ref_validator.py) and
    ExternalDocsRefValidator (validators/external_docs_ref_validator.py).  [Validators.v] keeps the contexts and the reference texts;
    here the sentences are put together. *)
From Verif Require Import PyStr Value Types Rules Pydantic ClassTable Classes Resolve Validators.

(** str.capitalize(), called at tags :251, :280, :291 and docs :494, :522, :534: the first character in upper case, all the
    others in lower case.  [low] stands for its result on strings with non-ASCII characters (Unicode tables are not modelled). *)
Definition to_lower (c : N) : N := if ascii_upper c then (c + 32)%N else c.
Definition to_upper (c : N) : N := if ascii_lower c then (c - 32)%N else c.
Definition capitalize (low : pystr -> pystr) (s : pystr) : pystr :=
  if forallb (fun c => N.ltb c 128) s then
    match s with [] => [] | c :: r => to_upper c :: map to_lower r end
  else low s.

(** tags :250-253 *)
Definition tag_warning low (w : pystr * pystr) : pystr :=
  capitalize low (fst w) ++ u " tag reference '" ++ snd w ++ u "' is external. Cannot validate external references.".
(** tags :278-282 and :290-293; None: an exception of Python itself, whose text is not modelled *)
Definition tag_error low (e : fault * pystr * pystr) : option pystr :=
  match e with
  | (Elsewhere, ctx, s) => Some (capitalize low ctx ++ u " tag reference '" ++ s ++ u "' must point to #/components/tags/ but points elsewhere.")
  | (Missing, ctx, k) => Some (capitalize low ctx ++ u " references tag '" ++ k ++ u "' but tag does not exist in components/tags.")
  | (Crash, _, _) => None
  end.
(** docs :491-496 *)
Definition docs_warning low (w : pystr * pystr) : pystr :=
  capitalize low (fst w) ++ u " external documentation reference '" ++ snd w ++ u "' is external. Cannot validate external references.".
(** docs :520-525 and :533-536 *)
Definition docs_error low (e : fault * pystr * pystr) : option pystr :=
  match e with
  | (Elsewhere, ctx, s) => Some (capitalize low ctx ++ u " external documentation reference '" ++ s
                                 ++ u "' must point to #/components/externalDocs/ but points elsewhere.")
  | (Missing, ctx, k) => Some (capitalize low ctx ++ u " references external documentation '" ++ k
                               ++ u "' but it does not exist in components/externalDocs.")
  | (Crash, _, _) => None
  end.
(** What a run says: the warnings in order; None if it returns, else the text of the exception (None: not modelled). *)
Definition says (warn : pystr * pystr -> pystr) (err : fault * pystr * pystr -> option pystr) (e : effect) : list pystr * option (option pystr) :=
  (map warn (fst e), option_map err (snd e)).
Definition tags_says low (doc : pv) := says (tag_warning low) (tag_error low) (tags_validator doc).
Definition docs_says low (doc : pv) := says (docs_warning low) (docs_error low) (docs_validator doc).
