(** Vocabulary for processors that modify the document (C72). *)
From Verif Require Import PyStr Value Types Rules Pydantic ClassTable Classes State Resolve Unified Validators Pipeline Reentry.
Local Open Scope string_scope.

(** The processor a document runs first. *)
Definition runs_first (d p : pv) : Prop :=
  exists l, processors d "extra_converters" = Some (p :: l)
    \/ (processors d "extra_converters" = Some [] /\ processors d "extra_validators" = Some (p :: l)).
(** Before it ends, the program assigns an attribute of the document, successfully as far as the value is concerned,
    leaving a document in [P]. *)
Inductive assigns (E : env) (P : pv -> Prop) : prog -> pv -> Prop :=
| as_now n v k d d1 : assign E plain d n v = (true, d1) -> P d1 -> assigns E P (Do (SetAttr [] n v) k) d
| as_look k d : assigns E P (k d) d -> assigns E P (Look k) d
| as_inside a k d b d1 : on_document a = false -> inside E a d = (b, d1) -> assigns E P (k b) d1 -> assigns E P (Do a k) d
| as_refused n v k d d1 : assign E plain d n v = (false, d1) -> assigns E P (k false) d1 -> assigns E P (Do (SetAttr [] n v) k) d.
(** The program never assigns an attribute of the document itself (only attributes of objects inside it, and items). *)
Inductive inner_only : prog -> Prop :=
| io_return : inner_only Return
| io_raise : inner_only Raise
| io_look k : (forall d, inner_only (k d)) -> inner_only (Look k)
| io_do a k : on_document a = false -> (forall b, inner_only (k b)) -> inner_only (Do a k).
(** Running such a program. *)
Fixpoint play (E : env) (p : prog) (d : pv) : bool * pv :=
  match p with
  | Return => (true, d)
  | Raise => (false, d)
  | Look k => play E (k d) d
  | Do a k => let (b, d1) := inside E a d in play E (k b) d1
  end.
(** The processors as the sequential pipeline (C39) sees them. *)
Definition acts_of (E : env) (progs : pv -> prog) (p : pv) (st : pv * list pv) (ok : bool) (st' : pv * list pv) : Prop :=
  play E (progs p) (fst st) = (ok, fst st') /\ snd st' = snd st.
(** Every assignment to the document makes [m] smaller, nothing makes it larger, and the documents stay in [P]. *)
Inductive descends (E : env) (P : pv -> Prop) (m : pv -> nat) : prog -> pv -> Prop :=
| de_return d : descends E P m Return d
| de_raise d : descends E P m Raise d
| de_look k d : descends E P m (k d) d -> descends E P m (Look k) d
| de_inside a k d b d1 : on_document a = false -> inside E a d = (b, d1) -> m d1 <= m d -> P d1 -> descends E P m (k b) d1 -> descends E P m (Do a k) d
| de_refused n v k d d1 : assign E plain d n v = (false, d1) -> m d1 <= m d -> P d1 -> descends E P m (k false) d1 -> descends E P m (Do (SetAttr [] n v) k) d
| de_stored n v k d d1 : assign E plain d n v = (true, d1) -> m d1 < m d -> P d1 -> (forall b d2, P d2 -> m d2 <= m d1 -> descends E P m (k b) d2) ->
    descends E P m (Do (SetAttr [] n v) k) d.
(** The program never assigns the attribute [f] of the document. *)
Inductive leaves (f : string) : prog -> Prop :=
| lv_return : leaves f Return
| lv_raise : leaves f Raise
| lv_look k : (forall d, leaves f (k d)) -> leaves f (Look k)
| lv_do a k : (forall n v, a = SetAttr [] n v -> n <> u f) -> (forall b, leaves f (k b)) -> leaves f (Do a k).
(** The bundled processors as programs: they look at the document and return or raise (Pipeline.bundled). *)
Definition standard_progs (E : env) (progs : pv -> prog) : Prop :=
  forall n, (forall doc, bundled E n doc <> None) ->
    progs (VProc n) = Look (fun d => match bundled E n d with Some true => Return | _ => Raise end).
