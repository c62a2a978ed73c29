(** Specification for C110: merging the data of two documents (two files) into one. *)
From Verif Require Import PyStr Value Types Rules Pydantic ClassTable Classes SpecParse SpecState.
Local Open Scope string_scope.

Definition same_data (x y z : pv) : Prop := x = y /\ z = x.
(** Two dictionaries merged key by key; [R k] says what becomes of a key both have.  A null counts as nothing. *)
Definition joined (R : pystr -> pv -> pv -> pv -> Prop) (x y z : pv) : Prop :=
  (x = VNone /\ z = y) \/ (y = VNone /\ z = x) \/
  exists d e d', x = VDict d /\ y = VDict e
    /\ Forall2 (fun a b => fst b = fst a /\ match assoc (fst a) e with Some v => R (fst a) (snd a) v (snd b) | None => snd b = snd a end) d d'
    /\ z = VDict (d' ++ filter (fun kv => negb (mem_str (fst kv) (map fst d))) e).
(** Maps are merged entry by entry (an entry both have must be the same), the components map by map, the document section by section. *)
Definition merged_map : pv -> pv -> pv -> Prop := joined (fun _ => same_data).
Definition component_maps : list pystr := map u ["schemas"; "servers"; "channels"; "operations"; "messages"; "securitySchemes"; "serverVariables"; "parameters";
  "correlationIds"; "replies"; "replyAddresses"; "externalDocs"; "tags"; "operationTraits"; "messageTraits"; "serverBindings"; "channelBindings"; "operationBindings"; "messageBindings"].
Definition merged_components : pv -> pv -> pv -> Prop := joined (fun k => if mem_str k component_maps then merged_map else same_data).
Definition merged_documents : pv -> pv -> pv -> Prop :=
  joined (fun k => if mem_str k (map u ["servers"; "channels"; "operations"]) then merged_map else if str_eqb k (u "components") then merged_components else same_data).

(** The data uses the specification names for the sections of the document and of its components. *)
Definition no_python_names (c : string) (v : pv) : Prop :=
  forall d fi t, v = VDict d -> In (fi, t) (class_fields c) -> f_name fi <> f_alias fi -> ~ In (f_name fi) (map fst d).
Definition spec_spelled (v : pv) : Prop :=
  no_python_names "AsyncAPI3" v /\ forall d x, v = VDict d -> In (u "components", x) d -> no_python_names "Components" x.
(** Both say which version of the specification they follow, or neither does. *)
Definition versions_given (v w : pv) : Prop :=
  forall d e, v = VDict d -> w = VDict e -> In (u "asyncapi") (map fst d) <-> In (u "asyncapi") (map fst e).
