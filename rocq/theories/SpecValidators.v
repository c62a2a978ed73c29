(** Specification of the tag and external-documentation reference validators: where they look and what
    they accept there. *)
From Verif Require Import PyStr Value Types Rules Pydantic ClassTable Classes SpecParse SpecState Resolve SpecResolve.
Local Open Scope string_scope.

(** Locations written as in docs/extra_validators/references.md: "channels[].messages[].tags" is
    [Attr "channels"; Each; Attr "messages"; Each; Attr "tags"; Each]. *)
Inductive dstep := Attr (f : string) | Each.
Inductive selects : pv -> list dstep -> pv -> Prop :=
| se_here v : selects v [] v
| se_field c fv ex f x p r : assoc (u f) fv = Some x -> selects x p r -> selects (VObj c fv ex) (Attr f :: p) r
| se_extra c fv ex f x p r : assoc (u f) fv = None -> assoc (u f) ex = Some x -> selects x p r -> selects (VObj c fv ex) (Attr f :: p) r
| se_item l x p r : In x l -> selects x p r -> selects (VList l) (Each :: p) r
| se_entry c d k x p r : In (k, x) d -> selects x p r -> selects (VRoot c d) (Each :: p) r.
(** A reference string found at one of the locations. *)
Definition found (locations : list (list dstep)) (doc : pv) (s : pystr) : Prop :=
  exists p r, In p locations /\ selects doc p r /\ is_reference r s.

(** The "Verified fields" of TagsRefValidator, docs/extra_validators/references.md:1139-1152, in the order of the checks. *)
Definition tag_locations : list (list dstep) :=
  [[Attr "info"; Attr "tags"; Each];
   [Attr "servers"; Each; Attr "tags"; Each];
   [Attr "channels"; Each; Attr "tags"; Each];
   [Attr "channels"; Each; Attr "messages"; Each; Attr "tags"; Each];
   [Attr "operations"; Each; Attr "tags"; Each];
   [Attr "components"; Attr "messages"; Each; Attr "tags"; Each];
   [Attr "components"; Attr "channels"; Each; Attr "tags"; Each];
   [Attr "components"; Attr "operations"; Each; Attr "tags"; Each];
   [Attr "components"; Attr "servers"; Each; Attr "tags"; Each];
   [Attr "components"; Attr "operation_traits"; Each; Attr "tags"; Each];
   [Attr "components"; Attr "message_traits"; Each; Attr "tags"; Each];
   [Attr "components"; Attr "channels"; Each; Attr "messages"; Each; Attr "tags"; Each];
   [Attr "components"; Attr "tags"; Each]].

(** The locations inspected by ExternalDocsRefValidator, in the order of the checks. *)
Definition docs_locations : list (list dstep) :=
  [[Attr "info"; Attr "external_docs"];
   [Attr "info"; Attr "tags"; Each; Attr "external_docs"];
   [Attr "servers"; Each; Attr "external_docs"];
   [Attr "channels"; Each; Attr "external_docs"];
   [Attr "channels"; Each; Attr "messages"; Each; Attr "external_docs"];
   [Attr "channels"; Each; Attr "messages"; Each; Attr "headers"; Attr "external_docs"];
   [Attr "channels"; Each; Attr "messages"; Each; Attr "payload"; Attr "external_docs"];
   [Attr "channels"; Each; Attr "messages"; Each; Attr "tags"; Each; Attr "external_docs"];
   [Attr "channels"; Each; Attr "messages"; Each; Attr "traits"; Each; Attr "external_docs"];
   [Attr "channels"; Each; Attr "messages"; Each; Attr "traits"; Each; Attr "headers"; Attr "external_docs"];
   [Attr "channels"; Each; Attr "messages"; Each; Attr "traits"; Each; Attr "tags"; Each; Attr "external_docs"];
   [Attr "operations"; Each; Attr "external_docs"];
   [Attr "operations"; Each; Attr "tags"; Each; Attr "external_docs"];
   [Attr "operations"; Each; Attr "traits"; Each; Attr "external_docs"];
   [Attr "operations"; Each; Attr "traits"; Each; Attr "tags"; Each; Attr "external_docs"];
   [Attr "components"; Attr "channels"; Each; Attr "external_docs"];
   [Attr "components"; Attr "external_docs"; Each];
   [Attr "components"; Attr "messages"; Each; Attr "external_docs"];
   [Attr "components"; Attr "messages"; Each; Attr "headers"; Attr "external_docs"];
   [Attr "components"; Attr "messages"; Each; Attr "payload"; Attr "external_docs"];
   [Attr "components"; Attr "message_traits"; Each; Attr "external_docs"];
   [Attr "components"; Attr "message_traits"; Each; Attr "headers"; Attr "external_docs"];
   [Attr "components"; Attr "operations"; Each; Attr "external_docs"];
   [Attr "components"; Attr "operation_traits"; Each; Attr "external_docs"];
   [Attr "components"; Attr "servers"; Each; Attr "external_docs"];
   [Attr "components"; Attr "tags"; Each; Attr "external_docs"];
   [Attr "components"; Attr "schemas"; Each; Attr "external_docs"]].

(** The "Verified fields" of ExternalDocsRefValidator, docs/extra_validators/references.md:800-826. *)
Definition documented_docs : list (list dstep) :=
  [[Attr "info"; Attr "external_docs"];
   [Attr "info"; Attr "tags"; Each; Attr "external_docs"];
   [Attr "servers"; Each; Attr "external_docs"];
   [Attr "channels"; Each; Attr "external_docs"];
   [Attr "channels"; Each; Attr "messages"; Each; Attr "external_docs"];
   [Attr "channels"; Each; Attr "messages"; Each; Attr "traits"; Each; Attr "external_docs"];
   [Attr "channels"; Each; Attr "messages"; Each; Attr "traits"; Each; Attr "tags"; Each; Attr "external_docs"];
   [Attr "operations"; Each; Attr "external_docs"];
   [Attr "operations"; Each; Attr "traits"; Each; Attr "external_docs"];
   [Attr "operations"; Each; Attr "traits"; Each; Attr "tags"; Each; Attr "external_docs"];
   [Attr "components"; Attr "schemas"; Each; Attr "external_docs"];
   [Attr "components"; Attr "servers"; Each; Attr "external_docs"];
   [Attr "components"; Attr "channels"; Each; Attr "external_docs"];
   [Attr "components"; Attr "channels"; Each; Attr "messages"; Each; Attr "external_docs"];
   [Attr "components"; Attr "channels"; Each; Attr "messages"; Each; Attr "traits"; Each; Attr "external_docs"];
   [Attr "components"; Attr "channels"; Each; Attr "messages"; Each; Attr "traits"; Each; Attr "tags"; Each; Attr "external_docs"];
   [Attr "components"; Attr "operations"; Each; Attr "external_docs"];
   [Attr "components"; Attr "operations"; Each; Attr "traits"; Each; Attr "external_docs"];
   [Attr "components"; Attr "operations"; Each; Attr "traits"; Each; Attr "tags"; Each; Attr "external_docs"];
   [Attr "components"; Attr "messages"; Each; Attr "external_docs"];
   [Attr "components"; Attr "messages"; Each; Attr "traits"; Each; Attr "external_docs"];
   [Attr "components"; Attr "messages"; Each; Attr "traits"; Each; Attr "tags"; Each; Attr "external_docs"];
   [Attr "components"; Attr "tags"; Each; Attr "external_docs"];
   [Attr "components"; Attr "operation_traits"; Each; Attr "external_docs"];
   [Attr "components"; Attr "message_traits"; Each; Attr "external_docs"];
   [Attr "components"; Attr "external_docs"; Each]].
(** The documented locations that are inside a channel of components, or inside a trait listed by an operation or message of components. *)
Definition documented_unchecked : list (list dstep) :=
  [[Attr "components"; Attr "channels"; Each; Attr "messages"; Each; Attr "external_docs"];
   [Attr "components"; Attr "channels"; Each; Attr "messages"; Each; Attr "traits"; Each; Attr "external_docs"];
   [Attr "components"; Attr "channels"; Each; Attr "messages"; Each; Attr "traits"; Each; Attr "tags"; Each; Attr "external_docs"];
   [Attr "components"; Attr "operations"; Each; Attr "traits"; Each; Attr "external_docs"];
   [Attr "components"; Attr "operations"; Each; Attr "traits"; Each; Attr "tags"; Each; Attr "external_docs"];
   [Attr "components"; Attr "messages"; Each; Attr "traits"; Each; Attr "external_docs"];
   [Attr "components"; Attr "messages"; Each; Attr "traits"; Each; Attr "tags"; Each; Attr "external_docs"]].
(** Fields the per-field part of the document (:94-330) marks as checked by TagsRefValidator, beyond [tag_locations]. *)
Definition documented_tags_per_field : list (list dstep) :=
  [[Attr "channels"; Each; Attr "messages"; Each; Attr "traits"; Each; Attr "tags"; Each];
   [Attr "operations"; Each; Attr "traits"; Each; Attr "tags"; Each];
   [Attr "components"; Attr "channels"; Each; Attr "messages"; Each; Attr "traits"; Each; Attr "tags"; Each];
   [Attr "components"; Attr "operations"; Each; Attr "traits"; Each; Attr "tags"; Each];
   [Attr "components"; Attr "messages"; Each; Attr "traits"; Each; Attr "tags"; Each]].

(** The two families: prefix of the allowed internal references and the map of components they name. *)
Definition tag_prefix : pystr := u "#/components/tags/".
Definition docs_prefix : pystr := u "#/components/externalDocs/".
Definition family (prefix : pystr) (f : string) : Prop := (prefix = tag_prefix /\ f = "tags") \/ (prefix = docs_prefix /\ f = "external_docs").
(** External for these validators: does not start with "#". *)
Definition outside (s : pystr) : Prop := forall r, s <> (u "#" ++ r)%list.
(** The documented reading: the prefix followed by a key of the map. *)
Definition names_entry (doc : pv) (prefix : pystr) (f : string) (s : pystr) : Prop :=
  exists key v, s = (prefix ++ key)%list /\ entry_at doc ["components"; f] key = Some v.
(** str.replace(p, ""): the occurrences of [p], from the left, are removed. *)
Inductive erased (p : pystr) : pystr -> pystr -> Prop :=
| er_nil : erased p [] []
| er_hit s k : erased p s k -> erased p (p ++ s)%list k
| er_miss c s k : (forall r, c :: s <> p ++ r)%list -> erased p s k -> erased p (c :: s) (c :: k).
(** What the code accepts. *)
Definition reference_ok (doc : pv) (prefix : pystr) (f : string) (s : pystr) : Prop :=
  outside s \/ ((exists r, s = prefix ++ r)%list /\ exists key v, erased prefix s key /\ entry_at doc ["components"; f] key = Some v).
