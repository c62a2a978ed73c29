(** Specification of reference resolution: what a reference string designates in a document. *)
From Verif Require Import PyStr Value Types Rules Pydantic ClassTable Classes SpecParse SpecState Resolve.

Definition slash : N := 47%N.
(** [s] consists of the segments [l] (non-empty, without slash) separated by one or more slashes,
    possibly with slashes before and after. *)
Inductive segments : pystr -> list pystr -> Prop :=
| seg_end : segments [] []
| seg_slash s l : segments s l -> segments (slash :: s) l
| seg_name w s l : w <> [] -> ~ In slash w -> segments s l -> (s = [] \/ exists s', s = slash :: s') ->
    segments (w ++ s) (w :: l).

(** One step into a value: the entry of a map, or the value of a declared field given by name or alias. *)
Inductive goes : pv -> pystr -> pv -> Prop :=
| go_map c d k v : assoc k d = Some v -> goes (VRoot c d) k v
| go_dict d k v : assoc k d = Some v -> goes (VDict d) k v
| go_field c fv ex fi t v : In (fi, t) (class_fields c) -> assoc (f_name fi) fv = Some v -> v <> VNone ->
    goes (VObj c fv ex) (f_name fi) v
| go_alias c fv ex fi t v : In (fi, t) (class_fields c) -> assoc (f_name fi) fv = Some v -> v <> VNone ->
    goes (VObj c fv ex) (f_alias fi) v.
Inductive walks : pv -> list pystr -> pv -> Prop :=
| walk_here v : walks v [] v
| walk_step v k w l x : goes v k w -> walks w l x -> walks v (k :: l) x.

Definition external (s : pystr) : Prop := exists r, s = u "http://" ++ r \/ s = u "https://" ++ r.
(** The reference string [s] designates the value [v] of the document, reached by the segments [l]. *)
Definition designates (doc : pv) (s : pystr) (l : list pystr) (v : pv) : Prop :=
  exists r, s = u "#" ++ r /\ segments r l /\ l <> [] /\ walks doc l v.
Definition is_reference (v : pv) (s : pystr) : Prop := exists fv ex, v = VObj "Reference" fv ex /\ assoc (u "ref") fv = Some (VStr s).

(** [s] leads to [s'] in [n] hops from Reference to Reference. *)
Inductive hops (doc : pv) : nat -> pystr -> pystr -> Prop :=
| hop0 s : hops doc 0 s s
| hopS n s l v s' s'' : designates doc s l v -> is_reference v s' -> hops doc n s' s'' -> hops doc (S n) s s''.
(** The chain of references starting at [s] ends at the object [o], reached by the segments [l]. *)
Definition ends_at (doc : pv) (s : pystr) (o : pv) (l : list pystr) : Prop :=
  exists n s', hops doc n s s' /\ designates doc s' l o /\ forall s'', ~ is_reference o s''.
(** The chain comes back to a reference string it has visited. *)
Definition circular (doc : pv) (s : pystr) : Prop :=
  exists i j s', i < j /\ hops doc i s s' /\ hops doc j s s'.
(** Access path of an object: "spec" and the segments, dotted. *)
Fixpoint dotted (l : list pystr) : pystr := match l with [] => [] | p :: r => u "." ++ p ++ dotted r end.
Definition access_path (l : list pystr) : pystr := u "spec" ++ dotted l.

(** No object of the document carries a free-form entry called "root" holding a mapping. *)
Definition no_root_keyword (doc : pv) : Prop :=
  forall c fv ex d, within (VObj c fv ex) doc -> assoc (u "root") ex <> Some (VDict d).

(** The places the factories are meant for: attribute path from the document. *)
Definition factory_places : list (string * list string) := [
  ("to_root_server_name", ["servers"]); ("to_root_channel_name", ["channels"]); ("to_root_operation_name", ["operations"]);
  ("to_component_schema_name", ["components"; "schemas"]); ("to_component_server_name", ["components"; "servers"]);
  ("to_component_channel_name", ["components"; "channels"]); ("to_component_operation_name", ["components"; "operations"]);
  ("to_component_message_name", ["components"; "messages"]); ("to_component_security_scheme_name", ["components"; "security_schemes"]);
  ("to_component_server_variable_name", ["components"; "server_variables"]); ("to_component_parameter_name", ["components"; "parameters"]);
  ("to_component_correlation_id_name", ["components"; "correlation_ids"]); ("to_component_reply_name", ["components"; "replies"]);
  ("to_component_reply_address_name", ["components"; "reply_addresses"]); ("to_component_external_doc_name", ["components"; "external_docs"]);
  ("to_component_tag_name", ["components"; "tags"]); ("to_component_operation_trait_name", ["components"; "operation_traits"]);
  ("to_component_message_trait_name", ["components"; "message_traits"]); ("to_component_server_binding_name", ["components"; "server_bindings"]);
  ("to_component_channel_binding_name", ["components"; "channel_bindings"]); ("to_component_operation_binding_name", ["components"; "operation_bindings"]);
  ("to_component_message_binding_name", ["components"; "message_bindings"])]%string.
(** The entry [name] of the map found by an attribute path, e.g. doc.components.schemas[name]. *)
Fixpoint entry_at (v : pv) (path : list string) (name : pystr) : option pv :=
  match path with
  | [] => match v with VRoot _ d => assoc name d | _ => None end
  | a :: r => match v with VObj _ fv _ => entry_at (get a fv) r name | _ => None end
  end.
