(** TagsRefValidator (validators/tags_ref_validator.py) and ExternalDocsRefValidator
    (validators/external_docs_ref_validator.py). *)
From Verif Require Import PyStr Value Types Rules Pydantic ClassTable Classes Resolve.

(** What running a check does: the warnings logged (context, reference string) and the exception that
    stopped it, if any.  [Elsewhere]: ValueError "must point to ... but points elsewhere" (tags :278-282,
    docs :520-525); [Missing]: ValueError "does not exist" (tags :285-293, docs :528-536); [Crash]:
    AttributeError or TypeError of Python itself.  Contexts are kept before str.capitalize(). *)
Inductive fault := Elsewhere | Missing | Crash.
Definition effect := (list (pystr * pystr) * option (fault * pystr * pystr))%type.
Definition done : effect := ([], None).
Definition crash : effect := ([], Some (Crash, [], [])).
Definition then_ (a b : effect) : effect :=
  match a with
  | (w, None) => (w ++ fst b, snd b)
  | (w, Some e) => (w, Some e)
  end.
(** for x in l: f(x) *)
Fixpoint for_each {X} (f : X -> effect) (l : list X) : effect :=
  match l with
  | [] => done
  | x :: r => then_ (f x) (for_each f r)
  end.
(** for i, x in enumerate(l): f(i, x) *)
Fixpoint for_enum {X} (f : nat -> X -> effect) (i : nat) (l : list X) : effect :=
  match l with
  | [] => done
  | x :: r => then_ (f i x) (for_enum f (S i) r)
  end.
(** Attribute of an instance: declared field, else extra data (pydantic __getattr__). *)
Definition getattr (v : pv) (f : string) : option pv :=
  match v with
  | VObj _ fv ex => match assoc (u f) fv with Some x => Some x | None => assoc (u f) ex end
  | VRoot _ d => if String.eqb f "root" then Some (VDict d) else None
  | _ => None
  end.
(** v.f used further *)
Definition dot (v : pv) (f : string) (k : pv -> effect) : effect :=
  match getattr v f with Some x => k x | None => crash end.
(** bool(v): models have no __bool__ / __len__ except patterned maps (base_models.py:105-106).  Floats and
    opaque values only occur in free-form data, where the result is not used. *)
Definition truthy (v : pv) : bool :=
  match v with
  | VNone => false
  | VBool b => b
  | VInt z => negb (Z.eqb z 0)
  | VStr s => match s with [] => false | _ => true end
  | VList l => match l with [] => false | _ => true end
  | VDict d | VRoot _ d => match d with [] => false | _ => true end
  | _ => true
  end.
(** if not v: return / continue *)
Definition unless_empty (v : pv) (k : pv -> effect) : effect := if truthy v then k v else done.
(** isinstance(v, Reference) *)
Definition is_ref (v : pv) : bool := match v with VObj c _ _ => String.eqb c "Reference" | _ => false end.
Definition unless_ref (v : pv) (k : effect) : effect := if is_ref v then done else k.
(** for name, item in v.root.items() *)
Definition items (v : pv) (f : pystr -> pv -> effect) : effect :=
  match v with VRoot _ d => for_each (fun kv => f (fst kv) (snd kv)) d | _ => crash end.
(** for i, x in enumerate(v) *)
Definition elements (v : pv) (f : nat -> pv -> effect) : effect :=
  match v with VList l => for_enum f 0 l | _ => crash end.
Definition q (s : pystr) : pystr := u "'" ++ s ++ u "'".
Definition num (n : nat) : pystr := str_of_nat n.
(** spec.components, spec.components.<f> when both are truthy *)
Definition component (doc : pv) (f : string) (k : pv -> effect) : effect :=
  dot doc "components" (fun c => unless_empty c (fun c => dot c f (fun m => unless_empty m k))).
Definition section (doc : pv) (f : string) (k : pv -> effect) : effect :=
  dot doc f (fun m => unless_empty m k).

(** validate_internal_tag_ref (tags :256-293) and validate_internal_external_doc_ref (docs :498-536): [prefix]
    is "#/components/tags/" or "#/components/externalDocs/", [f] the attribute of components. *)
Definition internal_ref (prefix : pystr) (f : string) (doc : pv) (ctx ref : pystr) : effect :=
  if starts_with prefix ref then
    let key := replace prefix [] ref in
    let missing : effect := ([], Some (Missing, ctx, key)) in
    dot doc "components" (fun c => if truthy c then
      dot c f (fun m => if truthy m then
        match m with VRoot _ d => if has_key key d then done else missing | _ => crash end
      else missing) else missing)
  else ([], Some (Elsewhere, ctx, ref)).
(** validate_tag_ref / validate_external_tag_ref (tags :208-254), validate_external_doc_ref /
    validate_external_external_doc_ref (docs :449-496): dispatch on the leading "#". *)
Definition one_ref (prefix : pystr) (f : string) (doc : pv) (ctx : pystr) (r : pv) : effect :=
  dot r "ref" (fun s => match s with
    | VStr s => if starts_with (u "#") s then internal_ref prefix f doc ctx s else ([(ctx, s)], None)
    | _ => crash
    end).

(** ** TagsRefValidator *)
Definition tag_ref (doc : pv) := one_ref (u "#/components/tags/") "tags" doc.
(** :64-74 _validate_tags_list *)
Definition tags_list (doc : pv) (ctx : pystr) (tags : pv) : effect :=
  elements tags (fun _ t => if is_ref t then tag_ref doc ctx t else done).
(** :76-88 _validate_tags_in_collection; hasattr is false for References *)
Definition tags_collection (doc : pv) (ctx : pystr -> pystr) (m : pv) : effect :=
  items m (fun name o => match getattr o "tags" with
    | Some t => unless_empty t (tags_list doc (ctx name))
    | None => done
    end).
(** :90-94; [spec.info] is a model instance, hence truthy *)
Definition tags_info (doc : pv) : effect :=
  dot doc "info" (fun i => unless_empty i (fun i => dot i "tags" (fun t => unless_empty t (tags_list doc (u "info"))))).
(** :96-114 *)
Definition tags_channels (doc : pv) : effect := section doc "channels" (tags_collection doc (fun n => u "channel " ++ q n)).
Definition tags_operations (doc : pv) : effect := section doc "operations" (tags_collection doc (fun n => u "operation " ++ q n)).
Definition tags_servers (doc : pv) : effect := section doc "servers" (tags_collection doc (fun n => u "server " ++ q n)).
(** :116-166 *)
Definition tags_c_messages (doc : pv) : effect := component doc "messages" (tags_collection doc (fun n => u "components message " ++ q n)).
Definition tags_c_channels (doc : pv) : effect := component doc "channels" (tags_collection doc (fun n => u "components channel " ++ q n)).
Definition tags_c_operations (doc : pv) : effect := component doc "operations" (tags_collection doc (fun n => u "components operation " ++ q n)).
Definition tags_c_servers (doc : pv) : effect := component doc "servers" (tags_collection doc (fun n => u "components server " ++ q n)).
Definition tags_c_operation_traits (doc : pv) : effect :=
  component doc "operation_traits" (tags_collection doc (fun n => u "components operation trait " ++ q n)).
Definition tags_c_message_traits (doc : pv) : effect :=
  component doc "message_traits" (tags_collection doc (fun n => u "components message trait " ++ q n)).
(** :168-182 and :184-198: the loops over the messages of channels *)
Definition tags_messages_of (doc : pv) (where_ : pystr) (m : pv) : effect :=
  items m (fun cname ch => unless_ref ch (dot ch "messages" (fun ms => unless_empty ms (fun ms =>
    items ms (fun mname msg => unless_ref msg (dot msg "tags" (fun t => unless_empty t
      (tags_list doc (u "message " ++ q mname ++ u " in " ++ where_ ++ q cname))))))))).
Definition tags_channels_messages (doc : pv) : effect := section doc "channels" (tags_messages_of doc (u "channel ")).
Definition tags_c_channels_messages (doc : pv) : effect := component doc "channels" (tags_messages_of doc (u "components channel ")).
(** :200-206 *)
Definition tags_c_tags (doc : pv) : effect :=
  component doc "tags" (fun m => items m (fun name t => if is_ref t then tag_ref doc (u "components tag " ++ q name) t else done)).
(** :35-62 __call__, in order *)
Definition tags_checks : list (pv -> effect) :=
  [tags_info; tags_servers; tags_channels; tags_channels_messages; tags_operations; tags_c_messages; tags_c_channels; tags_c_operations;
   tags_c_servers; tags_c_operation_traits; tags_c_message_traits; tags_c_channels_messages; tags_c_tags].
Definition run_checks (l : list (pv -> effect)) (doc : pv) : effect := for_each (fun c => c doc) l.
Definition tags_validator (doc : pv) : effect := run_checks tags_checks doc.

(** ** ExternalDocsRefValidator *)
Definition doc_ref (doc : pv) := one_ref (u "#/components/externalDocs/") "external_docs" doc.
(** :435-447 _validate_ref_field *)
Definition ref_field (doc : pv) (ctx : pystr) (o : pv) : effect :=
  match getattr o "external_docs" with
  | Some x => unless_empty x (fun x => if is_ref x then doc_ref doc ctx x else done)
  | None => done
  end.
(** :538-552 _validate_external_docs_collection *)
Definition docs_collection (doc : pv) (item : pystr) (m : pv) : effect :=
  items m (fun name o => unless_ref o (ref_field doc (item ++ u " " ++ q name) o)).
(** :554-564 _validate_tags_external_docs_refs *)
Definition docs_tags (doc : pv) (ctx : pystr) (tags : pv) : effect :=
  elements tags (fun i t => unless_ref t (ref_field doc (u "tag " ++ num i ++ u " in " ++ ctx) t)).
(** :75-79 and :81-90 *)
Definition docs_info (doc : pv) : effect := dot doc "info" (fun i => unless_empty i (ref_field doc (u "info"))).
Definition docs_info_tags (doc : pv) : effect :=
  dot doc "info" (fun i => unless_empty i (fun i => dot i "tags" (fun t => unless_empty t (fun t =>
    elements t (fun n t => unless_ref t (ref_field doc (u "tag at info.tags[" ++ num n ++ u "]") t)))))).
(** :92-102 *)
Definition docs_servers (doc : pv) : effect := section doc "servers" (docs_collection doc (u "server")).
Definition docs_channels (doc : pv) : effect := section doc "channels" (docs_collection doc (u "channel")).
(** The loops of :104-236 over the messages of the channels *)
Definition channel_messages (doc : pv) (f : pystr -> pv -> effect) : effect :=
  section doc "channels" (fun m => items m (fun cname ch => unless_ref ch (dot ch "messages" (fun ms => unless_empty ms (fun ms =>
    items ms (fun mname msg => unless_ref msg (f (u "message " ++ q mname ++ u " in channel " ++ q cname) msg))))))).
Definition docs_channels_messages (doc : pv) : effect := channel_messages doc (fun ctx msg => ref_field doc ctx msg). (* :104-116 *)
Definition docs_channels_messages_headers (doc : pv) : effect := (* :118-134 *)
  channel_messages doc (fun ctx msg => dot msg "headers" (fun h => unless_empty h (ref_field doc (u "headers in " ++ ctx)))).
Definition docs_channels_messages_payload (doc : pv) : effect := (* :136-152 *)
  channel_messages doc (fun ctx msg => dot msg "payload" (fun h => unless_empty h (ref_field doc (u "payload in " ++ ctx)))).
Definition docs_channels_messages_tags (doc : pv) : effect := (* :154-170 *)
  channel_messages doc (fun ctx msg => dot msg "tags" (fun t => unless_empty t (docs_tags doc (u "tags in " ++ ctx)))).
Definition traits_of (ctx : pystr) (o : pv) (f : pystr -> pv -> effect) : effect :=
  dot o "traits" (fun ts => unless_empty ts (fun ts => elements ts (fun i t => unless_ref t (f (u "trait " ++ num i ++ u " in " ++ ctx) t)))).
Definition docs_channels_messages_traits (doc : pv) : effect := (* :172-192 *)
  channel_messages doc (fun ctx msg => traits_of ctx msg (ref_field doc)).
Definition docs_channels_messages_traits_headers (doc : pv) : effect := (* :194-214 *)
  channel_messages doc (fun ctx msg => traits_of ctx msg (fun ctx t => dot t "headers" (fun h => unless_empty h (ref_field doc (u "headers in " ++ ctx))))).
Definition docs_channels_messages_traits_tags (doc : pv) : effect := (* :216-236 *)
  channel_messages doc (fun ctx msg => traits_of ctx msg (fun ctx t => dot t "tags" (fun h => unless_empty h (docs_tags doc (u "tags in " ++ ctx))))).
(** :238-285 *)
Definition docs_operations (doc : pv) : effect := section doc "operations" (docs_collection doc (u "operation")).
Definition each_operation (doc : pv) (f : pystr -> pv -> effect) : effect :=
  section doc "operations" (fun m => items m (fun name o => unless_ref o (f (u "operation " ++ q name) o))).
Definition docs_operations_tags (doc : pv) : effect :=
  each_operation doc (fun ctx o => dot o "tags" (fun t => unless_empty t (docs_tags doc (u "tags in " ++ ctx)))).
Definition docs_operations_traits (doc : pv) : effect :=
  each_operation doc (fun ctx o => traits_of ctx o (ref_field doc)).
Definition docs_operations_traits_tags (doc : pv) : effect :=
  each_operation doc (fun ctx o => traits_of ctx o (fun ctx t => dot t "tags" (fun h => unless_empty h (docs_tags doc (u "tags in " ++ ctx))))).
(** :287-296 *)
Definition docs_c_channels (doc : pv) : effect := component doc "channels" (docs_collection doc (u "components channel")).
(** :298-311 *)
Definition docs_c_external_docs (doc : pv) : effect :=
  component doc "external_docs" (fun m => items m (fun name d =>
    if is_ref d then doc_ref doc (u "components.externalDocs['" ++ name ++ u "']") d else done)).
(** :313-348 *)
Definition docs_c_messages (doc : pv) : effect := component doc "messages" (docs_collection doc (u "components message")).
Definition c_part (doc : pv) (coll part what : string) : effect :=
  component doc coll (fun m => items m (fun name o => unless_ref o (dot o part (fun h => unless_empty h
    (ref_field doc (u part ++ u " in components " ++ u what ++ u " " ++ q name)))))).
Definition docs_c_messages_headers (doc : pv) : effect := c_part doc "messages" "headers" "message".
Definition docs_c_messages_payload (doc : pv) : effect := c_part doc "messages" "payload" "message".
(** :350-376 *)
Definition docs_c_message_traits (doc : pv) : effect := component doc "message_traits" (docs_collection doc (u "components message trait")).
Definition docs_c_message_traits_headers (doc : pv) : effect := c_part doc "message_traits" "headers" "message trait".
(** :378-423 *)
Definition docs_c_operations (doc : pv) : effect := component doc "operations" (docs_collection doc (u "components operation")).
Definition docs_c_operation_traits (doc : pv) : effect := component doc "operation_traits" (docs_collection doc (u "components operation trait")).
Definition docs_c_servers (doc : pv) : effect := component doc "servers" (docs_collection doc (u "components server")).
Definition docs_c_tags (doc : pv) : effect :=
  component doc "tags" (fun m => items m (fun name t => unless_ref t (ref_field doc (u "tag " ++ q name) t))).
(** :425-433: no test for Reference, but hasattr *)
Definition docs_c_schemas (doc : pv) : effect :=
  component doc "schemas" (fun m => items m (fun name s => ref_field doc (u "schema " ++ q name) s)).
(** :27-73 __call__, in order *)
Definition docs_checks : list (pv -> effect) :=
  [docs_info; docs_info_tags; docs_servers; docs_channels; docs_channels_messages; docs_channels_messages_headers;
   docs_channels_messages_payload; docs_channels_messages_tags; docs_channels_messages_traits; docs_channels_messages_traits_headers;
   docs_channels_messages_traits_tags; docs_operations; docs_operations_tags; docs_operations_traits; docs_operations_traits_tags;
   docs_c_channels; docs_c_external_docs; docs_c_messages; docs_c_messages_headers; docs_c_messages_payload; docs_c_message_traits;
   docs_c_message_traits_headers; docs_c_operations; docs_c_operation_traits; docs_c_servers; docs_c_tags; docs_c_schemas].
Definition docs_validator (doc : pv) : effect := run_checks docs_checks doc.
