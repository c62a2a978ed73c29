(** Where the documentation says references must point (C104). *)
From Verif Require Import PyStr Value Types Rules Pydantic ClassTable Classes SpecParse SpecState Resolve SpecResolve.
Local Open Scope string_scope.

(** The operation [k] of the root Operations Object, and the channel [k] of the root Channels Object, by their fields. *)
Definition root_operation (doc : pv) (k : pystr) (fv : fields) : Prop := exists ex, entry_at doc ["operations"] k = Some (VObj "Operation" fv ex).
Definition root_channel (doc : pv) (k : pystr) (fv : fields) : Prop := exists ex, entry_at doc ["channels"] k = Some (VObj "Channel" fv ex).
(** the reference (string [s]) a field holds, or one of those in a list it holds *)
Definition holds_ref (fv : fields) (f : string) (s : pystr) : Prop := exists r, assoc (u f) fv = Some r /\ is_reference r s.
Definition lists_ref (fv : fields) (f : string) (s : pystr) : Prop := exists l r, assoc (u f) fv = Some (VList l) /\ In r l /\ is_reference r s.
Definition points_to (doc : pv) (s : pystr) (path : list pystr) : Prop := exists v, designates doc s path v.

(** operation.py:190-199: "If the operation is located in the root Operations Object, it MUST point to a channel definition located in the
    root Channels Object, and MUST NOT point to a channel definition located in the Components Object or anywhere else." *)
Definition channel_rule (doc : pv) : Prop := forall k fv s, root_operation doc k fv -> holds_ref fv "channel" s ->
  external s \/ exists name, points_to doc s [u "channels"; name].
(** channel.py:129-136: "If the channel is located in the root Channels Object, it MUST point to a subset of server definitions located
    in the root Servers Object, and MUST NOT point to a subset of server definitions located in the Components Object or anywhere else." *)
Definition servers_rule (doc : pv) : Prop := forall k fv s, root_channel doc k fv -> lists_ref fv "servers" s ->
  external s \/ exists name, points_to doc s [u "servers"; name].
(** operation.py:266-272: "It MUST contain a subset of the messages defined in the channel referenced in this operation". *)
Definition messages_rule (doc : pv) : Prop := forall k fv c s, root_operation doc k fv -> holds_ref fv "channel" c -> lists_ref fv "messages" s ->
  external s \/ exists o l m, ends_at doc c o l /\ points_to doc s (l ++ [u "messages"; m])%list.
(** operation.py:72-76: "When address is specified, the address property of the channel referenced by this property MUST be either null or
    not defined." *)
Definition reply_address_rule (doc : pv) : Prop := forall k fv fr er a c o fc ec l, root_operation doc k fv ->
  assoc (u "reply") fv = Some (VObj "OperationReply" fr er) -> assoc (u "address") fr = Some a -> a <> VNone ->
  holds_ref fr "channel" c -> ends_at doc c o l -> o = VObj "Channel" fc ec -> assoc (u "address") fc = Some VNone.
