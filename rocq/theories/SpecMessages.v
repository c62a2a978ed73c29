(** What the messages and warnings of reference checking should say. *)
From Coq Require Import Sorted.
From Verif Require Import PyStr Value Types Rules Pydantic ClassTable Classes SpecParse SpecState Resolve SpecResolve Unified SpecUnified.

(** ** Messages of a reference that cannot be resolved *)
(** [blocked s v k full m]: segment [k] of the reference string [s] cannot be followed from the value [v], and [m] says why;
    [full] is the dotted path up to and including [k]. *)
Inductive blocked (s : pystr) : pv -> pystr -> pystr -> pystr -> Prop :=
| bl_map c d k full : assoc k d = None ->
    blocked s (VRoot c d) k full (u "Reference key '" ++ k ++ u "' not found in " ++ full)
| bl_dict d k full : assoc k d = None ->
    blocked s (VDict d) k full (u "Reference key '" ++ k ++ u "' not found in " ++ full)
| bl_no_field c fv ex k full : (forall fi t, In (fi, t) (class_fields c) -> k <> f_name fi /\ k <> f_alias fi) ->
    blocked s (VObj c fv ex) k full (u "Field '" ++ k ++ u "' not found in model at " ++ full)
| bl_unset c fv ex fi t k full : In (fi, t) (class_fields c) -> k = f_name fi \/ k = f_alias fi -> assoc (f_name fi) fv = Some VNone ->
    blocked s (VObj c fv ex) k full (u "Reference path '" ++ full ++ u "' is None")
| bl_missing c fv ex fi t k full : In (fi, t) (class_fields c) -> k = f_name fi \/ k = f_alias fi -> assoc (f_name fi) fv = None ->
    blocked s (VObj c fv ex) k full
      (u "Failed to resolve reference '" ++ s ++ u "': '" ++ u c ++ u "' object has no attribute '" ++ f_name fi ++ u "'")
| bl_value v k full : (forall c d, v <> VRoot c d) -> (forall d, v <> VDict d) -> (forall c fv ex, v <> VObj c fv ex) ->
    blocked s v k full (u "Cannot navigate to '" ++ k ++ u "' in " ++ full ++ u " (not a model or dict)").
(** The reference string [s] itself leads nowhere. *)
Inductive dead_end (doc : pv) (s : pystr) : pystr -> Prop :=
| de_format : ~ external s -> (~ exists r, s = u "#" ++ r) -> dead_end doc s (u "Unsupported reference format: " ++ s)
| de_empty r : s = u "#" ++ r -> segments r [] -> dead_end doc s (u "Invalid reference path: " ++ s)
| de_step r pre k post v m : s = u "#" ++ r -> segments r (pre ++ k :: post) -> walks doc pre v ->
    blocked s v k (access_path (pre ++ [k])) m -> dead_end doc s m.
(** [x] is the first reference string the chain from [s] comes back to. *)
Definition first_repeated (doc : pv) (s x : pystr) : Prop :=
  exists i n, i < n /\ hops doc i s x /\ hops doc n s x
    /\ forall a b y, a < b -> b < n -> hops doc a s y -> ~ hops doc b s y.
(** The message of a reference whose chain does not end properly. *)
Inductive fails_with (doc : pv) (s : pystr) : pystr -> Prop :=
| fw_circular x : first_repeated doc s x -> fails_with doc s (u "Circular reference detected: " ++ x)
| fw_dead n s' m : hops doc n s s' -> dead_end doc s' m -> fails_with doc s m.

(** ** Messages of the unified validator *)
Fixpoint alternatives (tys : list string) : pystr :=
  match tys with [] => [] | [t] => u t | t :: r => u t ++ u " | " ++ alternatives r end.
(** [complaint E doc p s m]: [m] says what is wrong with the reference string [s] found at the path [p]. *)
Inductive complaint (E : env) (doc : pv) (p s : pystr) : pystr -> Prop :=
| co_invalid m : fails_with doc s m -> complaint E doc p s (u "Invalid reference at " ++ p ++ u ": " ++ m)
| co_unknown o l : ends_at doc s o l -> expected E p = None ->
    complaint E doc p s (u "Unknown reference type for path: " ++ normalize E p ++ u ", you should extend `REFERENCE_TYPE_MAPPINGS`")
| co_type o l tys : ends_at doc s o l -> expected E p = Some tys -> ~ In (type_name o) tys ->
    complaint E doc p s (u "Reference at " ++ p ++ u " resolved to " ++ access_path l ++ u " with type " ++ u (type_name o)
                         ++ u ", expected " ++ alternatives tys).

(** ** Warnings *)
(** The references of the document in visiting order: position, path and reference string. *)
Definition found := (list nat * (pystr * pystr))%type.
Definition lists_references (doc : pv) (l : list found) : Prop :=
  StronglySorted before (map fst l)
  /\ forall pos p s, In (pos, (p, s)) l <-> exists rel r, reached doc pos rel r /\ is_reference r s /\ p = u "spec" ++ rel.
(** One warning for a reference whose chain leaves the document, naming the outside reference; none for the others. *)
Inductive warns (doc : pv) (s : pystr) : list pystr -> Prop :=
| wa_external n s' : hops doc n s s' -> external s' -> warns doc s [u "External reference '" ++ s' ++ u "' cannot be validated locally"]
| wa_none : (forall n s', hops doc n s s' -> ~ external s') -> warns doc s [].
Inductive warned (doc : pv) : list found -> list pystr -> Prop :=
| wd_nil : warned doc [] []
| wd_cons pos p s l w log : warns doc s w -> warned doc l log -> warned doc ((pos, (p, s)) :: l) (w ++ log).
Definition fine (E : env) (doc : pv) (x : found) : Prop := acceptable E doc (fst (snd x)) (snd (snd x)).
