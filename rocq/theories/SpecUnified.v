(** Specification of the unified reference validator. *)
From Coq Require Import Permutation.
From Verif Require Import PyStr Value Types Rules Pydantic ClassTable Classes SpecParse SpecState Resolve SpecResolve Unified.

(** ** Pattern matching *)
(** A glob: [*] any characters, [?] one character, other characters themselves. *)
Inductive globs : pystr -> pystr -> Prop :=
| gl_nil : globs [] []
| gl_star w p s : globs p s -> globs (42%N :: p) (w ++ s)
| gl_one c p s : globs p s -> globs (63%N :: p) (c :: s)
| gl_char c p s : c <> 42%N -> c <> 63%N -> globs p s -> globs (c :: p) (c :: s).
Definition star : pystr := u "*".
Definition double_star : pystr := u "**".
(** One pattern segment against one path segment. *)
Definition segment_spec (p s : pystr) : Prop :=
  (In 42%N p /\ globs p s) \/ (~ In 42%N p /\ p = s).
(** The path is cut: [**] takes any number of segments, every other pattern segment one. *)
Inductive matches : list pystr -> list pystr -> Prop :=
| ma_nil : matches [] []
| ma_many ps xs ys : matches ps ys -> matches (double_star :: ps) (xs ++ ys)
| ma_one p x ps xs : p <> double_star -> segment_spec p x -> matches ps xs -> matches (p :: ps) (x :: xs).

(** ** Specificity: more literal segments, then fewer [**], then fewer segments with [*], then more segments. *)
Definition count (f : pystr -> bool) (l : list pystr) : nat := length (filter f l).
Definition has_star (p : pystr) : bool := existsb (N.eqb 42) p.
Definition literals (l : list pystr) : nat := count (fun p => negb (has_star p)) l.
Definition doubles (l : list pystr) : nat := count (str_eqb double_star) l.
Definition wildcards (l : list pystr) : nat := count has_star l.
Definition more_specific (p q : list pystr) : Prop :=
  literals q < literals p
  \/ (literals p = literals q /\ (doubles p < doubles q
      \/ (doubles p = doubles q /\ (wildcards p < wildcards q
          \/ (wildcards p = wildcards q /\ length q < length p))))).

(** ** Objects reached by the traversal, with the order of visiting and the path text.
    [child v i text x]: [x] is the [i]-th part of [v], at [text] below the path of [v]. *)
Inductive child : pv -> nat -> pystr -> pv -> Prop :=
| ch_item l i x : nth_error l i = Some x -> child (VList l) i (u "[" ++ str_of_nat i ++ u "]") x
| ch_entry d i k x : nth_error d i = Some (k, x) -> child (VDict d) i (u "." ++ escape k) x
| ch_map c d i k x : nth_error d i = Some (k, x) -> child (VRoot c d) i (u ".root." ++ escape k) x
| ch_field c fv ex i k x : nth_error fv i = Some (k, x) -> (forall s, ~ is_reference (VObj c fv ex) s) ->
    x <> VNone -> (forall fi t, In (fi, t) (class_fields c) -> f_name fi = k -> f_excl fi = false) ->
    child (VObj c fv ex) i (u "." ++ k) x.
Inductive reached (v : pv) : list nat -> pystr -> pv -> Prop :=
| re_here path0 : path0 = [] -> reached v [] path0 v
| re_step i text w pos path x : child v i text w -> reached w pos path x -> reached v (i :: pos) (text ++ path) x.
(** visiting order *)
Inductive before : list nat -> list nat -> Prop :=
| be_less i j p q : i < j -> before (i :: p) (j :: q)
| be_same i p q : before p q -> before (i :: p) (i :: q).

(** A reference is acceptable at a path. *)
Definition acceptable (E : env) (doc : pv) (path s : pystr) : Prop :=
  (exists n s', hops doc n s s' /\ external s')
  \/ exists o l tys, ends_at doc s o l /\ expected E path = Some tys /\ In (type_name o) tys.

(** ** Locations of the object model where a Reference may stand *)
Inductive lstep := LField (f : pystr) | LKey (k : pystr) | LMapKey (k : pystr) | LIdx (i : nat).
Definition step_text (s : lstep) : pystr :=
  match s with
  | LField f => u "." ++ f
  | LKey k => u "." ++ escape k
  | LMapKey k => u ".root." ++ escape k
  | LIdx i => u "[" ++ str_of_nat i ++ u "]"
  end.
Definition location_path (p : list lstep) : pystr := u "spec" ++ flat_map step_text p.
Definition step_keys (s : lstep) : list pystr := match s with LKey k | LMapKey k => [k] | _ => [] end.
Definition keys_of (p : list lstep) : list pystr := flat_map step_keys p.
Definition model_names (ts : list ty) : list string :=
  flat_map (fun t => match t with TModel c _ _ => if String.eqb c "Reference" then [] else [c] | _ => [] end) ts.
(** Fields that hold only references, and what AsyncAPI 3.0 lets them refer to. *)
Definition reference_fields : list (string * string * string) :=
  [("Operation", "channel", "Channel"); ("Operation", "messages", "Message");
   ("OperationReply", "channel", "Channel"); ("OperationReply", "messages", "Message");
   ("Channel", "servers", "Server")]%string.
Inductive only_reference : ty -> list lstep -> Prop :=
| or_here k fs : only_reference (TModel "Reference" k fs) []
| or_opt t p : only_reference t p -> only_reference (TOpt t) p
| or_list t i p : only_reference t p -> only_reference (TList t) (LIdx i :: p).
Inductive location : ty -> list lstep -> list string -> Prop :=
| lo_here ts k fs : In (TModel "Reference" k fs) ts -> location (TUnion ts) [] (model_names ts)
| lo_opt t p D : location t p D -> location (TOpt t) p D
| lo_list t i p D : location t p D -> location (TList t) (LIdx i :: p) D
| lo_dict t k p D : location t p D -> location (TDict t) (LKey k :: p) D
| lo_root c t k p D : location t p D -> location (TRoot c t) (LMapKey k :: p) D
| lo_member ts t p D : In t ts -> location t p D -> location (TUnion ts) p D
| lo_field c k fs fi t p D : In (fi, t) fs -> f_excl fi = false -> location t p D -> location (TModel c k fs) (LField (f_name fi) :: p) D
| lo_only c k fs fi t p f D : In (fi, t) fs -> f_name fi = u f -> In (c, f, D) reference_fields -> only_reference t p ->
    location (TModel c k fs) (LField (u f) :: p) [D].

(** User-chosen keys that do not look like the validator's own path syntax. *)
Definition path_keywords : list string :=
  ["root"; "channel"; "channels"; "reply"; "channel_bindings"; "bindings"; "correlation_id"; "correlation_ids"; "external_docs";
   "messages"; "message_bindings"; "message_traits"; "traits"; "headers"; "payload"; "schemas"; "operations"; "operation_bindings";
   "operation_traits"; "replies"; "address"; "reply_addresses"; "parameters"; "client_id"; "correlation_data"; "group_id"; "key";
   "maximum_packet_size"; "message_expiry_interval"; "priority"; "query"; "response_topic"; "session_expiry_interval"; "time_to_live";
   "security"; "security_schemes"; "servers"; "server_bindings"; "server_variables"; "variables"; "tags"]%string.
Definition index_text (E : env) (s : pystr) : Prop := exists d, digits E d /\ s = u "[" ++ d ++ u "]".
Definition ordinary (E : env) (k : pystr) : Prop :=
  (forall w, In w path_keywords -> k <> u w) /\ (~ exists a, k = a ++ u "_bindings")
  /\ (~ exists a, k = a ++ u ".root") /\ (~ exists a x b, index_text E x /\ k = a ++ x ++ b).
(** Directly inside a trait given in place: traits[i].f, traits[i].f[j]. *)
Definition in_inline_trait (p : list lstep) : Prop :=
  exists a i f b, p = a ++ LField (u "traits") :: LIdx i :: LField f :: b
    /\ In f [u "correlation_id"; u "tags"; u "external_docs"; u "security"]
    /\ (forall g, In (LField g) b -> False).

(** ** Values that differ only in the order of map entries *)
Inductive same_upto_order : pv -> pv -> Prop :=
| su_refl v : same_upto_order v v
| su_list l l' : Forall2 same_upto_order l l' -> same_upto_order (VList l) (VList l')
| su_dict d d1 d' : Forall2 (fun a b => fst a = fst b /\ same_upto_order (snd a) (snd b)) d d1 -> Permutation d1 d' ->
    same_upto_order (VDict d) (VDict d')
| su_root c d d1 d' : Forall2 (fun a b => fst a = fst b /\ same_upto_order (snd a) (snd b)) d d1 -> Permutation d1 d' ->
    same_upto_order (VRoot c d) (VRoot c d')
| su_obj c fv fv' ex ex1 ex' : Forall2 (fun a b => fst a = fst b /\ same_upto_order (snd a) (snd b)) fv fv' ->
    Forall2 (fun a b => fst a = fst b /\ same_upto_order (snd a) (snd b)) ex ex1 -> Permutation ex1 ex' ->
    same_upto_order (VObj c fv ex) (VObj c fv' ex').
(** [v'] is [v] with the entry [x] added under a new key to one patterned map. *)
Inductive entry_added (x : pv) : pv -> pv -> Prop :=
| ea_here c d1 d2 k : ~ In k (map fst (d1 ++ d2)) -> entry_added x (VRoot c (d1 ++ d2)) (VRoot c (d1 ++ (k, x) :: d2))
| ea_list l1 v v' l2 : entry_added x v v' -> entry_added x (VList (l1 ++ v :: l2)) (VList (l1 ++ v' :: l2))
| ea_dict d1 k v v' d2 : entry_added x v v' -> entry_added x (VDict (d1 ++ (k, v) :: d2)) (VDict (d1 ++ (k, v') :: d2))
| ea_root c d1 k v v' d2 : entry_added x v v' -> entry_added x (VRoot c (d1 ++ (k, v) :: d2)) (VRoot c (d1 ++ (k, v') :: d2))
| ea_field c d1 k v v' d2 ex : entry_added x v v' -> entry_added x (VObj c (d1 ++ (k, v) :: d2) ex) (VObj c (d1 ++ (k, v') :: d2) ex)
| ea_extra c fv d1 k v v' d2 : entry_added x v v' -> entry_added x (VObj c fv (d1 ++ (k, v) :: d2)) (VObj c fv (d1 ++ (k, v') :: d2)).

(** ** Object graphs *)
(** [m] can be reached from [n] through visited parts, along the path text. *)
Inductive gpath (h : heap) : nat -> pystr -> nat -> Prop :=
| gp_here n : gpath h n [] n
| gp_step n t m text k : node_reference h n = None -> In (t, m) (parts h n) -> gpath h m text k -> gpath h n (t ++ text) k.
(** The graph below [n] is the tree [v]. *)
Definition atomic (v : pv) : Prop := match v with VList _ | VDict _ | VObj _ _ _ | VRoot _ _ => False | _ => True end.
Inductive represents (h : heap) : nat -> pv -> Prop :=
| rp_atom n v : load h n = NAtom v -> atomic v -> represents h n v
| rp_list n l vs : load h n = NList l -> Forall2 (represents h) l vs -> represents h n (VList vs)
| rp_dict n d vs : load h n = NDict d -> Forall2 (fun a b => fst a = fst b /\ represents h (snd a) (snd b)) d vs -> represents h n (VDict vs)
| rp_obj n c fv ex fvs exs : load h n = NObj c fv ex ->
    (forall m, fv <> [(u "root", m)]) ->
    Forall2 (fun a b => fst a = fst b /\ represents h (snd a) (snd b)) fv fvs ->
    Forall2 (fun a b => fst a = fst b /\ represents h (snd a) (snd b)) ex exs -> represents h n (VObj c fvs exs)
| rp_root n c m d vs : load h n = NObj c [(u "root", m)] [] -> load h m = NDict d ->
    Forall2 (fun a b => fst a = fst b /\ represents h (snd a) (snd b)) d vs -> represents h n (VRoot c vs).
