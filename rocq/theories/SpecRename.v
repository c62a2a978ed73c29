(** Specification: renaming an entry of a patterned map together with all references through it (C73). *)
From Verif Require Import PyStr Value Types Rules Pydantic ClassTable Classes SpecParse SpecState Resolve SpecResolve Unified SpecUnified.

(** Every Reference object of [v] gets the string [f s] for its string [s]; nothing else changes. *)
Fixpoint retarget (f : pystr -> pystr) (v : pv) : pv :=
  match v with
  | VList l => VList (map (retarget f) l)
  | VDict d => VDict (map (fun kv => match kv with (k, x) => (k, retarget f x) end) d)
  | VRoot c d => VRoot c (map (fun kv => match kv with (k, x) => (k, retarget f x) end) d)
  | VObj c fv ex =>
      VObj c (map (fun kv => match kv with (k, x) =>
        (k, if String.eqb c "Reference" && str_eqb k (u "ref") then match x with VStr s => VStr (f s) | _ => retarget f x end else retarget f x) end) fv) ex
  | _ => v
  end.
(** The way to a patterned map: fields (by name and alias) and entries of maps; [d] is its content. *)
Inductive trail : pv -> list (pystr * pystr) -> fields -> Prop :=
| tr_here c d : trail (VRoot c d) [] d
| tr_field c fv ex fi t x a d : In (fi, t) (class_fields c) -> assoc (f_name fi) fv = Some x -> trail x a d -> trail (VObj c fv ex) ((f_name fi, f_alias fi) :: a) d
| tr_entry c d0 k x a d : assoc k d0 = Some x -> trail x a d -> trail (VRoot c d0) ((k, k) :: a) d.
Definition spelled (p : pystr) (h : pystr * pystr) : Prop := p = fst h \/ p = snd h.
(** The key [k] of the map at the end of the way becomes [k']. *)
Definition rename_key (k k' : pystr) (d : fields) : fields := map (fun kv => if str_eqb (fst kv) k then (k', snd kv) else kv) d.
Fixpoint rename_entry (a : list (pystr * pystr)) (k k' : pystr) (v : pv) : pv :=
  match a, v with
  | [], VRoot c d => VRoot c (rename_key k k' d)
  | h :: a', VObj c fv ex => VObj c (map (fun kv => if str_eqb (fst kv) (fst h) then (fst kv, rename_entry a' k k' (snd kv)) else kv) fv) ex
  | h :: a', VRoot c d => VRoot c (map (fun kv => if str_eqb (fst kv) (fst h) then (fst kv, rename_entry a' k k' (snd kv)) else kv) d)
  | _, _ => v
  end.
(** The segments of a reference that lead through the entry [k] of that map. *)
Definition through (a : list (pystr * pystr)) (k : pystr) (l : list pystr) : Prop := exists names rest, l = names ++ k :: rest /\ Forall2 spelled names a.
(** [f] rewrites the reference strings accordingly and leaves the other references what they are. *)
Definition rewrites (a : list (pystr * pystr)) (k k' : pystr) (f : pystr -> pystr) : Prop :=
  (forall s, ~ (exists r, s = u "#" ++ r) -> f s = s)
  /\ forall r l, segments r l -> exists r' l', f (u "#" ++ r) = u "#" ++ r' /\ segments r' l'
       /\ (through a k l -> exists names rest, l = names ++ k :: rest /\ Forall2 spelled names a /\ l' = names ++ k' :: rest)
       /\ (~ through a k l -> l' = l).
(** The renamed document. *)
Definition renamed_document (f : pystr -> pystr) (a : list (pystr * pystr)) (k k' : pystr) (doc : pv) : pv := rename_entry a k k' (retarget f doc).
(** [reached], with the steps instead of the text. *)
Inductive step : pv -> nat -> lstep -> pv -> Prop :=
| st_item l i x : nth_error l i = Some x -> step (VList l) i (LIdx i) x
| st_entry d i k x : nth_error d i = Some (k, x) -> step (VDict d) i (LKey k) x
| st_map c d i k x : nth_error d i = Some (k, x) -> step (VRoot c d) i (LMapKey k) x
| st_field c fv ex i k x : nth_error fv i = Some (k, x) -> (forall s, ~ is_reference (VObj c fv ex) s) ->
    x <> VNone -> (forall fi t, In (fi, t) (class_fields c) -> f_name fi = k -> f_excl fi = false) ->
    step (VObj c fv ex) i (LField k) x.
Inductive route (v : pv) : list nat -> list lstep -> pv -> Prop :=
| ro_here : route v [] [] v
| ro_step i st w pos p x : step v i st w -> route w pos p x -> route v (i :: pos) (st :: p) x.
(** The keys above the references of the document. *)
Definition keys_above_references (doc : pv) (k : pystr) : Prop := exists pos p r s, route doc pos p r /\ is_reference r s /\ In k (keys_of p).
