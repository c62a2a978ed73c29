(** What the tag and external-documentation validators should say, and about which places. *)
From Verif Require Import PyStr Value Types Rules Pydantic ClassTable Classes SpecParse SpecState Resolve SpecResolve SpecValidators.
Local Open Scope string_scope.

(** ** Places *)
(** A place of a location: the keys and indices chosen at its [Each]s. *)
Inductive name := Key (k : pystr) | Index (i : nat).
(** The references found at a location, with their places, in document order. *)
Fixpoint sites (p : list dstep) (v : pv) : list (list name * pystr) :=
  match p with
  | [] => match as_reference v with Some s => [([], s)] | None => [] end
  | Attr f :: p' =>
      match v with
      | VObj _ fv ex => match assoc (u f) fv with
                        | Some x => sites p' x
                        | None => match assoc (u f) ex with Some x => sites p' x | None => [] end
                        end
      | _ => []
      end
  | Each :: p' =>
      let inside (nx : name * pv) := map (fun ns => (fst nx :: fst ns, snd ns)) (sites p' (snd nx)) in
      match v with
      | VList l => flat_map inside (combine (map Index (seq 0 (length l))) l)
      | VRoot _ d => flat_map inside (map (fun kv => (Key (fst kv), snd kv)) d)
      | _ => []
      end
  end.
(** The object the names lead to. *)
Inductive leads : pv -> list dstep -> list name -> pv -> Prop :=
| le_here v : leads v [] [] v
| le_field c fv ex f x p ns r : assoc (u f) fv = Some x -> leads x p ns r -> leads (VObj c fv ex) (Attr f :: p) ns r
| le_extra c fv ex f x p ns r : assoc (u f) fv = None -> assoc (u f) ex = Some x -> leads x p ns r -> leads (VObj c fv ex) (Attr f :: p) ns r
| le_item l i x p ns r : nth_error l i = Some x -> leads x p ns r -> leads (VList l) (Each :: p) (Index i :: ns) r
| le_entry c d k x p ns r : In (k, x) d -> leads x p ns r -> leads (VRoot c d) (Each :: p) (Key k :: ns) r.
(** How a place is called: text, the [i]-th name in quotes, the [i]-th name. *)
Inductive piece := T (s : string) | Q (i : nat) | D (i : nat).
Definition spelled (n : name) : pystr := match n with Key k => k | Index i => str_of_nat i end.
Definition the (ns : list name) (i : nat) : pystr := match nth_error ns i with Some n => spelled n | None => [] end.
Definition say (ns : list name) (x : piece) : pystr :=
  match x with T s => u s | Q i => u "'" ++ the ns i ++ u "'" | D i => the ns i end%list.
Definition called (t : list piece) (ns : list name) : pystr := flat_map (say ns) t.

(** The locations of [tag_locations] / [docs_locations] and how their places are called. *)
Definition tag_places : list (list dstep * list piece) :=
  combine tag_locations
  [[T "info"];
   [T "server "; Q 0];
   [T "channel "; Q 0];
   [T "message "; Q 1; T " in channel "; Q 0];
   [T "operation "; Q 0];
   [T "components message "; Q 0];
   [T "components channel "; Q 0];
   [T "components operation "; Q 0];
   [T "components server "; Q 0];
   [T "components operation trait "; Q 0];
   [T "components message trait "; Q 0];
   [T "message "; Q 1; T " in components channel "; Q 0];
   [T "components tag "; Q 0]].
Definition docs_places : list (list dstep * list piece) :=
  combine docs_locations
  [[T "info"];
   [T "tag at info.tags["; D 0; T "]"];
   [T "server "; Q 0];
   [T "channel "; Q 0];
   [T "message "; Q 1; T " in channel "; Q 0];
   [T "headers in message "; Q 1; T " in channel "; Q 0];
   [T "payload in message "; Q 1; T " in channel "; Q 0];
   [T "tag "; D 2; T " in tags in message "; Q 1; T " in channel "; Q 0];
   [T "trait "; D 2; T " in message "; Q 1; T " in channel "; Q 0];
   [T "headers in trait "; D 2; T " in message "; Q 1; T " in channel "; Q 0];
   [T "tag "; D 3; T " in tags in trait "; D 2; T " in message "; Q 1; T " in channel "; Q 0];
   [T "operation "; Q 0];
   [T "tag "; D 1; T " in tags in operation "; Q 0];
   [T "trait "; D 1; T " in operation "; Q 0];
   [T "tag "; D 2; T " in tags in trait "; D 1; T " in operation "; Q 0];
   [T "components channel "; Q 0];
   [T "components.externalDocs["; Q 0; T "]"];
   [T "components message "; Q 0];
   [T "headers in components message "; Q 0];
   [T "payload in components message "; Q 0];
   [T "components message trait "; Q 0];
   [T "headers in components message trait "; Q 0];
   [T "components operation "; Q 0];
   [T "components operation trait "; Q 0];
   [T "components server "; Q 0];
   [T "tag "; Q 0];
   [T "schema "; Q 0]].
(** All references of the document at these locations, in the order of the locations and then of the document. *)
Definition agenda (places : list (list dstep * list piece)) (doc : pv) : list (pystr * pystr) :=
  flat_map (fun pt => map (fun ns => (called (snd pt) (fst ns), snd ns)) (sites (fst pt) doc)) places.

(** ** Sentences *)
(** The beginning of a sentence about the place called [w]: Python's capitalize(), which also turns the rest into lower case
    ([low]: its result on non-ASCII strings). *)
Definition ascii_char (c : N) : Prop := (c < 128)%N.
Definition lower_of (c d : N) : Prop := ((65 <= c <= 90)%N /\ d = (c + 32)%N) \/ (~ (65 <= c <= 90)%N /\ d = c).
Inductive subject (low : pystr -> pystr) : pystr -> pystr -> Prop :=
| su_nil : subject low [] []
| su_ascii c d r r' : Forall ascii_char (c :: r) -> ((97 <= c <= 122)%N /\ c = (d + 32)%N) \/ (~ (97 <= c <= 122)%N /\ c = d) -> Forall2 lower_of r r' ->
    subject low (c :: r) (d :: r')
| su_other s : ~ Forall ascii_char s -> subject low s (low s).
(** The three sentences of a family. *)
Record family_texts := { warn_mid : string; warn_end : string; else_mid : string; else_end : string; miss_mid : string; miss_end : string }.
Definition tag_texts := {|
  warn_mid := " tag reference '"; warn_end := "' is external. Cannot validate external references.";
  else_mid := " tag reference '"; else_end := "' must point to #/components/tags/ but points elsewhere.";
  miss_mid := " references tag '"; miss_end := "' but tag does not exist in components/tags." |}.
Definition docs_texts := {|
  warn_mid := " external documentation reference '"; warn_end := "' is external. Cannot validate external references.";
  else_mid := " external documentation reference '"; else_end := "' must point to #/components/externalDocs/ but points elsewhere.";
  miss_mid := " references external documentation '"; miss_end := "' but it does not exist in components/externalDocs." |}.
(** [report tx low doc prefix f l log err]: going through the references [l], the run writes [log] and stops with [err]. *)
Inductive report (tx : family_texts) (low : pystr -> pystr) (doc : pv) (prefix : pystr) (f : string)
  : list (pystr * pystr) -> list pystr -> option pystr -> Prop :=
| re_end : report tx low doc prefix f [] [] None
| re_fine w s l log err : ~ outside s -> reference_ok doc prefix f s -> report tx low doc prefix f l log err -> report tx low doc prefix f ((w, s) :: l) log err
| re_outside w sub s l log err : outside s -> subject low w sub -> report tx low doc prefix f l log err ->
    report tx low doc prefix f ((w, s) :: l) ((sub ++ u (warn_mid tx) ++ s ++ u (warn_end tx))%list :: log) err
| re_elsewhere w sub s l : ~ outside s -> (forall x, s <> prefix ++ x)%list -> subject low w sub ->
    report tx low doc prefix f ((w, s) :: l) [] (Some (sub ++ u (else_mid tx) ++ s ++ u (else_end tx))%list)
| re_missing w sub s x key l : s = (prefix ++ x)%list -> erased prefix s key -> entry_at doc ["components"; f] key = None -> subject low w sub ->
    report tx low doc prefix f ((w, s) :: l) [] (Some (sub ++ u (miss_mid tx) ++ key ++ u (miss_end tx))%list).

(** ** Which place a sentence is about *)
(** Keys that survive capitalize(): ASCII without capital letters and quotes. *)
Definition small_key (n : name) : Prop :=
  match n with Key k => Forall (fun c => (c < 128)%N /\ ~ (65 <= c <= 90)%N /\ c <> 39%N) k | Index _ => True end.
(** The keys among the names of a place. *)
Definition keys_of (ns : list name) : list pystr := flat_map (fun n => match n with Key k => [k] | Index _ => [] end) ns.
(** There is one unacceptable reference, at the place [ns]. *)
Definition only_culprit (locations : list (list dstep)) (doc : pv) (prefix : pystr) (f : string) (ns : list name) : Prop :=
  (exists p s, In p locations /\ In (ns, s) (sites p doc) /\ ~ reference_ok doc prefix f s)
  /\ forall p ns' s, In p locations -> In (ns', s) (sites p doc) -> ~ reference_ok doc prefix f s -> ns' = ns.
(** What a sentence says about its subject. *)
Inductive sentence := Warned (s : pystr) | GoesElsewhere (s : pystr) | IsMissing (k : pystr).
Definition sentence_text (tx : family_texts) (sub : pystr) (x : sentence) : pystr :=
  match x with
  | Warned s => sub ++ u (warn_mid tx) ++ s ++ u (warn_end tx)
  | GoesElsewhere s => sub ++ u (else_mid tx) ++ s ++ u (else_end tx)
  | IsMissing k => sub ++ u (miss_mid tx) ++ k ++ u (miss_end tx)
  end%list.
