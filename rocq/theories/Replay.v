(** An interpreter for the statements of the project's own test suite (/repo/tests), run against the model.  The test
    programs in ReplayModels.v, ReplayBindings.v, ReplayValidators.v and ReplaySpecs.v are generated from the text of the tests by
    tools/replay.py; each must pass.  This checks the model (and the trusted reading of pydantic) against the expectations
    the authors of the library wrote down; it is evidence about the model, not a property. *)
From Verif Require Import PyStr Regex Value Types Rules Pydantic ClassTable Classes Dump State Resolve Unified Validators Pipeline Messages Texts Errors Loading.
Local Open Scope string_scope.

(** ** A runtime: what the tests need of URL parsing and of the lax coercions. *)
Fixpoint before_char (c : N) (s : pystr) : option (pystr * pystr) :=
  match s with
  | [] => None
  | x :: r => if N.eqb x c then Some ([], r) else option_map (fun p => (x :: fst p, snd p)) (before_char c r)
  end.
Definition special_scheme (s : pystr) : bool := existsb (fun t => str_eqb s (u t)) ["http"; "https"; "ws"; "wss"; "ftp"].
Definition scheme_ok (s : pystr) : bool :=
  match s with [] => false | c :: _ => ascii_alpha c && forallb (fun c => ascii_alpha c || ascii_digit c || N.eqb c 43 || N.eqb c 45 || N.eqb c 46) s end.
(** scheme ':' rest; for the special schemes "//" host and a path that is at least "/" *)
Definition replay_url (http : bool) (s : pystr) : option pystr :=
  match before_char 58 s with
  | None => None
  | Some (sch, rest) =>
      if scheme_ok sch && (negb http || str_eqb sch (u "http") || str_eqb sch (u "https")) then
        if special_scheme sch then
          match rest with
          | 47%N :: 47%N :: host =>
              match host with
              | [] => None
              | _ => if existsb (N.eqb 32) host then None
                     else match before_char 47 host with Some _ => Some s | None => Some (s ++ u "/")%list end
              end
          | _ => None
          end
        else Some s
      else None
  end.
Definition replay_bool (v : pv) : option bool :=
  match v with
  | VInt 0 => Some false
  | VInt 1 => Some true
  | VStr s => if existsb (fun t => str_eqb s (u t)) ["true"; "True"; "yes"; "on"; "1"; "t"; "y"] then Some true
              else if existsb (fun t => str_eqb s (u t)) ["false"; "False"; "no"; "off"; "0"; "f"; "n"] then Some false else None
  | _ => None
  end.
Definition replay_int (v : pv) : option Z :=
  match v with
  | VBool b => Some (if b then 1%Z else 0%Z)
  | VStr s => match s with
              | [] => None
              | _ => if forallb ascii_digit s then Some (Z.of_N (fold_left (fun a c => (a * 10 + (c - 48))%N) s 0%N)) else None
              end
  | _ => None
  end.
Definition E1 : env := {| e_digit := fun _ => None; e_word := fun _ => true; e_int := replay_int; e_bool := replay_bool; e_url := replay_url |}.

(** ** Expressions and statements *)
Inductive expr :=
| XVal (v : pv)
| XVar (n : nat)
| XList (l : list expr)
| XDict (d : list (pystr * expr))
| XNew (c : string) (e : expr)             (* C( **e ) and C.model_validate(e) *)
| XNewAt (t : ty) (e : expr)               (* a class the test declares itself *)
| XBuilder (args kwargs : list (pystr * expr)) (* AsyncAPI3.as_builder *)
| XFactory (f : string) (e : expr)         (* Reference.f(e) *)
| XAttr (e : expr) (f : pystr)             (* e.f *)
| XItem (e : expr) (k : pystr)             (* e["k"] *)
| XIndex (e : expr) (i : nat)              (* e[i] *)
| XExtra (e : expr)                        (* e.model_extra *)
| XLen (e : expr)
| XKeys (e : expr)                         (* list(e) *)
| XStr (e : expr)                          (* str(e) *)
| XDump (e : expr)                         (* e.model_dump(mode="json") *)
| XResolve (r spec : expr)                 (* resolve_reference: None or the triple, as a dict *)
| XPart (e : expr) (p full : pystr)        (* _resolve_path_part; [full]: its last argument, used in error texts *)
| XParts (e : expr) (ps : list pystr)      (* _resolve_path_parts *)
| XParseRef (s : pystr)                    (* _parse_reference_path *)
| XExternal (s : pystr)                    (* _is_external_reference *)
| XVisited (r : pystr) (l : list pystr)    (* _initialize_visited_refs *)
| XNormalize (s : pystr)
| XMatches (p s : pystr)
| XExpected (s : pystr)                    (* class names of _get_expected_type_for_path *)
| XExpectedIn (table : list (pystr * list string)) (s : pystr)
| XMoreSpecific (a b : pystr)              (* _pattern_specificity(a) > _pattern_specificity(b) *)
| XCompatible (a : string) (l : list string)
| XCheckRef (spec r : expr) (path : pystr) (* validate_reference: None or an exception *)
| XCheck (spec o : expr) (path : pystr)    (* validate_references_recursive *)
| XTags (spec : expr) | XDocs (spec : expr)(* the two other validators called directly *)
| XKey (k : expr)                          (* validate_patterned_key *)
| XIsNull (e : expr)
| XHash (e : expr)                         (* hash(e): the string hashed, Reference.__hash__ (models/base.py) *)
| XUnurl (e : expr).                       (* URL objects as their text, to compare with a json dump *)
Inductive stmt :=
| SLet (n : nat) (e : expr)
| SDo (e : expr)
| SAssert (c : cond)
| SRaises (b : list stmt) (texts : list pystr) (* pytest.raises; [texts]: what the message must contain *)
| SSetAttr (n : nat) (p : list pstep) (f : pystr) (e : expr)
| SSetItem (n : nat) (p : list pstep) (k : pystr) (e : expr)
| SDelItem (n : nat) (p : list pstep) (k : pystr)
with cond :=
| CEq (a b : expr)
| CIn (k : pystr) (e : expr)
| CIs (e : expr) (types : list string)
| CGt (e : expr) (z : Z)
| CHas (e : expr) (f : pystr)
| CStarts (e : expr) (s : pystr)           (* e.startswith(s) *)
| CLogs (e : expr) (s : pystr)             (* some warning written while evaluating e contains s *)
| CNot (c : cond)
| COr (a b : cond).

(** == : dicts as sets of entries; bool and int compare as numbers; a URL object never equals a string. *)
Fixpoint pyeq (a b : pv) {struct a} : bool :=
  let sub := fix sub (d : fields) (e : fields) : bool :=
    match d with [] => true | (k, x) :: r => match assoc k e with Some y => pyeq x y && sub r e | None => false end end in
  let dicts := fun d e => Nat.eqb (length d) (length e) && sub d e in
  match a, b with
  | VNone, VNone => true
  | VBool x, VBool y => eqb x y
  | VInt x, VInt y => Z.eqb x y
  | VBool x, VInt y | VInt y, VBool x => Z.eqb (if x then 1 else 0) y
  | VFloat x, VFloat y | VStr x, VStr y | VUrl x, VUrl y | VProc x, VProc y | VOpaque x, VOpaque y => str_eqb x y
  | VList x, VList y => (fix go l m := match l, m with [], [] => true | p :: l', q :: m' => pyeq p q && go l' m' | _, _ => false end) x y
  | VDict d, VDict e => dicts d e
  | VRoot c d, VRoot c' e => String.eqb c c' && dicts d e
  | VObj c d x, VObj c' e y => String.eqb c c' && dicts d e && dicts x y
  | _, _ => false
  end.

Fixpoint find_type (c : string) (l : list ty) : option ty :=
  match l with
  | [] => None
  | TModel c' k fs :: r => if String.eqb c c' then Some (TModel c' k fs) else find_type c r
  | TRoot c' t :: r => if String.eqb c c' then Some (TRoot c' t) else find_type c r
  | _ :: r => find_type c r
  end.
(** The processors of a new document (bundled ones only). *)
Definition run_bundled (doc : pv) : option pv :=
  match processors doc "extra_converters", processors doc "extra_validators" with
  | Some l1, Some l2 =>
      if forallb (fun p => match p with VProc n => match bundled E1 n doc with Some b => b | None => false end | _ => false end) (l1 ++ l2)%list
      then Some doc else None
  | _, _ => None
  end.
Definition build (t : ty) (v : pv) : option pv :=
  match parse E1 t v with
  | Some (VObj c fv ex) => if String.eqb c "AsyncAPI3" then run_bundled (VObj c fv ex) else Some (VObj c fv ex)
  | r => r
  end.
Definition names (l : list string) : pv := VList (map (fun s => VStr (u s)) l).
Definition resolution_value (r : resolution) : option pv :=
  match r with
  | Resolved o p => Some (VDict [(u "resolved_object", o); (u "resolved_type", VStr (u (type_name o))); (u "path", VStr p)])
  | External => Some VNone
  | Failed _ => None
  end.
Definition ok_of {X} (o : option X) : option pv := match o with None => Some VNone | Some _ => None end.
Definition sizeof (v : pv) : option nat :=
  match v with
  | VList l => Some (length l) | VDict d | VRoot _ d => Some (length d) | VStr s => Some (length s) | _ => None
  end.
Fixpoint unurl (v : pv) : pv :=
  match v with
  | VUrl s => VStr s
  | VList l => VList (map unurl l)
  | VDict d => VDict (map (fun kv => (fst kv, unurl (snd kv))) d)
  | v => v
  end.
(** [None]: an exception. *)
Fixpoint eval (st : list pv) (e : expr) {struct e} : option pv :=
  let evals := fix go (l : list expr) : option (list pv) :=
    match l with [] => Some [] | x :: r => match eval st x, go r with Some v, Some vs => Some (v :: vs) | _, _ => None end end in
  let entries := fix go (l : list (pystr * expr)) : option fields :=
    match l with [] => Some [] | (k, x) :: r => match eval st x, go r with Some v, Some vs => Some ((k, v) :: vs) | _, _ => None end end in
  let bind := fun e f => match eval st e with Some v => f v | None => None end in
  match e with
  | XVal v => Some v
  | XVar n => nth_error st n
  | XList l => option_map VList (evals l)
  | XDict d => option_map VDict (entries d)
  | XNew c e => bind e (fun v => match find_type c all_types with Some t => build t v | None => None end)
  | XNewAt t e => bind e (parse E1 t)
  | XBuilder args kwargs =>
      match entries args, entries kwargs with
      | Some a, Some k =>
          match parse E1 T_Info (builder_info a), parse E1 T_Components builder_components with
          | Some info, Some comps => build T_AsyncAPI3 (VDict (dict_update (builder_defaults info comps) k))
          | _, _ => None
          end
      | _, _ => None
      end
  | XFactory f e => bind e (fun v => match find (fun p => String.eqb (fst p) f) factories, v with Some (_, pre), VStr s => Some (make_reference pre s) | _, _ => None end)
  | XAttr e f => bind e (fun v =>
      match v with
      | VObj _ fv ex => match assoc f fv with Some x => Some x | None => assoc f ex end
      | VRoot _ d => if str_eqb f (u "root") then Some (VDict d) else None
      | _ => None
      end)
  | XItem e k => bind e (fun v => match v with VDict d | VRoot _ d => assoc k d | _ => None end)
  | XIndex e i => bind e (fun v => match v with VList l => nth_error l i | _ => None end)
  | XExtra e => bind e (fun v => match v with VObj _ _ ex => Some (VDict ex) | _ => None end)
  | XLen e => bind e (fun v => option_map (fun n => VInt (Z.of_nat n)) (sizeof v))
  | XKeys e => bind e (fun v => match v with VDict d | VRoot _ d => Some (VList (map (fun kv => VStr (fst kv)) d)) | VList l => Some (VList l) | _ => None end)
  | XStr e => bind e (fun v => match v with VUrl s | VStr s => Some (VStr s) | _ => None end)
  | XDump e => bind e (fun v => Some (dump v))
  | XResolve r s => bind r (fun r => bind s (fun s => match r with VStr r => resolution_value (resolve s r) | _ => None end))
  | XPart e p _ => bind e (fun v => resolve_part v p)
  | XParts e ps => bind e (fun v => match resolve_parts v (u "spec") ps with Some (o, p) => resolution_value (Resolved o p) | None => None end)
  | XParseRef s => match parse_ref s with inl _ => None | inr l => Some (VList (map VStr l)) end
  | XExternal s => Some (VBool (is_external s))
  | XVisited r l => if mem_str r l then None else Some (VList (map VStr (r :: l)))
  | XNormalize s => Some (VStr (normalize E1 s))
  | XMatches p s => Some (VBool (path_matches p s))
  | XExpected s => option_map names (expected E1 s)
  | XExpectedIn t s => option_map names (expected_in E1 t s)
  | XMoreSpecific a b => Some (VBool (score_gtb (specificity a) (specificity b)))
  | XCompatible a l => Some (VBool (compatible a l))
  | XCheckRef s r p => bind s (fun s => bind r (fun r => match as_reference r with Some t => ok_of (check_reference E1 s p t) | None => None end))
  | XCheck s o p => bind s (fun s => bind o (fun o => ok_of (check E1 s o p)))
  | XTags s => bind s (fun s => match snd (tags_validator s) with None => Some s | Some _ => None end)
  | XDocs s => bind s (fun s => match snd (docs_validator s) with None => Some s | Some _ => None end)
  | XKey k => bind k (fun v => match v with VStr s => if patterned_key_ok s then Some VNone else None | _ => None end)
  | XIsNull e => bind e (fun v => Some (VBool (is_none v)))
  | XHash e => bind e (fun v => match v with VStr s => Some (VStr s) | _ => option_map VStr (as_reference v) end)
  | XUnurl e => bind e (fun v => Some (unurl v))
  end.
(** ** Texts: what the exceptions say and what is logged (Errors.v, Messages.v, Texts.v, Loading.v).  pydantic's own wording is not
    modelled, except for the beginning of three kinds of messages. *)
Definition low1 (s : pystr) : pystr := s.
Definition cause_text (c : cause) : pystr :=
  match c with
  | Says m => m
  | NoField => u "Field required"
  | NotAllowed => u "Extra inputs are not permitted"
  | WrongInput => u "Input should be"
  | PythonSays => []
  end.
Definition report_texts (l : list error) : list pystr := map (fun e => cause_text (snd e)) l.
Definition load_texts (v : pv) : list pystr :=
  match load_says low1 E1 v with Some (_, Invalid l) => report_texts l | _ => [] end.
Definition raised_text {X} (o : Messages.outcome X) : list pystr := match o with Raises m => [m] | Returns _ => [] end.
Definition opt_text (o : option pystr) : list pystr := match o with Some m => [m] | None => [] end.
(** the texts of the exception that evaluating e raises *)
Fixpoint utters (st : list pv) (e : expr) {struct e} : list pystr :=
  let bind := fun e f => match eval st e with Some v => f v | None => utters st e end in
  match e with
  | XList l => flat_map (utters st) l
  | XDict d => (fix go l := match l with [] => [] | (_, x) :: r => (utters st x ++ go r)%list end) d
  | XNew c e => bind e (fun v =>
      if String.eqb c "AsyncAPI3" then load_texts v
      else match find_type c all_types with Some t => report_texts (report E1 t v) | None => [] end)
  | XNewAt t e => bind e (fun v => report_texts (report E1 t v))
  | XBuilder args kwargs =>
      let entries := fix go (l : list (pystr * expr)) : option fields :=
        match l with [] => Some [] | (k, x) :: r => match eval st x, go r with Some v, Some vs => Some ((k, v) :: vs) | _, _ => None end end in
      match entries args, entries kwargs with
      | Some a, Some k =>
          match parse E1 T_Info (builder_info a), parse E1 T_Components builder_components with
          | Some info, Some comps => load_texts (VDict (dict_update (builder_defaults info comps) k))
          | None, _ => report_texts (report E1 T_Info (builder_info a))
          | _, None => report_texts (report E1 T_Components builder_components)
          end
      | _, _ => []
      end
  | XResolve r s => bind r (fun r => bind s (fun s => match r with VStr r => raised_text (snd (resolve_says s r)) | _ => [] end))
  | XPart e p full => bind e (fun v => raised_text (step_text_of [] v p full))
  | XParts e ps => bind e (fun v => raised_text (steps_text_of [] v (u "spec") ps))
  | XParseRef s => match parse_ref s with                                  (* Messages.resolve_says, the same two texts *)
                   | inl EPath => [u "Invalid reference path: " ++ s]%list
                   | inl _ => [u "Unsupported reference format: " ++ s]%list
                   | inr _ => []
                   end
  | XVisited r l => if mem_str r l then [u "Circular reference detected: " ++ r]%list else []
  | XExpected s => match expected E1 s with Some _ => [] | None => [u "Unknown reference type for path: " ++ s]%list end
  | XExpectedIn t s => match expected_in E1 t s with Some _ => [] | None => [u "Unknown reference type for path: " ++ s]%list end
  | XCheckRef s r p => bind s (fun s => bind r (fun r => match as_reference r with Some t => opt_text (snd (reference_says E1 s p t)) | None => [] end))
  | XCheck s o p => bind s (fun s => bind o (fun o => opt_text (snd (check_says E1 s o p))))
  | XTags s => bind s (fun s => match snd (tags_says low1 s) with Some (Some m) => [m] | _ => [] end)
  | XDocs s => bind s (fun s => match snd (docs_says low1 s) with Some (Some m) => [m] | _ => [] end)
  | XKey k => bind k (fun v => match v with VStr s => [key_text s] | _ => [] end)
  | XAttr e _ | XItem e _ | XIndex e _ | XExtra e | XLen e | XKeys e | XStr e | XDump e | XFactory _ e | XUnurl e => utters st e
  | _ => []
  end.
(** the warnings written by evaluating e *)
Definition logs (st : list pv) (e : expr) : list pystr :=
  match e with
  | XNew "AsyncAPI3" e => match eval st e with Some v => match load_says low1 E1 v with Some (l, _) => l | None => [] end | None => [] end
  | XResolve r s => match eval st r, eval st s with Some (VStr r), Some s => fst (resolve_says s r) | _, _ => [] end
  | XCheckRef s r p => match eval st s, eval st r with
                       | Some s, Some r => match as_reference r with Some t => fst (reference_says E1 s p t) | None => [] end
                       | _, _ => []
                       end
  | _ => []
  end.
Fixpoint holds (st : list pv) (c : cond) : option bool :=
  match c with
  | CEq a b => match eval st a, eval st b with Some x, Some y => Some (pyeq x y) | _, _ => None end
  | CIn k e => match eval st e with
               | Some (VDict d) | Some (VRoot _ d) => Some (has_key k d)
               | Some (VList l) => Some (existsb (is_str k) l)
               | Some (VStr s) => Some (contains k s)
               | _ => None
               end
  | CIs e types => match eval st e with Some v => Some (existsb (String.eqb (type_name v)) types) | None => None end
  | CGt e z => match eval st e with Some (VInt x) => Some (Z.ltb z x) | _ => None end
  | CHas e f => match eval st e with
                | Some (VObj _ fv ex) => Some (has_key f fv || has_key f ex)
                | Some (VRoot _ _) => Some (str_eqb f (u "root"))
                | Some _ => Some false
                | None => None
                end
  | CStarts e p => match eval st e with Some (VStr s) => Some (starts_with p s) | _ => None end
  | CLogs e s => Some (existsb (contains s) (logs st e))
  | CNot c => option_map negb (holds st c)
  | COr a b => match holds st a with Some true => Some true | Some false => holds st b | None => None end
  end.
Inductive outcome := Done (st : list pv) | Raised | Wrong.
Fixpoint set_nth (n : nat) (v : pv) (st : list pv) : list pv :=
  match st, n with
  | x :: r, S m => x :: set_nth m v r
  | _ :: r, O => v :: r
  | [], S m => VNone :: set_nth m v []
  | [], O => [v]
  end.
Definition change (n : nat) (p : list pstep) (f : pv -> bool * pv) (st : list pv) : outcome :=
  match nth_error st n with
  | Some o => match at_path p f o with
              | Some (true, o') => Done (set_nth n o' st)
              | _ => Raised
              end
  | None => Raised
  end.
Definition on_root (f : fields -> rres * fields) (v : pv) : bool * pv :=
  match v with
  | VRoot c d => match f d with (RKeyError, d') => (false, VRoot c d') | (_, d') => (true, VRoot c d') end
  | VDict d => match f d with (RKeyError, d') => (false, VDict d') | (_, d') => (true, VDict d') end
  | _ => (false, v)
  end.
Definition rerun (doc : pv) : bool * pv := match run_bundled doc with Some _ => (true, doc) | None => (false, doc) end.
Fixpoint exec (st : list pv) (s : stmt) {struct s} : outcome :=
  match s with
  | SLet n e => match eval st e with Some v => Done (set_nth n v st) | None => Raised end
  | SDo e => match eval st e with Some _ => Done st | None => Raised end
  | SAssert c => match holds st c with Some true => Done st | Some false => Wrong | None => Raised end
  | SRaises b texts =>
      (fix go st' b :=
         match b with
         | [] => Wrong
         | s :: r => match exec st' s with
                     | Done st'' => go st'' r
                     | Raised => let said := match s with SLet _ e | SDo e => utters st' e | _ => [] end in
                                 if forallb (fun t => existsb (contains t) said) texts then Done st else Wrong
                     | Wrong => Wrong
                     end
         end) st b
  | SSetAttr n p f e => match eval st e with Some v => change n p (fun o => assign E1 rerun o f v) st | None => Raised end
  | SSetItem n p k e => match eval st e with Some v => change n p (on_root (fun d => root_step d (RSet k v))) st | None => Raised end
  | SDelItem n p k => change n p (on_root (fun d => root_step d (RDel k))) st
  end.
Fixpoint passes (st : list pv) (l : list stmt) : bool :=
  match l with
  | [] => true
  | s :: r => match exec st s with Done st' => passes st' r | _ => false end
  end.
(** The names of the tests that do not pass. *)
Definition failing (l : list (string * list stmt)) : list string := map fst (filter (fun t => negb (passes [] (snd t))) l).
