(** Specification for C109: all the ways of writing a document as data. *)
From Verif Require Import PyStr Value Types Rules Pydantic ClassTable Classes SpecParse SpecState.

(** The declared fields of an object, in order: each is either left out - if it is never serialised, or has the value it gets by default -
    or written under its specification name or its Python name. *)
Inductive own_fields (wr : pv -> pv -> Prop) : list (finfo * ty) -> fields -> fields -> Prop :=
| of_nil : own_fields wr [] [] []
| of_left_out fi t fs k x fv own : f_excl fi = true \/ f_def fi = Some x -> own_fields wr fs fv own -> own_fields wr ((fi, t) :: fs) ((k, x) :: fv) own
| of_written fi t fs k x fv own a y : f_excl fi = false -> a = f_alias fi \/ a = f_name fi -> wr x y -> own_fields wr fs fv own ->
    own_fields wr ((fi, t) :: fs) ((k, x) :: fv) ((a, y) :: own).
(** [w] is a way of writing [v] as data: URLs as URLs or as strings, maps and objects as dicts, extra data after the declared fields. *)
Inductive writes : pv -> pv -> Prop :=
| wr_plain v : match v with VNone | VBool _ | VInt _ | VFloat _ | VStr _ | VUrl _ => True | _ => False end -> writes v v
| wr_url s : writes (VUrl s) (VStr s)
| wr_list l l' : Forall2 writes l l' -> writes (VList l) (VList l')
| wr_dict d d' : Forall2 (fun a b => fst a = fst b /\ writes (snd a) (snd b)) d d' -> writes (VDict d) (VDict d')
| wr_map c d d' : Forall2 (fun a b => fst a = fst b /\ writes (snd a) (snd b)) d d' -> writes (VRoot c d) (VDict d')
| wr_object c fv ex own ex' : own_fields writes (class_fields c) fv own -> Forall2 (fun a b => fst a = fst b /\ writes (snd a) (snd b)) ex ex' ->
    writes (VObj c fv ex) (VDict (dict_update own ex')).

(** What model_dump offers (models/base_models.py:26-33: by_alias is on unless switched off).  Trusted reading of pydantic: exclude_none leaves
    out the declared fields and extra entries that hold None, exclude_defaults the declared fields equal to their default;
    entries of plain dicts and patterned maps stay.  [o_python]: mode="python", where URLs stay URL objects. *)
Record options := { o_names : bool; o_python : bool; o_none : bool; o_defaults : bool }.
Definition eq_default (d x : pv) : bool :=
  match d, x with
  | VNone, VNone => true | VBool a, VBool b => Bool.eqb a b | VInt a, VInt b => Z.eqb a b | VStr a, VStr b => str_eqb a b
  | _, _ => false
  end.
Definition left_out (o : options) (fi : finfo) (x : pv) : bool :=
  f_excl fi || ((f_exnull fi || o_none o) && is_none x) || (o_defaults o && match f_def fi with Some d => eq_default d x | None => false end).
Fixpoint dump_with (o : options) (v : pv) {struct v} : pv :=
  match v with
  | VUrl s => if o_python o then VUrl s else VStr s
  | VList l => VList (map (dump_with o) l)
  | VDict d => VDict (map (fun kv => match kv with (k, x) => (k, dump_with o x) end) d)
  | VRoot _ d => VDict (map (fun kv => match kv with (k, x) => (k, dump_with o x) end) d)
  | VObj c fv ex =>
      VDict (dict_update
        ((fix go (fs : list (finfo * ty)) (fv : fields) {struct fv} : fields :=
            match fs, fv with
            | (fi, _) :: fs', (_, x) :: fv' => if left_out o fi x then go fs' fv' else (if o_names o then f_name fi else f_alias fi, dump_with o x) :: go fs' fv'
            | _, _ => []
            end) (class_fields c) fv)
        ((fix go (ex : fields) : fields :=
            match ex with
            | [] => []
            | (k, x) :: r => if o_none o && is_none x then go r else (k, dump_with o x) :: go r
            end) ex))
  | _ => v
  end.
(** Nothing is lost when nulls are left out: no extra entry is null, and no required field. *)
Definition nulls_omissible (v : pv) : Prop :=
  forall c fv ex, within (VObj c fv ex) v -> (forall k, ~ In (k, VNone) ex) /\
    forall fi t, In (fi, t) (class_fields c) -> f_def fi = None -> assoc (f_name fi) fv <> Some VNone.
(** The cases in which a declared field is to be left out. *)
Definition omits (op : options) (fi : finfo) (x : pv) : Prop :=
  f_excl fi = true \/ (x = VNone /\ (f_exnull fi = true \/ o_none op = true)) \/ (o_defaults op = true /\ f_def fi = Some x).
