(** Processors written with the library's own operations, models/asyncapi.py:277-296 with validate_assignment=True
    (models/base_models.py:26-33): a converter or validator that assigns an attribute of the document it is given makes pydantic
    run the mode="after" validators of the document again, hence all processors again, inside the assignment. *)
From Verif Require Import PyStr Value Types Rules Pydantic ClassTable Classes State Resolve Pipeline.
Local Open Scope string_scope.

(** What a processor can do to the document: [spec.<path>.name = v], [spec.<path>[k] = v], [del spec.<path>[k]]
    (items: models/base_models.py:96-100, and plain dicts). *)
Inductive action :=
| SetAttr (p : list pstep) (name : pystr) (v : pv)
| SetItem (p : list pstep) (k : pystr) (v : pv)
| DelItem (p : list pstep) (k : pystr).
(** The body of __call__ (protocols.py:17): it may look at the document, act on it (learning whether an exception was
    raised, which it may catch), and finally return or raise.  Simplification: lists are not edited in place. *)
Inductive prog :=
| Return
| Raise
| Look (k : pv -> prog)
| Do (a : action) (k : bool -> prog).

Definition on_document (a : action) : bool := match a with SetAttr [] _ _ => true | _ => false end.
(** No processors: what is left of an assignment. *)
Definition plain (o : pv) : bool * pv := (true, o).
Definition item (op : rop) (v : pv) : bool * pv :=
  match v with
  | VRoot c d => match root_step d op with (RKeyError, _) => (false, v) | (_, d') => (true, VRoot c d') end
  | VDict d => match root_step d op with (RKeyError, _) => (false, v) | (_, d') => (true, VDict d') end
  | _ => (false, v)
  end.
Definition or_missing (doc : pv) (r : option (bool * pv)) : bool * pv := match r with Some r => r | None => (false, doc) end.
(** An action on an object inside the document.  Simplification: an AsyncAPI3 object kept in free-form data of the document
    does not run its own processors. *)
Definition inside (E : env) (a : action) (doc : pv) : bool * pv :=
  match a with
  | SetAttr p n v => or_missing doc (at_path p (fun o => assign E plain o n v) doc)
  | SetItem p k v => or_missing doc (at_path p (item (RSet k v)) doc)
  | DelItem p k => or_missing doc (at_path p (item (RDel k)) doc)
  end.

Section Run.
  Context (E : env) (progs : pv -> prog).   (* the program of a processor class *)
  (** Executions.  The trace lists the calls in the order they begin: the processor and the document it is given.
      Non-terminating executions (Python: RecursionError) have no derivation. *)
  Inductive plays : prog -> pv -> list (pv * pv) -> bool -> pv -> Prop :=
  | pl_return d : plays Return d [] true d
  | pl_raise d : plays Raise d [] false d
  | pl_look k d tr ok d' : plays (k d) d tr ok d' -> plays (Look k) d tr ok d'
  | pl_inside a k d b d1 tr ok d' : on_document a = false -> inside E a d = (b, d1) -> plays (k b) d1 tr ok d' -> plays (Do a k) d tr ok d'
  | pl_refused n v k d d1 tr ok d' :         (* the value or the document's own rules refuse: State.assign *)
      assign E plain d n v = (false, d1) -> plays (k false) d1 tr ok d' -> plays (Do (SetAttr [] n v) k) d tr ok d'
  | pl_stored n v k d d1 tr1 b d2 tr2 ok d' : (* stored, then run_extra_processors on the changed document *)
      assign E plain d n v = (true, d1) -> reruns d1 tr1 b d2 -> plays (k b) d2 tr2 ok d' -> plays (Do (SetAttr [] n v) k) d (tr1 ++ tr2) ok d'
  (** for cls in self.extra_...: :286-289, :293-296 *)
  with each : list pv -> pv -> list (pv * pv) -> bool -> pv -> Prop :=
  | ea_nil d : each [] d [] true d
  | ea_next p l d tr1 d1 tr2 ok d2 : plays (progs p) d tr1 true d1 -> each l d1 tr2 ok d2 -> each (p :: l) d ((p, d) :: tr1 ++ tr2) ok d2
  | ea_stop p l d tr1 d1 : plays (progs p) d tr1 false d1 -> each (p :: l) d ((p, d) :: tr1) false d1
  (** run_extra_processors :277-282 *)
  with reruns : pv -> list (pv * pv) -> bool -> pv -> Prop :=
  | rs_both d l1 tr1 d1 l2 tr2 ok d2 : processors d "extra_converters" = Some l1 -> each l1 d tr1 true d1 ->
      processors d1 "extra_validators" = Some l2 -> each l2 d1 tr2 ok d2 -> reruns d (tr1 ++ tr2) ok d2
  | rs_converter d l1 tr1 d1 : processors d "extra_converters" = Some l1 -> each l1 d tr1 false d1 -> reruns d tr1 false d1
  | rs_bad_converters d : processors d "extra_converters" = None -> reruns d [] false d
  | rs_bad_validators d l1 tr1 d1 : processors d "extra_converters" = Some l1 -> each l1 d tr1 true d1 ->
      processors d1 "extra_validators" = None -> reruns d tr1 false d1.
  (** AsyncAPI3(data) *)
  Inductive builds (v : pv) : list (pv * pv) -> option pv -> Prop :=
  | bs_invalid : parse E T_AsyncAPI3 v = None -> builds v [] None
  | bs_done doc tr doc1 : parse E T_AsyncAPI3 v = Some doc -> reruns doc tr true doc1 -> builds v tr (Some doc1)
  | bs_raise doc tr doc1 : parse E T_AsyncAPI3 v = Some doc -> reruns doc tr false doc1 -> builds v tr None.
End Run.
Scheme plays_mut := Induction for plays Sort Prop with each_mut := Induction for each Sort Prop with reruns_mut := Induction for reruns Sort Prop.
Combined Scheme exec_ind from plays_mut, each_mut, reruns_mut.
