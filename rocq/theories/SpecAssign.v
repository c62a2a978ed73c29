(** Specification: assignment to documents with processors. *)
From Verif Require Import PyStr Value Types Rules Pydantic ClassTable Classes SpecParse State SpecState Pipeline SpecPipeline.

(** [procs] does what running the processors of the document does. *)
Definition runs (acts : pv -> pv * list pv -> bool -> pv * list pv -> Prop) (procs : pv -> bool * pv) : Prop :=
  forall doc, exists calls, run acts doc calls (fst (procs doc)) (snd (procs doc)).
(** [fv'] is [fv] with the field [name] holding [y] instead. *)
Definition replaced (name : pystr) (y : pv) (fv fv' : fields) : Prop :=
  map fst fv' = map fst fv /\ assoc name fv' = Some y /\ forall n, n <> name -> assoc n fv' = assoc n fv.
(** Attribute assignments on the same object, one after the other, all of which return normally. *)
Inductive all_return (E : env) (procs : pv -> bool * pv) : list (pystr * pv) -> pv -> pv -> Prop :=
| ar_none o : all_return E procs [] o o
| ar_next name x l o o1 o2 : assign E procs o name x = (true, o1) -> all_return E procs l o1 o2 -> all_return E procs ((name, x) :: l) o o2.
