(** Working on a document with object identity: attribute assignment, item assignment and deletion, appending to a list, all through
    references into the document.  base_models.py:96-100 ([__setitem__], [__delitem__] of patterned maps delegate to the dict [root]); plain dicts and lists
    held by a field are Python's own.  Nothing of this but attribute assignment validates. *)
From Verif Require Import PyStr Value Types Pydantic State Heap SpecHeap.

(** del d[k] *)
Fixpoint pdel {A} (k : pystr) (d : list (pystr * A)) : list (pystr * A) :=
  match d with
  | [] => []
  | (k', v) :: d' => if str_eqb k k' then d' else (k', v) :: pdel k d'
  end.
(** Where the entries of the map or dict at [l] live: a patterned map holds a dict of its own. *)
Definition content (M : mem) (l : nat) : nat := match look M l with Some (CRoot _ r) => r | _ => l end.
(** obj[k] = h *)
Definition hset (M : mem) (l : nat) (k : pystr) (h : hv) : option mem :=
  match look M (content M l) with Some (CDict d) => Some (write M (content M l) (CDict (pset k h d))) | _ => None end.
(** del obj[k] (None: KeyError, or no mapping) *)
Definition hdel (M : mem) (l : nat) (k : pystr) : option mem :=
  match look M (content M l) with
  | Some (CDict d) => if has_key k d then Some (write M (content M l) (CDict (pdel k d))) else None
  | _ => None
  end.
(** obj.append(h) *)
Definition happend (M : mem) (l : nat) (h : hv) : option mem :=
  match look M l with Some (CList xs) => Some (write M l (CList (xs ++ [h]))) | _ => None end.

(** The value stored: an object at hand, or one constructed for the purpose ([Server(...)], [Server.model_validate(h)]). *)
Inductive source := Given (h : hv) | Made (t : ty) (h : hv).
Inductive hedit :=
| HAttr (p : list pstep) (name : pystr) (h : hv)       (* doc.p.name = h *)
| HSet (p : list pstep) (k : pystr) (s : source)       (* doc.p[k] = s *)
| HDel (p : list pstep) (k : pystr)                    (* del doc.p[k] *)
| HAppend (p : list pstep) (s : source).               (* doc.p.append(s) *)
Section Run.
  Context (E : env) (verdict : mem -> nat -> bool).
  Definition supply (s : source) (M : mem) : mem * option hv :=
    match s with
    | Given h => (M, Some h)
    | Made t h => let (M1, r) := hvalidate E t h M in (M1, option_map fst r)
    end.
  (** an operation on the object a path leads to (None: it raises and changes nothing) *)
  Definition at_object (M : mem) (d : hv) (p : list pstep) (op : nat -> option mem) : bool * mem :=
    match hpath M p d with
    | Some (HL l) => match op l with Some M' => (true, M') | None => (false, M) end
    | _ => (false, M)
    end.
  (** One edit: whether it returned normally, and the memory afterwards.  The value is computed before the object is looked up. *)
  Definition hedit_run (d : hv) (M : mem) (e : hedit) : bool * mem :=
    match e with
    | HAttr p name h => match hpath M p d with Some (HL l) => let (M', b) := hassign E verdict M l name h in (b, M') | _ => (false, M) end
    | HSet p k s => let (M1, r) := supply s M in match r with Some h => at_object M1 d p (fun l => hset M1 l k h) | None => (false, M1) end
    | HDel p k => at_object M d p (fun l => hdel M l k)
    | HAppend p s => let (M1, r) := supply s M in match r with Some h => at_object M1 d p (fun l => happend M1 l h) | None => (false, M1) end
    end.
  (** Exceptions are caught by the caller, who goes on. *)
  Fixpoint hedits (d : hv) (M : mem) (es : list hedit) : list bool * mem :=
    match es with
    | [] => ([], M)
    | e :: r => let (b, M1) := hedit_run d M e in let (bs, M2) := hedits d M1 r in (b :: bs, M2)
    end.
End Run.
