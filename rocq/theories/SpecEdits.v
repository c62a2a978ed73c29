(** Specification for C94: the same edits on a document read as a tree (a value without identity). *)
From Verif Require Import PyStr Value Types Rules Pydantic ClassTable Classes State Heap SpecHeap Edits.

Inductive psource := PGiven (w : pv) | PMade (t : ty) (w : pv).
Inductive pedit :=
| PAttr (p : list pstep) (name : pystr) (w : pv)
| PSet (p : list pstep) (k : pystr) (s : psource)
| PDel (p : list pstep) (k : pystr)
| PAppend (p : list pstep) (s : psource).
Definition set_item (k : pystr) (w o : pv) : bool * pv :=
  match o with VRoot c d => (true, VRoot c (dict_set k w d)) | VDict d => (true, VDict (dict_set k w d)) | _ => (false, o) end.
Definition del_item (k : pystr) (o : pv) : bool * pv :=
  match o with
  | VRoot c d => if has_key k d then (true, VRoot c (dict_del k d)) else (false, o)
  | VDict d => if has_key k d then (true, VDict (dict_del k d)) else (false, o)
  | _ => (false, o)
  end.
Definition append_item (w o : pv) : bool * pv := match o with VList l => (true, VList (l ++ [w])) | _ => (false, o) end.
Section Tree.
  Context (E : env) (procs : pv -> bool * pv).
  Definition supplied (s : psource) : option pv := match s with PGiven w => Some w | PMade t w => parse E t w end.
  (** the part at the end of the path is replaced by what the operation makes of it; a path that does not exist raises *)
  Definition on_part (p : list pstep) (f : pv -> bool * pv) (v : pv) : bool * pv := match at_path p f v with Some r => r | None => (false, v) end.
  Definition pedit_run (v : pv) (e : pedit) : bool * pv :=
    match e with
    | PAttr p name w => on_part p (fun o => assign E procs o name w) v
    | PSet p k s => match supplied s with Some w => on_part p (set_item k w) v | None => (false, v) end
    | PDel p k => on_part p (del_item k) v
    | PAppend p s => match supplied s with Some w => on_part p (append_item w) v | None => (false, v) end
    end.
  Fixpoint pedits (v : pv) (es : list pedit) : list bool * pv :=
    match es with
    | [] => ([], v)
    | e :: r => let (b, v1) := pedit_run v e in let (bs, v2) := pedits v1 r in (b :: bs, v2)
    end.
End Tree.

(** [stands_for]: the same edit; the values are among the objects [old] (which nobody changes) and read alike. *)
Section Stand.
  Context (M : mem) (old : nat -> Prop).
  Definition value_for (h : hv) (w : pv) : Prop := among old h /\ reads M h w.
  Inductive source_for : source -> psource -> Prop :=
  | sf_given h w : value_for h w -> source_for (Given h) (PGiven w)
  | sf_made t h w : In t all_types -> value_for h w -> source_for (Made t h) (PMade t w).
  Inductive stands_for : hedit -> pedit -> Prop :=
  | st_attr p n h w : value_for h w -> stands_for (HAttr p n h) (PAttr p n w)
  | st_set p k s s' : source_for s s' -> stands_for (HSet p k s) (PSet p k s')
  | st_del p k : stands_for (HDel p k) (PDel p k)
  | st_append p s s' : source_for s s' -> stands_for (HAppend p s) (PAppend p s').
End Stand.
(** The object whose contents an edit replaces. *)
Definition edits_at (M : mem) (d : hv) (e : hedit) (a : nat) : Prop :=
  match e with
  | HAttr p _ _ | HAppend p _ => hpath M p d = Some (HL a)
  | HSet p _ _ | HDel p _ => exists l, hpath M p d = Some (HL l) /\ a = content M l
  end.
(** No edit of the history is made to an object satisfying [old]. *)
Fixpoint spares (E : env) (verdict : mem -> nat -> bool) (d : hv) (old : nat -> Prop) (M : mem) (es : list hedit) : Prop :=
  match es with
  | [] => True
  | e :: r => (forall a, edits_at M d e a -> ~ old a) /\ spares E verdict d old (snd (hedit_run E verdict d M e)) r
  end.
