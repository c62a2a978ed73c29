(** Sets of References ("deduplication in object managers", models/base.py:34-40; CHANGELOG.md #14).
    A Python set keeps with each element the hash it had when it was put in; an element is found if an entry has the hash the element has now and is
    the same object or equal to it (CPython; the probe order and resizing are left out, they do not change what is found). *)
From Verif Require Import PyStr Value Types Rules Pydantic ClassTable Classes State Resolve Equality.

(** Objects are numbered; a store gives their present values. *)
Definition store := nat -> pv.
Definition entry := (option Z * nat)%type.
Inductive op :=
| OAdd (l : nat)              (* s.add(r) *)
| ODiscard (l : nat)          (* s.discard(r) *)
| OAssign (l : nat) (x : pv). (* r.ref = x, whether or not it is refused *)

Section Dedup.
  (** The meaning of float tokens (for ==), hash(str), the oracles. *)
  Context (fnum : pystr -> Z + pystr) (h : pystr -> Z) (E : env).
  Definition hash_eqb (a b : option Z) : bool := match a, b with Some x, Some y => Z.eqb x y | _, _ => false end.
  Definition same_key (st : store) (l : nat) (e : entry) : bool :=
    hash_eqb (fst e) (reference_hash h (st l)) && (Nat.eqb (snd e) l || py_eq fnum (st (snd e)) (st l)).
  (** r in s *)
  Definition contains (st : store) (s : list entry) (l : nat) : bool := existsb (same_key st l) s.
  Definition add (st : store) (s : list entry) (l : nat) : list entry := if contains st s l then s else s ++ [(reference_hash h (st l), l)].
  Fixpoint discard (st : store) (s : list entry) (l : nat) : list entry :=
    match s with [] => [] | e :: r => if same_key st l e then r else e :: discard st r l end.
  Definition assign_ref (st : store) (l : nat) (x : pv) : store :=
    fun l' => if Nat.eqb l' l then snd (assign E (fun o => (true, o)) (st l) (u "ref") x) else st l'.
  Definition step (w : store * list entry) (o : op) : store * list entry :=
    match o with
    | OAdd l => (fst w, add (fst w) (snd w) l)
    | ODiscard l => (fst w, discard (fst w) (snd w) l)
    | OAssign l x => (assign_ref (fst w) l x, snd w)
    end.
  Definition run (w : store * list entry) (os : list op) : store * list entry := fold_left step os w.
End Dedup.
