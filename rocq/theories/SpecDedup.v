(** Specification for C106: a set of strings. *)
From Verif Require Import PyStr Value Types Rules Pydantic ClassTable Classes SpecParse State SpecState Resolve SpecResolve Equality Dedup.

(** The strings in the set, each once, in the order in which they came in. *)
Inductive strings_after (fnum : pystr -> Z + pystr) (h : pystr -> Z) (E : env) (w : store * list entry) : list op -> list pystr -> Prop :=
| sa_none : strings_after fnum h E w [] []
| sa_new os S l s : strings_after fnum h E w os S -> is_reference (fst (run fnum h E w os) l) s -> ~ In s S -> strings_after fnum h E w (os ++ [OAdd l]) (S ++ [s])
| sa_old os S l s : strings_after fnum h E w os S -> is_reference (fst (run fnum h E w os) l) s -> In s S -> strings_after fnum h E w (os ++ [OAdd l]) S
| sa_discard os S l s S1 S2 : strings_after fnum h E w os S -> is_reference (fst (run fnum h E w os) l) s -> S = S1 ++ s :: S2 -> strings_after fnum h E w (os ++ [ODiscard l]) (S1 ++ S2)
| sa_absent os S l s : strings_after fnum h E w os S -> is_reference (fst (run fnum h E w os) l) s -> ~ In s S -> strings_after fnum h E w (os ++ [ODiscard l]) S
| sa_assign os S l x : strings_after fnum h E w os S -> strings_after fnum h E w (os ++ [OAssign l x]) S.

(** Every object of the store is a valid Reference; nothing is assigned to an object while it is in the set. *)
Definition all_references (E : env) (st : store) : Prop := forall l, well_typed E T_Reference (st l).
Definition left_alone (fnum : pystr -> Z + pystr) (h : pystr -> Z) (E : env) (w : store * list entry) (os : list op) : Prop :=
  forall pre l x post, os = pre ++ OAssign l x :: post -> ~ In l (map snd (snd (run fnum h E w pre))).
