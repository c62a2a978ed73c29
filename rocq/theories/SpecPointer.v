(** JSON Pointer (RFC 6901), the way JSON References name a part of a document: models/base.py:18-29 ("defined by JSON
    Reference and follows the same structure, behavior and rules").  Written over plain data, without the resolver. *)
From Verif Require Import PyStr Value Types Rules SpecResolve.

Definition tilde : N := 126%N.
Definition percent : N := 37%N.
(** RFC 6901 section 4: "~1" stands for "/" and "~0" for "~". *)
Inductive unescaped : pystr -> pystr -> Prop :=
| un_nil : unescaped [] []
| un_slash w w' : unescaped w w' -> unescaped (tilde :: 49%N :: w) (slash :: w')
| un_tilde w w' : unescaped w w' -> unescaped (tilde :: 48%N :: w) (tilde :: w')
| un_char c w w' : c <> tilde -> unescaped w w' -> unescaped (c :: w) (c :: w').
(** Section 3: a pointer is a sequence of tokens, each prefixed by a slash. *)
Inductive pointer : pystr -> list pystr -> Prop :=
| ptr_end : pointer [] []
| ptr_token w w' s l : ~ In slash w -> unescaped w w' -> pointer s l -> pointer (slash :: w ++ s) (w' :: l).
(** Section 4: members of objects by name, elements of arrays by position. *)
Inductive at_pointer : pv -> list pystr -> pv -> Prop :=
| at_here j : at_pointer j [] j
| at_member d k x l j : assoc k d = Some x -> at_pointer x l j -> at_pointer (VDict d) (k :: l) j
| at_element xs i x l j : nth_error xs i = Some x -> at_pointer x l j -> at_pointer (VList xs) (str_of_nat i :: l) j.
(** Section 6: "#" and the pointer (strings without percent-encoding). *)
Definition fragment (s : pystr) (l : list pystr) : Prop := exists p, s = u "#" ++ p /\ ~ In percent p /\ pointer p l.
(** A JSON Reference object. *)
Definition json_reference (j : pv) (s : pystr) : Prop := j = VDict [(u "$ref", VStr s)].

(** Tokens that need no escaping. *)
Definition ordinary (l : list pystr) : Prop := Forall (fun w => w <> [] /\ ~ In slash w /\ ~ In tilde w /\ ~ In percent w) l.
