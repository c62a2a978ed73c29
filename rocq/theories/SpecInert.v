(** Data that carries no code: no class and no other Python object that is not data (C101). *)
From Verif Require Import PyStr Value SpecState.
(** [VProc]: a processor class; [VOpaque]: any other Python object.  Model instances of the library are allowed. *)
Definition inert (v : pv) : Prop := forall x, within x v -> match x with VProc _ | VOpaque _ => False | _ => True end.
