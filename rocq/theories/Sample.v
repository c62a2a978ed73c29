(** A concrete runtime environment and concrete documents for the non-vacuity examples. *)
From Verif Require Import PyStr Value Types Rules Pydantic.

(** ASCII only, no lax coercions, URLs kept as they are. *)
Definition E0 : env :=
  {| e_digit := fun _ => None; e_word := fun _ => false; e_int := fun _ => None;
     e_bool := fun _ => None; e_url := fun _ s => Some s |}.

Definition str (s : string) : pv := VStr (u s).
Definition obj (l : list (string * pv)) : pv := VDict (map (fun kv => (u (fst kv), snd kv)) l).
Definition ref (s : string) : pv := obj [("$ref", str s)]%string.
