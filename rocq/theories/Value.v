(** Python values handled by the library, and the oracle environment. *)
From Verif Require Import PyStr.

(** Values.  [VDict] is a dict with string keys in insertion order; [VObj c fs ex] is an
    instance of the pydantic model class [c] with field values [fs] (Python field names, in
    declaration order) and extra data [ex] (model_extra, insertion order); [VRoot c d] is an
    instance of a PatternedRootModel subclass [c] whose [root] is [d]
    (models/base_models.py:75); [VProc n] is a processor class (protocols.py:13-28);
    [VFloat] and [VOpaque] are opaque tokens ([VOpaque]: bytes, dates, mappings with
    non-string keys, ... : accepted only where the annotation is Any); [VUrl] is a pydantic
    URL object. *)
Inductive pv :=
| VNone
| VBool (b : bool)
| VInt (z : Z)
| VFloat (tok : pystr)
| VStr (s : pystr)
| VUrl (s : pystr)
| VList (l : list pv)
| VDict (d : list (pystr * pv))
| VObj (c : string) (fs ex : list (pystr * pv))
| VRoot (c : string) (d : list (pystr * pv))
| VProc (n : pystr)
| VOpaque (tok : pystr).

Section PvInd.
  Variable P : pv -> Prop.
  Hypothesis HNone : P VNone.
  Hypothesis HBool : forall b, P (VBool b).
  Hypothesis HInt : forall z, P (VInt z).
  Hypothesis HFloat : forall t, P (VFloat t).
  Hypothesis HStr : forall s, P (VStr s).
  Hypothesis HUrl : forall s, P (VUrl s).
  Hypothesis HList : forall l, Forall P l -> P (VList l).
  Hypothesis HDict : forall d, Forall (fun kv => P (snd kv)) d -> P (VDict d).
  Hypothesis HObj : forall c fs ex, Forall (fun kv => P (snd kv)) fs ->
                     Forall (fun kv => P (snd kv)) ex -> P (VObj c fs ex).
  Hypothesis HRoot : forall c d, Forall (fun kv => P (snd kv)) d -> P (VRoot c d).
  Hypothesis HProc : forall n, P (VProc n).
  Hypothesis HOpaque : forall t, P (VOpaque t).
  Fixpoint pv_ind' (v : pv) : P v :=
    match v with
    | VNone => HNone
    | VBool b => HBool b
    | VInt z => HInt z
    | VFloat t => HFloat t
    | VStr s => HStr s
    | VUrl s => HUrl s
    | VList l => HList l ((fix go (l : list pv) := match l return Forall P l with [] => Forall_nil _ | x :: r => Forall_cons x (pv_ind' x) (go r) end) l)
    | VDict d => HDict d ((fix go (d : list (pystr * pv)) := match d return Forall (fun kv => P (snd kv)) d with
                           [] => Forall_nil _ | kv :: r => Forall_cons kv (pv_ind' (snd kv)) (go r) end) d)
    | VObj c fs ex =>
        HObj c fs ex
          ((fix go (d : list (pystr * pv)) := match d return Forall (fun kv => P (snd kv)) d with
             [] => Forall_nil _ | kv :: r => Forall_cons kv (pv_ind' (snd kv)) (go r) end) fs)
          ((fix go (d : list (pystr * pv)) := match d return Forall (fun kv => P (snd kv)) d with
             [] => Forall_nil _ | kv :: r => Forall_cons kv (pv_ind' (snd kv)) (go r) end) ex)
    | VRoot c d => HRoot c d ((fix go (d : list (pystr * pv)) := match d return Forall (fun kv => P (snd kv)) d with
                           [] => Forall_nil _ | kv :: r => Forall_cons kv (pv_ind' (snd kv)) (go r) end) d)
    | VProc n => HProc n
    | VOpaque t => HOpaque t
    end.
End PvInd.

(** Facts about the Python runtime that are not fixed by the model.  All theorems quantify
    over every [env]. *)
Record env := {
  e_digit : N -> option N;   (* value of a non-ASCII decimal digit (category Nd), None otherwise *)
  e_word : N -> bool;        (* is a non-ASCII code point a regex word character *)
  e_int : pv -> option Z;    (* pydantic lax conversion to int of a str / float / bool *)
  e_bool : pv -> option bool;(* pydantic lax conversion to bool of an int / str / float *)
  e_url : bool -> pystr -> option pystr  (* URL parsing and normalisation; true: http(s) only *)
}.

(** \d of Python's re on str: Unicode decimal digits *)
Definition digit_val (E : env) (c : N) : option N :=
  if N.ltb c 128 then (if ascii_digit c then Some (c - 48)%N else None)
  else match e_digit E c with Some d => if N.ltb d 10 then Some d else None | None => None end.
Definition is_digit (E : env) (c : N) : bool :=
  match digit_val E c with Some _ => true | None => false end.
(** \w of Python's re on str *)
Definition is_word (E : env) (c : N) : bool :=
  if N.ltb c 128 then ascii_word c else e_word E c.

Definition is_none (v : pv) : bool := match v with VNone => true | _ => false end.
Lemma is_none_iff v : is_none v = true <-> v = VNone.
Proof. destruct v; simpl; split; congruence. Qed.
(** self.<field>: attribute access on the field dictionary (None when absent, which cannot
    happen for a constructed instance, see [validate_fields_names]) *)
Definition attr (f : pystr) (fs : list (pystr * pv)) : pv :=
  match assoc f fs with Some v => v | None => VNone end.
Definition is_str (s : pystr) (v : pv) : bool :=
  match v with VStr t => str_eqb s t | _ => false end.
Lemma is_str_iff s v : is_str s v = true <-> v = VStr s.
Proof.
  destruct v; simpl; try (split; congruence).
  rewrite str_eqb_eq. split; congruence.
Qed.
