(** a == b on values and instances.  Trusted reading of pydantic: BaseModel.__eq__ compares the type, the field dictionary and the extra data (private
    attributes: none are declared); RootModel.__eq__ the same with the root; URLs are equal to URLs with the same text, not to strings.
    Python: dicts are equal if they have the same keys with equal values, in any order; True == 1 == 1.0.
    [fnum]: the value of a float, an integer or else a text that identifies it.  Simplification: no NaN (not equal to itself unless it is the same object). *)
From Verif Require Import PyStr Value Rules Pydantic.

Section Eq.
  Context (fnum : pystr -> Z + pystr).
  Definition number (v : pv) : option (Z + pystr) :=
    match v with
    | VBool b => Some (inl (if b then 1 else 0)%Z)
    | VInt z => Some (inl z)
    | VFloat t => Some (fnum t)
    | _ => None
    end.
  Definition num_eqb (a b : Z + pystr) : bool :=
    match a, b with inl x, inl y => Z.eqb x y | inr x, inr y => str_eqb x y | _, _ => false end.
  Definition list_eq (eq : pv -> pv -> bool) : list pv -> list pv -> bool :=
    fix go l l' := match l, l' with
      | [], [] => true
      | x :: r, x' :: r' => eq x x' && go r r'
      | _, _ => false
      end.
  (** len(d) == len(e) and all(k in e and d[k] == e[k] for k in d) *)
  Definition entries_eq (eq : pv -> pv -> bool) (e : fields) : fields -> bool :=
    fix go d := match d with
      | [] => true
      | (k, x) :: r => match assoc k e with Some y => eq x y | None => false end && go r
      end.
  Definition dict_eq (eq : pv -> pv -> bool) (d e : fields) : bool := Nat.eqb (length d) (length e) && entries_eq eq e d.
  Fixpoint py_eq (a b : pv) {struct a} : bool :=
    match a, b with
    | VNone, VNone => true
    | VStr s, VStr s' => str_eqb s s'
    | VUrl s, VUrl s' => str_eqb s s'
    | VList l, VList l' => list_eq py_eq l l'
    | VDict d, VDict d' => dict_eq py_eq d d'
    | VObj c fv ex, VObj c' fv' ex' => String.eqb c c' && dict_eq py_eq fv fv' && dict_eq py_eq ex ex'
    | VRoot c d, VRoot c' d' => String.eqb c c' && dict_eq py_eq d d'
    | VProc n, VProc n' => str_eqb n n'
    | VOpaque t, VOpaque t' => str_eqb t t'
    | (VBool _ | VInt _ | VFloat _), (VBool _ | VInt _ | VFloat _) =>
        match number a, number b with Some x, Some y => num_eqb x y | _, _ => false end
    | _, _ => false
    end.
End Eq.
