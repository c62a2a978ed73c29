(** Look-up in the generated class table and the static facts about it that the proofs use,
    all checked by computation over the whole (finite) table. *)
From Verif Require Import PyStr Regex Value Types Rules Pydantic ClassTable.

Fixpoint find_class (c : string) (l : list ty) : option (kind * list (finfo * ty)) :=
  match l with
  | [] => None
  | TModel c' k fs :: r => if String.eqb c c' then Some (k, fs) else find_class c r
  | _ :: r => find_class c r
  end.
(** type(obj).model_fields *)
Definition class_fields (c : string) : list (finfo * ty) :=
  match find_class c all_types with Some (_, fs) => fs | None => [] end.
Definition class_infos (c : string) : list finfo := map fst (class_fields c).
Definition class_kind (c : string) : kind :=
  match find_class c all_types with Some (k, _) => k | None => KForbid end.

Fixpoint nodupb (l : list pystr) : bool :=
  match l with [] => true | x :: r => negb (mem_str x r) && nodupb r end.
Lemma nodupb_NoDup l : nodupb l = true <-> NoDup l.
Proof.
  induction l as [|x l IH]; simpl; [split; [constructor|reflexivity]|].
  rewrite andb_true_iff, negb_true_iff, mem_str_not_In, IH. split.
  - intros [H1 H2]. constructor; assumption.
  - inversion 1; auto.
Qed.

(** Python name and alias of every field, aliases only when different. *)
Definition field_keys (fi : finfo) : list pystr :=
  if str_eqb (f_name fi) (f_alias fi) then [f_name fi] else [f_name fi; f_alias fi].
Definition all_keys (fs : list finfo) : list pystr := flat_map field_keys fs.

Definition fvalidator_eqb (a b : fvalidator) : bool :=
  match a, b with
  | FvNone, FvNone | FvVersion, FvVersion | FvRuntimeExpr, FvRuntimeExpr | FvNonNeg, FvNonNeg
  | FvPositive, FvPositive | FvHeartBeat, FvHeartBeat | FvMaxMsg, FvMaxMsg | FvPriority, FvPriority => true
  | _, _ => false
  end.
Definition kind_eqb (a b : kind) : bool :=
  match a, b with KExt, KExt | KForbid, KForbid | KFree, KFree => true | _, _ => false end.

(** Defaults are values the field's own annotation and validator would accept. *)
Definition default_ok (fi : finfo) (t : ty) : bool :=
  match f_def fi with
  | None => true
  | Some VNone => match t with TOpt _ => true | _ => false end
                  && negb (fvalidator_eqb (f_val fi) FvVersion) && negb (fvalidator_eqb (f_val fi) FvRuntimeExpr)
  | Some (VStr s) =>
      match t with
      | TStr None => fvalidator_eqb (f_val fi) FvNone
                     || (fvalidator_eqb (f_val fi) FvVersion && str_eqb s (u "3.0.0"))
      | TLitS l | TOpt (TLitS l) => mem_str s l && fvalidator_eqb (f_val fi) FvNone
      | _ => false
      end
  | Some (VBool _) => match t with TBool => fvalidator_eqb (f_val fi) FvNone | _ => false end
  | Some (VInt _) => match t with TInt | TOpt TInt => fvalidator_eqb (f_val fi) FvNone | _ => false end
  | Some _ => false
  end.

(** Shapes of values, to tell union members apart. *)
Inductive shape := SNone | SBool | SInt | SFloat | SStr | SUrl | SList | SDict | SObj (c : string) | SRoot (c : string) | SOther.
Definition vshape (v : pv) : shape :=
  match v with
  | VNone => SNone | VBool _ => SBool | VInt _ => SInt | VFloat _ => SFloat | VStr _ => SStr
  | VUrl _ => SUrl | VList _ => SList | VDict _ => SDict | VObj c _ _ => SObj c | VRoot c _ => SRoot c
  | VProc _ | VOpaque _ => SOther
  end.
(** shapes an annotation may accept *)
Fixpoint in_ok (t : ty) (s : shape) : bool :=
  match t with
  | TAny => true
  | TStr _ | TEmail | TLitS _ => match s with SStr => true | _ => false end
  | TInt => match s with SInt | SBool | SStr | SFloat => true | _ => false end
  | TBool => match s with SInt | SBool | SStr | SFloat => true | _ => false end
  | TUrl _ => match s with SStr | SUrl => true | _ => false end
  | TLitI _ => match s with SInt => true | _ => false end
  | TList _ | TProcs => match s with SList => true | _ => false end
  | TDict _ => match s with SDict => true | _ => false end
  | TOpt t' => match s with SNone => true | _ => in_ok t' s end
  | TUnion ts => existsb (fun t' => in_ok t' s) ts
  | TModel c _ _ => match s with SDict => true | SObj c' => String.eqb c c' | _ => false end
  | TRoot c _ => match s with SDict => true | SRoot c' => String.eqb c c' | _ => false end
  end.
(** shape of the validated value of a (non-nested) union member *)
Definition out_shape (t : ty) : option shape :=
  match t with
  | TStr _ => Some SStr | TInt => Some SInt | TList _ => Some SList | TDict _ => Some SDict
  | TModel c _ _ => Some (SObj c) | _ => None
  end.
Definition is_dict_any (t : ty) : bool := match t with TDict TAny => true | _ => false end.
(** member [ti]'s results are never accepted by [tj] *)
Definition rejects (tj ti : ty) : bool :=
  match out_shape ti with Some s => negb (in_ok tj s) | None => false end.
(** a union whose members' results are told apart; a final dict[str, Any] is allowed *)
Fixpoint union_ok (ts : list ty) : bool :=
  match ts with
  | [] => true
  | t :: r => forallb (fun t' => rejects t' t && (rejects t t' || is_dict_any t')) r && union_ok r
  end.
Definition infos_match (a b : list finfo) : bool :=
  (fix go a b := match a, b with
    | [], [] => true
    | x :: a', y :: b' =>
        str_eqb (f_name x) (f_name y) && str_eqb (f_alias x) (f_alias y)
        && eqb (f_exnull x) (f_exnull y) && eqb (f_excl x) (f_excl y) && go a' b'
    | _, _ => false end) a b.

Definition model_ok (c : string) (k : kind) (fs : list (finfo * ty)) : bool :=
  nodupb (all_keys (map fst fs))
  && forallb (fun key => negb (starts_with (u "x-") key)) (all_keys (map fst fs))
  && forallb (fun ft => default_ok (fst ft) (snd ft)) fs
  && infos_match (map fst fs) (class_infos c) && kind_eqb k (class_kind c).

Fixpoint wf_ty (t : ty) : bool :=
  match t with
  | TList t' | TDict t' | TOpt t' | TRoot _ t' => wf_ty t'
  | TUnion ts => union_ok ts && forallb wf_ty ts
  | TModel c k fs => model_ok c k fs && forallb (fun ft => wf_ty (snd ft)) fs
  | _ => true
  end.

(** Every class of the repository is well formed. *)
Lemma all_types_wf : forallb wf_ty all_types = true.
Proof. vm_compute. reflexivity. Qed.
Lemma wf_all t : In t all_types -> wf_ty t = true.
Proof. intros H. exact (proj1 (forallb_forall _ _) all_types_wf t H). Qed.
