(** The class table is closed: every class occurring inside an annotation is the class of that name
    in the table, so looking a class up by the name an instance carries gives its own fields. *)
From Verif Require Import PyStr Regex Value Types Rules Pydantic ClassTable Classes.

Definition def_eqb (a b : option pv) : bool :=
  match a, b with
  | None, None => true
  | Some VNone, Some VNone => true
  | Some (VBool x), Some (VBool y) => Bool.eqb x y
  | Some (VInt x), Some (VInt y) => Z.eqb x y
  | Some (VStr x), Some (VStr y) => str_eqb x y
  | _, _ => false
  end.
Definition finfo_eqb (a b : finfo) : bool :=
  str_eqb (f_name a) (f_name b) && str_eqb (f_alias a) (f_alias b) && def_eqb (f_def a) (f_def b)
  && Bool.eqb (f_exnull a) (f_exnull b) && Bool.eqb (f_excl a) (f_excl b) && fvalidator_eqb (f_val a) (f_val b).
Definition list_eqb {X} (eq : X -> X -> bool) : list X -> list X -> bool :=
  fix go a b := match a, b with
    | [], [] => true
    | x :: a', y :: b' => eq x y && go a' b'
    | _, _ => false end.
Definition optN_eqb (a b : option N) : bool :=
  match a, b with None, None => true | Some x, Some y => N.eqb x y | _, _ => false end.
Fixpoint ty_eqb (a b : ty) {struct a} : bool :=
  match a, b with
  | TAny, TAny | TEmail, TEmail | TInt, TInt | TBool, TBool | TProcs, TProcs => true
  | TStr m, TStr n => optN_eqb m n
  | TUrl x, TUrl y => Bool.eqb x y
  | TLitS l, TLitS m => list_eqb str_eqb l m
  | TLitI l, TLitI m => list_eqb Z.eqb l m
  | TList x, TList y | TDict x, TDict y | TOpt x, TOpt y => ty_eqb x y
  | TUnion l, TUnion m => list_eqb ty_eqb l m
  | TModel c k fs, TModel c' k' fs' =>
      String.eqb c c' && kind_eqb k k' &&
      (fix go (a b : list (finfo * ty)) := match a, b with
        | [], [] => true
        | (i, x) :: a', (j, y) :: b' => finfo_eqb i j && ty_eqb x y && go a' b'
        | _, _ => false end) fs fs'
  | TRoot c x, TRoot c' y => String.eqb c c' && ty_eqb x y
  | _, _ => false
  end.

Lemma list_eqb_eq {X} (eq : X -> X -> bool) a : (forall x y, In x a -> eq x y = true -> x = y) ->
  forall b, list_eqb eq a b = true -> a = b.
Proof.
  induction a as [|x a IH]; intros Heq [|y b] H; simpl in H; try discriminate; [reflexivity|].
  apply andb_prop in H as [H1 H2]. f_equal; [apply Heq; [left; reflexivity|exact H1]|].
  apply IH; [|exact H2]. intros; apply Heq; [right; assumption|assumption].
Qed.
Lemma def_eqb_eq a b : def_eqb a b = true -> a = b.
Proof.
  destruct a as [[]|], b as [[]|]; simpl; intros H; try discriminate; try reflexivity.
  - apply eqb_prop in H. congruence.
  - apply Z.eqb_eq in H. congruence.
  - apply str_eqb_eq in H. congruence.
Qed.
Lemma finfo_eqb_eq a b : finfo_eqb a b = true -> a = b.
Proof.
  unfold finfo_eqb. destruct a as [n1 a1 d1 x1 e1 v1], b as [n2 a2 d2 x2 e2 v2]; cbn [f_name f_alias f_def f_exnull f_excl f_val]. intros H.
  repeat (apply andb_prop in H as [H ?H]). apply str_eqb_eq in H, H4. apply def_eqb_eq in H3.
  apply eqb_prop in H2, H1. assert (v1 = v2) by (destruct v1, v2; try discriminate; reflexivity).
  congruence.
Qed.
Lemma ty_eqb_eq a : forall b, ty_eqb a b = true -> a = b.
Proof.
  induction a using ty_ind'; intros b' H1; destruct b'; cbn [ty_eqb] in H1; try discriminate; try reflexivity.
  - destruct m, maxlen; simpl in H1; try discriminate; [apply N.eqb_eq in H1; congruence|reflexivity].
  - apply eqb_prop in H1. congruence.
  - f_equal. apply list_eqb_eq in H1; [exact H1|]. intros; apply str_eqb_eq; assumption.
  - f_equal. apply list_eqb_eq in H1; [exact H1|]. intros; apply Z.eqb_eq; assumption.
  - f_equal. apply IHa. exact H1.
  - f_equal. apply IHa. exact H1.
  - f_equal. apply IHa. exact H1.
  - f_equal. rewrite Forall_forall in H. apply list_eqb_eq in H1; [exact H1|]. intros x y Hx. apply H; exact Hx.
  - apply andb_prop in H1 as [H1 H3]. apply andb_prop in H1 as [H1 H2].
    apply String.eqb_eq in H1. assert (k = k0) by (destruct k, k0; try discriminate; reflexivity). subst.
    f_equal. revert fs0 H3. induction fs as [|[i x] fs IH]; intros [|[j y] fs0] H3; try discriminate; [reflexivity|].
    apply andb_prop in H3 as [H3 H5]. apply andb_prop in H3 as [H3 H4]. inversion H; subst.
    f_equal; [|apply IH; assumption]. f_equal; [apply finfo_eqb_eq; exact H3|auto].
  - apply andb_prop in H1 as [H1 H2]. apply String.eqb_eq in H1. f_equal; auto.
Qed.

Fixpoint find_root (c : string) (l : list ty) : option ty :=
  match l with
  | [] => None
  | TRoot c' t :: r => if String.eqb c c' then Some t else find_root c r
  | _ :: r => find_root c r
  end.

(** All classes strictly inside an annotation agree with the table. *)
Fixpoint linked (t : ty) : bool :=
  match t with
  | TList t' | TDict t' | TOpt t' => linked t'
  | TUnion ts => forallb linked ts
  | TModel c k fs =>
      match find_class c all_types with
      | Some (k', fs') => ty_eqb (TModel c k fs) (TModel c k' fs')
      | None => false end && forallb (fun ft => linked (snd ft)) fs
  | TRoot c t' => match find_root c all_types with Some t'' => ty_eqb t' t'' | None => false end && linked t'
  | _ => true
  end.
Lemma all_types_linked : forallb linked all_types = true.
Proof. vm_compute. reflexivity. Qed.
Lemma linked_all t : In t all_types -> linked t = true.
Proof. intros H. exact (proj1 (forallb_forall _ _) all_types_linked t H). Qed.
Lemma linked_class c k fs : linked (TModel c k fs) = true -> find_class c all_types = Some (k, fs).
Proof.
  cbn [linked]. intros H. apply andb_prop in H as [H _].
  destruct (find_class c all_types) as [[k' fs']|]; [|discriminate].
  apply ty_eqb_eq in H. inversion H; reflexivity.
Qed.
Lemma linked_fields c k fs : linked (TModel c k fs) = true -> class_fields c = fs /\ class_kind c = k.
Proof. intros H. apply linked_class in H. unfold class_fields, class_kind. rewrite H. auto. Qed.
Lemma linked_root c t : linked (TRoot c t) = true -> find_root c all_types = Some t.
Proof.
  cbn [linked]. intros H. apply andb_prop in H as [H _].
  destruct (find_root c all_types) as [t'|]; [|discriminate]. apply ty_eqb_eq in H. congruence.
Qed.
Lemma find_class_In c k fs l : find_class c l = Some (k, fs) -> In (TModel c k fs) l.
Proof.
  induction l as [|t l IH]; simpl; [discriminate|].
  destruct t; try (intros H; right; apply IH; exact H).
  destruct (String.eqb_spec c c0) as [->|Hn]; [|intros H; right; apply IH; exact H].
  intros H; inversion H; subst. left; reflexivity.
Qed.
Lemma find_root_In c t l : find_root c l = Some t -> In (TRoot c t) l.
Proof.
  induction l as [|t' l IH]; simpl; [discriminate|].
  destruct t'; try (intros H; right; apply IH; exact H).
  destruct (String.eqb_spec c c0) as [->|Hn]; [|intros H; right; apply IH; exact H].
  intros H; inversion H; subst. left; reflexivity.
Qed.
Lemma linked_sub c k fs ft : linked (TModel c k fs) = true -> In ft fs -> linked (snd ft) = true.
Proof. cbn [linked]. intros H Hin. apply andb_prop in H as [_ H]. rewrite forallb_forall in H. apply H; exact Hin. Qed.
Lemma linked_root_sub c t : linked (TRoot c t) = true -> linked t = true.
Proof. cbn [linked]. intros H. apply andb_prop in H as [_ H]. exact H. Qed.
Lemma linked_union ts t : linked (TUnion ts) = true -> In t ts -> linked t = true.
Proof. cbn [linked]. intros H Hin. rewrite forallb_forall in H. apply H; exact Hin. Qed.
Lemma wf_sub c k fs ft : wf_ty (TModel c k fs) = true -> In ft fs -> wf_ty (snd ft) = true.
Proof. cbn [wf_ty]. intros H Hin. apply andb_prop in H as [_ H]. rewrite forallb_forall in H. apply H; exact Hin. Qed.
Lemma wf_union ts t : wf_ty (TUnion ts) = true -> In t ts -> wf_ty t = true.
Proof. cbn [wf_ty]. intros H Hin. apply andb_prop in H as [_ H]. rewrite forallb_forall in H. apply H; exact Hin. Qed.
