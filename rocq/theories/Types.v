(** The annotation language of the models, as finite trees (the class graph of the
    repository is acyclic, so classes can be inlined). *)
From Verif Require Import PyStr Value.

(** extra="allow" with the x- rule (ExtendableBaseModel, models/base_models.py:17-54),
    extra="forbid" (NonExtendableBaseModel, :57-72), extra="allow" without a rule
    (Schema schema.py:17, MultiFormatSchema schema.py:103, KafkaTopicConfiguration
    bindings/kafka.py:63). *)
Inductive kind := KExt | KForbid | KFree.

(** The field validators (decorator field_validator) of the repository; see Rules.v. *)
Inductive fvalidator :=
| FvNone | FvVersion | FvRuntimeExpr | FvNonNeg | FvPositive | FvHeartBeat | FvMaxMsg | FvPriority.

Record finfo := {
  f_name : pystr;            (* Python attribute name *)
  f_alias : pystr;           (* alias, or the name when there is none *)
  f_def : option pv;         (* Field(default=...); None: required *)
  f_exnull : bool;           (* exclude_if=is_null *)
  f_excl : bool;             (* exclude=True *)
  f_val : fvalidator
}.

Inductive ty :=
| TAny
| TStr (maxlen : option N)
| TEmail
| TInt
| TBool
| TUrl (http_only : bool)
| TLitS (l : list pystr)
| TLitI (l : list Z)
| TList (t : ty)
| TDict (t : ty)
| TOpt (t : ty)
| TUnion (ts : list ty)
| TProcs
| TModel (c : string) (k : kind) (fs : list (finfo * ty))
| TRoot (c : string) (t : ty).

Section TyInd.
  Variable P : ty -> Prop.
  Hypothesis HAny : P TAny.
  Hypothesis HStr : forall m, P (TStr m).
  Hypothesis HEmail : P TEmail.
  Hypothesis HInt : P TInt.
  Hypothesis HBool : P TBool.
  Hypothesis HUrl : forall b, P (TUrl b).
  Hypothesis HLitS : forall l, P (TLitS l).
  Hypothesis HLitI : forall l, P (TLitI l).
  Hypothesis HList : forall t, P t -> P (TList t).
  Hypothesis HDict : forall t, P t -> P (TDict t).
  Hypothesis HOpt : forall t, P t -> P (TOpt t).
  Hypothesis HUnion : forall ts, Forall P ts -> P (TUnion ts).
  Hypothesis HProcs : P TProcs.
  Hypothesis HModel : forall c k fs, Forall (fun ft => P (snd ft)) fs -> P (TModel c k fs).
  Hypothesis HRoot : forall c t, P t -> P (TRoot c t).
  Fixpoint ty_ind' (t : ty) : P t :=
    match t with
    | TAny => HAny | TStr m => HStr m | TEmail => HEmail | TInt => HInt | TBool => HBool
    | TUrl b => HUrl b | TLitS l => HLitS l | TLitI l => HLitI l
    | TList t => HList t (ty_ind' t)
    | TDict t => HDict t (ty_ind' t)
    | TOpt t => HOpt t (ty_ind' t)
    | TUnion ts => HUnion ts ((fix go (l : list ty) := match l return Forall P l with [] => Forall_nil _ | x :: r => Forall_cons x (ty_ind' x) (go r) end) ts)
    | TProcs => HProcs
    | TModel c k fs => HModel c k fs
        ((fix go (l : list (finfo * ty)) := match l return Forall (fun ft => P (snd ft)) l with
          [] => Forall_nil _ | x :: r => Forall_cons x (ty_ind' (snd x)) (go r) end) fs)
    | TRoot c t => HRoot c t (ty_ind' t)
    end.
End TyInd.

(** Constructors used by the generated class table. *)
Definition fld (name alias : string) (d : option pv) (exn exc : bool) (v : fvalidator) : finfo :=
  {| f_name := u name; f_alias := u alias; f_def := d; f_exnull := exn; f_excl := exc; f_val := v |}.
