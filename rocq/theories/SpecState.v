(** Specification vocabulary for mutation. *)
From Verif Require Import PyStr Value Types Rules Pydantic ClassTable Classes SpecParse State.

(** ** Insertion-ordered maps, by history *)
Inductive event := Wrote (k : pystr) (v : pv) | Deleted (k : pystr).
Definition about (k : pystr) (e : event) : Prop := match e with Wrote k' _ => k' = k | Deleted k' => k' = k end.
(** the last event about [k] wrote [v] *)
Definition holds (h : list event) (k : pystr) (v : pv) : Prop :=
  exists h1 h2, h = h1 ++ Wrote k v :: h2 /\ Forall (fun e => ~ about k e) h2.
Definition absent (h : list event) (k : pystr) : Prop := forall v, ~ holds h k v.
(** [k] was inserted at time [n] and has been present since *)
Definition since (h : list event) (k : pystr) (n : nat) : Prop :=
  exists h1 h2 v, h = h1 ++ Wrote k v :: h2 /\ length h1 = n /\ absent h1 k /\ ~ In (Deleted k) h2.
(** [l] lists the present keys, each once, oldest insertion first *)
Definition keys_in_order (h : list event) (l : list pystr) : Prop :=
  NoDup l /\ (forall k, In k l <-> exists v, holds h k v)
  /\ (forall l1 a l2 b l3 i j, l = l1 ++ a :: l2 ++ b :: l3 -> since h a i -> since h b j -> i < j)
  /\ (forall k, In k l -> exists n, since h k n).
Definition observes (h : list event) (o : rop) (r : rres) : Prop :=
  match o with
  | RGet k => (exists v, holds h k v /\ r = RVal v) \/ (absent h k /\ r = RKeyError)
  | RSet _ _ => r = ROk
  | RDel k => ((exists v, holds h k v) /\ r = ROk) \/ (absent h k /\ r = RKeyError)
  | RHas k => exists b, r = RBool b /\ (b = true <-> exists v, holds h k v)
  | RLen => exists l, keys_in_order h l /\ r = RNat (length l)
  | RIter => exists l, keys_in_order h l /\ r = RKeys l
  end.
Definition record (h : list event) (o : rop) : list event :=
  match o with RSet k v => h ++ [Wrote k v] | RDel k => h ++ [Deleted k] | _ => h end.
Fixpoint observations (h : list event) (ops : list rop) (rs : list rres) : Prop :=
  match ops, rs with
  | [], [] => True
  | o :: ops', r :: rs' => observes h o r /\ observations (record h o) ops' rs'
  | _, _ => False
  end.

(** ** Typed values: every declared field of every object holds a value of its declared type that
    satisfies the field's own rule; closed objects have no extra data and extendable objects no
    extra data under the name of a declared field.  (Nothing about rules
    relating several fields, and nothing about the keys of maps.) *)
Section WellTyped.
  Context (E : env).
  Definition wt_fields (wt : ty -> pv -> Prop) : list (finfo * ty) -> fields -> Prop :=
    fix go fs fv := match fs, fv with
      | [], [] => True
      | (fi, t) :: fs', (k, v) :: fv' => k = f_name fi /\ wt t v /\ field_rule E (f_val fi) v /\ go fs' fv'
      | _, _ => False
      end.
  Definition wt_one (wt : ty -> Prop) : list ty -> Prop :=
    fix go ts := match ts with [] => False | t :: r => wt t \/ go r end.
  Fixpoint well_typed (t : ty) (v : pv) {struct t} : Prop :=
    match t with
    | TAny => True
    | TStr m => exists s, v = VStr s /\ forall n, m = Some n -> (N.of_nat (length s) <= n)%N
    | TEmail => exists s, v = VStr s /\ email_spec s
    | TInt => exists z, v = VInt z
    | TBool => exists b, v = VBool b
    | TUrl h => exists s s0, v = VUrl s /\ e_url E h s0 = Some s
    | TLitS l => exists s, v = VStr s /\ In s l
    | TLitI l => exists z, v = VInt z /\ In z l
    | TList t' => exists l, v = VList l /\ Forall (well_typed t') l
    | TDict t' => exists d, v = VDict d /\ Forall (fun kv => well_typed t' (snd kv)) d
    | TOpt t' => v = VNone \/ well_typed t' v
    | TUnion ts => wt_one (fun t' => well_typed t' v) ts
    | TProcs => exists l, v = VList l /\ Forall (fun x => exists n, x = VProc n) l
    | TModel c k fs => exists fv ex, v = VObj c fv ex /\ wt_fields well_typed fs fv
        /\ (k = KForbid -> ex = [])
        /\ (k = KExt -> forall fi t', In (fi, t') fs -> ~ In (f_name fi) (map fst ex))
    | TRoot c t' => exists d, v = VRoot c d /\ Forall (fun kv => well_typed t' (snd kv)) d
    end.
End WellTyped.

(** The object a path leads to. *)
Fixpoint get_path (p : list pstep) (v : pv) : option pv :=
  match p with
  | [] => Some v
  | s :: p' =>
      match s, v with
      | PField n, VObj _ fv _ => match assoc n fv with Some x => get_path p' x | None => None end
      | PExtra n, VObj _ _ ex => match assoc n ex with Some x => get_path p' x | None => None end
      | PKey n, VDict d | PKey n, VRoot _ d => match assoc n d with Some x => get_path p' x | None => None end
      | PIdx i, VList l => match nth_error l i with Some x => get_path p' x | None => None end
      | _, _ => None
      end
  end.
(** The assignment does not hit a free-form object (Schema, MultiFormatSchema,
    KafkaTopicConfiguration) that carries extra data under the name of a declared field. *)
Definition not_shadowed (o : pv) : Prop :=
  forall c fv ex fi t, o = VObj c fv ex -> class_kind c = KFree -> In (fi, t) (class_fields c) -> ~ In (f_name fi) (map fst ex).
Fixpoint never_shadowed (E : env) (procs : pv -> bool * pv) (l : list assignment) (v : pv) : Prop :=
  match l with
  | [] => True
  | a :: l' =>
      (forall o, get_path (as_path a) v = Some o -> not_shadowed o)
      /\ never_shadowed E procs l' (match assign_at E procs a v with Some (_, v') => v' | None => v end)
  end.
(** Processors change the document in place: it stays the same instance, and they are assumed to leave
    typed documents typed (the bundled validators change nothing, C41). *)
Definition keeps (E : env) (procs : pv -> bool * pv) : Prop :=
  (forall c fv ex, exists fv' ex', snd (procs (VObj c fv ex)) = VObj c fv' ex')
  /\ (forall o, well_typed E T_AsyncAPI3 o -> well_typed E T_AsyncAPI3 (snd (procs o))).

(** ** Contents of a value *)
Inductive within (x : pv) : pv -> Prop :=
| w_self : within x x
| w_list l y : In y l -> within x y -> within x (VList l)
| w_dict d k y : In (k, y) d -> within x y -> within x (VDict d)
| w_field c fv ex k y : In (k, y) fv -> within x y -> within x (VObj c fv ex)
| w_extra c fv ex k y : In (k, y) ex -> within x y -> within x (VObj c fv ex)
| w_root c d k y : In (k, y) d -> within x y -> within x (VRoot c d).
(** Python dictionaries have distinct keys. *)
Definition own_keys_distinct (x : pv) : Prop :=
  match x with
  | VDict d | VRoot _ d => NoDup (map fst d)
  | VObj _ fv ex => NoDup (map fst fv) /\ NoDup (map fst ex)
  | _ => True
  end.
Definition python_dicts (v : pv) : Prop := forall x, within x v -> own_keys_distinct x.
(** No free-form object in the value carries an extra key spelled like one of its declared fields. *)
Definition no_shadowing (v : pv) : Prop :=
  forall c fv ex k, within (VObj c fv ex) v -> class_kind c = KFree -> In k (map fst ex) -> ~ declared (class_fields c) k.

(** Classes with a rule relating several fields. *)
Definition cross_field_classes : list string :=
  ["Channel"; "MessageExample"; "OAuthFlows"; "SecurityScheme"; "AMQPChannelBindings"; "IBMMQChannelBindings";
   "IBMMQMessageBindings"; "KafkaServerBindings"; "SolaceDestination"]%string.
