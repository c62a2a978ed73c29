(** Specification for C97: the rules a value that meets the published schema can still break. *)
From Verif Require Import PyStr Value Types Rules Pydantic ClassTable SpecParse JsonSchema SpecJsonSchema.

Inductive broken (E : env) (root : fields) : ty -> pv -> Prop :=
(** not an e-mail address (C04), not a URL *)
| b_email s : ~ email_spec s -> broken E root TEmail (VStr s)
| b_url h s : e_url E h s = None -> broken E root (TUrl h) (VStr s)
(** a part breaks a rule *)
| b_item t l x : In x l -> broken E root t x -> broken E root (TList t) (VList l)
| b_entry t d k x : In (k, x) d -> broken E root t x -> broken E root (TDict t) (VDict d)
| b_value c t d k x : In (k, x) d -> broken E root t x -> broken E root (TRoot c t) (VDict d)
| b_field c k fs d fi t x : In (fi, t) fs -> In (f_alias fi, x) d -> broken E root t x -> broken E root (TModel c k fs) (VDict d)
| b_opt t v : v <> VNone -> broken E root t v -> broken E root (TOpt t) v
(** a rule of every alternative whose schema it meets *)
| b_union ts v : (forall t, In t ts -> meets root (schema_at t) v -> broken E root t v) -> broken E root (TUnion ts) v
(** the rule on one field (C05, C10, ...) *)
| b_rule c k fs d fi t x y : In (fi, t) fs -> In (f_alias fi, x) d -> parse E t x = Some y -> ~ field_rule E (f_val fi) y -> broken E root (TModel c k fs) (VDict d)
(** a rule relating several fields (C06-C09, C11) *)
| b_cross c k fs d fv : typed_fields E d fs fv -> ~ cross_field_spec c fv -> broken E root (TModel c k fs) (VDict d)
(** an unknown key that is no extension (C02), a key of a patterned map (C01) *)
| b_extension c fs d key : unclaimed fs d key -> ~ upto_nl (extension_key E) key -> broken E root (TModel c KExt fs) (VDict d)
| b_key c t d key : In key (map fst d) -> ~ upto_nl doc_key key -> broken E root (TRoot c t) (VDict d)
(** processors that are none (they have no schema) *)
| b_procs v : (forall l, v = VList l -> ~ Forall (fun x => exists n, x = VProc n) l) -> broken E root TProcs v.

(** Classes none of these rules is about, at any depth. *)
Definition with_cross_rules : list string :=
  ["Channel"; "MessageExample"; "OAuthFlows"; "SecurityScheme"; "AMQPChannelBindings"; "IBMMQChannelBindings"; "IBMMQMessageBindings"; "KafkaServerBindings"; "SolaceDestination"]%string.
Fixpoint rule_free (t : ty) : bool :=
  match t with
  | TEmail | TUrl _ | TProcs | TRoot _ _ => false
  | TList t' | TDict t' | TOpt t' => rule_free t'
  | TUnion ts => forallb rule_free ts
  | TModel c k fs => match k with KExt => false | _ => true end && negb (existsb (String.eqb c) with_cross_rules)
      && forallb (fun ft => match f_val (fst ft) with FvNone => true | _ => false end && rule_free (snd ft)) fs
  | _ => true
  end.
