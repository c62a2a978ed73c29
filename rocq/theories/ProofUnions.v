(** Proofs for C98-C100: which alternative of a union a value is read as. *)
From Verif Require Import PyStr Value Types Rules Pydantic ClassTable Classes Linked Fix Canon SpecParse ProofParse SpecUnions.
Local Open Scope string_scope.

(** ** One accepting member: the union is that member. *)
Lemma best_of_only (l : list (option (pv * nat))) x : In (Some x) l -> (forall y, In (Some y) l -> y = x) -> best_of l = Some x.
Proof.
  induction l as [|[[v n]|] l IH]; intros Hin Hall; [destruct Hin| |].
  - assert (Hx : (v, n) = x) by (apply Hall; left; reflexivity). cbn [best_of].
    destruct (best_of l) as [[v' n']|] eqn:Eb; [|congruence].
    apply best_of_spec in Eb as (pre & post & -> & _ & _).
    assert (Hy : (v', n') = x) by (apply Hall; right; apply in_or_app; right; left; reflexivity).
    assert (Hn : n = n') by congruence. rewrite Hn. rewrite Nat.ltb_irrefl. congruence.
  - cbn [best_of]. apply IH; [destruct Hin as [Hin|Hin]; [discriminate|exact Hin]|intros y Hy; apply Hall; right; exact Hy].
Qed.
Lemma best_of_none (l : list (option (pv * nat))) : (forall x, ~ In (Some x) l) -> best_of l = None.
Proof.
  induction l as [|[x|] l IH]; intros H; [reflexivity|exfalso; exact (H x (or_introl eq_refl))|].
  cbn [best_of]. apply IH. intros x Hx. exact (H x (or_intror Hx)).
Qed.

(** ** Kinds of values *)
Definition vkind (v : pv) : nat := match v with VList _ => 1 | VDict _ | VRoot _ _ | VObj _ _ _ => 2 | _ => 0 end.
Definition tkind (t : ty) : option nat :=
  match t with
  | TStr _ | TEmail | TInt | TBool | TUrl _ | TLitS _ | TLitI _ => Some 0
  | TList _ | TProcs => Some 1
  | TDict _ | TModel _ _ _ | TRoot _ _ => Some 2
  | _ => None
  end.


Lemma kind_of E t k v r : tkind t = Some k -> validate E t v = Some r -> vkind v = k.
Proof.
  intros Hk Hv. destruct t; cbn [tkind] in Hk; try discriminate; injection Hk as <-; cbn [validate] in Hv;
    destruct v; cbn [vkind]; try reflexivity; try discriminate Hv.
Qed.

(** ** A Reference is read from a mapping with the one key *)
Definition ref_keys : list pystr := [u "$ref"; u "ref"].
Definition no_ref_keys (fs : list (finfo * ty)) : bool :=
  forallb (fun ft => negb (mem_str (f_alias (fst ft)) ref_keys) && negb (mem_str (f_name (fst ft)) ref_keys)) fs.
Lemma has_some k (d : fields) x : assoc k d = Some x -> has_key k d = true.
Proof. intros H. apply has_key_iff. destruct (in_dec str_eq_dec k (map fst d)) as [Hi|Hi]; [exact Hi|]. apply assoc_None in Hi. congruence. Qed.
Lemma has_none k (d : fields) : assoc k d = None -> has_key k d = false.
Proof. intros H. destruct (has_key k d) eqn:Hk; [|reflexivity]. apply has_key_iff in Hk. apply assoc_None in H. contradiction. Qed.
Lemma assoc_In {A} k (d : list (pystr * A)) x : assoc k d = Some x -> In (k, x) d.
Proof.
  induction d as [|[k' x'] d IH]; cbn [assoc]; [discriminate|]. destruct (str_eqb k k') eqn:Ek.
  - intros [= <-]. apply str_eqb_eq in Ek as <-. left. reflexivity.
  - intros Hx. right. auto.
Qed.
Lemma ref_fields E kvs fv n : vfields E (validate E) kvs [(fld "ref" "$ref" None false false FvNone, TStr None)] = Some (fv, n) ->
  n = 1 /\ exists s k, In k ref_keys /\ In (k, VStr s) kvs /\ fv = [(u "ref", VStr s)] /\ used_key kvs (fld "ref" "$ref" None false false FvNone) = k.
Proof.
  rewrite vfields_cons. cbn [f_def fld]. destruct (lookup_field _ kvs) as [x|] eqn:El; [|discriminate].
  cbn [validate]. destruct x; try discriminate. cbn [len_ok]. cbn [fv_check f_val fld vfields f_name].
  intros [= <- <-]. split; [reflexivity|].
  unfold lookup_field in El. cbn [f_alias f_name fld] in El. destruct (assoc (u "$ref") kvs) as [y|] eqn:Ea.
  - injection El as ->. exists s, (u "$ref"). split; [left; reflexivity|]. split; [exact (assoc_In _ _ _ Ea)|]. split; [reflexivity|].
    unfold used_key. cbn [f_alias fld]. rewrite (has_some _ _ _ Ea). reflexivity.
  - exists s, (u "ref"). split; [right; left; reflexivity|]. split; [exact (assoc_In _ _ _ El)|]. split; [reflexivity|].
    unfold used_key. cbn [f_alias f_name fld]. rewrite (has_none _ _ Ea). reflexivity.
Qed.
Lemma ref_accepts E kvs o n : validate E T_Reference (VDict kvs) = Some (o, n) ->
  n = 1 /\ exists s k, In k ref_keys /\ In (k, VStr s) kvs /\ (forall kv, In kv kvs -> fst kv = k) /\ o = the_reference s.
Proof.
  unfold T_Reference. cbn [validate]. intros Hv. apply vmodel_obj in Hv as (fv & Hf & -> & Ha).
  apply ref_fields in Hf as (-> & s & k & Hk & Hin & -> & Hu). split; [reflexivity|]. exists s, k.
  assert (He : extras [(fld "ref" "$ref" None false false FvNone, TStr None)] kvs = []).
  { unfold after_ok in Ha. apply andb_prop in Ha as [Ha _]. cbn [extras_ok] in Ha. destruct (extras _ kvs); [reflexivity|discriminate Ha]. }
  rewrite He. split; [exact Hk|]. split; [exact Hin|]. split; [|reflexivity].
  intros kv Hkv. destruct (mem_str (fst kv) [k]) eqn:Em.
  - apply mem_str_In in Em as [Em|[]]. congruence.
  - exfalso. assert (Hx : In kv (extras [(fld "ref" "$ref" None false false FvNone, TStr None)] kvs)).
    { unfold extras. apply filter_In. split; [exact Hkv|]. cbn [map fst]. rewrite Hu, Em. reflexivity. }
    rewrite He in Hx. exact Hx.
Qed.
Lemma ref_dict E kvs o n : NoDup (map fst kvs) -> validate E T_Reference (VDict kvs) = Some (o, n) <-> n = 1 /\ exists s, names kvs s /\ o = the_reference s.
Proof.
  intros Hd. split.
  - intros Hv. apply ref_accepts in Hv as (-> & s & k & Hk & Hin & Hall & ->). split; [reflexivity|]. exists s. split; [|reflexivity].
    assert (Hone : kvs = [(k, VStr s)]).
    { destruct kvs as [|kv1 [|kv2 kvs]]; [destruct Hin| |].
      - destruct Hin as [->|[]]. reflexivity.
      - exfalso. pose proof (Hall kv1 (or_introl eq_refl)) as H1. pose proof (Hall kv2 (or_intror (or_introl eq_refl))) as H2.
        cbn [map] in Hd. inversion Hd as [|? ? Hnot _]; subst. apply Hnot. left. congruence. }
    destruct Hk as [<-|[<-|[]]]; [left|right]; exact Hone.
  - intros (-> & s & [->| ->] & ->); reflexivity.
Qed.

(** A class that is not free-form and declares neither key refuses what a Reference accepts. *)
Definition is_free (k : kind) : bool := match k with KFree => true | _ => false end.
Lemma not_ext E k : In k ref_keys -> ext_key_ok E k = false.
Proof.
  intros Hk. destruct (ext_key_ok E k) eqn:He; [|reflexivity]. apply Fix.ext_key_starts in He.
  destruct Hk as [<-|[<-|[]]]; discriminate He.
Qed.
Lemma left_over k kvs (x : pv) (fs : list (finfo * ty)) : In k ref_keys -> no_ref_keys fs = true -> In (k, x) kvs -> In (k, x) (extras fs kvs).
Proof.
  intros Hk Hn Hin. unfold extras. apply filter_In. split; [exact Hin|]. cbn [fst]. apply negb_true_iff.
  destruct (mem_str k (map (fun ft => used_key kvs (fst ft)) fs)) eqn:Em; [|reflexivity]. exfalso.
  apply mem_str_In in Em. apply in_map_iff in Em as (ft & Hu & Hft).
  unfold no_ref_keys in Hn. rewrite forallb_forall in Hn. specialize (Hn ft Hft). apply andb_prop in Hn as [H1 H2].
  apply negb_true_iff in H1, H2. apply mem_str_In in Hk. unfold used_key in Hu. destruct (has_key (f_alias (fst ft)) kvs); congruence.
Qed.
Lemma not_both E c k fs v r r' : no_ref_keys fs = true -> is_free k = false -> String.eqb c "Reference" = false ->
  validate E (TModel c k fs) v = Some r -> validate E T_Reference v = Some r' -> False.
Proof.
  intros Hn Hk Hc H1 H2. destruct r' as [o n]. destruct v as [| | | | | | |kvs|c' fv ex| | |]; try discriminate H2.
  - apply ref_accepts in H2 as (_ & s & key & Hkey & Hin & _ & _). cbn [validate] in H1. destruct r as [o1 n1].
    apply vmodel_obj in H1 as (fv & _ & _ & Ha). unfold after_ok in Ha. apply andb_prop in Ha as [Ha _].
    pose proof (left_over key kvs (VStr s) fs Hkey Hn Hin) as Hx. destruct k; cbn [extras_ok is_free] in Ha, Hk.
    + rewrite forallb_forall in Ha. specialize (Ha _ Hx). cbn [fst] in Ha. rewrite (not_ext E key Hkey) in Ha. discriminate Ha.
    + destruct (extras fs kvs); [destruct Hx|discriminate Ha].
    + discriminate Hk.
  - cbn [validate] in H1. unfold T_Reference in H2. cbn [validate] in H2.
    destruct (String.eqb c c') eqn:E1; [|discriminate H1]. destruct (String.eqb "Reference" c') eqn:E2; [|discriminate H2].
    apply String.eqb_eq in E1, E2. subst. rewrite String.eqb_refl in Hc. discriminate Hc.
Qed.

(** ** Members that never accept the same value *)
Definition is_ref (t : ty) : bool := ty_eqb T_Reference t.
Definition apart (t t' : ty) : bool :=
  match tkind t, tkind t' with Some a, Some b => negb (Nat.eqb a b) | _, _ => false end
  || match t with TModel c k fs => no_ref_keys fs && negb (is_free k) && negb (String.eqb c "Reference") && is_ref t' | _ => false end.
Fixpoint all_apart (ts : list ty) : bool :=
  match ts with [] => true | t :: r => forallb (apart t) r && all_apart r end.
Lemma apart_sound E t t' v r r' : apart t t' = true -> validate E t v = Some r -> validate E t' v = Some r' -> False.
Proof.
  intros Ha H1 H2. unfold apart in Ha. apply orb_prop in Ha as [Ha|Ha].
  - destruct (tkind t) as [a|] eqn:E1; [|discriminate]. destruct (tkind t') as [b|] eqn:E2; [|discriminate].
    apply negb_true_iff in Ha. apply Nat.eqb_neq in Ha. apply Ha. rewrite <- (kind_of _ _ _ _ _ E1 H1). exact (kind_of _ _ _ _ _ E2 H2).
  - destruct t as [| | | | | | | | | | | | |c k fs|]; try discriminate. apply andb_prop in Ha as [Ha Hr]. apply andb_prop in Ha as [Ha Hc]. apply andb_prop in Ha as [Hn Hk].
    apply negb_true_iff in Hk, Hc. apply ty_eqb_eq in Hr. subst t'. exact (not_both E c k fs v r r' Hn Hk Hc H1 H2).
Qed.
Lemma apart_union E ts v t r : all_apart ts = true -> In t ts -> validate E t v = Some r -> forall x, In (Some x) (map (fun t' => validate E t' v) ts) -> x = r.
Proof.
  induction ts as [|t0 ts IH]; intros Ha Hin Hv x Hx; [destruct Hin|].
  cbn [all_apart] in Ha. apply andb_prop in Ha as [Ha Hb]. rewrite forallb_forall in Ha.
  destruct Hin as [->|Hin].
  - destruct Hx as [Hx|Hx]; [congruence|]. apply in_map_iff in Hx as (t' & Hx & Ht'). exfalso. exact (apart_sound E t t' v r x (Ha _ Ht') Hv Hx).
  - destruct Hx as [Hx|Hx]; [|exact (IH Hb Hin Hv x Hx)]. exfalso. exact (apart_sound E t0 t v x r (Ha _ Hin) Hx Hv).
Qed.
Definition schema_named (t : ty) : bool := match t with TModel c _ _ => String.eqb c "Schema" | _ => false end.
Definition union_apart (t : ty) : bool := match t with TUnion ts => existsb schema_named ts || all_apart ts | _ => true end.
Lemma unions_apart : forallb union_apart annotations = true.
Proof. vm_compute. reflexivity. Qed.
Lemma alone E ts t v o : In (TUnion ts) annotations -> ~ allows_schema ts -> In t ts -> parse E t v = Some o -> parse E (TUnion ts) v = Some o.
Proof.
  intros Ha Hs Hin Hp. pose proof (proj1 (forallb_forall _ _) unions_apart _ Ha) as Hu. cbn [union_apart] in Hu.
  apply orb_prop in Hu as [Hu|Hu].
  - exfalso. apply Hs. apply existsb_exists in Hu as (t' & Ht' & Hc). destruct t' as [| | | | | | | | | | | | |c k fs|]; try discriminate.
    apply String.eqb_eq in Hc. subst c. exists k, fs. exact Ht'.
  - apply parse_some in Hp as [n Hp]. apply parse_some. exists n. cbn [validate]. apply best_of_only.
    + rewrite <- Hp. exact (in_map (fun t' => validate E t' v) ts t Hin).
    + exact (apart_union E ts v t (o, n) Hu Hin Hp).
Qed.
Lemma some_member E ts v o : parse E (TUnion ts) v = Some o -> exists t, In t ts /\ parse E t v = Some o.
Proof.
  intros Hp. apply parse_some in Hp as [n Hp]. cbn [validate] in Hp. apply best_of_spec in Hp as (pre & post & Hm & _ & _).
  assert (Hin : In (Some (o, n)) (map (fun t' => validate E t' v) ts)) by (rewrite Hm; apply in_or_app; right; left; reflexivity).
  apply in_map_iff in Hin as (t & Ht & Hin). exists t. split; [exact Hin|]. apply parse_some. eauto.
Qed.

(** ** The unions with Schema *)
Definition schema_unions : list (list ty) :=
  [[T_Schema; T_Reference]; [TInt; T_Schema; T_Reference]; [TStr None; T_Schema; T_Reference];
   [T_Schema; T_Reference; TDict TAny]; [T_MultiFormatSchema; T_Schema; T_Reference]].
Definition known_schema_union (t : ty) : bool :=
  match t with TUnion ts => negb (existsb schema_named ts) || existsb (list_eqb ty_eqb ts) schema_unions | _ => true end.
Lemma schema_unions_known : forallb known_schema_union annotations = true.
Proof. vm_compute. reflexivity. Qed.
Lemma schema_union ts : In (TUnion ts) annotations -> allows_schema ts -> In ts schema_unions.
Proof.
  intros Ha (k & fs & Hs). pose proof (proj1 (forallb_forall _ _) schema_unions_known _ Ha) as Hu. cbn [known_schema_union] in Hu.
  assert (He : existsb schema_named ts = true) by (apply existsb_exists; exists (TModel "Schema" k fs); split; [exact Hs|reflexivity]).
  rewrite He in Hu. cbn [negb orb] in Hu. apply existsb_exists in Hu as (l & Hl & Heq).
  apply list_eqb_eq in Heq; [subst; exact Hl|]. intros x y _ Hxy. exact (ty_eqb_eq x y Hxy).
Qed.

(** The number of declared keys found. *)
Definition own_keys (fs : list (finfo * ty)) : list pystr := flat_map (fun ft => [f_alias (fst ft); f_name (fst ft)]) fs.
Lemma no_own_keys E kvs fs fv n : (forall k, In k (own_keys fs) -> assoc k kvs = None) -> vfields E (validate E) kvs fs = Some (fv, n) -> n = 0.
Proof.
  revert fv n; induction fs as [|[fi t] fs IH]; intros fv n Hno Hv; [cbn in Hv; congruence|].
  rewrite vfields_cons in Hv. assert (El : lookup_field fi kvs = None).
  { unfold lookup_field. rewrite (Hno (f_alias fi)), (Hno (f_name fi)); [reflexivity|right; left; reflexivity|left; reflexivity]. }
  rewrite El in Hv. destruct (f_def fi); [|discriminate]. destruct (vfields E (validate E) kvs fs) as [[r m]|] eqn:Er; [|discriminate].
  injection Hv as _ <-. apply (IH r m); [|reflexivity]. intros k Hk. apply Hno. right. right. exact Hk.
Qed.
Lemma assoc_out {A} k (d : list (pystr * A)) : ~ In k (map fst d) -> assoc k d = None.
Proof.
  induction d as [|[k' x] d IH]; cbn [assoc map fst]; [reflexivity|]. intros Hn.
  destruct (str_eqb k k') eqn:Ek; [apply str_eqb_eq in Ek; subst; exfalso; apply Hn; left; reflexivity|apply IH; intros Hi; apply Hn; right; exact Hi].
Qed.
Lemma schema_score E kvs o n : (forall k, In k schema_keys -> ~ In k (map fst kvs)) -> validate E T_Schema (VDict kvs) = Some (o, n) -> n = 0.
Proof.
  intros Hno Hv. unfold T_Schema in Hv. cbn [validate] in Hv. apply vmodel_obj in Hv as (fv & Hf & _). eapply no_own_keys; [|exact Hf].
  intros k Hk. apply assoc_out. apply Hno. cbn [own_keys flat_map app fst f_alias f_name fld] in Hk. unfold schema_keys.
  repeat (destruct Hk as [<-|Hk]; [cbn [In]; tauto|]). destruct Hk.
Qed.
Lemma names_no_keys kvs s : names kvs s -> forall k, In k schema_keys -> ~ In k (map fst kvs).
Proof. intros [->| ->] k Hk [Hi|[]]; cbn [fst] in Hi; subst k; cbn in Hk; intuition discriminate. Qed.
Lemma multi_needs E kvs r : ~ In (u "schema") (map fst kvs) -> validate E T_MultiFormatSchema (VDict kvs) = Some r -> False.
Proof.
  intros Hno Hv. unfold T_MultiFormatSchema in Hv. cbn [validate] in Hv. destruct r as [o n]. apply vmodel_obj in Hv as (fv & Hf & _).
  rewrite vfields_cons in Hf.
  assert (Hs : forall al, vfields E (validate E) kvs [(fld "schema" "schema" None false false al, TAny)] = None).
  { intros al. rewrite vfields_cons. unfold lookup_field. cbn [f_alias f_name fld f_def]. rewrite (assoc_out _ _ Hno). reflexivity. }
  rewrite Hs in Hf. destruct (lookup_field _ kvs) as [x|].
  - destruct (validate E (TStr None) x) as [[x' m]|]; [|discriminate]. cbn [fv_check f_val fld] in Hf. discriminate Hf.
  - cbn [f_def fld] in Hf. discriminate Hf.
Qed.
Lemma any_dict E kvs : validate E (TDict TAny) (VDict kvs) = Some (VDict kvs, 0).
Proof.
  cbn [validate]. assert (Hd : vdict (validate E) TAny kvs = Some (kvs, 0)).
  { induction kvs as [|[k x] kvs IH]; [reflexivity|]. cbn [vdict validate]. change ((fix go (l0 : fields) : option (fields * nat) := _) kvs) with (vdict (validate E) TAny kvs).
    rewrite IH. reflexivity. }
  rewrite Hd. reflexivity.
Qed.
(** What the members of a union with Schema say about a mapping. *)
Lemma schema_union_value E ts kvs : In ts schema_unions -> exists m d,
  validate E (TUnion ts) (VDict kvs) = best_of [m; validate E T_Schema (VDict kvs); validate E T_Reference (VDict kvs); d]
  /\ ((m = validate E T_MultiFormatSchema (VDict kvs) /\ In T_MultiFormatSchema ts) \/ (m = None /\ ~ In T_MultiFormatSchema ts))
  /\ ((d = Some (VDict kvs, 0) /\ In (TDict TAny) ts) \/ (d = None /\ ~ In (TDict TAny) ts)).
Proof.
  assert (Hlast : forall a b c : option (pv * nat), best_of [a; b; c; None] = best_of [a; b; c]) by (intros [[]|] [[]|] [[]|]; reflexivity).
  intros Hts. cbn [schema_unions In] in Hts.
  destruct Hts as [<-|[<-|[<-|[<-|[<-|[]]]]]].
  - exists None, None. split; [rewrite Hlast; reflexivity|]. split; right; (split; [reflexivity|cbn [In]; intuition discriminate]).
  - exists None, None. split; [rewrite Hlast; reflexivity|]. split; right; (split; [reflexivity|cbn [In]; intuition discriminate]).
  - exists None, None. split; [rewrite Hlast; reflexivity|]. split; right; (split; [reflexivity|cbn [In]; intuition discriminate]).
  - exists None, (Some (VDict kvs, 0)). split.
    + rewrite <- (any_dict E kvs). reflexivity.
    + split; [right|left]; (split; [reflexivity|cbn [In]; intuition discriminate]).
  - exists (validate E T_MultiFormatSchema (VDict kvs)), None. split; [rewrite Hlast; reflexivity|].
    split; [left|right]; (split; [reflexivity|cbn [In]; intuition discriminate]).
Qed.
Lemma ref_in_union E kvs s ts : In ts schema_unions -> names kvs s -> parse E (TUnion ts) (VDict kvs) = Some (the_reference s).
Proof.
  intros Hts Hn. assert (Hr : validate E T_Reference (VDict kvs) = Some (the_reference s, 1)) by (destruct Hn as [->| ->]; reflexivity).
  assert (Hs : validate E T_Schema (VDict kvs) = None \/ exists o, validate E T_Schema (VDict kvs) = Some (o, 0)).
  { destruct (validate E T_Schema (VDict kvs)) as [[o n]|] eqn:Ev; [right|left; reflexivity].
    exists o. rewrite (schema_score E kvs o n (names_no_keys kvs s Hn) Ev). reflexivity. }
  assert (Hm : validate E T_MultiFormatSchema (VDict kvs) = None).
  { destruct (validate E T_MultiFormatSchema (VDict kvs)) as [r|] eqn:Ev; [|reflexivity]. exfalso. apply (multi_needs E kvs r); [|exact Ev].
    destruct Hn as [->| ->]; intros [Hi|[]]; discriminate Hi. }
  destruct (schema_union_value E ts kvs Hts) as (m & d & He & Hm' & Hd).
  assert (Hm2 : m = None) by (destruct Hm' as [[-> _]|[-> _]]; [exact Hm|reflexivity]). subst m.
  apply parse_some. exists 1. rewrite He, Hr. destruct Hs as [Hs|[o Hs]]; rewrite Hs; destruct Hd as [[-> _]|[-> _]]; reflexivity.
Qed.
(** Not a Reference: the Schema, unless a Multi Format Schema is allowed, else a plain dict where one is allowed. *)
Lemma not_ref E kvs : NoDup (map fst kvs) -> (forall s, ~ names kvs s) -> validate E T_Reference (VDict kvs) = None.
Proof.
  intros Hd Hn. destruct (validate E T_Reference (VDict kvs)) as [[o n]|] eqn:Ev; [|reflexivity].
  apply (ref_dict E kvs o n Hd) in Ev as (_ & s & Hs & _). destruct (Hn s Hs).
Qed.
Lemma schema_in_union E ts kvs : In ts schema_unions -> ~ In T_MultiFormatSchema ts -> NoDup (map fst kvs) -> (forall s, ~ names kvs s) ->
  (forall o, parse E T_Schema (VDict kvs) = Some o -> parse E (TUnion ts) (VDict kvs) = Some o)
  /\ (parse E T_Schema (VDict kvs) = None -> In (TDict TAny) ts -> parse E (TUnion ts) (VDict kvs) = Some (VDict kvs))
  /\ (parse E T_Schema (VDict kvs) = None -> ~ In (TDict TAny) ts -> parse E (TUnion ts) (VDict kvs) = None).
Proof.
  intros Hts Hm Hd Hn. destruct (schema_union_value E ts kvs Hts) as (m & d & He & [[_ Hm']|[-> _]] & Hdd); [contradiction|].
  rewrite (not_ref E kvs Hd Hn) in He. unfold parse. rewrite He. split; [|split].
  - intros o Ho. destruct (validate E T_Schema (VDict kvs)) as [[o' n]|]; [|discriminate Ho]. destruct Hdd as [[-> _]|[-> _]]; cbn [best_of]; exact Ho.
  - intros Ho Hin. destruct (validate E T_Schema (VDict kvs)) as [[o' n]|]; [discriminate Ho|]. destruct Hdd as [[-> _]|[_ Hx]]; [reflexivity|contradiction].
  - intros Ho Hin. destruct (validate E T_Schema (VDict kvs)) as [[o' n]|]; [discriminate Ho|]. destruct Hdd as [[_ Hx]|[-> _]]; [contradiction|reflexivity].
Qed.
Lemma multi_in_union E ts kvs : In ts schema_unions -> In T_MultiFormatSchema ts -> NoDup (map fst kvs) -> (forall s, ~ names kvs s) ->
  (forall o, parse E T_MultiFormatSchema (VDict kvs) = Some o -> (forall k, In k schema_keys -> ~ In k (map fst kvs)) -> parse E (TUnion ts) (VDict kvs) = Some o)
  /\ (forall o, parse E T_MultiFormatSchema (VDict kvs) = Some o -> parse E T_Schema (VDict kvs) = None -> parse E (TUnion ts) (VDict kvs) = Some o)
  /\ (parse E T_MultiFormatSchema (VDict kvs) = None -> parse E (TUnion ts) (VDict kvs) = parse E T_Schema (VDict kvs)).
Proof.
  intros Hts Hm Hd Hn. destruct (schema_union_value E ts kvs Hts) as (m & d & He & [[-> _]|[_ Hm']] & Hdd); [|contradiction].
  assert (Hd0 : d = None).
  { destruct Hdd as [[_ Hx]|[-> _]]; [|reflexivity]. exfalso. clear He. cbn [schema_unions In] in Hts.
    destruct Hts as [<-|[<-|[<-|[<-|[<-|[]]]]]]; cbn [In] in Hm, Hx; intuition discriminate. }
  subst d. rewrite (not_ref E kvs Hd Hn) in He. unfold parse. rewrite He. split; [|split].
  - intros o Ho Hk. destruct (validate E T_MultiFormatSchema (VDict kvs)) as [[o' n]|]; [|discriminate Ho].
    destruct (validate E T_Schema (VDict kvs)) as [[o2 n2]|] eqn:Es; cbn [best_of]; [|exact Ho].
    apply (schema_score E kvs o2 n2 Hk) in Es. subst n2. cbn [Nat.ltb Nat.leb]. destruct n; exact Ho.
  - intros o Ho Hs. destruct (validate E T_MultiFormatSchema (VDict kvs)) as [[o' n]|]; [|discriminate Ho].
    destruct (validate E T_Schema (VDict kvs)) as [[o2 n2]|]; [discriminate Hs|]. exact Ho.
  - intros Ho. destruct (validate E T_MultiFormatSchema (VDict kvs)) as [[o' n]|]; [discriminate Ho|].
    destruct (validate E T_Schema (VDict kvs)) as [[o2 n2]|]; reflexivity.
Qed.
(** Only the Reference alternative makes References. *)
Definition ref_maker (t : ty) : bool :=
  is_ref t || match t with
  | TStr _ | TEmail | TInt | TBool | TUrl _ | TLitS _ | TLitI _ | TList _ | TProcs | TRoot _ _ | TDict _ => true
  | TModel c _ _ => negb (String.eqb c "Reference")
  | _ => false
  end.
Lemma ref_makers : forallb (fun t => match t with TUnion ts => forallb ref_maker ts | _ => true end) annotations = true.
Proof. vm_compute. reflexivity. Qed.
Lemma made_by E t kvs s : ref_maker t = true -> parse E t (VDict kvs) = Some (the_reference s) -> t = T_Reference.
Proof.
  intros Hm Hp. unfold ref_maker in Hm. apply orb_prop in Hm as [Hm|Hm]; [symmetry; exact (ty_eqb_eq _ _ Hm)|].
  exfalso. apply parse_some in Hp as [n Hp]. unfold the_reference in Hp. destruct t; try discriminate Hm; cbn [validate] in Hp; try discriminate Hp.
  - destruct (vdict (validate E) t kvs) as [[d m]|]; discriminate Hp.
  - apply vmodel_obj in Hp as (fv & _ & Heq & _). injection Heq as <- _ _. rewrite String.eqb_refl in Hm. discriminate Hm.
  - destruct (vdict (validate E) t kvs) as [[d m]|]; [|discriminate Hp]. destruct (root_keys_ok d); discriminate Hp.
Qed.
Lemma reference_iff E ts kvs s : In (TUnion ts) annotations -> In T_Reference ts -> NoDup (map fst kvs) ->
  parse E (TUnion ts) (VDict kvs) = Some (the_reference s) <-> names kvs s.
Proof.
  intros Ha Hr Hd. split.
  - intros Hp. destruct (some_member E ts _ _ Hp) as (t & Hin & Ht).
    pose proof (proj1 (forallb_forall _ _) ref_makers _ Ha) as Hm. cbn beta iota in Hm. rewrite forallb_forall in Hm.
    rewrite (made_by E t kvs s (Hm t Hin) Ht) in Ht. apply parse_some in Ht as [n Ht]. apply (ref_dict E kvs _ n Hd) in Ht as (_ & s' & Hn & Heq).
    assert (s = s') by (unfold the_reference in Heq; congruence). subst. exact Hn.
  - intros Hn. destruct (existsb schema_named ts) eqn:Es.
    + apply ref_in_union; [|exact Hn]. apply schema_union; [exact Ha|]. apply existsb_exists in Es as (t' & Ht' & Hc).
      destruct t' as [| | | | | | | | | | | | |c k fs|]; try discriminate. apply String.eqb_eq in Hc. subst c. exists k, fs. exact Ht'.
    + apply (alone E ts T_Reference); [exact Ha| |exact Hr|].
      * intros (k & fs & Hx). assert (Ht : existsb schema_named ts = true) by (apply existsb_exists; eexists; split; [exact Hx|reflexivity]). congruence.
      * destruct Hn as [->| ->]; reflexivity.
Qed.
Lemma multi_iff E kvs : (exists o, parse E T_MultiFormatSchema (VDict kvs) = Some o) <->
  In (u "schema") (map fst kvs) /\ forall x, gives (fld "schema_format" "schemaFormat" None false false FvNone) kvs x -> exists s, x = VStr s.
Proof.
  assert (Hg : forall fi x, lookup_field fi kvs = Some x <-> gives fi kvs x).
  { intros fi x. unfold lookup_field, gives. destruct (assoc (f_alias fi) kvs) as [y|]; split.
    - intros [= ->]. left. reflexivity.
    - intros [Hy|[Hy _]]; [exact Hy|discriminate Hy].
    - intros Hx. right. split; [reflexivity|exact Hx].
    - intros [Hy|[_ Hy]]; [discriminate Hy|exact Hy]. }
  split.
  - intros [o Hp]. apply parse_some in Hp as [n Hp]. split.
    + destruct (in_dec str_eq_dec (u "schema") (map fst kvs)) as [Hi|Hi]; [exact Hi|]. destruct (multi_needs E kvs (o, n) Hi Hp).
    + intros x Hx. unfold T_MultiFormatSchema in Hp. cbn [validate] in Hp. apply vmodel_obj in Hp as (fv & Hf & _). rewrite vfields_cons in Hf.
      apply Hg in Hx. unfold lookup_field in Hf, Hx. cbn [f_alias f_name fld] in Hf, Hx. rewrite Hx in Hf. cbn [validate] in Hf. destruct x; try discriminate Hf. eauto.
  - intros [Hs Hf]. apply key_assoc in Hs as [y Hy].
    assert (H2 : vfields E (validate E) kvs [(fld "schema" "schema" None false false FvNone, TAny)] = Some ([(u "schema", y)], 1)).
    { rewrite vfields_cons. unfold lookup_field. cbn [f_alias f_name fld]. rewrite Hy. reflexivity. }
    unfold parse, T_MultiFormatSchema. cbn [validate]. unfold vmodel. rewrite vfields_cons, H2.
    destruct (lookup_field (fld "schema_format" "schemaFormat" None false false FvNone) kvs) as [x|] eqn:El.
    + destruct (Hf x (proj1 (Hg _ _) El)) as [s ->]. unfold lookup_field in El |- *. cbn [f_alias f_name fld] in El |- *. rewrite El.
      cbn [validate len_ok fv_check f_val fld]. eexists. reflexivity.
    + unfold lookup_field in El |- *. cbn [f_alias f_name fld f_def] in El |- *. rewrite El. eexists. reflexivity.
Qed.
(** A mapping with $ref and something else. *)
Lemma sibling_refused E ts kvs s o : In (TUnion ts) annotations -> In T_Reference ts -> ~ allows_schema ts -> NoDup (map fst kvs) -> In (u "$ref", VStr s) kvs ->
  parse E (TUnion ts) (VDict kvs) = Some o -> o = the_reference s /\ kvs = [(u "$ref", VStr s)].
Proof.
  intros Ha Hr Hs Hd Hin Hp. destruct (some_member E ts _ _ Hp) as (t & Ht & Hpt). apply parse_some in Hpt as [n Hv].
  pose proof (proj1 (forallb_forall _ _) unions_apart _ Ha) as Hu. cbn [union_apart] in Hu. apply orb_prop in Hu as [Hu|Hu].
  { exfalso. apply Hs. apply existsb_exists in Hu as (t' & Ht' & Hc). destruct t' as [| | | | | | | | | | | | |c k fs|]; try discriminate.
    apply String.eqb_eq in Hc. subst c. exists k, fs. exact Ht'. }
  assert (Hcase : t = T_Reference \/ apart t T_Reference = true \/ apart T_Reference t = true).
  { clear - Hu Ht Hr. revert Hu. induction ts as [|t0 ts IH]; [destruct Ht|]. cbn [all_apart]. intros Hu. apply andb_prop in Hu as [Hu Hb]. rewrite forallb_forall in Hu.
    destruct Ht as [->|Ht], Hr as [->|Hr]; [left; reflexivity|right; left; exact (Hu _ Hr)|right; right; exact (Hu _ Ht)|exact (IH Hr Ht Hb)]. }
  assert (Hone : forall o' n', validate E T_Reference (VDict kvs) = Some (o', n') -> o' = the_reference s /\ kvs = [(u "$ref", VStr s)]).
  { intros o' n' Hx. apply (ref_dict E kvs o' n' Hd) in Hx as (_ & s' & [->| ->] & ->).
    - destruct Hin as [Hin|[]]. assert (s' = s) by congruence. subst. split; reflexivity.
    - destruct Hin as [Hin|[]]. discriminate Hin. }
  destruct Hcase as [->|[Hc|Hc]]; [exact (Hone _ _ Hv)| |].
  - unfold apart in Hc. apply orb_prop in Hc as [Hc|Hc].
    + exfalso. destruct (tkind t) as [a|] eqn:Ek; [|discriminate Hc]. pose proof (kind_of E t a _ _ Ek Hv) as Hk. cbn in Hk. subst a. discriminate Hc.
    + exfalso. destruct t as [| | | | | | | | | | | | |c k fs|]; try discriminate. apply andb_prop in Hc as [Hc Hr2]. apply andb_prop in Hc as [Hc Hc2]. apply andb_prop in Hc as [Hn Hk].
      apply negb_true_iff in Hk. cbn [validate] in Hv. apply vmodel_obj in Hv as (fv & _ & _ & Hok). unfold after_ok in Hok. apply andb_prop in Hok as [Hok _].
      pose proof (left_over (u "$ref") kvs (VStr s) fs (or_introl eq_refl) Hn Hin) as Hx. destruct k; cbn [extras_ok is_free] in Hok, Hk.
      * rewrite forallb_forall in Hok. specialize (Hok _ Hx). cbn [fst] in Hok. rewrite (not_ext E (u "$ref") (or_introl eq_refl)) in Hok. discriminate Hok.
      * destruct (extras fs kvs); [destruct Hx|discriminate Hok].
      * discriminate Hk.
  - exfalso. unfold apart in Hc. apply orb_prop in Hc as [Hc|Hc].
    + destruct (tkind t) as [a|] eqn:Ek; [|discriminate Hc]. pose proof (kind_of E t a _ _ Ek Hv) as Hk. cbn in Hk. subst a. discriminate Hc.
    + discriminate Hc.
Qed.
Lemma sibling_kept E ts kvs s o : In (TUnion ts) annotations -> allows_schema ts -> NoDup (map fst kvs) -> In (u "$ref", VStr s) kvs -> (2 <= List.length kvs)%nat ->
  parse E (TUnion ts) (VDict kvs) = Some o ->
  (exists c fv ex, (c = "Schema" \/ c = "MultiFormatSchema") /\ o = VObj c fv ex /\ In (u "$ref", VStr s) ex) \/ o = VDict kvs.
Proof.
  intros Ha Hs Hd Hin Hl Hp. pose proof (schema_union ts Ha Hs) as Hts. destruct (some_member E ts _ _ Hp) as (t & Ht & Hpt).
  apply parse_some in Hpt as [n Hv].
  assert (Hmodel : forall c fs, no_ref_keys fs = true -> validate E (TModel c KFree fs) (VDict kvs) = Some (o, n) -> exists fv ex, o = VObj c fv ex /\ In (u "$ref", VStr s) ex).
  { intros c fs Hn Hx. cbn [validate] in Hx. apply vmodel_obj in Hx as (fv & _ & -> & _). eexists; eexists. split; [reflexivity|].
    exact (left_over (u "$ref") kvs (VStr s) fs (or_introl eq_refl) Hn Hin). }
  assert (Href : validate E T_Reference (VDict kvs) = Some (o, n) -> False).
  { intros Hx. apply (ref_dict E kvs o n Hd) in Hx as (_ & s' & [->| ->] & _); cbn [List.length] in Hl; lia. }
  assert (Hsch : validate E T_Schema (VDict kvs) = Some (o, n) -> exists fv ex, o = VObj "Schema" fv ex /\ In (u "$ref", VStr s) ex).
  { intros Hx. apply (Hmodel "Schema" _) in Hx; [exact Hx|reflexivity]. }
  assert (Hmul : validate E T_MultiFormatSchema (VDict kvs) = Some (o, n) -> exists fv ex, o = VObj "MultiFormatSchema" fv ex /\ In (u "$ref", VStr s) ex).
  { intros Hx. apply (Hmodel "MultiFormatSchema" _) in Hx; [exact Hx|reflexivity]. }
  clear Hp Ha Hs. cbn [schema_unions In] in Hts.
  assert (Hcases : t = T_Schema \/ t = T_Reference \/ t = T_MultiFormatSchema \/ t = TDict TAny \/ t = TInt \/ t = TStr None).
  { destruct Hts as [<-|[<-|[<-|[<-|[<-|[]]]]]]; cbn [In] in Ht; intuition. }
  destruct Hcases as [->|[->|[->|[->|[->| ->]]]]].
  - destruct (Hsch Hv) as (fv & ex & Ho & Hx). left. exists "Schema", fv, ex. auto.
  - destruct (Href Hv).
  - destruct (Hmul Hv) as (fv & ex & Ho & Hx). left. exists "MultiFormatSchema", fv, ex. auto.
  - right. rewrite any_dict in Hv. congruence.
  - discriminate Hv.
  - discriminate Hv.
Qed.
