(** C86: building a document out of ready-made parts is the same as loading it whole. *)
From Verif Require Import PyStr Regex Value Types Rules Pydantic ClassTable Classes Canon Fix Linked SpecParse ProofRules ProofParse
  State SpecState ProofState PropState Resolve SpecResolve ProofResolve Dump SpecDump ProofDump PropDump Pipeline Sample.
Local Open Scope string_scope.

Definition instance (v : pv) : Prop := match v with VObj _ _ _ | VRoot _ _ => True | _ => False end.
(** The key [key] of the mapping is the one field [fi] is read from. *)
Definition claims (fi : finfo) (kvs : fields) (key : pystr) : Prop :=
  key = f_alias fi \/ key = f_name fi /\ ~ In (f_alias fi) (map fst kvs).
(** [passed t v w]: where data [v] is expected (annotation [t]), the user passes [w]: the data as it is; a list or dict of parts; an instance of a class of the library,
    which was in turn constructed from parts; where several classes are possible, an instance of the one that is chosen for the data. *)
Inductive passed (E : env) : ty -> pv -> pv -> Prop :=
| p_raw t v : passed E t v v
| p_list t l l' : Forall2 (passed E t) l l' -> passed E (TList t) (VList l) (VList l')
| p_dict t d d' : Forall2 (fun a b => fst a = fst b /\ passed E t (snd a) (snd b)) d d' -> passed E (TDict t) (VDict d) (VDict d')
| p_opt t v w : v <> VNone -> w <> VNone -> passed E t v w -> passed E (TOpt t) v w
| p_union ts t v w : In t ts -> passed E t v w -> instance w -> parse E (TUnion ts) v = parse E t v -> passed E (TUnion ts) v w
| p_model c k fs kvs kvs' o :
    Forall2 (fun a b => fst a = fst b /\ (snd a = snd b \/ exists fi t, In (fi, t) fs /\ claims fi kvs (fst a) /\ passed E t (snd a) (snd b))) kvs kvs' ->
    parse E (TModel c k fs) (VDict kvs') = Some o -> no_shadowing o -> passed E (TModel c k fs) (VDict kvs) o
| p_map c t d d' o :
    Forall2 (fun a b => fst a = fst b /\ passed E t (snd a) (snd b)) d d' ->
    parse E (TRoot c t) (VDict d') = Some o -> no_shadowing o -> passed E (TRoot c t) (VDict d) o.

Lemma Forall2_weaken {A B} (P Q : A -> B -> Prop) l l' : (forall a b, P a b -> Q a b) -> Forall2 P l l' -> Forall2 Q l l'.
Proof. intros H. induction 1; constructor; auto. Qed.
Lemma same_keys {P : (pystr * pv) -> (pystr * pv) -> Prop} d d' : Forall2 (fun a b => fst a = fst b /\ P a b) d d' -> map fst d' = map fst d.
Proof. induction 1 as [|a b d d' [Hk _] _ IH]; [reflexivity|]. cbn [map]. congruence. Qed.
Lemma pd_entries d d' (P : (pystr * pv) -> (pystr * pv) -> Prop) : Forall2 (fun a b => fst a = fst b /\ P a b) d d' -> (forall a b, In a d -> P a b -> python_dicts (snd b)) -> Forall (fun kv => python_dicts (snd kv)) d'.
Proof. induction 1 as [|a b d d' [Hk Hp] _ IH]; intros H; constructor; [eapply H; [left; reflexivity|exact Hp]|apply IH; intros a' b' Ha; apply H; right; exact Ha]. Qed.
Lemma parse_list_ext E t l l' : Forall2 (fun x y => parse E t y = parse E t x) l l' -> parse E (TList t) (VList l') = parse E (TList t) (VList l).
Proof.
  intros H. unfold parse. cbn [validate]. assert (G : option_map fst (vlist (validate E) t l') = option_map fst (vlist (validate E) t l)).
  { induction H as [|x y l l' Hx _ IH]; [reflexivity|]. rewrite !vlist_cons. unfold parse in Hx. destruct (validate E t x) as [[x' n]|], (validate E t y) as [[y' m]|]; cbn [option_map fst] in Hx; try discriminate Hx; [|reflexivity].
    injection Hx as ->. destruct (vlist (validate E) t l) as [[r a]|], (vlist (validate E) t l') as [[r' b]|]; cbn [option_map fst] in *; congruence. }
  destruct (vlist (validate E) t l) as [[r a]|], (vlist (validate E) t l') as [[r' b]|]; cbn [option_map fst] in *; congruence.
Qed.
Lemma vdict_ext E t d d' : Forall2 (fun a b => fst a = fst b /\ parse E t (snd b) = parse E t (snd a)) d d' -> option_map fst (vdict (validate E) t d') = option_map fst (vdict (validate E) t d).
Proof.
  induction 1 as [|[k x] [k' y] d d' [Hk Hx] _ IH]; [reflexivity|]. cbn [fst snd] in *. subst k'. rewrite !vdict_cons. unfold parse in Hx.
  destruct (validate E t x) as [[x' n]|], (validate E t y) as [[y' m]|]; cbn [option_map fst] in Hx; try discriminate Hx; [|reflexivity].
  injection Hx as ->. destruct (vdict (validate E) t d) as [[r a]|], (vdict (validate E) t d') as [[r' b]|]; cbn [option_map fst] in *; congruence.
Qed.
Lemma parse_dict_ext E t d d' : Forall2 (fun a b => fst a = fst b /\ parse E t (snd b) = parse E t (snd a)) d d' -> parse E (TDict t) (VDict d') = parse E (TDict t) (VDict d).
Proof.
  intros H. apply vdict_ext in H. unfold parse. cbn [validate]. destruct (vdict (validate E) t d) as [[r a]|], (vdict (validate E) t d') as [[r' b]|]; cbn [option_map fst] in *; congruence.
Qed.
Lemma parse_root_ext E c t d d' : Forall2 (fun a b => fst a = fst b /\ parse E t (snd b) = parse E t (snd a)) d d' -> parse E (TRoot c t) (VDict d') = parse E (TRoot c t) (VDict d).
Proof.
  intros H. apply vdict_ext in H. unfold parse. cbn [validate]. destruct (vdict (validate E) t d) as [[r a]|], (vdict (validate E) t d') as [[r' b]|]; cbn [option_map fst] in H; try discriminate H; [|reflexivity].
  injection H as ->. destruct (root_keys_ok r); reflexivity.
Qed.
(** Lookups in two mappings that agree except under claimed keys. *)
Lemma assoc_rel (P : pystr -> pv -> pv -> Prop) (d d' : fields) key : Forall2 (fun a b => fst a = fst b /\ P (fst a) (snd a) (snd b)) d d' ->
  match assoc key d, assoc key d' with Some x, Some y => P key x y | None, None => True | _, _ => False end.
Proof.
  induction 1 as [|[k x] [k' y] d d' [Hk Hp] _ IH]; [exact I|]. cbn [fst snd assoc] in *. subst k'. destruct (str_eqb key k) eqn:Ek; [apply str_eqb_eq in Ek; subst; exact Hp|exact IH].
Qed.
Lemma claims_used (fi : finfo) kvs key : In key (map fst kvs) -> claims fi kvs key -> key = used_key kvs fi.
Proof.
  intros Hk [->|[-> Hn]]; unfold used_key.
  - apply has_key_iff in Hk. rewrite Hk. reflexivity.
  - destruct (has_key (f_alias fi) kvs) eqn:Eh; [apply has_key_iff in Eh; contradiction|reflexivity].
Qed.
Lemma used_lookup fi kvs : lookup_field fi kvs = assoc (used_key kvs fi) kvs.
Proof.
  unfold lookup_field, used_key. destruct (has_key (f_alias fi) kvs) eqn:Eh.
  - destruct (assoc (f_alias fi) kvs) eqn:Ea; [reflexivity|]. apply has_key_iff in Eh. apply assoc_None in Ea. contradiction.
  - destruct (assoc (f_alias fi) kvs) eqn:Ea; [|reflexivity]. apply assoc_In in Ea. apply (in_map fst) in Ea. apply has_key_iff in Ea. cbn [fst] in Ea. congruence.
Qed.
Lemma has_key_keys k (d d' : fields) : map fst d' = map fst d -> has_key k d' = has_key k d.
Proof. intros H. apply eq_true_iff_eq. rewrite !has_key_iff, H. tauto. Qed.
Lemma used_key_keys (fi : finfo) d d' : map fst d' = map fst d -> used_key d' fi = used_key d fi.
Proof. intros H. unfold used_key. rewrite (has_key_keys _ d d' H). reflexivity. Qed.
Lemma used_key_own (fs : list (finfo * ty)) kvs fi t gi s : NoDup (all_keys (map fst fs)) -> In (fi, t) fs -> In (gi, s) fs -> used_key kvs fi = used_key kvs gi -> fi = gi.
Proof.
  intros Hn Hf Hg He. assert (Hfi : In fi (map fst fs)) by (apply in_map_iff; exists (fi, t); auto). assert (Hgi : In gi (map fst fs)) by (apply in_map_iff; exists (gi, s); auto).
  assert (Hu : forall fi0 : finfo, In (used_key kvs fi0) (field_keys fi0)).
  { intros f0. unfold used_key, field_keys. destruct (has_key _ _); destruct (str_eqb (f_name f0) (f_alias f0)) eqn:Ee; cbn [In]; auto. apply str_eqb_eq in Ee. auto. }
  exact (key_owner _ fi gi (used_key kvs fi) Hn Hfi Hgi (Hu fi) (eq_ind_r (fun x => In x (field_keys gi)) (Hu gi) He)).
Qed.
Lemma filter_claimed E (fs : list (finfo * ty)) used all l l' : (forall a, In a l -> In (fst a) (map fst all)) ->
  (forall key fi t, In (fi, t) fs -> In key (map fst all) -> claims fi all key -> In key used) ->
  Forall2 (fun a b => fst a = fst b /\ (snd a = snd b \/ exists fi t, In (fi, t) fs /\ claims fi all (fst a) /\ parse E t (snd b) = parse E t (snd a))) l l' ->
  filter (fun kv => negb (mem_str (fst kv) used)) l' = filter (fun kv => negb (mem_str (fst kv) used)) l.
Proof.
  intros Hin Hsame H. induction H as [|[a x] [b y] l l' [Hab Hxy] _ IH]; [reflexivity|].
  cbn [fst snd] in *. subst b. cbn [filter fst]. rewrite IH by (intros p Hp; apply Hin; right; exact Hp). destruct (mem_str a used) eqn:Em; cbn [negb]; [reflexivity|]. f_equal.
  destruct Hxy as [->|(fi & t & Hf & Hc & _)]; [reflexivity|]. exfalso. assert (Hu := Hsame a fi t Hf (Hin (a, x) (or_introl eq_refl)) Hc). apply mem_str_In in Hu. congruence.
Qed.
Lemma parse_model_ext E c k fs kvs kvs' : NoDup (all_keys (map fst fs)) -> (forall fi t s, In (fi, t) fs -> In (fi, s) fs -> t = s) ->
  Forall2 (fun a b => fst a = fst b /\ (snd a = snd b \/ exists fi t, In (fi, t) fs /\ claims fi kvs (fst a) /\ parse E t (snd b) = parse E t (snd a))) kvs kvs' ->
  parse E (TModel c k fs) (VDict kvs') = parse E (TModel c k fs) (VDict kvs).
Proof.
  intros Hn Hone H. assert (Hk := same_keys _ _ H).
  assert (Hl : forall fi t, In (fi, t) fs -> match lookup_field fi kvs, lookup_field fi kvs' with Some x, Some y => parse E t y = parse E t x | None, None => True | _, _ => False end).
  { intros fi t Hf. rewrite !used_lookup, (used_key_keys fi kvs kvs' Hk).
    assert (Ha := assoc_rel (fun key x y => x = y \/ exists fi0 t0, In (fi0, t0) fs /\ claims fi0 kvs key /\ parse E t0 y = parse E t0 x) kvs kvs' (used_key kvs fi) H).
    destruct (assoc (used_key kvs fi) kvs) as [x|] eqn:Ex, (assoc (used_key kvs fi) kvs') as [y|]; try exact Ha.
    destruct Ha as [->|(gi & s & Hg & Hc & Hp)]; [reflexivity|]. assert (Hin : In (used_key kvs fi) (map fst kvs)) by (apply assoc_In in Ex; exact (in_map fst _ _ Ex)).
    apply claims_used in Hc; [|exact Hin]. assert (fi = gi) by (eapply used_key_own; eauto). subst gi. rewrite (Hone fi t s Hf Hg). exact Hp. }
  assert (Hv : forall l, (forall ft, In ft l -> In ft fs) -> option_map fst (vfields E (validate E) kvs' l) = option_map fst (vfields E (validate E) kvs l)).
  { induction l as [|[fi t] l IH]; intros Hi; [reflexivity|]. specialize (IH (fun ft h => Hi ft (or_intror h))). specialize (Hl fi t (Hi _ (or_introl eq_refl))). cbn [vfields].
    fold (vfields E (validate E) kvs l). fold (vfields E (validate E) kvs' l). destruct (lookup_field fi kvs) as [x|], (lookup_field fi kvs') as [y|]; try contradiction.
    - unfold parse in Hl. destruct (validate E t x) as [[x' n]|], (validate E t y) as [[y' m]|]; cbn [option_map fst] in Hl; try discriminate Hl; [|reflexivity]. injection Hl as ->.
      destruct (fv_check E (f_val fi) x'); [|reflexivity]. destruct (vfields E (validate E) kvs l) as [[r a]|], (vfields E (validate E) kvs' l) as [[r' b]|]; cbn [option_map fst] in *; congruence.
    - destruct (f_def fi); [|reflexivity]. destruct (vfields E (validate E) kvs l) as [[r a]|], (vfields E (validate E) kvs' l) as [[r' b]|]; cbn [option_map fst] in *; congruence. }
  assert (Hx : extras fs kvs' = extras fs kvs).
  { unfold extras. rewrite (map_ext_in (fun ft => used_key kvs' (fst ft)) (fun ft => used_key kvs (fst ft)) fs) by (intros ft _; apply used_key_keys; exact Hk).
    set (used := map (fun ft : finfo * ty => used_key kvs (fst ft)) fs).
    assert (Hsame : forall key fi t, In (fi, t) fs -> In key (map fst kvs) -> claims fi kvs key -> In key used).
    { intros key fi t Hf Hi Hc. apply claims_used in Hc; [|exact Hi]. subst key. apply in_map_iff. exists (fi, t). auto. }
    exact (filter_claimed E fs used kvs kvs kvs' (fun a => in_map fst kvs a) Hsame H). }
  unfold parse. cbn [validate]. unfold vmodel. assert (Hf := Hv fs (fun ft h => h)). rewrite Hx.
  destruct (vfields E (validate E) kvs fs) as [[r a]|], (vfields E (validate E) kvs' fs) as [[r' b]|]; cbn [option_map fst] in Hf; try discriminate Hf; [|reflexivity]. injection Hf as ->.
  destruct (after_ok E c k r (extras fs kvs)); reflexivity.
Qed.

Lemma fields_once c k fs : wf_ty (TModel c k fs) = true -> forall fi t s, In (fi, t) fs -> In (fi, s) fs -> t = s.
Proof.
  intros Hw fi t s Ht Hs. assert (Hn := names_NoDup _ _ _ Hw). clear Hw. induction fs as [|[gi r] fs IH]; [destruct Ht|]. cbn [map fst] in Hn. inversion Hn as [|? ? Hx Hn']; subst.
  destruct Ht as [[= -> ->]|Ht], Hs as [Hs|Hs].
  - congruence.
  - destruct Hx. apply in_map_iff. exists (fi, s). auto.
  - injection Hs as -> ->. destruct Hx. apply in_map_iff. exists (fi, t). auto.
  - auto.
Qed.
(** Induction on the annotation.  An instance that is passed is the one the library would make of the data. *)
Lemma passed_same E t : url_idem E -> wf_ty t = true -> forall v w, passed E t v w -> python_dicts v ->
  python_dicts w /\ parse E t w = parse E t v /\ (w = v \/ (instance w -> parse E t v = Some w /\ no_shadowing w)).
Proof.
  intros Hu. induction t using ty_ind'; intros Hwf v w Hp Hd; try (inversion Hp; subst; split; [exact Hd|]; split; [reflexivity|left; reflexivity]; fail).
  - inversion Hp as [| t0 l l' HF | | | | | ]; subst; [split; [exact Hd|split; [reflexivity|left; reflexivity]]|]. apply (cl_list _ pd_closed) in Hd. cbn [wf_ty] in Hwf.
    assert (G : Forall2 (fun x y => python_dicts y /\ parse E t y = parse E t x) l l').
    { clear Hp. induction HF as [|x y l l' Hx _ IH]; constructor; inversion Hd; subst; [destruct (IHt Hwf x y Hx) as (A & B & _); [assumption|split; assumption]|apply IH; assumption]. }
    split; [|split].
    + apply pd_list. clear -G. induction G as [|x y l l' [H _] _ IH]; constructor; assumption.
    + apply parse_list_ext. clear -G. induction G as [|x y l l' [_ H] _ IH]; constructor; assumption.
    + right. intros [].
  - inversion Hp as [| | t0 d d' HF | | | | ]; subst; [split; [exact Hd|split; [reflexivity|left; reflexivity]]|]. assert (Hk := pd_here _ Hd). cbn [own_keys_distinct] in Hk. apply (cl_dict _ pd_closed) in Hd. cbn [wf_ty] in Hwf.
    assert (G : Forall2 (fun a b => fst a = fst b /\ (python_dicts (snd b) /\ parse E t (snd b) = parse E t (snd a))) d d').
    { clear Hp Hk. induction HF as [|x y l l' [Hx Hy] _ IH]; constructor; inversion Hd; subst; [split; [exact Hx|]; destruct (IHt Hwf _ _ Hy) as (A & B & _); [assumption|split; assumption]|apply IH; assumption]. }
    split; [|split].
    + apply pd_dict; [rewrite (same_keys _ _ G); exact Hk|]. eapply pd_entries; [exact G|]. intros a b _ [H _]. exact H.
    + apply parse_dict_ext. clear -G. induction G as [|x y l l' (H1 & _ & H2) _ IH]; constructor; auto.
    + right. intros [].
  - inversion Hp as [| | | t0 v0 w0 Hv Hw HP | | | ]; subst; [split; [exact Hd|split; [reflexivity|left; reflexivity]]|]. destruct (IHt Hwf v w HP Hd) as (A & B & C).
    assert (Hnn : forall x, x <> VNone -> parse E (TOpt t) x = parse E t x) by (intros x Hx; unfold parse; cbn [validate]; destruct x; try reflexivity; congruence).
    rewrite !Hnn by assumption. auto.
  - inversion Hp as [| | | | ts0 t v0 w0 Hi HP Hin He | | ]; subst; [split; [exact Hd|split; [reflexivity|left; reflexivity]]|]. rewrite Forall_forall in H.
    destruct (H t Hi (wf_union _ _ Hwf Hi) v w HP Hd) as (A & B & C). split; [exact A|]. destruct C as [->|C]; [split; [reflexivity|left; reflexivity]|].
    destruct (C Hin) as [C1 C2]. assert (Hp' : parse E (TUnion ts) v = Some w) by congruence. split; [|right; intros _; split; assumption].
    rewrite Hp'. exact (revalidate E (TUnion ts) v w Hu Hwf Hd Hp' C2).
  - inversion Hp as [| | | | | c0 k0 fs0 kvs kvs' o HF Ho Hs | ]; subst; [split; [exact Hd|split; [reflexivity|left; reflexivity]]|]. assert (Hk := pd_here _ Hd). cbn [own_keys_distinct] in Hk.
    assert (Hde := cl_dict _ pd_closed _ Hd). rewrite Forall_forall in H.
    assert (G : Forall2 (fun a b => fst a = fst b /\ (python_dicts (snd b) /\ (snd a = snd b \/ exists fi t, In (fi, t) fs /\ claims fi kvs (fst a) /\ parse E t (snd b) = parse E t (snd a)))) kvs kvs').
    { assert (G0 : forall l l', Forall2 (fun a b => fst a = fst b /\ (snd a = snd b \/ exists fi t, In (fi, t) fs /\ claims fi kvs (fst a) /\ passed E t (snd a) (snd b))) l l' -> Forall (fun kv => python_dicts (snd kv)) l ->
        Forall2 (fun a b => fst a = fst b /\ (python_dicts (snd b) /\ (snd a = snd b \/ exists fi t, In (fi, t) fs /\ claims fi kvs (fst a) /\ parse E t (snd b) = parse E t (snd a)))) l l'); [|exact (G0 _ _ HF Hde)].
      clear Hp Ho Hd Hk HF Hde. intros l l' HF. induction HF as [|x y l l' [Hx Hy] _ IH]; intros Hde; constructor; inversion Hde as [|? ? D1 D2]; subst.
      - split; [exact Hx|]. destruct Hy as [Hy|(fi & t & Hf & Hc & HP)].
        + split; [rewrite <- Hy; exact D1|left; exact Hy].
        + destruct (H (fi, t) Hf (wf_sub _ _ _ _ Hwf Hf) _ _ HP D1) as (A & B & _). split; [exact A|]. right. exists fi, t. auto.
      - apply IH. exact D2. }
    assert (Hd' : python_dicts (VDict kvs')).
    { apply pd_dict; [rewrite (same_keys _ _ G); exact Hk|]. eapply pd_entries; [exact G|]. intros a b _ [Q _]. exact Q. }
    assert (Hsame : parse E (TModel c k fs) (VDict kvs') = parse E (TModel c k fs) (VDict kvs)).
    { apply parse_model_ext; [exact (wf_keys _ _ _ Hwf)|exact (fields_once _ _ _ Hwf)|]. refine (Forall2_weaken _ _ _ _ _ G). intros a b (Q1 & _ & Q2). auto. }
    rewrite Hsame in Ho. split; [eapply parse_pd; [exact Hwf|exact Hd|exact Ho]|]. split; [|right; intros _; split; assumption].
    rewrite Ho. exact (revalidate E _ _ w Hu Hwf Hd Ho Hs).
  - inversion Hp as [| | | | | | c0 t0 d d' o HF Ho Hs]; subst; [split; [exact Hd|split; [reflexivity|left; reflexivity]]|]. assert (Hk := pd_here _ Hd). cbn [own_keys_distinct] in Hk. assert (Hde := cl_dict _ pd_closed _ Hd).
    assert (Hwt : wf_ty t = true) by exact Hwf.
    assert (G : Forall2 (fun a b => fst a = fst b /\ parse E t (snd b) = parse E t (snd a)) d d').
    { clear Hp Ho Hd Hk. induction HF as [|x y l l' [Hx Hy] _ IH]; constructor; inversion Hde; subst; [split; [exact Hx|]; destruct (IHt Hwt _ _ Hy) as (A & B & _); assumption|apply IH; assumption]. }
    rewrite (parse_root_ext E c t d d' G) in Ho. split; [eapply parse_pd; [exact Hwf|exact Hd|exact Ho]|]. split; [|right; intros _; split; assumption].
    rewrite Ho. exact (revalidate E _ _ w Hu Hwf Hd Ho Hs).
Qed.

Lemma only_classes : forallb (fun t => match t with TModel _ _ _ | TRoot _ _ => true | _ => false end) all_types = true.
Proof. vm_compute. reflexivity. Qed.
(** ** C86 *)
(** Building from parts, at any depth, gives what loading the data whole gives - the same object, or a refusal. *)
Theorem c86_same E t v w : url_idem E -> In t all_types \/ In t annotations -> python_dicts v -> passed E t v w -> parse E t w = parse E t v.
Proof.
  intros Hu Ht Hd Hp. assert (Hw : wf_ty t = true) by (destruct Ht as [Ht|Ht]; [exact (wf_all _ Ht)|exact (proj1 (forallb_forall _ _) annotations_wf t Ht)]).
  exact (proj1 (proj2 (passed_same E t Hu Hw v w Hp Hd))).
Qed.
(** An instance put together from parts is the instance the data stands for. *)
Theorem c86_instance E t v o : url_idem E -> In t all_types -> python_dicts v -> passed E t v o -> o <> v -> parse E t v = Some o.
Proof.
  intros Hu Ht Hd Hp Hn. destruct (passed_same E t Hu (wf_all _ Ht) v o Hp Hd) as (_ & _ & [->|H]); [congruence|]. apply H.
  assert (Hcl : match t with TModel _ _ _ | TRoot _ _ => True | _ => False end) by (assert (Hq := proj1 (forallb_forall _ _) only_classes t Ht); destruct t; try discriminate Hq; exact I).
  destruct t; try contradiction; inversion Hp as [| | | | | c0 k0 fs0 kvs kvs' o0 _ Ho _|c0 t0 d d' o0 _ Ho _]; subst; try congruence; apply parse_some in Ho as [n Ho]; cbn [validate] in Ho.
  - apply vmodel_obj in Ho as (fv & _ & -> & _). exact I.
  - destruct (vdict _ _ _) as [[r m]|]; [|discriminate Ho]. destruct (root_keys_ok r); [|discriminate Ho]. injection Ho as <- _. exact I.
Qed.
(** A channel put together from a map of messages, one of them an instance with a ready-made tag and a payload given as data, and an instance of ExternalDocumentation. *)
Definition whole : pv := obj [("address", str "a"); ("messages", obj [("m", obj [("payload", obj [("type", str "object")]); ("tags", VList [obj [("name", str "t")]; ref "#/x"])]); ("r", ref "#/y")]);
  ("externalDocs", obj [("url", str "http://a/")])].
Definition made (t : ty) (v : pv) : pv := match parse E0 t v with Some o => o | None => VNone end.
Definition message_part : pv := made T_Message (obj [("payload", obj [("type", str "object")]); ("tags", VList [made T_Tag (obj [("name", str "t")]); ref "#/x"])]).
Definition messages_part : pv := made T_Messages (obj [("m", message_part); ("r", made T_Reference (ref "#/y"))]).
Definition channel_parts : pv := obj [("address", str "a"); ("messages", messages_part); ("externalDocs", made T_ExternalDocumentation (obj [("url", str "http://a/")]))].
Definition field_of (t : ty) (key : string) : option (finfo * ty) := match t with TModel _ _ fs => find (fun ft => str_eqb (f_alias (fst ft)) (u key)) fs | _ => None end.
Definition type_of (t : ty) (key : string) : ty := match field_of t key with Some (_, s) => s | None => TAny end.
Lemma field_part E c k fs kvs key x y : field_of (TModel c k fs) key <> None -> passed E (type_of (TModel c k fs) key) x y ->
  fst (u key, x) = fst (u key, y) /\ (snd (u key, x) = snd (u key, y) \/ exists fi t, In (fi, t) fs /\ claims fi kvs (fst (u key, x)) /\ passed E t (snd (u key, x)) (snd (u key, y))).
Proof.
  intros Hf Hp. split; [reflexivity|]. right. unfold type_of in Hp. destruct (field_of (TModel c k fs) key) as [[fi t]|] eqn:Ef; [|congruence]. apply find_some in Ef as [Hi He]. apply str_eqb_eq in He.
  exists fi, t. split; [exact Hi|]. split; [left; symmetry; exact He|exact Hp].
Qed.
Lemma same_part E (fs : list (finfo * ty)) kvs a : fst a = fst a /\ (snd a = snd a \/ exists fi t, In (fi, t) fs /\ claims fi kvs (fst a) /\ passed E t (snd a) (snd a)).
Proof. auto. Qed.
Lemma whole_part E t v o : parse E t v = Some o -> no_shadowing o -> match t with TModel _ _ _ | TRoot _ _ => True | _ => False end -> match v with VDict _ => True | _ => False end -> passed E t v o.
Proof.
  intros Hp Hs Ht Hv. destruct v; try contradiction. destruct t; try contradiction.
  - eapply p_model; [|exact Hp|exact Hs]. clear. generalize d at 1 as all. intros all. induction d; constructor; auto.
  - eapply p_map; [|exact Hp|exact Hs]. clear. induction d; constructor; auto. split; [reflexivity|constructor].
Qed.
Example c86_ex : parse E0 T_Channel channel_parts = parse E0 T_Channel whole /\ parse E0 T_Channel whole <> None /\ channel_parts <> whole.
Proof. split; [vm_compute; reflexivity|]. split; [vm_compute; discriminate|vm_compute; discriminate]. Qed.
Ltac ready := apply whole_part; [vm_compute; reflexivity|apply no_shadowing_dec; vm_compute; reflexivity|exact I|exact I].
Ltac member t := apply (p_union _ _ t); [vm_compute; repeat (first [left; reflexivity|right])| |vm_compute; exact I|vm_compute; reflexivity].
Example c86_ex_parts : exists o, parse E0 T_Channel channel_parts = Some o /\ passed E0 T_Channel whole o.
Proof.
  eexists. split; [vm_compute; reflexivity|]. eapply (p_model E0 _ _ _ _ (match channel_parts with VDict d => d | _ => [] end)); [|vm_compute; reflexivity|apply no_shadowing_dec; vm_compute; reflexivity].
  constructor; [apply same_part|]. constructor; [|constructor; [|constructor]].
  - apply (field_part E0 "Channel" KExt); [vm_compute; discriminate|]. apply p_opt; [discriminate|discriminate|]. 
    eapply (p_map E0 _ _ _ (match obj [("m", message_part); ("r", made T_Reference (ref "#/y"))] with VDict d => d | _ => [] end)); [|vm_compute; reflexivity|apply no_shadowing_dec; vm_compute; reflexivity].
    constructor; [split; [reflexivity|]|constructor; [split; [reflexivity|]|constructor]].
    + member T_Message. cbn [snd].
      eapply (p_model E0 _ _ _ _ (match obj [("payload", obj [("type", str "object")]); ("tags", VList [made T_Tag (obj [("name", str "t")]); ref "#/x"])] with VDict d => d | _ => [] end)); [|vm_compute; reflexivity|apply no_shadowing_dec; vm_compute; reflexivity].
      constructor; [apply same_part|]. constructor; [|constructor]. apply (field_part E0 "Message" KExt); [vm_compute; discriminate|]. apply p_opt; [discriminate|discriminate|]. apply p_list.
      constructor; [|constructor; [constructor|constructor]]. member T_Tag. ready.
    + member T_Reference. cbn [snd]. ready.
  - apply (field_part E0 "Channel" KExt); [vm_compute; discriminate|]. apply p_opt; [discriminate|vm_compute; discriminate|]. member T_ExternalDocumentation. ready.
Qed.
(** The processors of a document do not see the difference either. *)
Theorem c86_document E acts v w calls r : url_idem E -> python_dicts v -> passed E T_AsyncAPI3 v w -> (construct acts E w calls r <-> construct acts E v calls r).
Proof.
  intros Hu Hd Hp. assert (HinA : In T_AsyncAPI3 all_types) by (apply Linked.find_class_In; vm_compute; reflexivity). assert (He := c86_same E _ v w Hu (or_introl HinA) Hd Hp).
  split; intros H; inversion H; subst; [apply cs_invalid|eapply cs_done|eapply cs_raise|apply cs_invalid|eapply cs_done|eapply cs_raise]; eauto; congruence.
Qed.
(** The choice of the class matters: a Schema made of {"$ref": ...} stays a Schema, the same data given as it is becomes a Reference. *)
Theorem c86_choice_needed : exists v o, python_dicts v /\ passed E0 T_Schema v o /\ o <> v /\ parse E0 (TUnion [T_Schema; T_Reference]) v <> None
  /\ parse E0 (TUnion [T_Schema; T_Reference]) o <> parse E0 (TUnion [T_Schema; T_Reference]) v.
Proof.
  exists (ref "#/a"), (made T_Schema (ref "#/a")). split; [apply python_dicts_dec; vm_compute; reflexivity|]. split; [ready|]. split; [vm_compute; discriminate|]. split; vm_compute; discriminate.
Qed.
Print Assumptions c86_same. Print Assumptions c86_instance. Print Assumptions c86_document.
