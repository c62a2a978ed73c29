(** Properties C54, C55, C56: names and aliases, explicit nulls, extensions. *)
From Verif Require Import PyStr Regex Value Types Rules Pydantic ClassTable Classes Canon Fix Linked SpecParse Sample ProofRules ProofParse
  State SpecState ProofState PropState Resolve SpecResolve ProofResolve Dump SpecDump ProofDump PropDump SpecSpelling.
Local Open Scope string_scope.
Local Open Scope list_scope.

(** ** Congruence *)
Lemma vfields_cong E val kvs kvs' fs :
  (forall fi t, In (fi, t) fs -> match lookup_field fi kvs, lookup_field fi kvs' with Some x, Some x' => val t x = val t x' | None, None => True | _, _ => False end) ->
  vfields E val kvs fs = vfields E val kvs' fs.
Proof.
  induction fs as [|[fi t] fs IH]; intros H; [reflexivity|]. cbn [vfields]. assert (H0 := H fi t (or_introl eq_refl)). rewrite (IH (fun g s Hi => H g s (or_intror Hi))).
  destruct (lookup_field fi kvs), (lookup_field fi kvs'); try contradiction; [rewrite H0; reflexivity|reflexivity].
Qed.
Lemma assoc_mid k a x (d1 d2 : fields) : k <> a -> assoc k (d1 ++ (a, x) :: d2) = assoc k (d1 ++ d2).
Proof. intros Hn. induction d1 as [|[b y] d1 IH]; cbn [app assoc]; [|destruct (str_eqb k b); [reflexivity|exact IH]]. destruct (str_eqb k a) eqn:Ek; [|reflexivity]. apply str_eqb_eq in Ek. contradiction. Qed.
Lemma assoc_here a x (d1 d2 : fields) : ~ In a (map fst d1) -> assoc a (d1 ++ (a, x) :: d2) = Some x.
Proof.
  induction d1 as [|[b y] d1 IH]; cbn [app assoc map fst]; intros Hn; [rewrite str_eqb_refl; reflexivity|]. destruct (str_eqb a b) eqn:Ek; [apply str_eqb_eq in Ek; subst; exfalso; apply Hn; left; reflexivity|].
  apply IH. intros Hi. apply Hn. right. exact Hi.
Qed.
Lemma has_mid k a x (d1 d2 : fields) : k <> a -> has_key k (d1 ++ (a, x) :: d2) = has_key k (d1 ++ d2).
Proof.
  intros Hn. apply eq_true_iff_eq. rewrite !has_key_iff, !map_app, !in_app_iff. cbn [map fst In]. intuition congruence.
Qed.
Lemma key_cases fi a : In a [f_alias fi; f_name fi] -> In a (field_keys fi).
Proof. intros [<-|[<-|[]]]; [apply field_keys_alias|apply field_keys_name]. Qed.
Lemma own_key_ne (fs : list (finfo * ty)) fi t gi s a k : NoDup (all_keys (map fst fs)) -> In (fi, t) fs -> In (gi, s) fs -> gi <> fi -> In a [f_alias fi; f_name fi] -> In k [f_alias gi; f_name gi] -> k <> a.
Proof.
  intros Hn Hi Hj Hne Ha Hk ->. apply Hne. eapply (key_owner (map fst fs)); [exact Hn|exact (in_map fst _ _ Hj)|exact (in_map fst _ _ Hi)|apply key_cases; exact Hk|apply key_cases; exact Ha].
Qed.
Section Mid.
  Context (fs : list (finfo * ty)) (fi : finfo) (t : ty) (d1 d2 : fields).
  Context (Hn : NoDup (all_keys (map fst fs))) (Hi : In (fi, t) fs).
  Context (H1 : ~ In (f_alias fi) (map fst (d1 ++ d2))) (H2 : ~ In (f_name fi) (map fst (d1 ++ d2))).
  Lemma not_left a : In a [f_alias fi; f_name fi] -> ~ In a (map fst d1).
  Proof. intros [<-|[<-|[]]] Hx; [apply H1|apply H2]; rewrite map_app; apply in_or_app; left; exact Hx. Qed.
  Lemma lookup_own a x : In a [f_alias fi; f_name fi] -> lookup_field fi (d1 ++ (a, x) :: d2) = Some x.
  Proof.
    intros Ha. unfold lookup_field. destruct (str_eqb (f_alias fi) a) eqn:Ea.
    - apply str_eqb_eq in Ea. subst. rewrite assoc_here; [reflexivity|]. apply not_left. exact Ha.
    - assert (Hx : f_alias fi <> a) by (intros Hq; rewrite Hq, str_eqb_refl in Ea; discriminate Ea). rewrite assoc_mid by exact Hx.
      assert (Hz : assoc (f_alias fi) (d1 ++ d2) = None) by (apply assoc_None; exact H1). rewrite Hz.
      destruct Ha as [Ha|[<-|[]]]; [contradiction|]. apply assoc_here. apply not_left. right. left. reflexivity.
  Qed.
  Lemma lookup_other gi s a x : In (gi, s) fs -> gi <> fi -> In a [f_alias fi; f_name fi] -> lookup_field gi (d1 ++ (a, x) :: d2) = lookup_field gi (d1 ++ d2).
  Proof.
    intros Hg Hne Ha. unfold lookup_field. rewrite !assoc_mid; [reflexivity| |]; apply (own_key_ne fs fi t gi s a); auto; cbn; auto.
  Qed.
  Lemma used_own a x : In a [f_alias fi; f_name fi] -> used_key (d1 ++ (a, x) :: d2) fi = a.
  Proof.
    intros Ha. unfold used_key. destruct (str_eqb (f_alias fi) a) eqn:Ea.
    - apply str_eqb_eq in Ea. subst. assert (Hh : has_key (f_alias fi) (d1 ++ (f_alias fi, x) :: d2) = true) by (apply has_key_iff; rewrite map_app; apply in_or_app; right; left; reflexivity). rewrite Hh. reflexivity.
    - assert (Hx : f_alias fi <> a) by (intros Hq; rewrite Hq, str_eqb_refl in Ea; discriminate Ea). rewrite has_mid by exact Hx.
      destruct (has_key (f_alias fi) (d1 ++ d2)) eqn:Eh; [apply has_key_iff in Eh; contradiction|]. destruct Ha as [Ha|[<-|[]]]; [contradiction|reflexivity].
  Qed.
  Lemma used_other gi s a x : In (gi, s) fs -> gi <> fi -> In a [f_alias fi; f_name fi] -> used_key (d1 ++ (a, x) :: d2) gi = used_key (d1 ++ d2) gi.
  Proof. intros Hg Hne Ha. unfold used_key. rewrite has_mid; [reflexivity|]. apply (own_key_ne fs fi t gi s a); auto. cbn; auto. Qed.
  Lemma fi_dec gi s : In (gi, s) fs -> gi = fi \/ gi <> fi.
  Proof.
    intros Hg. destruct (str_eqb (f_name gi) (f_name fi)) eqn:Ee.
    - apply str_eqb_eq in Ee. left. eapply (key_owner (map fst fs)); [exact Hn|exact (in_map fst _ _ Hg)|exact (in_map fst _ _ Hi)|apply field_keys_name|]. rewrite Ee. apply field_keys_name.
    - right. intros ->. rewrite str_eqb_refl in Ee. discriminate Ee.
  Qed.
  (** the entry is consumed; what is left does not depend on its spelling *)
  Lemma extras_mid a x : In a [f_alias fi; f_name fi] -> extras fs (d1 ++ (a, x) :: d2) = extras fs (d1 ++ d2).
  Proof.
    intros Ha. unfold extras.
    assert (Hmem : forall k, In k (map fst (d1 ++ d2)) -> mem_str k (map (fun ft => used_key (d1 ++ (a, x) :: d2) (fst ft)) fs) = mem_str k (map (fun ft => used_key (d1 ++ d2) (fst ft)) fs)).
    { intros k Hk. apply eq_true_iff_eq. rewrite !mem_str_In, !in_map_iff. split; intros ([gi s] & <- & Hg); cbn [fst] in *.
      - destruct (fi_dec gi s Hg) as [->|Hne].
        + exfalso. rewrite (used_own a x Ha) in Hk. destruct Ha as [<-|[<-|[]]]; [exact (H1 Hk)|exact (H2 Hk)].
        + exists (gi, s). split; [|exact Hg]. cbn [fst]. symmetry. eapply used_other; eauto.
      - destruct (fi_dec gi s Hg) as [->|Hne].
        + exfalso. unfold used_key in Hk. destruct (has_key (f_alias fi) (d1 ++ d2)); [exact (H1 Hk)|exact (H2 Hk)].
        + exists (gi, s). split; [|exact Hg]. cbn [fst]. eapply used_other; eauto. }
    rewrite !filter_app. cbn [filter fst].
    assert (Hh : mem_str a (map (fun ft => used_key (d1 ++ (a, x) :: d2) (fst ft)) fs) = true) by (apply mem_str_In, in_map_iff; exists (fi, t); split; [apply used_own; exact Ha|exact Hi]).
    rewrite Hh. cbn [negb]. f_equal; apply filter_ext_in; intros kv Hkv; f_equal; apply Hmem; apply in_map; apply in_or_app; [left|right]; exact Hkv.
  Qed.
End Mid.
Lemma field_type (fs : list (finfo * ty)) fi t s : NoDup (all_keys (map fst fs)) -> In (fi, t) fs -> In (fi, s) fs -> s = t.
Proof.
  intros Hn H1 H2. assert (Hm : NoDup (map (fun ft : finfo * ty => f_name (fst ft)) fs)) by (rewrite <- (map_map fst f_name); apply all_keys_names; exact Hn).
  assert (E1 := find_field_in _ _ _ H1 Hm). assert (E2 := find_field_in _ _ _ H2 Hm). rewrite E1 in E2. injection E2 as ->. reflexivity.
Qed.
Lemma respell_key E c k fs fi t d1 d2 x a b : wf_ty (TModel c k fs) = true -> In (fi, t) fs -> In a [f_alias fi; f_name fi] -> In b [f_alias fi; f_name fi] ->
  ~ In (f_alias fi) (map fst (d1 ++ d2)) -> ~ In (f_name fi) (map fst (d1 ++ d2)) ->
  validate E (TModel c k fs) (VDict (d1 ++ (a, x) :: d2)) = validate E (TModel c k fs) (VDict (d1 ++ (b, x) :: d2)).
Proof.
  intros Hw Hi Ha Hb H1 H2. assert (Hn := wf_keys _ _ _ Hw). cbn [validate]. unfold vmodel. rewrite !(extras_mid fs fi t d1 d2 Hn Hi H1 H2) by assumption.
  rewrite (vfields_cong E _ (d1 ++ (a, x) :: d2) (d1 ++ (b, x) :: d2)); [reflexivity|]. intros gi s Hg. destruct (fi_dec fs fi t Hn Hi gi s Hg) as [->|Hne].
  - rewrite !(lookup_own fi d1 d2 H1 H2) by assumption. reflexivity.
  - rewrite !(lookup_other fs fi t d1 d2 Hn Hi gi s) by assumption. destruct (lookup_field gi (d1 ++ d2)); auto.
Qed.
Lemma respell_field E c k fs fi t d1 d2 x x' a : wf_ty (TModel c k fs) = true -> In (fi, t) fs -> In a [f_alias fi; f_name fi] ->
  ~ In (f_alias fi) (map fst (d1 ++ d2)) -> ~ In (f_name fi) (map fst (d1 ++ d2)) -> validate E t x = validate E t x' ->
  validate E (TModel c k fs) (VDict (d1 ++ (a, x) :: d2)) = validate E (TModel c k fs) (VDict (d1 ++ (a, x') :: d2)).
Proof.
  intros Hw Hi Ha H1 H2 He. assert (Hn := wf_keys _ _ _ Hw). cbn [validate]. unfold vmodel. rewrite !(extras_mid fs fi t d1 d2 Hn Hi H1 H2) by assumption.
  rewrite (vfields_cong E _ (d1 ++ (a, x) :: d2) (d1 ++ (a, x') :: d2)); [reflexivity|]. intros gi s Hg. destruct (fi_dec fs fi t Hn Hi gi s Hg) as [->|Hne].
  - rewrite !(lookup_own fi d1 d2 H1 H2) by assumption. assert (Hs : s = t) by (eapply field_type; eauto). subst s. exact He.
  - rewrite !(lookup_other fs fi t d1 d2 Hn Hi gi s) by assumption. destruct (lookup_field gi (d1 ++ d2)); auto.
Qed.

Lemma vlist_mid val t x x' l1 l2 : val t x = val t x' -> vlist val t (l1 ++ x :: l2) = vlist val t (l1 ++ x' :: l2).
Proof. intros H. induction l1 as [|y l1 IH]; cbn [app]; rewrite !vlist_cons; [rewrite H; reflexivity|rewrite IH; reflexivity]. Qed.
Lemma vdict_mid val t k x x' d1 d2 : val t x = val t x' -> vdict val t (d1 ++ (k, x) :: d2) = vdict val t (d1 ++ (k, x') :: d2).
Proof. intros H. induction d1 as [|[b y] d1 IH]; cbn [app]; rewrite !vdict_cons; [rewrite H; reflexivity|rewrite IH; reflexivity]. Qed.
Lemma parse_none E t v : parse E t v = None <-> validate E t v = None.
Proof. unfold parse. destruct (validate E t v); cbn [option_map]; split; congruence. Qed.
Section RespelledInd.
  Context (E : env) (P : ty -> pv -> pv -> Prop).
  Context (Psame : forall t v, P t v v) (Pmore : forall t v v1 v', P t v v1 -> P t v1 v' -> P t v v')
    (Pkey : forall c k fs fi t d1 d2 x a b, In (fi, t) fs -> In a [f_alias fi; f_name fi] -> In b [f_alias fi; f_name fi] ->
      ~ In (f_alias fi) (map fst (d1 ++ d2)) -> ~ In (f_name fi) (map fst (d1 ++ d2)) -> P (TModel c k fs) (VDict (d1 ++ (a, x) :: d2)) (VDict (d1 ++ (b, x) :: d2)))
    (Pfield : forall c k fs fi t d1 d2 x x' a, In (fi, t) fs -> In a [f_alias fi; f_name fi] ->
      ~ In (f_alias fi) (map fst (d1 ++ d2)) -> ~ In (f_name fi) (map fst (d1 ++ d2)) -> P t x x' -> P (TModel c k fs) (VDict (d1 ++ (a, x) :: d2)) (VDict (d1 ++ (a, x') :: d2)))
    (Pitem : forall t l1 l2 x x', P t x x' -> P (TList t) (VList (l1 ++ x :: l2)) (VList (l1 ++ x' :: l2)))
    (Pentry : forall t d1 d2 key x x', P t x x' -> P (TDict t) (VDict (d1 ++ (key, x) :: d2)) (VDict (d1 ++ (key, x') :: d2)))
    (Pmap : forall c t d1 d2 key x x', P t x x' -> P (TRoot c t) (VDict (d1 ++ (key, x) :: d2)) (VDict (d1 ++ (key, x') :: d2)))
    (Popt : forall t x x', x <> VNone -> x' <> VNone -> P t x x' -> P (TOpt t) x x')
    (Punion : forall ts x x', (forall t, In t ts -> P t x x' \/ (parse E t x = None /\ parse E t x' = None)) -> P (TUnion ts) x x').
  Fixpoint respelled_ind' t v v' (H : respelled E t v v') {struct H} : P t v v' :=
    match H with
    | rs_same _ t v => Psame t v
    | rs_more _ t v v1 v' Ha Hb => Pmore _ _ _ _ (respelled_ind' _ _ _ Ha) (respelled_ind' _ _ _ Hb)
    | rs_key _ c k fs fi t d1 d2 x a b Hi Ha Hb H1 H2 => Pkey c k fs fi t d1 d2 x a b Hi Ha Hb H1 H2
    | rs_field _ c k fs fi t d1 d2 x x' a Hi Ha H1 H2 Hr => Pfield c k fs fi t d1 d2 x x' a Hi Ha H1 H2 (respelled_ind' _ _ _ Hr)
    | rs_item _ t l1 l2 x x' Hr => Pitem _ _ _ _ _ (respelled_ind' _ _ _ Hr)
    | rs_entry _ t d1 d2 key x x' Hr => Pentry _ _ _ _ _ _ (respelled_ind' _ _ _ Hr)
    | rs_map _ c t d1 d2 key x x' Hr => Pmap _ _ _ _ _ _ _ (respelled_ind' _ _ _ Hr)
    | rs_opt _ t x x' H1 H2 Hr => Popt _ _ _ H1 H2 (respelled_ind' _ _ _ Hr)
    | rs_union _ ts x x' Hr => Punion _ _ _ (fun t Ht => match Hr t Ht with or_introl Ha => or_introl (respelled_ind' _ _ _ Ha) | or_intror Hb => or_intror Hb end)
    end.
End RespelledInd.
Lemma respelled_validate E t v v' : respelled E t v v' -> wf_ty t = true -> validate E t v = validate E t v'.
Proof.
  intros H. induction H using respelled_ind'; intros Hw.
  - reflexivity.
  - rewrite IHrespelled by exact Hw. apply IHrespelled0. exact Hw.
  - eapply respell_key; eauto.
  - eapply respell_field; eauto. apply IHrespelled. exact (wf_sub _ _ _ _ Hw H).
  - cbn [validate]. rewrite (vlist_mid _ _ x x'); [reflexivity|]. apply IHrespelled. exact Hw.
  - cbn [validate]. rewrite (vdict_mid _ _ _ x x'); [reflexivity|]. apply IHrespelled. exact Hw.
  - cbn [validate]. rewrite (vdict_mid _ _ _ x x'); [reflexivity|]. apply IHrespelled. exact Hw.
  - cbn [validate]. rewrite IHrespelled by exact Hw. destruct x; try contradiction; destruct x'; try contradiction; reflexivity.
  - cbn [validate]. f_equal. apply map_ext_in. intros t Ht. destruct (H t Ht) as [Hr|[H1 H2]]; [apply Hr; exact (wf_union _ _ Hw Ht)|]. apply parse_none in H1, H2. congruence.
Qed.

(** ** C54 *)
Theorem c54_spelling E t v v' : In t all_types \/ In t annotations -> respelled E t v v' -> parse E t v = parse E t v'.
Proof.
  intros Ht H. assert (Hw : wf_ty t = true) by (destruct Ht as [Ht|Ht]; [exact (wf_all _ Ht)|exact (proj1 (forallb_forall _ _) annotations_wf t Ht)]).
  unfold parse. rewrite (respelled_validate E t v v' H Hw). reflexivity.
Qed.
Definition tagA : pv := obj [("name", str "t"); ("external_docs", obj [("url", str "u:y")])].
Definition tagB : pv := obj [("name", str "t"); ("externalDocs", obj [("url", str "u:y")])].
Definition spellA : pv := obj [("title", str "T"); ("terms_of_service", str "u:x"); ("version", str "1"); ("tags", VList [ref "#/t"; tagA])].
Definition spellB : pv := obj [("title", str "T"); ("termsOfService", str "u:x"); ("version", str "1"); ("tags", VList [ref "#/t"; tagB])].
Ltac key_given := cbn; intuition (subst; discriminate || congruence || auto).
Example c54_ex : respelled E0 T_Info spellA spellB /\ spellA <> spellB /\ exists o, parse E0 T_Info spellA = Some o.
Proof.
  split; [|split; [discriminate|eexists; vm_compute; reflexivity]].
  unfold T_Info. apply rs_more with (v1 := obj [("title", str "T"); ("termsOfService", str "u:x"); ("version", str "1"); ("tags", VList [ref "#/t"; tagA])]).
  - refine (rs_key E0 _ _ _ (fld "terms_of_service" "termsOfService" (Some VNone) true false FvNone) (TOpt (TUrl true)) [(u "title", str "T")] [(u "version", str "1"); (u "tags", VList [ref "#/t"; tagA])] (str "u:x") _ _ _ _ _ _ _).
    + cbn [In]. tauto.
    + right. left. reflexivity.
    + left. reflexivity.
    + vm_compute. intuition discriminate.
    + vm_compute. intuition discriminate.
  - refine (rs_field E0 _ _ _ (fld "tags" "tags" (Some VNone) true false FvNone) (TOpt (TList (TUnion [T_Tag; T_Reference]))) [(u "title", str "T"); (u "termsOfService", str "u:x"); (u "version", str "1")] []
      (VList [ref "#/t"; tagA]) (VList [ref "#/t"; tagB]) _ _ _ _ _ _).
    + cbn [In]. tauto.
    + left. reflexivity.
    + vm_compute. intuition discriminate.
    + vm_compute. intuition discriminate.
    + apply rs_opt; [discriminate|discriminate|]. refine (rs_item E0 _ [ref "#/t"] [] tagA tagB _). apply rs_union. intros t [<-|[<-|[]]].
      * left. unfold T_Tag. refine (rs_key E0 _ _ _ (fld "external_docs" "externalDocs" (Some VNone) true false FvNone) (TOpt (TUnion [T_ExternalDocumentation; T_Reference])) [(u "name", str "t")] [] (obj [("url", str "u:y")]) _ _ _ _ _ _ _).
        -- cbn [In]. tauto.
        -- right. left. reflexivity.
        -- left. reflexivity.
        -- vm_compute. intuition discriminate.
        -- vm_compute. intuition discriminate.
      * right. split; vm_compute; reflexivity.
Qed.

(** ** C55.  Explicit nulls. *)
Definition values {X Y} (o : option (X * Y)) : option X := option_map fst o.
Lemma vfields_values E val kvs kvs' fs :
  (forall fi t, In (fi, t) fs -> match lookup_field fi kvs, lookup_field fi kvs' with
     | Some x, Some x' => values (val t x) = values (val t x')
     | None, None => True
     | Some x, None => exists d, f_def fi = Some d /\ values (val t x) = Some d /\ fv_check E (f_val fi) d = true
     | None, Some _ => False end) ->
  values (vfields E val kvs fs) = values (vfields E val kvs' fs).
Proof.
  induction fs as [|[fi t] fs IH]; intros H; [reflexivity|]. cbn [vfields]. assert (H0 := H fi t (or_introl eq_refl)). assert (IH' := IH (fun g s Hi => H g s (or_intror Hi))).
  destruct (lookup_field fi kvs) as [x|], (lookup_field fi kvs') as [x'|]; try contradiction.
  - destruct (val t x) as [[y n]|], (val t x') as [[y' n']|]; cbn [values option_map fst] in H0; try discriminate H0; [|reflexivity]. injection H0 as ->.
    destruct (fv_check E (f_val fi) y'); [|reflexivity].
    destruct (vfields E val kvs fs) as [[r m]|], (vfields E val kvs' fs) as [[r' m']|]; cbn [values option_map fst] in *; try discriminate IH'; [|reflexivity]. injection IH' as ->. reflexivity.
  - destruct H0 as (d & -> & Hv & Hc). destruct (val t x) as [[y n]|]; cbn [values option_map fst] in Hv; [|discriminate Hv]. injection Hv as ->. rewrite Hc.
    destruct (vfields E val kvs fs) as [[r m]|], (vfields E val kvs' fs) as [[r' m']|]; cbn [values option_map fst] in *; try discriminate IH'; [|reflexivity]. injection IH' as ->. reflexivity.
  - destruct (f_def fi); [|reflexivity].
    destruct (vfields E val kvs fs) as [[r m]|], (vfields E val kvs' fs) as [[r' m']|]; cbn [values option_map fst] in *; try discriminate IH'; [|reflexivity]. injection IH' as ->. reflexivity.
Qed.
Lemma vmodel_values E val c k fs kvs kvs' : values (vfields E val kvs fs) = values (vfields E val kvs' fs) -> extras fs kvs = extras fs kvs' ->
  values (vmodel E val c k fs kvs) = values (vmodel E val c k fs kvs').
Proof.
  intros Hv He. unfold vmodel. rewrite He. destruct (vfields E val kvs fs) as [[r m]|], (vfields E val kvs' fs) as [[r' m']|]; cbn [values option_map fst] in *; try discriminate Hv; [|reflexivity].
  injection Hv as ->. destruct (after_ok E c k r' (extras fs kvs')); reflexivity.
Qed.
Lemma table_default c k fs fi t : wf_ty (TModel c k fs) = true -> In (fi, t) fs -> default_ok fi t = true.
Proof.
  intros Hw Hi. cbn [wf_ty] in Hw. apply andb_prop in Hw as [Hm _]. unfold model_ok in Hm. apply andb_prop in Hm as [Hm _]. apply andb_prop in Hm as [Hm _]. apply andb_prop in Hm as [_ Hm].
  exact (proj1 (forallb_forall _ _) Hm (fi, t) Hi).
Qed.
Definition atom (v : pv) : Prop := match v with VNone | VBool _ | VInt _ | VStr _ => True | _ => False end.
Lemma default_facts E fi t d : default_ok fi t = true -> f_def fi = Some d -> atom d /\ parse E t d = Some d /\ field_rule E (f_val fi) d.
Proof.
  intros Hdef Hd. destruct (default_ok_canon (fun _ => True) E fi t d Hdef Hd) as [_ Hf]. apply fv_check_iff in Hf.
  unfold default_ok in Hdef. rewrite Hd in Hdef. destruct d; try discriminate Hdef; (split; [exact I|]; split; [|exact Hf]).
  - apply andb_prop in Hdef as [Hdef _]. apply andb_prop in Hdef as [Hdef _]. destruct t; try discriminate Hdef. reflexivity.
  - destruct t; try discriminate Hdef. reflexivity.
  - destruct t; try discriminate Hdef; [reflexivity|]. destruct t; try discriminate Hdef. reflexivity.
  - destruct t; try discriminate Hdef.
    + destruct maxlen; [discriminate Hdef|]. reflexivity.
    + apply andb_prop in Hdef as [Hm _]. unfold parse. cbn [validate]. rewrite Hm. reflexivity.
    + destruct t; try discriminate Hdef. apply andb_prop in Hdef as [Hm _]. unfold parse. cbn [validate]. rewrite Hm. reflexivity.
Qed.
Lemma default_key E c k fs fi t d1 d2 a d : wf_ty (TModel c k fs) = true -> In (fi, t) fs -> f_def fi = Some d -> In a [f_alias fi; f_name fi] ->
  ~ In (f_alias fi) (map fst (d1 ++ d2)) -> ~ In (f_name fi) (map fst (d1 ++ d2)) ->
  values (validate E (TModel c k fs) (VDict (d1 ++ (a, d) :: d2))) = values (validate E (TModel c k fs) (VDict (d1 ++ d2))).
Proof.
  intros Hw Hi Hd Ha H1 H2. assert (Hn := wf_keys _ _ _ Hw). cbn [validate]. apply vmodel_values; [|exact (extras_mid fs fi t d1 d2 Hn Hi H1 H2 a d Ha)].
  apply vfields_values. intros gi s Hg. destruct (fi_dec fs fi t Hn Hi gi s Hg) as [->|Hne].
  - rewrite (lookup_own fi d1 d2 H1 H2 a d Ha). assert (Hs : s = t) by (eapply field_type; eauto). subst s.
    assert (Hl : lookup_field fi (d1 ++ d2) = None).
    { unfold lookup_field. assert (E1 : assoc (f_alias fi) (d1 ++ d2) = None) by (apply assoc_None; exact H1). assert (E2 : assoc (f_name fi) (d1 ++ d2) = None) by (apply assoc_None; exact H2). rewrite E1. exact E2. }
    rewrite Hl. exists d. split; [exact Hd|]. destruct (default_facts E fi t d (table_default _ _ _ _ _ Hw Hi) Hd) as (_ & Hp & Hf). split; [exact Hp|apply fv_check_iff; exact Hf].
  - rewrite (lookup_other fs fi t d1 d2 Hn Hi gi s a d Hg Hne Ha). destruct (lookup_field gi (d1 ++ d2)); auto.
Qed.
Lemma null_key E c k fs fi t d1 d2 a : wf_ty (TModel c k fs) = true -> In (fi, t) fs -> f_def fi = Some VNone -> In a [f_alias fi; f_name fi] ->
  ~ In (f_alias fi) (map fst (d1 ++ d2)) -> ~ In (f_name fi) (map fst (d1 ++ d2)) ->
  values (validate E (TModel c k fs) (VDict (d1 ++ (a, VNone) :: d2))) = values (validate E (TModel c k fs) (VDict (d1 ++ d2))).
Proof. intros. eapply default_key; eauto. Qed.
Lemma vlist_values val t l1 l2 x x' : values (val t x) = values (val t x') -> values (vlist val t (l1 ++ x :: l2)) = values (vlist val t (l1 ++ x' :: l2)).
Proof.
  intros H. induction l1 as [|y l1 IH]; cbn [app]; rewrite !vlist_cons.
  - destruct (val t x) as [[? ?]|], (val t x') as [[? ?]|]; cbn [values option_map fst] in H; try discriminate H; [|reflexivity]. injection H as ->. destruct (vlist val t l2) as [[? ?]|]; reflexivity.
  - destruct (val t y) as [[? ?]|]; [|reflexivity].
    destruct (vlist val t (l1 ++ x :: l2)) as [[? ?]|], (vlist val t (l1 ++ x' :: l2)) as [[? ?]|]; cbn [values option_map fst] in *; try discriminate IH; [injection IH as ->; reflexivity|reflexivity].
Qed.
Lemma vdict_values val t k d1 d2 x x' : values (val t x) = values (val t x') -> values (vdict val t (d1 ++ (k, x) :: d2)) = values (vdict val t (d1 ++ (k, x') :: d2)).
Proof.
  intros H. induction d1 as [|[b y] l1 IH]; cbn [app]; rewrite !vdict_cons.
  - destruct (val t x) as [[? ?]|], (val t x') as [[? ?]|]; cbn [values option_map fst] in H; try discriminate H; [|reflexivity]. injection H as ->. destruct (vdict val t d2) as [[? ?]|]; reflexivity.
  - destruct (val t y) as [[? ?]|]; [|reflexivity].
    destruct (vdict val t (l1 ++ (k, x) :: d2)) as [[? ?]|], (vdict val t (l1 ++ (k, x') :: d2)) as [[? ?]|]; cbn [values option_map fst] in *; try discriminate IH; [injection IH as ->; reflexivity|reflexivity].
Qed.
Lemma best_of_one (a b : list (option (pv * nat))) o : (forall x, In x (a ++ b) -> x = None) -> best_of (a ++ o :: b) = o.
Proof.
  intros H. assert (Hb : best_of b = None) by (apply best_of_none; intros x Hx; apply H; apply in_or_app; right; exact Hx).
  induction a as [|x a IH]; cbn [app best_of].
  - destruct o as [[v n]|]; [rewrite Hb; reflexivity|exact Hb].
  - rewrite (H x (or_introl eq_refl)). apply IH. intros y Hy. apply H. right. exact Hy.
Qed.
Lemma dropped_values E t v v' : nulls_dropped E t v v' -> wf_ty t = true -> values (validate E t v) = values (validate E t v').
Proof.
  intros H. induction H; intros Hw.
  - reflexivity.
  - rewrite IHnulls_dropped1 by exact Hw. apply IHnulls_dropped2. exact Hw.
  - eapply null_key; eauto.
  - assert (Hn := wf_keys _ _ _ Hw). assert (IH := IHnulls_dropped (wf_sub _ _ _ _ Hw H)). cbn [validate]. apply vmodel_values.
    + apply vfields_values. intros gi s Hg. destruct (fi_dec fs fi t Hn H gi s Hg) as [->|Hne].
      * rewrite !(lookup_own fi d1 d2 H1 H2) by assumption. assert (Hs : s = t) by (eapply field_type; eauto). subst s. exact IH.
      * rewrite !(lookup_other fs fi t d1 d2 Hn H gi s) by assumption. destruct (lookup_field gi (d1 ++ d2)); auto.
    + rewrite !(extras_mid fs fi t d1 d2 Hn H H1 H2) by assumption. reflexivity.
  - assert (IH := vlist_values _ _ l1 l2 _ _ (IHnulls_dropped Hw)). cbn [validate].
    destruct (vlist (validate E) t (l1 ++ x :: l2)) as [[? ?]|], (vlist (validate E) t (l1 ++ x' :: l2)) as [[? ?]|]; cbn [values option_map fst] in *; try discriminate IH; [injection IH as ->|]; reflexivity.
  - assert (IH := vdict_values _ _ key d1 d2 _ _ (IHnulls_dropped Hw)). cbn [validate].
    destruct (vdict (validate E) t (d1 ++ (key, x) :: d2)) as [[? ?]|], (vdict (validate E) t (d1 ++ (key, x') :: d2)) as [[? ?]|]; cbn [values option_map fst] in *; try discriminate IH; [injection IH as ->|]; reflexivity.
  - assert (IH := vdict_values _ _ key d1 d2 _ _ (IHnulls_dropped Hw)). cbn [validate].
    destruct (vdict (validate E) t (d1 ++ (key, x) :: d2)) as [[? ?]|], (vdict (validate E) t (d1 ++ (key, x') :: d2)) as [[? ?]|]; cbn [values option_map fst] in *; try discriminate IH; [injection IH as ->|reflexivity].
    destruct (root_keys_ok _); reflexivity.
  - cbn [validate]. assert (IH := IHnulls_dropped Hw). destruct x; try contradiction; destruct x'; try contradiction; exact IH.
  - cbn [validate]. rewrite !map_app. cbn [map].
    assert (Hr : forall y, (y = x \/ y = x') -> forall o, In o (map (fun t' => validate E t' y) ts1 ++ map (fun t' => validate E t' y) ts2) -> o = None).
    { intros y Hy o Ho. rewrite <- map_app in Ho. apply in_map_iff in Ho as (s & <- & Hs). destruct (H0 s Hs) as [Ha Hb]. apply parse_none in Ha, Hb. destruct Hy as [->| ->]; assumption. }
    rewrite !best_of_one by (apply Hr; auto). apply IHnulls_dropped. apply (wf_union _ t Hw). apply in_or_app. right. left. reflexivity.
Qed.
(** Refuted in general: next to "$ref", a null for a Schema field turns a Reference into a Schema. *)
Definition refN : pv := obj [("$ref", str "#/c"); ("discriminator", VNone)].
Theorem c55_null_refuted E : exists o o', parse E T_Message (obj [("payload", ref "#/c")]) = Some o /\ parse E T_Message (obj [("payload", refN)]) = Some o' /\ o <> o'
  /\ get_in "payload" o = VObj "Reference" [(u "ref", str "#/c")] [] /\ exists fv ex, get_in "payload" o' = VObj "Schema" fv ex.
Proof.
  eexists. eexists. split; [vm_compute; reflexivity|]. split; [vm_compute; reflexivity|]. split; [discriminate|]. split; [vm_compute; reflexivity|].
  eexists. eexists. vm_compute. reflexivity.
Qed.
(** Strongest true version: nulls for fields of the class itself, and through fields, lists and maps at any depth; through alternatives only
    where a single one accepts. *)
Theorem c55_nulls_partial E t v v' : In t all_types \/ In t annotations -> nulls_dropped E t v v' -> parse E t v = parse E t v'.
Proof.
  intros Ht H. assert (Hw : wf_ty t = true) by (destruct Ht as [Ht|Ht]; [exact (wf_all _ Ht)|exact (proj1 (forallb_forall _ _) annotations_wf t Ht)]).
  exact (dropped_values E t v v' H Hw).
Qed.
Example c55_ex : nulls_dropped E0 T_Info (obj [("title", str "T"); ("version", str "1"); ("contact", obj [("name", VNone); ("email", str "a@b.org")]); ("license", VNone)])
                                         (obj [("title", str "T"); ("version", str "1"); ("contact", obj [("email", str "a@b.org")])]).
Proof.
  unfold T_Info. apply nd_more with (v1 := obj [("title", str "T"); ("version", str "1"); ("contact", obj [("name", VNone); ("email", str "a@b.org")])]).
  - refine (nd_key E0 _ _ _ (fld "license" "license" (Some VNone) true false FvNone) (TOpt T_License) [(u "title", str "T"); (u "version", str "1"); (u "contact", obj [("name", VNone); ("email", str "a@b.org")])] [] (u "license") _ _ _ _ _).
    + cbn [In]. tauto.
    + reflexivity.
    + left. reflexivity.
    + vm_compute. intuition discriminate.
    + vm_compute. intuition discriminate.
  - refine (nd_field E0 _ _ _ (fld "contact" "contact" (Some VNone) true false FvNone) (TOpt T_Contact) [(u "title", str "T"); (u "version", str "1")] []
      (obj [("name", VNone); ("email", str "a@b.org")]) (obj [("email", str "a@b.org")]) _ _ _ _ _ _).
    + cbn [In]. tauto.
    + left. reflexivity.
    + vm_compute. intuition discriminate.
    + vm_compute. intuition discriminate.
    + apply nd_opt; [discriminate|discriminate|]. unfold T_Contact. refine (nd_key E0 _ _ _ (fld "name" "name" (Some VNone) true false FvNone) (TOpt (TStr None)) [] [(u "email", str "a@b.org")] (u "name") _ _ _ _ _).
      * cbn [In]. tauto.
      * reflexivity.
      * left. reflexivity.
      * vm_compute. intuition discriminate.
      * vm_compute. intuition discriminate.
Qed.
Print Assumptions c54_spelling.
Print Assumptions c55_nulls_partial.

(** ** C56.  Unknown keys do not influence the rest of the object. *)
Section Added.
  Context (fs : list (finfo * ty)) (key : pystr) (x : pv) (d1 d2 : fields).
  Context (Hu : ~ declared fs key).
  Lemma added_ne fi t k : In (fi, t) fs -> In k [f_alias fi; f_name fi] -> k <> key.
  Proof. intros Hi Hk ->. apply Hu. exists fi, t. split; [exact Hi|]. destruct Hk as [<-|[<-|[]]]; auto. Qed.
  Lemma lookup_added fi t : In (fi, t) fs -> lookup_field fi (d1 ++ (key, x) :: d2) = lookup_field fi (d1 ++ d2).
  Proof. intros Hi. unfold lookup_field. rewrite !assoc_mid; [reflexivity| |]; apply (added_ne fi t); auto; cbn; auto. Qed.
  Lemma used_added : map (fun ft : finfo * ty => used_key (d1 ++ (key, x) :: d2) (fst ft)) fs = map (fun ft => used_key (d1 ++ d2) (fst ft)) fs.
  Proof. apply map_ext_in. intros [fi t] Hi. cbn [fst]. unfold used_key. rewrite has_mid; [reflexivity|]. apply (added_ne fi t); [exact Hi|]. left. reflexivity. Qed.
  Definition left_over (used : list pystr) (d : fields) : fields := filter (fun kv => negb (mem_str (fst kv) used)) d.
  Lemma extras_added : exists e1 e2, extras fs (d1 ++ d2) = e1 ++ e2 /\ extras fs (d1 ++ (key, x) :: d2) = e1 ++ (key, x) :: e2
    /\ (forall kv, In kv e1 -> In kv d1) /\ (forall kv, In kv e2 -> In kv d2).
  Proof.
    exists (left_over (map (fun ft => used_key (d1 ++ d2) (fst ft)) fs) d1), (left_over (map (fun ft => used_key (d1 ++ d2) (fst ft)) fs) d2).
    unfold extras, left_over. rewrite used_added. rewrite !filter_app. split; [reflexivity|]. split.
    - cbn [filter fst]. destruct (mem_str key _) eqn:Em; [|reflexivity].
      exfalso. apply mem_str_In, in_map_iff in Em as ([fi t] & He & Hi). cbn [fst] in He. apply (added_ne fi t (used_key (d1 ++ d2) fi) Hi); [|exact He].
      unfold used_key. destruct (has_key _ _); cbn; auto.
    - split; intros kv H; apply filter_In in H as [H _]; exact H.
  Qed.
End Added.
(** An undeclared key the class admits (an extension key; anything in a free-form class) is kept where it was; acceptance and all declared
    fields are as without it. *)
Theorem c56_extra_key_neutral E c k fs d1 d2 key x : In (TModel c k fs) all_types -> k <> KForbid -> (k = KExt -> upto_nl (extension_key E) key) ->
  ~ declared fs key ->
  match parse E (TModel c k fs) (VDict (d1 ++ d2)) with
  | None => parse E (TModel c k fs) (VDict (d1 ++ (key, x) :: d2)) = None
  | Some o => exists fv e1 e2, o = VObj c fv (e1 ++ e2) /\ parse E (TModel c k fs) (VDict (d1 ++ (key, x) :: d2)) = Some (VObj c fv (e1 ++ (key, x) :: e2))
      /\ (forall kv, In kv e1 -> In kv d1) /\ (forall kv, In kv e2 -> In kv d2)
  end.
Proof.
  intros _ Hk He Hu. destruct (extras_added fs key x d1 d2 Hu) as (e1 & e2 & X1 & X2 & S1 & S2).
  unfold parse. cbn [validate]. unfold vmodel. rewrite X1, X2.
  rewrite (vfields_cong E (validate E) (d1 ++ (key, x) :: d2) (d1 ++ d2) fs).
  2:{ intros fi t Hi. rewrite (lookup_added fs key x d1 d2 Hu fi t Hi). destruct (lookup_field fi (d1 ++ d2)); auto. }
  assert (Ha : forall fv, after_ok E c k fv (e1 ++ (key, x) :: e2) = after_ok E c k fv (e1 ++ e2)).
  { intros fv. unfold after_ok. f_equal. unfold extras_ok. destruct k; [|contradiction Hk; reflexivity|reflexivity].
    rewrite !forallb_app. cbn [forallb fst]. assert (Hx : ext_key_ok E key = true) by (apply ext_key_iff, He; reflexivity). rewrite Hx. reflexivity. }
  destruct (vfields E (validate E) (d1 ++ d2) fs) as [[fv n]|]; [|reflexivity].
  rewrite Ha. destruct (after_ok E c k fv (e1 ++ e2)); cbn [option_map fst]; [|reflexivity].
  exists fv, e1, e2. auto.
Qed.
(** In a closed class there is no such key: any undeclared key makes parsing fail, whatever its value (C05). *)
Theorem c56_closed E c fs d1 d2 key x : In (TModel c KForbid fs) all_types -> ~ declared fs key ->
  parse E (TModel c KForbid fs) (VDict (d1 ++ (key, x) :: d2)) = None.
Proof.
  intros _ Hu. destruct (extras_added fs key x d1 d2 Hu) as (e1 & e2 & X1 & X2 & S1 & S2).
  unfold parse. cbn [validate]. unfold vmodel. rewrite X2. destruct (vfields _ _ _ _) as [[fv n]|]; [|reflexivity].
  unfold after_ok, extras_ok. destruct e1; reflexivity.
Qed.
Example c56_ex : parse E0 T_Info (obj [("title", str "T"); ("x-a", VInt 1); ("version", str "1")])
  = Some (VObj "Info" (map (fun n => (u n, if String.eqb n "title" then str "T" else if String.eqb n "version" then str "1" else VNone))
        ["title"; "version"; "description"; "terms_of_service"; "contact"; "license"; "tags"; "external_docs"]) [(u "x-a", VInt 1)]).
Proof. vm_compute. reflexivity. Qed.
Print Assumptions c56_extra_key_neutral.

(** ** C61.  Defaults (which pydantic does not validate) are immutable values of the field's type that satisfy its rule ... *)
Theorem c61_defaults_valid E c k fs fi t d : In (TModel c k fs) all_types -> In (fi, t) fs -> f_def fi = Some d ->
  atom d /\ parse E t d = Some d /\ field_rule E (f_val fi) d.
Proof. intros Ht Hi Hd. exact (default_facts E fi t d (table_default _ _ _ _ _ (wf_all _ Ht) Hi) Hd). Qed.
(** ... and omitting a field is the same as giving its default. *)
Theorem c61_omitted E c k fs fi t d d1 d2 a : In (TModel c k fs) all_types -> In (fi, t) fs -> f_def fi = Some d -> In a [f_alias fi; f_name fi] ->
  ~ In (f_alias fi) (map fst (d1 ++ d2)) -> ~ In (f_name fi) (map fst (d1 ++ d2)) ->
  parse E (TModel c k fs) (VDict (d1 ++ (a, d) :: d2)) = parse E (TModel c k fs) (VDict (d1 ++ d2))
  /\ forall fv ex, parse E (TModel c k fs) (VDict (d1 ++ d2)) = Some (VObj c fv ex) -> assoc (f_name fi) fv = Some d.
Proof.
  intros Ht Hi Hd Ha H1 H2. assert (Hw := wf_all _ Ht). split; [exact (default_key E c k fs fi t d1 d2 a d Hw Hi Hd Ha H1 H2)|].
  intros fv ex Hp. apply model_parse_iff in Hp as (fv0 & Heq & Htf & _). injection Heq as -> _. assert (Hnn := names_NoDup _ _ _ Hw). clear Ht Hw.
  induction Htf as [|[gi s] [key x] fs fv0 [Hk Hv] H IH]; [destruct Hi|]. cbn [fst snd map] in *. subst key. inversion Hnn as [|? ? Hni Hnd']; subst. cbn [assoc]. destruct Hi as [Hi|Hi].
  - injection Hi as -> ->. rewrite str_eqb_refl. destruct Hv as [(y & Hg & _)|(_ & _ & Hdx)]; [|rewrite Hd in Hdx; injection Hdx as ->; reflexivity].
    exfalso. apply gives_iff in Hg. unfold lookup_field in Hg. assert (E1 : assoc (f_alias fi) (d1 ++ d2) = None) by (apply assoc_None; exact H1). assert (E2 : assoc (f_name fi) (d1 ++ d2) = None) by (apply assoc_None; exact H2).
    rewrite E1, E2 in Hg. discriminate Hg.
  - destruct (str_eqb (f_name fi) (f_name gi)) eqn:Ee; [|exact (IH Hi Hnd')]. apply str_eqb_eq in Ee. exfalso. apply Hni. rewrite <- Ee. exact (in_map (fun ft => f_name (fst ft)) fs (fi, t) Hi).
Qed.
Example c61_ex : parse E0 T_Info (obj [("title", str "T"); ("version", str "1"); ("license", VNone)]) = parse E0 T_Info (obj [("title", str "T"); ("version", str "1")])
  /\ exists o, parse E0 T_AsyncAPI3 (obj [("info", obj [("title", str "T"); ("version", str "1")])]) = Some o /\ get_in "asyncapi" o = str "3.0.0".
Proof. split; [vm_compute; reflexivity|]. eexists. split; vm_compute; reflexivity. Qed.
Print Assumptions c61_omitted.
