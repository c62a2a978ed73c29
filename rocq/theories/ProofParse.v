(** Proofs of the parsing properties. *)
From Verif Require Import PyStr Regex Value Types Rules Pydantic ClassTable Classes Canon Fix SpecParse ProofRules.

(** ** Lists of fields *)
Lemma gives_iff fi kvs x : lookup_field fi kvs = Some x <-> gives fi kvs x.
Proof.
  unfold lookup_field, gives. destruct (assoc (f_alias fi) kvs) eqn:E.
  - split; [intros H; left; exact H|intros [H|[H _]]; [exact H|discriminate]].
  - split; [auto|intros [H|[_ H]]; [discriminate|exact H]].
Qed.
Lemma lookup_None fi kvs : lookup_field fi kvs = None <-> assoc (f_alias fi) kvs = None /\ assoc (f_name fi) kvs = None.
Proof. unfold lookup_field. destruct (assoc (f_alias fi) kvs); split.
  - discriminate.
  - intros [H _]; discriminate.
  - auto.
  - intros [_ H]; exact H.
Qed.

Lemma parse_some E t v r : parse E t v = Some r <-> exists n, validate E t v = Some (r, n).
Proof.
  unfold parse. destruct (validate E t v) as [[r' n]|]; simpl; split.
  - intros H; inversion H; subst; eauto.
  - intros [m H]; inversion H; reflexivity.
  - discriminate.
  - intros [m H]; discriminate.
Qed.

Lemma vfields_typed E kvs fs fv : (exists n, vfields E (validate E) kvs fs = Some (fv, n)) <-> typed_fields E kvs fs fv.
Proof.
  revert fv. unfold typed_fields. induction fs as [|[fi t] fs IH]; intros fv; simpl.
  - split; [intros [n H]; inversion H; constructor|intros H; inversion H; eauto].
  - change ((fix go (l0 : list (finfo * ty)) : option (fields * nat) := _) fs) with (vfields E (validate E) kvs fs).
    split.
    + intros [n H]. destruct (lookup_field fi kvs) as [x|] eqn:El.
      * destruct (validate E t x) as [[x' p]|] eqn:Ex; [|discriminate].
        destruct (fv_check E (f_val fi) x') eqn:Ef; [|discriminate].
        destruct (vfields E (validate E) kvs fs) as [[r m]|] eqn:Er; inversion H; subst.
        constructor; [|apply IH; eauto]. split; [reflexivity|]. left. exists x. split; [apply gives_iff; exact El|].
        split; [apply parse_some; eauto|apply fv_check_iff; exact Ef].
      * destruct (f_def fi) as [d|] eqn:Ed; [|discriminate].
        destruct (vfields E (validate E) kvs fs) as [[r m]|] eqn:Er; inversion H; subst.
        constructor; [|apply IH; eauto]. split; [reflexivity|]. right.
        apply lookup_None in El as [H1 H2]. cbn [fst snd]. auto.
    + intros H. inversion H as [|? [k v] ? fv' [Hk Hv] Hr]; subst. cbn [fst snd] in *. subst k.
      apply IH in Hr as [m Hm]. rewrite Hm. destruct Hv as [(x & Hg & Hp & Hf)|(H1 & H2 & Hd)].
      * apply gives_iff in Hg. rewrite Hg. apply parse_some in Hp as [p Hp]. rewrite Hp.
        apply fv_check_iff in Hf. rewrite Hf. eauto.
      * assert (lookup_field fi kvs = None) as -> by (apply lookup_None; auto). rewrite Hd. eauto.
Qed.

Lemma extras_unclaimed fs kvs kv : In kv (extras fs kvs) -> In kv kvs /\ unclaimed fs kvs (fst kv).
Proof.
  unfold extras. rewrite filter_In, negb_true_iff. intros [Hin Hm]. split; [exact Hin|].
  apply mem_str_not_In in Hm. split; [apply in_map; exact Hin|]. intros fi t Hf.
  assert (Hu : fst kv <> used_key kvs fi).
  { intros Heq. apply Hm. rewrite Heq. apply in_map_iff. exists (fi, t). auto. }
  assert (Hk : In (fst kv) (map fst kvs)) by (apply in_map; exact Hin).
  unfold used_key in Hu. destruct (has_key (f_alias fi) kvs) eqn:Eh.
  - split; [exact Hu|]. intros _. apply has_key_iff. exact Eh.
  - split; [|intros Heq; rewrite Heq in Hu; contradiction]. intros Heq. rewrite Heq in Hk. apply has_key_iff in Hk. congruence.
Qed.
Lemma unclaimed_extras fs kvs k : unclaimed fs kvs k -> exists v, In (k, v) (extras fs kvs).
Proof.
  intros [Hin Hall]. apply in_map_iff in Hin as ([k' v] & <- & Hin). exists v. cbn [fst] in *.
  unfold extras. apply filter_In. split; [exact Hin|]. apply negb_true_iff, mem_str_not_In. cbn [fst].
  intros Hu. apply in_map_iff in Hu as ([fi t] & Heq & Hf). cbn [fst] in Heq.
  destruct (Hall fi t Hf) as [Ha Hn]. unfold used_key in Heq. destruct (has_key (f_alias fi) kvs) eqn:Eh; [congruence|].
  symmetry in Heq. apply Hn in Heq. apply has_key_iff in Heq. congruence.
Qed.

Lemma extras_ok_iff E k fs kvs : extras_ok E k (extras fs kvs) = true <-> extra_policy E k fs kvs.
Proof.
  destruct k; simpl.
  - rewrite forallb_forall. split.
    + intros H key Hu. apply unclaimed_extras in Hu as [v Hv]. apply ext_key_iff. apply (H _ Hv).
    + intros H kv Hin. apply ext_key_iff, H. apply extras_unclaimed in Hin as [_ Hu]. exact Hu.
  - destruct (extras fs kvs) as [|kv l] eqn:Ee.
    + split; [|reflexivity]. intros _ key Hu. apply unclaimed_extras in Hu as [v Hv]. rewrite Ee in Hv. contradiction.
    + split; [discriminate|]. intros H. exfalso. apply (H (fst kv)).
      assert (Hin : In kv (extras fs kvs)) by (rewrite Ee; left; reflexivity).
      apply extras_unclaimed in Hin as [_ Hu]. exact Hu.
  - tauto.
Qed.

(** Acceptance of a mapping by a model class, completely. *)
Theorem model_parse_iff E c k fs kvs o :
  parse E (TModel c k fs) (VDict kvs) = Some o <->
  exists fv, o = VObj c fv (extras fs kvs) /\ typed_fields E kvs fs fv
             /\ extra_policy E k fs kvs /\ cross_field_spec c fv.
Proof.
  rewrite parse_some. cbn [validate]. split.
  - intros [n H]. apply vmodel_obj in H as (fv & Hf & -> & Ha). exists fv. split; [reflexivity|].
    unfold after_ok in Ha. apply andb_prop in Ha as [H1 H2].
    split; [apply vfields_typed; eauto|]. split; [apply extras_ok_iff; exact H1|apply hook_iff; exact H2].
  - intros (fv & -> & Ht & Hx & Hc). apply vfields_typed in Ht as [n Hn]. exists n. unfold vmodel. rewrite Hn.
    unfold after_ok. apply extras_ok_iff in Hx. rewrite Hx. apply hook_iff in Hc. rewrite Hc. reflexivity.
Qed.

(** Acceptance of an instance = acceptance of its dictionary. *)
Lemma model_parse_instance E c k fs c' fv ex o :
  parse E (TModel c k fs) (VObj c' fv ex) = Some o <->
  c = c' /\ parse E (TModel c k fs) (VDict (dict_update fv ex)) = Some o.
Proof.
  unfold parse. cbn [validate]. destruct (String.eqb_spec c c') as [->|Hn]; [tauto|].
  split; [discriminate|intros [-> _]; contradiction].
Qed.

(** The value accepted by a model class always is an instance of that class satisfying its rules. *)
Lemma model_parse_sound E c k fs v o : parse E (TModel c k fs) v = Some o ->
  exists fv ex, o = VObj c fv ex /\ cross_field_spec c fv /\ extras_ok E k ex = true
    /\ exists kvs, typed_fields E kvs fs fv.
Proof.
  intros H. destruct v; try discriminate.
  - apply model_parse_iff in H as (fv & -> & Ht & Hx & Hc). exists fv, (extras fs d). split; [reflexivity|].
    split; [exact Hc|]. split; [apply extras_ok_iff; exact Hx|eauto].
  - apply model_parse_instance in H as [-> H].
    apply model_parse_iff in H as (fv & -> & Ht & Hx & Hc). eexists fv, _. split; [reflexivity|].
    split; [exact Hc|]. split; [apply extras_ok_iff; exact Hx|eauto].
Qed.

(** ** C01 *)
Lemma vdict_ok E t d r n : vdict (validate E) t d = Some (r, n) ->
  map fst r = map fst d /\ Forall2 (fun a b => fst a = fst b /\ parse E t (snd a) = Some (snd b)) d r.
Proof.
  revert r n; induction d as [|[k x] d IH]; simpl; intros r n H.
  - inversion H; subst. auto.
  - change ((fix go (l0 : fields) : option (fields * nat) := _) d) with (vdict (validate E) t d) in H.
    destruct (validate E t x) as [[x' p]|] eqn:Ex; [|discriminate].
    destruct (vdict (validate E) t d) as [[r' m]|] eqn:Er; inversion H; subst.
    destruct (IH _ _ eq_refl) as [H1 H2]. split; [simpl; congruence|]. constructor; [|exact H2].
    split; [reflexivity|]. apply parse_some. eauto.
Qed.
Lemma vdict_complete E t d r : Forall2 (fun a b => fst a = fst b /\ parse E t (snd a) = Some (snd b)) d r ->
  exists n, vdict (validate E) t d = Some (r, n).
Proof.
  induction 1 as [|[k x] [k' x'] d r [Hk Hp] _ [m Hm]]; [exists 0; reflexivity|].
  cbn [fst snd] in *. subst k'. apply parse_some in Hp as [p Hp]. exists (p + m). simpl.
  change ((fix go (l0 : fields) : option (fields * nat) := _) d) with (vdict (validate E) t d). rewrite Hp, Hm. reflexivity.
Qed.
Lemma root_keys_iff d : root_keys_ok d = true <-> forall k, In k (map fst d) -> upto_nl doc_key k.
Proof.
  unfold root_keys_ok. rewrite forallb_forall. split.
  - intros H k Hin. apply in_map_iff in Hin as (kv & <- & Hin). apply patterned_key_iff, H, Hin.
  - intros H kv Hin. apply patterned_key_iff, H, in_map, Hin.
Qed.
Theorem root_parse_iff E c t d o :
  parse E (TRoot c t) (VDict d) = Some o <->
  exists r, o = VRoot c r /\ (forall k, In k (map fst d) -> upto_nl doc_key k)
    /\ Forall2 (fun a b => fst a = fst b /\ parse E t (snd a) = Some (snd b)) d r.
Proof.
  rewrite parse_some. cbn [validate]. split.
  - intros [n H]. destruct (vdict (validate E) t d) as [[r m]|] eqn:Ed; [|discriminate].
    destruct (root_keys_ok r) eqn:Ek; inversion H; subst. apply vdict_ok in Ed as [H1 H2].
    exists r. split; [reflexivity|]. split; [|exact H2]. rewrite <- H1. apply root_keys_iff. exact Ek.
  - intros (r & -> & Hk & HF). destruct (vdict_complete _ _ _ _ HF) as [n Hn]. exists n. rewrite Hn.
    apply vdict_ok in Hn as [H1 _]. rewrite <- H1 in Hk. apply root_keys_iff in Hk. rewrite Hk. reflexivity.
Qed.

(** ** C02, C03 *)
Definition declaredb (fs : list (finfo * ty)) (k : pystr) : bool :=
  existsb (fun ft => str_eqb k (f_name (fst ft)) || str_eqb k (f_alias (fst ft))) fs.
Lemma declaredb_iff fs k : declaredb fs k = true <-> declared fs k.
Proof.
  unfold declaredb, declared. rewrite existsb_exists. split.
  - intros ([fi t] & Hin & H). apply orb_prop in H as [H|H]; apply str_eqb_eq in H; exists fi, t; auto.
  - intros (fi & t & Hin & H). exists (fi, t). split; [exact Hin|]. apply orb_true_iff. cbn [fst].
    destruct H as [->| ->]; rewrite str_eqb_refl; auto.
Qed.
Lemma undeclared_unclaimed fs kvs k : In k (map fst kvs) -> ~ declared fs k -> unclaimed fs kvs k.
Proof.
  intros Hin Hn. split; [exact Hin|]. intros fi t Hf. split.
  - intros ->. apply Hn. exists fi, t. auto.
  - intros ->. exfalso. apply Hn. exists fi, t. auto.
Qed.
Lemma assoc_filter (p : pystr -> bool) k kvs : p k = true ->
  assoc k (filter (fun kv : pystr * pv => p (fst kv)) kvs) = assoc k kvs.
Proof.
  intros Hp. induction kvs as [|[k' v] kvs IH]; simpl; [reflexivity|].
  destruct (p k') eqn:E1; simpl.
  - destruct (str_eqb k k'); auto.
  - destruct (str_eqb k k') eqn:E2; [|exact IH]. apply str_eqb_eq in E2; subst. congruence.
Qed.
Definition only_declared (fs : list (finfo * ty)) (kvs : fields) : fields :=
  filter (fun kv => declaredb fs (fst kv)) kvs.
Lemma typed_fields_declared E fs0 kvs fs fv : (forall ft, In ft fs -> In ft fs0) ->
  typed_fields E kvs fs fv <-> typed_fields E (only_declared fs0 kvs) fs fv.
Proof.
  intros Hsub. unfold typed_fields. assert (Hfv : forall ft v, In ft fs ->
     field_value E kvs (fst ft) (snd ft) v <-> field_value E (only_declared fs0 kvs) (fst ft) (snd ft) v).
  { intros [fi t] v Hin. unfold field_value, gives, only_declared. cbn [fst snd].
    rewrite !assoc_filter.
    - tauto.
    - apply declaredb_iff. exists fi, t. split; [apply Hsub; exact Hin|auto].
    - apply declaredb_iff. exists fi, t. split; [apply Hsub; exact Hin|auto]. }
  clear Hsub. split; intros H.
  - induction H as [|ft kv l l' [H1 H2] H3 IH]; constructor; [split; [exact H1|apply Hfv; [left; reflexivity|exact H2]]|].
    apply IH. intros; apply Hfv; right; assumption.
  - induction H as [|ft kv l l' [H1 H2] H3 IH]; constructor; [split; [exact H1|apply Hfv; [left; reflexivity|exact H2]]|].
    apply IH. intros; apply Hfv; right; assumption.
Qed.
Lemma only_declared_keys fs kvs k : In k (map fst (only_declared fs kvs)) <-> In k (map fst kvs) /\ declared fs k.
Proof.
  unfold only_declared. rewrite !in_map_iff. split.
  - intros (kv & <- & H). apply filter_In in H as [H1 H2]. split; [exists kv; auto|apply declaredb_iff; exact H2].
  - intros [(kv & <- & H1) H2]. exists kv. split; [reflexivity|]. apply filter_In. split; [exact H1|apply declaredb_iff; exact H2].
Qed.
Lemma extra_policy_declared E k fs kvs :
  extra_policy E k fs kvs <->
  extra_policy E k fs (only_declared fs kvs)
  /\ match k with
     | KExt => forall key, In key (map fst kvs) -> ~ declared fs key -> upto_nl (extension_key E) key
     | KForbid => forall key, In key (map fst kvs) -> declared fs key
     | KFree => True
     end.
Proof.
  assert (Hu : forall key, declared fs key -> unclaimed fs kvs key <-> unclaimed fs (only_declared fs kvs) key).
  { intros key Hd. unfold unclaimed. rewrite only_declared_keys. split; intros [H1 H2].
    - split; [auto|]. intros fi t Hf. destruct (H2 fi t Hf) as [Ha Hb]. split; [exact Ha|]. intros Hk.
      apply only_declared_keys. split; [apply Hb; exact Hk|]. exists fi, t. auto.
    - split; [tauto|]. intros fi t Hf. destruct (H2 fi t Hf) as [Ha Hb]. split; [exact Ha|]. intros Hk.
      apply Hb in Hk. apply only_declared_keys in Hk. tauto. }
  assert (Hu2 : forall key, unclaimed fs (only_declared fs kvs) key -> declared fs key).
  { intros key [H _]. apply only_declared_keys in H. tauto. }
  destruct k; simpl.
  - split.
    + intros H. split.
      * intros key Hk. apply H. apply Hu; [apply Hu2; exact Hk|exact Hk].
      * intros key Hin Hn. apply H. apply undeclared_unclaimed; assumption.
    + intros [H1 H2] key Hk. destruct (declaredb fs key) eqn:Ed.
      * apply declaredb_iff in Ed. apply H1. apply Hu; assumption.
      * apply H2; [destruct Hk; assumption|]. intros Hd. apply declaredb_iff in Hd. congruence.
  - split.
    + intros H. split.
      * intros key Hk. apply (H key). apply Hu; [apply Hu2; exact Hk|exact Hk].
      * intros key Hin. destruct (declaredb fs key) eqn:Ed; [apply declaredb_iff; exact Ed|].
        exfalso. apply (H key). apply undeclared_unclaimed; [exact Hin|]. intros Hd. apply declaredb_iff in Hd. congruence.
    + intros [H1 H2] key Hk. apply (H1 key). apply Hu; [apply H2; destruct Hk; assumption|exact Hk].
  - tauto.
Qed.

Theorem extension_iff E c fs kvs :
  (exists o, parse E (TModel c KExt fs) (VDict kvs) = Some o) <->
  (exists o, parse E (TModel c KExt fs) (VDict (only_declared fs kvs)) = Some o)
  /\ forall k, In k (map fst kvs) -> ~ declared fs k -> upto_nl (extension_key E) k.
Proof.
  split.
  - intros [o H]. apply model_parse_iff in H as (fv & -> & Ht & Hx & Hc).
    apply extra_policy_declared in Hx as [H1 H2]. split; [|exact H2].
    eexists. apply model_parse_iff. exists fv. split; [reflexivity|]. split; [|auto].
    apply (proj1 (typed_fields_declared E fs kvs fs fv (fun _ h => h))). exact Ht.
  - intros [[o H] H2]. apply model_parse_iff in H as (fv & -> & Ht & Hx & Hc).
    eexists. apply model_parse_iff. exists fv. split; [reflexivity|].
    split; [apply (proj2 (typed_fields_declared E fs kvs fs fv (fun _ h => h))); exact Ht|]. split; [|exact Hc].
    apply extra_policy_declared. auto.
Qed.
Theorem closed_reject E c fs kvs o :
  parse E (TModel c KForbid fs) (VDict kvs) = Some o ->
  (forall k, In k (map fst kvs) -> declared fs k) /\ exists fv, o = VObj c fv [].
Proof.
  intros H. apply model_parse_iff in H as (fv & -> & Ht & Hx & Hc). split.
  - apply extra_policy_declared in Hx as [_ H2]. exact H2.
  - exists fv. apply extras_ok_iff in Hx. simpl in Hx. destruct (extras fs kvs); [reflexivity|discriminate].
Qed.
Lemma closed_no_extra E c fs v o : parse E (TModel c KForbid fs) v = Some o -> exists fv, o = VObj c fv [].
Proof.
  intros H. apply model_parse_sound in H as (fv & ex & -> & _ & Hx & _). exists fv.
  simpl in Hx. destruct ex; [reflexivity|discriminate].
Qed.

(** ** C04, C05 *)
Lemma email_parse_iff E s o : parse E TEmail (VStr s) = Some o <-> o = VStr s /\ email_spec s.
Proof.
  rewrite parse_some. cbn [validate]. rewrite <- email_ok_iff. destruct (email_ok s); split.
  - intros [n H]; inversion H; auto.
  - intros [-> _]; eauto.
  - intros [n H]; discriminate.
  - intros [_ H]; discriminate.
Qed.
Lemma email_one_at s : email_spec s -> exists a b, s = a ++ u "@" ++ b /\ ~ In 64%N a /\ ~ In 64%N b.
Proof.
  intros [(w & (loc & dom & tld & -> & _ & Hl & _ & Hd & _ & Ht) & Hs) _].
  rewrite Forall_forall in Hl, Hd, Ht.
  assert (Hloc : ~ In 64%N loc).
  { intros H. apply Hl in H. unfold letter, digit09 in H. simpl in H. lia. }
  assert (Hrest : ~ In 64%N (dom ++ u "." ++ tld)).
  { intros H. apply in_app_or in H as [H|H]; [|apply in_app_or in H as [H|H]].
    - apply Hd in H. unfold letter, digit09 in H. simpl in H. lia.
    - simpl in H. lia.
    - apply Ht in H. unfold letter in H. lia. }
  destruct Hs as [->| ->].
  - exists loc, (dom ++ u "." ++ tld). auto.
  - exists loc, ((dom ++ u "." ++ tld) ++ nl). split; [rewrite <- !app_assoc; reflexivity|]. split; [exact Hloc|].
    intros H. apply in_app_or in H as [H|H]; [contradiction|]. simpl in H. lia.
Qed.
Lemma email_no_space s c : email_spec s -> In c s -> (c <= 32)%N -> c = 10%N /\ exists w, s = w ++ nl.
Proof.
  intros [(w & (loc & dom & tld & -> & _ & Hl & _ & Hd & _ & Ht) & Hs) _] Hin Hc.
  rewrite Forall_forall in Hl, Hd, Ht.
  assert (Hn : ~ In c (loc ++ u "@" ++ dom ++ u "." ++ tld)).
  { intros H. apply in_app_or in H as [H|H]; [|apply in_app_or in H as [H|H]; [|apply in_app_or in H as [H|H]; [|apply in_app_or in H as [H|H]]]].
    - apply Hl in H. unfold letter, digit09 in H. simpl in H. lia.
    - simpl in H. lia.
    - apply Hd in H. unfold letter, digit09 in H. simpl in H. lia.
    - simpl in H. lia.
    - apply Ht in H. unfold letter in H. lia. }
  destruct Hs as [->| ->]; [contradiction|].
  apply in_app_or in Hin as [H|H]; [contradiction|]. destruct H as [<-|[]]. split; [reflexivity|eauto].
Qed.

(** Every accepted instance has typed fields. *)
Lemma parse_canon E t v r : wf_ty t = true -> parse E t v = Some r -> canon (fun _ => True) E t r.
Proof.
  intros Hwf H. apply parse_some in H as [n H].
  apply (validate_canon (fun _ => True) (fun _ => True) E t closed_True (fun _ H => H) Hwf v r n I H).
Qed.
Lemma canon_field A E c k fs fv ex fi t : canon A E (TModel c k fs) (VObj c fv ex) -> NoDup (map (fun ft => f_name (fst ft)) fs) ->
  In (fi, t) fs -> canon A E t (attr (f_name fi) fv) /\ field_rule E (f_val fi) (attr (f_name fi) fv).
Proof.
  intros Hc Hnd Hin. cbn [canon] in Hc. destruct Hc as (fv' & ex' & Heq & Hf & _). inversion Heq; subst. clear Heq.
  assert (Hn := canon_fields_names _ _ _ _ Hf). rewrite <- Hn in Hnd.
  assert (exists v, In (f_name fi, v) fv' /\ canon A E t v /\ fv_check E (f_val fi) v = true) as (v & Hv & Hc & Hk).
  { clear Hn Hnd. revert fv' Hf. induction fs as [|[gi s] fs IH]; intros [|[k0 v0] fv'] Hf; cbn [canon_fields] in Hf;
      try contradiction. destruct Hf as [(-> & Hc & Hk) Hf]. destruct Hin as [Heq|Hin].
    - inversion Heq; subst. exists v0. split; [left; reflexivity|auto].
    - destruct (IH Hin _ Hf) as (v & Hv & Hc'). exists v. split; [right; exact Hv|exact Hc']. }
  unfold attr. rewrite (In_assoc _ _ _ Hnd Hv). split; [exact Hc|apply fv_check_iff; exact Hk].
Qed.
Definition names_nodup (fs : list (finfo * ty)) : bool := nodupb (map (fun ft => f_name (fst ft)) fs).

Lemma version_parse_iff E s i i' :
  parse E T_Info i = Some i' ->
  ((exists o, parse E T_AsyncAPI3 (VDict [(u "asyncapi", VStr s); (u "info", i)]) = Some o) <-> version_spec E s).
Proof.
  intros Hi. split.
  - intros [o H]. unfold T_AsyncAPI3 in H. apply model_parse_iff in H as (fv & _ & Ht & _).
    inversion Ht as [|? [k v] ? ? [Hk Hv] _]; subst. destruct Hv as [(x & Hg & Hp & Hr)|(Hn & _)]; [|discriminate].
    cbn [f_val fld fst snd] in *.
    destruct Hr as (s' & Heq & Hs).
    destruct Hg as [Hg|[Hg _]]; [|discriminate]. cbv in Hg. inversion Hg; subst. clear Hg.
    apply parse_some in Hp as [n Hp]. cbn [validate len_ok] in Hp. injection Hp as Hp _. subst. exact Hs.
  - intros Hs.
    assert (Hd : exists fv, typed_fields E [(u "asyncapi", VStr s); (u "info", i)]
               (match T_AsyncAPI3 with TModel _ _ fs => fs | _ => [] end) fv).
    { eexists. unfold T_AsyncAPI3, typed_fields.
      constructor.
      { instantiate (1 := (u "asyncapi", VStr s)). split; [reflexivity|]. left. exists (VStr s). split; [left; reflexivity|].
        split; [reflexivity|]. exists s. split; [reflexivity|exact Hs]. }
      constructor.
      { instantiate (1 := (u "id", VNone)). split; [reflexivity|]. right. repeat split. }
      constructor.
      { instantiate (1 := (u "info", i')). split; [reflexivity|]. left. exists i. split; [left; reflexivity|].
        split; [exact Hi|exact I]. }
      constructor. { instantiate (1 := (u "servers", VNone)). split; [reflexivity|]. right. repeat split. }
      constructor. { instantiate (1 := (u "default_content_type", VNone)). split; [reflexivity|]. right. repeat split. }
      constructor. { instantiate (1 := (u "channels", VNone)). split; [reflexivity|]. right. repeat split. }
      constructor. { instantiate (1 := (u "operations", VNone)). split; [reflexivity|]. right. repeat split. }
      constructor. { instantiate (1 := (u "components", VNone)). split; [reflexivity|]. right. repeat split. }
      constructor. { instantiate (1 := (u "extra_converters", VNone)). split; [reflexivity|]. right. repeat split. }
      constructor. { instantiate (1 := (u "extra_validators", VNone)). split; [reflexivity|]. right. repeat split. }
      constructor. }
    destruct Hd as [fv Hd]. eexists. unfold T_AsyncAPI3. apply model_parse_iff. exists fv. split; [reflexivity|].
    split; [exact Hd|]. split; [apply extras_ok_iff; reflexivity|].
    unfold cross_field_spec; repeat apply conj; intros HH; discriminate HH.
Qed.

(** Any accepted instance satisfies its class's field rules. *)
Lemma parse_field E c k fs v fv ex fi t :
  In (TModel c k fs) all_types -> parse E (TModel c k fs) v = Some (VObj c fv ex) -> In (fi, t) fs ->
  canon (fun _ => True) E t (attr (f_name fi) fv) /\ field_rule E (f_val fi) (attr (f_name fi) fv).
Proof.
  intros Hin H Hf. assert (Hwf := wf_all _ Hin). assert (Hc := parse_canon _ _ _ _ Hwf H).
  eapply canon_field; [exact Hc| |exact Hf].
  cbn [wf_ty] in Hwf. apply andb_prop in Hwf as [Hm _]. unfold model_ok in Hm.
  repeat (apply andb_prop in Hm as [Hm _]). apply nodupb_NoDup in Hm. apply all_keys_names in Hm.
  rewrite map_map in Hm. exact Hm.
Qed.

Lemma canon_opt_str A E n v : canon A E (TOpt (TStr (Some n))) v -> opt_str_max n v.
Proof.
  cbn [canon]. intros [->|(s & -> & Hl)]; [left; reflexivity|right]. exists s. split; [reflexivity|].
  simpl in Hl. apply N.leb_le. exact Hl.
Qed.
Lemma canon_opt_int A E v : canon A E (TOpt TInt) v -> v = VNone \/ exists z, v = VInt z.
Proof. cbn [canon]. tauto. Qed.

(** Membership of a class in the table, by computation on names only. *)
Lemma find_class_In c k fs l : find_class c l = Some (k, fs) -> In (TModel c k fs) l.
Proof.
  induction l as [|t l IH]; simpl; [discriminate|].
  destruct t; try (intros H; right; apply IH; exact H).
  destruct (String.eqb_spec c c0) as [->|Hn]; [|intros H; right; apply IH; exact H].
  intros H; inversion H; subst. left; reflexivity.
Qed.
Ltac in_table := apply find_class_In; reflexivity.

Lemma limits_kafka E v fv ex : parse E T_KafkaChannelBindings v = Some (VObj "KafkaChannelBindings" fv ex) ->
  opt_int_in 1 None (get "partitions" fv) /\ opt_int_in 1 None (get "replicas" fv).
Proof.
  intros H. assert (Hin : In T_KafkaChannelBindings all_types) by in_table.
  split.
  - destruct (parse_field E _ _ _ v fv ex (fld "partitions" "partitions" (Some VNone) true false FvPositive) (TOpt TInt) Hin H) as [Hc Hr].
    { simpl; tauto. }
    apply canon_opt_int in Hc as [Hc|[z Hc]]; [left; exact Hc|right]. exists z. split; [exact Hc|]. split; [apply Hr; exact Hc|discriminate].
  - destruct (parse_field E _ _ _ v fv ex (fld "replicas" "replicas" (Some VNone) true false FvPositive) (TOpt TInt) Hin H) as [Hc Hr].
    { simpl; tauto. }
    apply canon_opt_int in Hc as [Hc|[z Hc]]; [left; exact Hc|right]. exists z. split; [exact Hc|]. split; [apply Hr; exact Hc|discriminate].
Qed.
Lemma limit_amqp_op E v fv ex : parse E T_AMQPOperationBindings v = Some (VObj "AMQPOperationBindings" fv ex) ->
  opt_int_in 0 None (get "expiration" fv).
Proof.
  intros H. assert (Hin : In T_AMQPOperationBindings all_types) by in_table.
  destruct (parse_field E _ _ _ v fv ex (fld "expiration" "expiration" (Some VNone) true false FvNonNeg) (TOpt TInt) Hin H) as [Hc Hr].
  { simpl; tauto. }
  apply canon_opt_int in Hc as [Hc|[z Hc]]; [left; exact Hc|right]. exists z. split; [exact Hc|]. split; [apply Hr; exact Hc|discriminate].
Qed.
Lemma limit_ibm_msg E v fv ex : parse E T_IBMMQMessageBindings v = Some (VObj "IBMMQMessageBindings" fv ex) ->
  opt_int_in 0 None (get "expiry" fv).
Proof.
  intros H. assert (Hin : In T_IBMMQMessageBindings all_types) by in_table.
  destruct (parse_field E _ _ _ v fv ex (fld "expiry" "expiry" (Some VNone) true false FvNonNeg) (TOpt TInt) Hin H) as [Hc Hr].
  { simpl; tauto. }
  apply canon_opt_int in Hc as [Hc|[z Hc]]; [left; exact Hc|right]. exists z. split; [exact Hc|]. split; [apply Hr; exact Hc|discriminate].
Qed.
Lemma limit_ibm_server E v fv ex : parse E T_IBMMQServerBindings v = Some (VObj "IBMMQServerBindings" fv ex) ->
  opt_int_in 0 (Some 999999%Z) (get "heart_beat_interval" fv).
Proof.
  intros H. assert (Hin : In T_IBMMQServerBindings all_types) by in_table.
  destruct (parse_field E _ _ _ v fv ex (fld "heart_beat_interval" "heartBeatInterval" (Some VNone) true false FvHeartBeat) (TOpt TInt) Hin H) as [Hc Hr].
  { simpl; tauto. }
  apply canon_opt_int in Hc as [Hc|[z Hc]]; [left; exact Hc|right]. exists z. split; [exact Hc|].
  destruct (Hr z Hc) as [H1 H2]. split; [exact H1|intros h Hh; inversion Hh; subst; exact H2].
Qed.
Lemma limit_ibm_channel E v fv ex : parse E T_IBMMQChannelBindings v = Some (VObj "IBMMQChannelBindings" fv ex) ->
  opt_int_in 0 (Some 104857600%Z) (get "max_msg_length" fv).
Proof.
  intros H. assert (Hin : In T_IBMMQChannelBindings all_types) by in_table.
  destruct (parse_field E _ _ _ v fv ex (fld "max_msg_length" "maxMsgLength" (Some VNone) true false FvMaxMsg) (TOpt TInt) Hin H) as [Hc Hr].
  { simpl; tauto. }
  apply canon_opt_int in Hc as [Hc|[z Hc]]; [left; exact Hc|right]. exists z. split; [exact Hc|].
  destruct (Hr z Hc) as [H1 H2]. split; [exact H1|intros h Hh; inversion Hh; subst; exact H2].
Qed.
Lemma limit_solace E v fv ex : parse E T_SolaceOperationBindings v = Some (VObj "SolaceOperationBindings" fv ex) ->
  forall z, get "priority" fv = VInt z -> (0 <= z <= 255)%Z.
Proof.
  intros H. assert (Hin : In T_SolaceOperationBindings all_types) by in_table.
  destruct (parse_field E _ _ _ v fv ex (fld "priority" "priority" (Some VNone) true false FvPriority)
              (TOpt (TUnion [TInt; T_Schema; T_Reference])) Hin H) as [_ Hr].
  { simpl; tauto. }
  exact Hr.
Qed.
Lemma limit_solace_server E v fv ex : parse E T_SolaceServerBindings v = Some (VObj "SolaceServerBindings" fv ex) ->
  opt_str_max 160 (get "client_name" fv).
Proof.
  intros H. assert (Hin : In T_SolaceServerBindings all_types) by in_table.
  destruct (parse_field E _ _ _ v fv ex (fld "client_name" "clientName" (Some VNone) true false FvNone) (TOpt (TStr (Some 160%N))) Hin H) as [Hc _].
  { simpl; tauto. }
  eapply canon_opt_str; exact Hc.
Qed.
Lemma limit_nats E v fv ex : parse E T_NATSOperationBindings v = Some (VObj "NATSOperationBindings" fv ex) ->
  opt_str_max 255 (get "queue" fv).
Proof.
  intros H. assert (Hin : In T_NATSOperationBindings all_types) by in_table.
  destruct (parse_field E _ _ _ v fv ex (fld "queue" "queue" (Some VNone) true false FvNone) (TOpt (TStr (Some 255%N))) Hin H) as [Hc _].
  { simpl; tauto. }
  eapply canon_opt_str; exact Hc.
Qed.
Lemma limit_amqp_exchange E v fv ex : parse E T_AMQPExchange v = Some (VObj "AMQPExchange" fv ex) ->
  opt_str_max 255 (get "name" fv).
Proof.
  intros H. assert (Hin : In T_AMQPExchange all_types) by in_table.
  destruct (parse_field E _ _ _ v fv ex (fld "name" "name" None false false FvNone) (TStr (Some 255%N)) Hin H) as [Hc _].
  { simpl; tauto. }
  apply canon_opt_str with (A := fun _ => True) (E := E). right. exact Hc.
Qed.
Lemma limit_amqp_queue E v fv ex : parse E T_AMQPQueue v = Some (VObj "AMQPQueue" fv ex) ->
  opt_str_max 255 (get "name" fv).
Proof.
  intros H. assert (Hin : In T_AMQPQueue all_types) by in_table.
  destruct (parse_field E _ _ _ v fv ex (fld "name" "name" (Some VNone) true false FvNone) (TOpt (TStr (Some 255%N))) Hin H) as [Hc _].
  { simpl; tauto. }
  eapply canon_opt_str; exact Hc.
Qed.
Lemma limit_ibm_queue E v fv ex : parse E T_IBMMQQueue v = Some (VObj "IBMMQQueue" fv ex) ->
  opt_str_max 48 (get "object_name" fv).
Proof.
  intros H. assert (Hin : In T_IBMMQQueue all_types) by in_table.
  destruct (parse_field E _ _ _ v fv ex (fld "object_name" "objectName" None false false FvNone) (TStr (Some 48%N)) Hin H) as [Hc _].
  { simpl; tauto. }
  apply canon_opt_str with (A := fun _ => True) (E := E). right. exact Hc.
Qed.
Lemma limit_ibm_topic E v fv ex : parse E T_IBMMQTopic v = Some (VObj "IBMMQTopic" fv ex) ->
  opt_str_max 10240 (get "string" fv) /\ opt_str_max 48 (get "object_name" fv).
Proof.
  intros H. assert (Hin : In T_IBMMQTopic all_types) by in_table. split.
  - destruct (parse_field E _ _ _ v fv ex (fld "string" "string" (Some VNone) true false FvNone) (TOpt (TStr (Some 10240%N))) Hin H) as [Hc _].
    { simpl; tauto. }
    eapply canon_opt_str; exact Hc.
  - destruct (parse_field E _ _ _ v fv ex (fld "object_name" "objectName" (Some VNone) true false FvNone) (TOpt (TStr (Some 48%N))) Hin H) as [Hc _].
    { simpl; tauto. }
    eapply canon_opt_str; exact Hc.
Qed.

(** C04 for contacts *)
Lemma contact_email E v fv ex : parse E T_Contact v = Some (VObj "Contact" fv ex) ->
  get "email" fv = VNone \/ exists s, get "email" fv = VStr s /\ email_spec s.
Proof.
  intros H. assert (Hin : In T_Contact all_types) by in_table.
  destruct (parse_field E _ _ _ v fv ex (fld "email" "email" (Some VNone) true false FvNone) (TOpt TEmail) Hin H) as [Hc _].
  { simpl; tauto. }
  destruct Hc as [Hc|(s & Hs & Hok)]; [left; exact Hc|right]. exists s. split; [exact Hs|apply email_ok_iff; exact Hok].
Qed.
Lemma document_version E v fv ex : parse E T_AsyncAPI3 v = Some (VObj "AsyncAPI3" fv ex) ->
  exists s, get "asyncapi" fv = VStr s /\ version_spec E s.
Proof.
  intros H. assert (Hin : In T_AsyncAPI3 all_types) by in_table.
  destruct (parse_field E _ _ _ v fv ex (fld "asyncapi" "asyncapi" (Some (VStr (u "3.0.0"))) false false FvVersion) (TStr None) Hin H) as [_ Hr].
  { simpl; tauto. }
  exact Hr.
Qed.
Lemma correlation_location E v fv ex : parse E T_CorrelationID v = Some (VObj "CorrelationID" fv ex) ->
  exists s, get "location" fv = VStr (u "$message." ++ s).
Proof.
  intros H. assert (Hin : In T_CorrelationID all_types) by in_table.
  destruct (parse_field E _ _ _ v fv ex (fld "location" "location" None false false FvRuntimeExpr) (TStr None) Hin H) as [_ Hr].
  { simpl; tauto. }
  exact Hr.
Qed.

(** Generic: accepted instance of a class satisfies the class's cross-field rules. *)
Lemma accepted_rules E c k fs v fv ex : parse E (TModel c k fs) v = Some (VObj c fv ex) -> cross_field_spec c fv.
Proof.
  intros H. apply model_parse_sound in H as (fv' & ex' & Heq & Hc & _). inversion Heq; subst. exact Hc.
Qed.
Lemma correlation_iff E l : 
  (exists o, parse E T_CorrelationID (VDict [(u "location", VStr l)]) = Some o) <-> exists s, l = u "$message." ++ s.
Proof.
  split.
  - intros [o H]. assert (Ho := H). apply model_parse_sound in Ho as (fv & ex & -> & _).
    unfold T_CorrelationID in H. apply model_parse_iff in H as (fv' & Heq & Ht & _). inversion Heq; subst.
    inversion Ht as [|? ? ? l2 _ Ht2]; subst. inversion Ht2 as [|? [k v] ? ? [Hk Hv] _]; subst.
    destruct Hv as [(x & Hg & Hp & Hr)|(Hn & _)]; [|discriminate].
    destruct Hg as [Hg|[Hg _]]; [|discriminate]. cbv in Hg. inversion Hg; subst.
    destruct Hr as [s Hs]. exists s. apply parse_some in Hp as [n Hp]. cbn [validate len_ok fst snd] in *.
    inversion Hp; subst. congruence.
  - intros [s ->]. eexists. unfold T_CorrelationID. apply model_parse_iff.
    exists [(u "description", VNone); (u "location", VStr (u "$message." ++ s))]. split; [reflexivity|]. split.
    + constructor; [split; [reflexivity|right; repeat split]|]. constructor; [|constructor]. split; [reflexivity|]. left.
      eexists. split; [left; reflexivity|]. split; [reflexivity|]. exists s; reflexivity.
    + split; [apply extras_ok_iff; reflexivity|]. unfold cross_field_spec; repeat apply conj; intros HH; discriminate HH.
Qed.

(** ** C21 *)
Definition ref_input (s : pystr) : pv := VDict [(u "$ref", VStr s)].
Definition ref_value (s : pystr) : pv := VObj "Reference" [(u "ref", VStr s)] [].
Definition is_reference_ty (t : ty) : bool :=
  match t with
  | TModel c KForbid [(fi, TStr None)] =>
      String.eqb c "Reference" && str_eqb (f_alias fi) (u "$ref") && str_eqb (f_name fi) (u "ref")
      && match f_val fi with FvNone => true | _ => false end
  | _ => false end.
Definition no_ref_field (fs : list (finfo * ty)) : bool :=
  forallb (fun ft => negb (str_eqb (f_alias (fst ft)) (u "$ref")) && negb (str_eqb (f_name (fst ft)) (u "$ref"))) fs.
Definition ref_member_ok (t : ty) : bool :=
  is_reference_ty t ||
  match t with
  | TStr _ | TEmail | TInt | TBool | TUrl _ | TLitS _ | TLitI _ | TList _ | TProcs | TRoot _ _ | TDict TAny => true
  | TModel _ _ fs => no_ref_field fs
  | _ => false
  end.
Definition is_ref_union (t : ty) : bool := match t with TUnion ts => existsb is_reference_ty ts | _ => false end.
Definition ref_union_ok (t : ty) : bool :=
  match t with TUnion ts => negb (existsb is_reference_ty ts) || forallb ref_member_ok ts | _ => true end.
Lemma ref_unions_ok : forallb ref_union_ok annotations = true.
Proof. vm_compute. reflexivity. Qed.
Lemma reference_reads E s t : is_reference_ty t = true -> validate E t (ref_input s) = Some (ref_value s, 1).
Proof.
  destruct t as [| | | | | | | | | | | | |c k fs|]; try discriminate. destruct k; try discriminate.
  destruct fs as [|[fi ft] [|? ?]]; try discriminate; destruct ft as [|[?|]| | | | | | | | | | | | |]; try discriminate. cbn [is_reference_ty].
  destruct fi as [nm al df en ex va]. cbn [f_alias f_name f_val]. destruct va; try (rewrite !andb_false_r; discriminate).
  rewrite andb_true_r. intros H.
  apply andb_prop in H as [H H3]. apply andb_prop in H as [H1 H2].
  apply String.eqb_eq in H1. apply str_eqb_eq in H2. apply str_eqb_eq in H3. subst. reflexivity.
Qed.
Lemma vfields_cons E val kvs fi t fs : vfields E val kvs ((fi, t) :: fs) =
  match lookup_field fi kvs with
  | Some x => match val t x with
      | None => None
      | Some (x', n) => if fv_check E (f_val fi) x'
          then match vfields E val kvs fs with None => None | Some (r', m) => Some ((f_name fi, x') :: r', S (n + m)) end
          else None end
  | None => match f_def fi with None => None
      | Some d => match vfields E val kvs fs with None => None | Some (r', m) => Some ((f_name fi, d) :: r', m) end end
  end.
Proof. reflexivity. Qed.
Lemma no_ref_vfields E s fs fv n : no_ref_field fs = true ->
  vfields E (validate E) [(u "$ref", VStr s)] fs = Some (fv, n) -> n = 0.
Proof.
  revert fv n; induction fs as [|[fi t] fs IH]; intros fv n Hn H.
  - inversion H; reflexivity.
  - rewrite vfields_cons in H. unfold no_ref_field in Hn. cbn [forallb fst] in Hn. apply andb_prop in Hn as [Hn Hr]. apply andb_prop in Hn as [H1 H2].
    apply negb_true_iff in H1, H2.
    assert (El : lookup_field fi [(u "$ref", VStr s)] = None).
    { unfold lookup_field. cbn [assoc]. rewrite H1, H2. reflexivity. }
    rewrite El in H. destruct (f_def fi); [|discriminate].
    destruct (vfields E (validate E) [(u "$ref", VStr s)] fs) as [[r m]|] eqn:Er; inversion H; subst. eapply IH; eauto.
Qed.
Lemma ref_member E s t v n : ref_member_ok t = true -> validate E t (ref_input s) = Some (v, n) ->
  n = 0 \/ (v, n) = (ref_value s, 1).
Proof.
  intros Hm H. unfold ref_member_ok in Hm. destruct (is_reference_ty t) eqn:Er.
  - rewrite (reference_reads _ _ _ Er) in H. inversion H; subst. auto.
  - cbn [orb] in Hm. destruct t; try discriminate; cbn [validate ref_input] in H; try discriminate.
    + destruct t; try discriminate. inversion H; auto.
    + apply vmodel_obj in H as (fv & Hf & _). left. eapply no_ref_vfields; eauto.
    + destruct (vdict (validate E) t [(u "$ref", VStr s)]) as [[r m]|] eqn:Ed; [|discriminate].
      apply vdict_ok in Ed as [Ek _]. destruct r as [|[k x] [|? ?]]; try discriminate. inversion Ek; subst. discriminate.
Qed.
Lemma best_of_one (v : pv) l : In (Some (v, 1)) l -> (forall w n, In (Some (w, n)) l -> n = 0 \/ (w, n) = (v, 1)) ->
  best_of l = Some (v, 1).
Proof.
  intros Hin Hall. destruct (best_of l) as [[w m]|] eqn:Eb.
  - apply best_of_spec in Eb as (pre & post & -> & H1 & H2).
    destruct (Hall w m) as [->|Heq]; [apply in_or_app; right; left; reflexivity| |congruence].
    apply in_app_or in Hin as [Hin|[Heq|Hin]].
    + apply H1 in Hin. lia.
    + exact Heq.
    + apply H2 in Hin. lia.
  - exfalso. clear Hall. induction l as [|[[w m]|] l IH]; simpl in *.
    + exact Hin.
    + destruct (best_of l) as [[w' m']|]; [destruct (Nat.ltb m m')|]; discriminate.
    + destruct Hin as [Heq|Hin]; [discriminate|auto].
Qed.
Lemma ref_read E s ts : In (TUnion ts) annotations -> In T_Reference ts ->
  parse E (TUnion ts) (ref_input s) = Some (ref_value s).
Proof.
  intros H1 H2. assert (H := ref_unions_ok). rewrite forallb_forall in H. specialize (H _ H1). unfold ref_union_ok in H.
  assert (Hx : existsb is_reference_ty ts = true) by (apply existsb_exists; exists T_Reference; split; [exact H2|reflexivity]).
  rewrite Hx in H. cbn [negb orb] in H. rewrite forallb_forall in H.
  unfold parse. cbn [validate]. rewrite (best_of_one (ref_value s)); [reflexivity| |].
  - apply in_map_iff. exists T_Reference. split; [apply reference_reads; reflexivity|exact H2].
  - intros w n Hin. apply in_map_iff in Hin as (t & Ht & Hin). eapply ref_member; [apply H; exact Hin|exact Ht].
Qed.
