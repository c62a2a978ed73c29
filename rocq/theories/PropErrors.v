(** C78-C82: what a rejected value is reported with. *)
From Verif Require Import PyStr Regex Value Types Rules Pydantic ClassTable Classes Canon Fix SpecParse ProofRules ProofParse
  State SpecState ProofState ProofDump Sample Errors SpecErrors ProofErrors.

Lemma table_report_ok t : In t all_types -> report_ok t = true.
Proof. intros H. exact (proj1 (forallb_forall _ _) all_report_ok t H). Qed.

(** ** C78 *)
Theorem c78_silent_iff_accepted E t v : In t all_types -> (report E t v = [] <-> parse E t v <> None).
Proof. intros Ht. rewrite (report_nil E t (table_report_ok t Ht)). apply fine_parse. Qed.
Theorem c78_exactly_the_faults E t v p why : In t all_types -> (In (p, why) (report E t v) <-> fault E t v p why).
Proof. intros Ht. apply report_iff. apply table_report_ok. exact Ht. Qed.

(** ** C79 *)
Lemma pd_item l x : python_dicts (VList l) -> In x l -> python_dicts x.
Proof. intros H Hi y Hy. apply H. eapply w_list; eauto. Qed.
Lemma pd_value d k x : python_dicts (VDict d) -> In (k, x) d -> python_dicts x.
Proof. intros H Hi y Hy. apply H. eapply w_dict; eauto. Qed.
Lemma pd_entry c d k x : python_dicts (VRoot c d) -> In (k, x) d -> python_dicts x.
Proof. intros H Hi y Hy. apply H. eapply w_root; eauto. Qed.
Lemma pd_mapping c v kvs k x : python_dicts v -> mapping c v kvs -> In (k, x) kvs -> python_dicts x.
Proof.
  intros H Hm Hi. destruct Hm as [kvs|fv ex]; [eapply pd_value; eauto|]. apply dict_update_In in Hi as [Hi|Hi]; intros y Hy; apply H; [eapply w_field|eapply w_extra]; eauto.
Qed.
Lemma pd_entries c v d k x : python_dicts v -> entries c v d -> In (k, x) d -> python_dicts x.
Proof. intros H Hm Hi. destruct Hm; [eapply pd_value|eapply pd_entry]; eauto. Qed.
Lemma mapping_nodup c v kvs : python_dicts v -> mapping c v kvs -> NoDup (map fst kvs).
Proof.
  intros H Hm. destruct Hm as [kvs|fv ex]; [exact (H _ (w_self _))|]. destruct (H _ (w_self _)) as [H1 H2]. apply dict_update_nodup. exact H1.
Qed.
Lemma entries_nodup c v d : python_dicts v -> entries c v d -> NoDup (map fst d).
Proof. intros H Hm. destruct Hm; exact (H _ (w_self _)). Qed.
Lemma merged_ d e k : NoDup (map fst e) -> assoc k (dict_update d e) = match assoc k e with Some x => Some x | None => assoc k d end.
Proof.
  intros Hn. destruct (assoc k e) as [x|] eqn:Ea; [apply assoc_dict_update_in; [exact Hn|apply assoc_In; exact Ea]|].
  apply assoc_dict_update. apply assoc_None. exact Ea.
Qed.
Lemma mapping_found c v kvs k x p w : python_dicts v -> mapping c v kvs -> assoc k kvs = Some x -> found_in x p w -> found_in v (AtKey k :: p) w.
Proof.
  intros Hd Hm Ha Hf. destruct Hm as [kvs|fv ex]; [eapply fo_key; eauto|]. destruct (Hd _ (w_self _)) as [_ H2]. rewrite (merged_ _ _ _ H2) in Ha.
  destruct (assoc k ex) as [y|] eqn:Ee; [injection Ha as ->; eapply fo_extra; eauto|eapply fo_attr; eauto].
Qed.
Lemma mapping_lacks c v kvs k : python_dicts v -> mapping c v kvs -> assoc k kvs = None -> forall w, ~ found_in v [AtKey k] w.
Proof.
  intros Hd Hm Ha w Hf. destruct Hm as [kvs|fv ex].
  - inversion Hf; subst. congruence.
  - destruct (Hd _ (w_self _)) as [_ H2]. rewrite (merged_ _ _ _ H2) in Ha. inversion Hf; subst; destruct (assoc k ex); congruence.
Qed.
Lemma given_assoc fi kvs key x : given fi kvs key x -> assoc key kvs = Some x.
Proof. intros [y H|y H1 H2]; assumption. Qed.
Lemma leads_found E t v p t' v' : leads_to E t v p t' v' -> python_dicts v -> found_in v p v' /\ python_dicts v'.
Proof.
  intros H. induction H as [t v|t l i x p t' v' Hn H IH|t d k x p t' v' Hi H IH|t v p t' v' Hn H IH|ts i t v p t' v' Ha Hn H IH|c k fs v kvs fi t key x p t' v' Hm Hf Hg H IH|c t v d k x p t' v' Hm Hi H IH]; intros Hd.
  - split; [constructor|exact Hd].
  - apply nth_error_In in Hn as Hin. destruct (IH (pd_item _ _ Hd Hin)) as [H1 H2]. split; [eapply fo_index; eauto|exact H2].
  - destruct (IH (pd_value _ _ _ Hd Hi)) as [H1 H2]. split; [|exact H2]. eapply fo_key; [|exact H1]. apply In_assoc; [exact (Hd _ (w_self _))|exact Hi].
  - apply IH. exact Hd.
  - destruct (IH Hd) as [H1 H2]. split; [apply fo_member; exact H1|exact H2].
  - apply given_assoc in Hg. destruct (IH (pd_mapping _ _ _ _ _ Hd Hm (assoc_In _ _ _ Hg))) as [H1 H2]. split; [|exact H2]. eapply mapping_found; eauto.
  - destruct (IH (pd_entries _ _ _ _ _ Hd Hm Hi)) as [H1 H2]. split; [|exact H2]. assert (Ha : assoc k d = Some x) by (apply In_assoc; [exact (entries_nodup _ _ _ Hd Hm)|exact Hi]).
    destruct Hm; [eapply fo_key|eapply fo_entry]; eauto.
Qed.
Lemma found_app v p w q z : found_in v p w -> found_in w q z -> found_in v (p ++ q) z.
Proof. intros H Hq. induction H; cbn [app]; [exact Hq|eapply fo_key; eauto|eapply fo_entry; eauto|eapply fo_extra; eauto|eapply fo_attr; eauto|eapply fo_index; eauto|apply fo_member; auto]. Qed.
Lemma assoc_some_of_key (k : pystr) (d : fields) : In k (map fst d) -> exists x, assoc k d = Some x.
Proof. intros H. destruct (assoc k d) eqn:Ea; [eauto|]. apply assoc_None in Ea. contradiction. Qed.
Lemma broken_found E t v r why : broken E t v r why -> python_dicts v -> why <> NoField -> exists w, found_in v r w.
Proof.
  intros H Hd Hw. inversion H; subst; try (exists v; constructor); try congruence; try (eexists; apply fo_here).
  - exists x. eapply fo_index; [eassumption|constructor].
  - match goal with Hu : unclaimed _ _ _ |- _ => destruct Hu as [Hin _]; apply assoc_some_of_key in Hin as [x Hx] end. exists x. eapply mapping_found; eauto. constructor.
  - match goal with Hg : given _ _ _ _ |- _ => apply given_assoc in Hg end. exists x. eapply mapping_found; eauto. constructor.
Qed.
(** The location of an error leads to a part of the value that was passed... *)
Theorem c79_found E t v p why : In t all_types -> python_dicts v -> In (p, why) (report E t v) -> why <> NoField -> exists w, found_in v p w.
Proof.
  intros Ht Hd Hi Hw. apply (c78_exactly_the_faults _ _ _ _ _ Ht) in Hi as (q & r & t' & v' & -> & Hl & Hb).
  destruct (leads_found _ _ _ _ _ _ Hl Hd) as [H1 H2]. destruct (broken_found _ _ _ _ _ Hb H2 Hw) as [w H3]. exists w. eapply found_app; eauto.
Qed.
(** ... and that of a missing field to a mapping or instance that does not have this key. *)
Theorem c79_missing E t v p : In t all_types -> python_dicts v -> In (p, NoField) (report E t v) ->
  exists q k w, p = q ++ [AtKey k] /\ found_in v q w /\ ((exists d, w = VDict d) \/ exists c fv ex, w = VObj c fv ex) /\ forall x, ~ found_in w [AtKey k] x.
Proof.
  intros Ht Hd Hi. apply (c78_exactly_the_faults _ _ _ _ _ Ht) in Hi as (q & r & t' & v' & -> & Hl & Hb).
  destruct (leads_found _ _ _ _ _ _ Hl Hd) as [H1 H2]. inversion Hb; subst; try discriminate.
  - exists q, (f_alias fi), v'. split; [reflexivity|]. split; [exact H1|]. split; [|eapply mapping_lacks; eauto].
    match goal with Hm : mapping _ _ _ |- _ => destruct Hm end; [left|right]; eauto.
  - match goal with Ho : objection _ _ _ _ |- _ => inversion Ho end.
Qed.

(** ** C80 *)
Definition locs (l : list error) : list (list locstep) := map fst l.
Lemma nd_app {X} (a b : list X) : NoDup a -> NoDup b -> (forall x, In x a -> ~ In x b) -> NoDup (a ++ b).
Proof.
  intros Ha Hb Hd. induction Ha as [|x a Hx Ha IH]; cbn [app]; [exact Hb|]. constructor.
  - intros H. apply in_app_or in H as [H|H]; [contradiction|]. exact (Hd x (or_introl eq_refl) H).
  - apply IH. intros y Hy. apply Hd. right. exact Hy.
Qed.
Lemma in_locs p l : In p (locs l) <-> exists c, In (p, c) l.
Proof. unfold locs. rewrite in_map_iff. split; [intros ([q c] & <- & H); eauto|intros [c H]; exists (p, c); auto]. Qed.
Lemma locs_app a b : locs (a ++ b) = locs a ++ locs b.
Proof. apply map_app. Qed.
Lemma nd_under s l : NoDup (locs l) -> NoDup (locs (under s l)).
Proof.
  intros H. unfold locs, under. rewrite map_map. cbn [fst]. unfold locs in H. revert H. induction l as [|[p c] l IH]; cbn [map fst]; intros H; [constructor|].
  inversion H as [|? ? H1 H2]; subst. constructor; [|auto]. intros Hi. apply in_map_iff in Hi as ([q c'] & [= He] & Hi). cbn [fst] in He. subst q. apply H1. apply in_map_iff. exists (p, c'). auto.
Qed.
Lemma nd_here o : NoDup (locs (here_ o)).
Proof. destruct o; cbn; repeat constructor. intros []. Qed.
Lemma nd_rlist rep t l : (forall x, In x l -> NoDup (locs (rep t x))) -> forall i, NoDup (locs (rlist rep t i l)).
Proof.
  induction l as [|x l IH]; intros Hr i; cbn [rlist]; [constructor|]. rewrite locs_app. apply nd_app.
  - apply nd_under, Hr. left. reflexivity.
  - apply IH. intros y Hy. apply Hr. right. exact Hy.
  - intros p H1 H2. apply in_locs in H1 as [c1 H1], H2 as [c2 H2]. apply in_under in H1 as (p' & -> & _). apply in_rlist in H2 as (j & y & p2 & _ & [= Hj _] & _). lia.
Qed.
Lemma nd_rdict rep t (d : fields) : NoDup (map fst d) -> (forall k x, In (k, x) d -> NoDup (locs (rep t x))) -> NoDup (locs (rdict rep t d)).
Proof.
  induction d as [|[k x] d IH]; intros Hd Hr; cbn [rdict]; [constructor|]. cbn [map fst] in Hd. inversion Hd as [|? ? Hk Hd']; subst. rewrite locs_app. apply nd_app.
  - apply nd_under, (Hr k). left. reflexivity.
  - apply IH; [exact Hd'|]. intros k' y Hy. apply (Hr k'). right. exact Hy.
  - intros p H1 H2. apply in_locs in H1 as [c1 H1], H2 as [c2 H2]. apply in_under in H1 as (p' & -> & _). apply in_rdict in H2 as (j & y & p2 & Hi & [= <- _] & _).
    apply Hk. apply in_map_iff. exists (k, y). auto.
Qed.
Lemma nd_members l : (forall es, In es l -> NoDup (locs es)) -> forall i, NoDup (locs (members i l)).
Proof.
  induction l as [|es l IH]; intros Hr i; cbn [members]; [constructor|]. rewrite locs_app. apply nd_app.
  - apply nd_under, Hr. left. reflexivity.
  - apply IH. intros y Hy. apply Hr. right. exact Hy.
  - intros p H1 H2. apply in_locs in H1 as [c1 H1], H2 as [c2 H2]. apply in_under in H1 as (p' & -> & _). apply in_members in H2 as (j & y & p2 & _ & [= Hj _] & _). lia.
Qed.
Lemma nd_wrong_items l : forall i, NoDup (locs (wrong_items i l)).
Proof.
  induction l as [|x l IH]; intros i; cbn [wrong_items]; [constructor|]. rewrite locs_app. apply nd_app; [destruct (is_proc x); cbn; repeat constructor; intros []|apply IH|].
  intros p H1 H2. apply in_locs in H1 as [c1 H1], H2 as [c2 H2]. destruct (is_proc x); [destruct H1|]. destruct H1 as [[= <- _]|[]]. apply in_wrong_items in H2 as (j & y & _ & _ & [= Hj] & _). lia.
Qed.
(** the key an error of a field is located at *)
Definition field_key (kvs : fields) (fi : finfo) : pystr := match lookup_field fi kvs with Some _ => used_key kvs fi | None => f_alias fi end.
Lemma rfields_head E rep kvs fs p c : In (p, c) (rfields E rep kvs fs) -> exists fi t p', In (fi, t) fs /\ p = AtKey (field_key kvs fi) :: p'.
Proof.
  intros H. apply in_rfields in H as (fi & t & Hi & [(key & x & p' & Hg & -> & _)|[(key & x & x' & Hg & -> & _)|(_ & Hl & -> & _)]]); exists fi, t; unfold field_key.
  - apply given_iff in Hg as [Hg ->]. rewrite Hg. eauto.
  - apply given_iff in Hg as [Hg ->]. rewrite Hg. eauto.
  - rewrite Hl. eauto.
Qed.
Lemma field_key_in kvs fi : In (field_key kvs fi) (field_keys fi).
Proof.
  unfold field_key, used_key. destruct (lookup_field fi kvs); [destruct (has_key (f_alias fi) kvs)|]; auto using field_keys_name, field_keys_alias.
Qed.
Lemma nd_rfields E kvs fs : NoDup (all_keys (map fst fs)) ->
  (forall fi t key x, In (fi, t) fs -> given fi kvs key x -> NoDup (locs (report E t x)) /\ (report E t x = [] <-> fine E t x)) ->
  NoDup (locs (rfields E (report E) kvs fs)).
Proof.
  induction fs as [|[fi t] fs IH]; intros Hk Hr; cbn [rfields]; [constructor|]. cbn [map fst all_keys flat_map] in Hk. apply NoDup_app_inv in Hk as (_ & Hk & Hx). rewrite locs_app. apply nd_app.
  - destruct (lookup_field fi kvs) as [x|] eqn:El; [|destruct (f_def fi); cbn; repeat constructor; intros []].
    destruct (Hr fi t (used_key kvs fi) x (or_introl eq_refl)) as [H1 H2]; [apply given_iff; auto|]. apply nd_under.
    destruct (validate E t x) as [[x' n]|] eqn:Ev; [|rewrite app_nil_r; exact H1]. rewrite (proj2 H2) by (unfold fine; eauto). cbn [app]. apply nd_here.
  - apply IH; [exact Hk|]. intros fi' t' key x Hi. apply Hr. right. exact Hi.
  - intros p H1 H2. apply in_locs in H1 as [c1 H1], H2 as [c2 H2].
    assert (Hh : In (p, c1) (rfields E (report E) kvs [(fi, t)])) by (cbn [rfields]; rewrite app_nil_r; exact H1).
    apply rfields_head in Hh as (fi1 & t1 & p1 & [[= <- <-]|[]] & ->). apply rfields_head in H2 as (fi2 & t2 & p2 & Hi & [= He _]).
    apply (Hx (field_key kvs fi)); [apply field_key_in|]. rewrite He. apply (all_keys_in fi2); [apply in_map_iff; exists (fi2, t2); auto|apply field_key_in].
Qed.
Lemma nd_rmodel E c k fs v kvs : NoDup (all_keys (map fst fs)) -> NoDup (map fst kvs) -> mapping c v kvs ->
  (forall fi t key x, In (fi, t) fs -> given fi kvs key x -> NoDup (locs (report E t x)) /\ (report E t x = [] <-> fine E t x)) ->
  NoDup (locs (rmodel E (report E) c k fs kvs)).
Proof.
  intros Hk Hd Hm Hr. unfold rmodel. rewrite !locs_app. apply nd_app; [apply nd_rfields; assumption|apply nd_app|].
  - destruct k; cbn [rextras]; try constructor. unfold locs. rewrite map_map. cbn [fst].
    assert (Hf : NoDup (map fst (extras fs kvs))).
    { unfold extras. generalize (fun kv : pystr * pv => negb (mem_str (fst kv) (map (fun ft : finfo * ty => used_key kvs (fst ft)) fs))). intros p. clear -Hd. induction kvs as [|[a x] kvs IH]; cbn [filter]; [constructor|].
      cbn [map fst] in Hd. inversion Hd as [|? ? H1 H2]; subst. destruct (p (a, x)); [|auto]. cbn [map fst]. constructor; [|auto]. intros Hi. apply H1. apply in_map_iff in Hi as (kv & <- & Hi). apply filter_In in Hi as [Hi _]. apply in_map. exact Hi. }
    revert Hf. generalize (extras fs kvs). intros ex. induction ex as [|[a x] ex IH]; cbn [map fst]; intros Hf; [constructor|]. inversion Hf as [|? ? H1 H2]; subst. constructor; [|auto].
    intros Hi. apply in_map_iff in Hi as ([b y] & [= He] & Hi). cbn [fst] in He. subst b. apply H1. apply in_map_iff. exists (a, y). auto.
  - destruct (vfields E (validate E) kvs fs) as [[fv n]|]; [|constructor]. destruct (rextras k (extras fs kvs)); [apply nd_here|constructor].
  - intros p H1 H2. apply in_locs in H1 as [c1 H1], H2 as [c2 H2]. destruct k; cbn [rextras] in *; try destruct H1.
    destruct (vfields E (validate E) kvs fs) as [[fv n]|]; [|destruct H2]. destruct (map _ (extras fs kvs)); [destruct H1|destruct H2].
  - intros p H1 H2. apply in_locs in H1 as [c1 H1]. apply rfields_head in H1 as (fi & t & p' & Hi & ->). rewrite <- locs_app in H2. apply in_locs in H2 as [c2 H2]. apply in_app_or in H2 as [H2|H2].
    + unfold rextras in H2. destruct k; try destruct H2. apply in_map_iff in H2 as ([a x] & [= He _ _] & H2). apply extras_unclaimed in H2 as [Hin Hu]. destruct Hu as [_ Hu]. cbn [fst] in *. subst a.
      unfold field_key in *. destruct (lookup_field fi kvs) eqn:El.
      * destruct (Hu fi t Hi) as [Ha Hn]. assert (Hg : given fi kvs (used_key kvs fi) p) by (apply given_iff; auto).
        inversion Hg as [y Hy He|y H3 H4 He]; [congruence|]. apply assoc_None in H3. apply H3. apply Hn. congruence.
      * destruct (Hu fi t Hi) as [Ha _]. congruence.
    + destruct (vfields E (validate E) kvs fs) as [[fv n]|]; [|destruct H2]. destruct (rextras k (extras fs kvs)); [|destruct H2]. apply in_here_says in H2 as [H2 _]. discriminate H2.
Qed.
Lemma nd_report E t : report_ok t = true -> wf_ty t = true -> forall v, python_dicts v -> NoDup (locs (report E t v)).
Proof.
  induction t as [|m| | | |h|l|l|t IH|t IH|t IH|ts IH| |c k fs IH|c t IH] using ty_ind'; intros Hok Hwf v Hd.
  all: try (cbn [report]; unfold unless_fine; destruct (validate _ _ _); cbn; repeat constructor; intros []).
  - cbn [report]. destruct v; try (cbn; repeat constructor; intros []). destruct (email_ok s); cbn; repeat constructor; intros [].
  - cbn [report]. destruct v; try (cbn; repeat constructor; intros []). apply nd_rlist. intros x Hx. apply IH; auto. eapply pd_item; eauto.
  - cbn [report]. destruct v; try (cbn; repeat constructor; intros []). apply nd_rdict; [exact (Hd _ (w_self _))|]. intros k x Hx. apply IH; auto. eapply pd_value; eauto.
  - cbn [report]. assert (H := IH Hok Hwf v Hd). destruct v; try exact H. constructor.
  - cbn [report]. destruct (validate E (TUnion ts) v); [constructor|]. apply nd_members. intros es Hes. apply in_map_iff in Hes as (t & <- & Ht). rewrite Forall_forall in IH.
    cbn [report_ok wf_ty] in *. apply andb_prop in Hok as [_ Hok], Hwf as [_ Hwf]. rewrite forallb_forall in *. apply IH; auto.
  - cbn [report]. destruct v; try (cbn; repeat constructor; intros []). apply nd_wrong_items.
  - assert (Hx : forall kvs, mapping c v kvs -> NoDup (locs (rmodel E (report E) c k fs kvs))).
    { intros kvs Hm. cbn [wf_ty] in Hwf. apply andb_prop in Hwf as [Hmo Hwf]. unfold model_ok in Hmo. repeat (apply andb_prop in Hmo as [Hmo _]). apply nodupb_NoDup in Hmo.
      apply (nd_rmodel E c k fs v); auto; [eapply mapping_nodup; eauto|]. intros fi t key x Hi Hg. rewrite forallb_forall in Hwf. rewrite Forall_forall in IH. cbn [report_ok] in Hok. rewrite forallb_forall in Hok.
      specialize (Hok _ Hi). apply andb_prop in Hok as [_ Hok]. split; [|apply report_nil; exact Hok]. apply (IH _ Hi Hok (Hwf _ Hi)).
      apply given_assoc in Hg. eapply pd_mapping; eauto. eapply assoc_In; eauto. }
    cbn [report]. destruct v; try (cbn; repeat constructor; intros []); [apply Hx; constructor|]. destruct (String.eqb_spec c c0) as [<-|]; [apply Hx; constructor|]. cbn; repeat constructor; intros [].
  - assert (Hx : forall d, entries c v d -> NoDup (locs (rroot E (report E) t d))).
    { intros d Hm. unfold rroot. rewrite locs_app. apply nd_app; [apply nd_rdict; [eapply entries_nodup; eauto|]|destruct (vdict (validate E) t d) as [[d' n]|]; [apply nd_here|constructor]|].
      - intros k x Hi. apply IH; auto. eapply pd_entries; eauto.
      - intros p H1 H2. apply in_locs in H1 as [c1 H1], H2 as [c2 H2]. apply in_rdict in H1 as (k & x & p' & _ & -> & _). destruct (vdict (validate E) t d) as [[d' n]|]; [|destruct H2]. apply in_here_says in H2 as [H2 _]. discriminate H2. }
    cbn [report]. destruct v; try (cbn; repeat constructor; intros []); [apply Hx; constructor|]. destruct (String.eqb_spec c c0) as [<-|]; [apply Hx; constructor|]. cbn; repeat constructor; intros [].
Qed.
(** No location is reported twice. *)
Theorem c80_once E t v : In t all_types -> python_dicts v -> NoDup (map fst (report E t v)).
Proof. intros Ht Hd. apply nd_report; [apply table_report_ok; exact Ht|apply wf_all; exact Ht|exact Hd]. Qed.
Theorem c80_one_cause E t v p why why' : In t all_types -> python_dicts v -> In (p, why) (report E t v) -> In (p, why') (report E t v) -> why = why'.
Proof.
  intros Ht Hd H H'. assert (Hn := c80_once E t v Ht Hd). revert Hn H H'. generalize (report E t v). intros l. induction l as [|[q c] l IH]; cbn [map fst In]; intros Hn H H'; [destruct H|].
  inversion Hn as [|? ? H1 H2]; subst. assert (Hno : forall c', In (q, c') l -> False) by (intros c' Hi; apply H1; apply in_map_iff; exists (q, c'); auto).
  destruct H as [He|H], H' as [He'|H']; [congruence| | |auto].
  - injection He as -> ->. destruct (Hno _ H').
  - injection He' as -> ->. destruct (Hno _ H).
Qed.

(** ** C81 *)
Lemma field_errors E c k fs fi t a key x p why : NoDup (all_keys (map fst fs)) -> In (fi, t) fs -> given fi a key x ->
  (In (AtKey key :: p, why) (rmodel E (report E) c k fs a) <->
   In (p, why) (report E t x) \/ (p = [] /\ exists x', parse E t x = Some x' /\ field_says E (f_name fi) (f_val fi) x' = Some why)).
Proof.
  intros Hk Hi Hg. assert (Hke : key = field_key a fi) by (apply given_iff in Hg as [H1 H2]; unfold field_key; rewrite H1; exact H2).
  assert (Hown : forall fi' t', In (fi', t') fs -> field_key a fi' = key -> (fi', t') = (fi, t)).
  { intros fi' t' Hi' He. assert (Hfi : fi' = fi).
    { apply (key_owner (map fst fs) fi' fi key Hk); [apply in_map_iff; exists (fi', t'); auto|apply in_map_iff; exists (fi, t); auto|rewrite <- He; apply field_key_in|rewrite Hke; apply field_key_in]. }
    subst fi'. f_equal. assert (Hnd := all_keys_names _ Hk). rewrite map_map in Hnd. clear -Hi Hi' Hnd. induction fs as [|[g s] fs IH]; [destruct Hi|]. cbn [map fst] in Hnd. inversion Hnd as [|? ? H1 H2]; subst.
    assert (Hno : forall s', In (g, s') fs -> False) by (intros s' H; apply H1; apply in_map_iff; exists (g, s'); auto).
    destruct Hi as [Hi|Hi], Hi' as [Hi'|Hi']; [congruence| | |auto]; [injection Hi as -> ->|injection Hi' as -> ->]; exfalso; eapply Hno; eauto. }
  assert (Hex : ~ In (AtKey key :: p, why) (rextras k (extras fs a))).
  { intros H. unfold rextras in H. destruct k; try destruct H. apply in_map_iff in H as ([b y] & [= He _ _] & H). apply extras_unclaimed in H as [_ [_ Hu]]. cbn [fst] in *. subst b.
    destruct (Hu fi t Hi) as [Ha Hn]. inversion Hg as [z Hz He|z H3 H4 He]; [congruence|]. apply assoc_None in H3. apply H3. apply Hn. congruence. }
  unfold rmodel. rewrite !in_app_iff. split.
  - intros [H|[H|H]]; [|contradiction|].
    + apply in_rfields in H as (fi' & t' & Hi' & [(key' & y & p' & Hg' & [= <- <-] & H)|[(key' & y & y' & Hg' & [= <- ->] & Hp & H)|(_ & Hl & [= He ->] & ->)]]).
      * assert (Hx : (fi', t') = (fi, t)) by (apply Hown; [exact Hi'|apply given_iff in Hg' as [H1 H2]; unfold field_key; rewrite H1; auto]). injection Hx as -> ->.
        left. apply given_iff in Hg as [Hg _], Hg' as [Hg' _]. rewrite Hg in Hg'. injection Hg' as ->. exact H.
      * assert (Hx : (fi', t') = (fi, t)) by (apply Hown; [exact Hi'|apply given_iff in Hg' as [H1 H2]; unfold field_key; rewrite H1; auto]). injection Hx as -> ->.
        right. split; [reflexivity|]. apply given_iff in Hg as [Hg _], Hg' as [Hg' _]. rewrite Hg in Hg'. injection Hg' as ->. eauto.
      * assert (Hx : (fi', t') = (fi, t)) by (apply Hown; [exact Hi'|unfold field_key; rewrite Hl; auto]). injection Hx as -> ->. apply given_iff in Hg as [Hg _]. congruence.
    + destruct (vfields E (validate E) a fs) as [[fv n]|]; [|destruct H]. destruct (rextras k (extras fs a)); [|destruct H]. apply in_here_says in H as [H _]. discriminate H.
  - intros H. left. apply in_rfields. exists fi, t. split; [exact Hi|]. destruct H as [H|[-> (x' & Hp & H)]]; [left; eauto 6|]. right. left. exists key, x, x'. auto.
Qed.
Lemma model_keys c k fs : In (TModel c k fs) all_types -> NoDup (all_keys (map fst fs)).
Proof.
  intros H. apply wf_all in H. cbn [wf_ty] in H. apply andb_prop in H as [H _]. unfold model_ok in H. repeat (apply andb_prop in H as [H _]). apply nodupb_NoDup. exact H.
Qed.
Lemma model_text c k fs fi t x x' why E : In (TModel c k fs) all_types -> In (fi, t) fs -> parse E t x = Some x' ->
  (field_says E (f_name fi) (f_val fi) x' = Some why <-> objection E fi x' why).
Proof.
  intros H Hi Hp. apply table_report_ok in H. cbn [report_ok] in H. rewrite forallb_forall in H. specialize (H _ Hi). apply andb_prop in H as [H _]. change (text_ok fi t = true) in H.
  apply (objection_iff E fi t); [exact H|]. intros Hf. unfold text_ok in H. rewrite Hf in H. destruct t; try discriminate H. unfold parse in Hp. cbn [validate] in Hp. destruct x; try discriminate Hp.
  destruct (len_ok maxlen s); [|discriminate Hp]. injection Hp as <-. eauto.
Qed.
Lemma field_report_ok c k fs fi t : In (TModel c k fs) all_types -> In (fi, t) fs -> report_ok t = true.
Proof. intros H Hi. apply table_report_ok in H. cbn [report_ok] in H. rewrite forallb_forall in H. specialize (H _ Hi). apply andb_prop in H as [_ H]. exact H. Qed.
(** What is reported under the key of a field: the faults of its value, and the objection to its value; nothing else in the object matters. *)
Theorem c81_field E c k fs fi t kvs key x p why : In (TModel c k fs) all_types -> In (fi, t) fs -> given fi kvs key x ->
  (In (AtKey key :: p, why) (report E (TModel c k fs) (VDict kvs)) <->
   fault E t x p why \/ (p = [] /\ exists x', parse E t x = Some x' /\ objection E fi x' why)).
Proof.
  intros Hin Hi Hg. cbn [report]. rewrite (field_errors E c k fs fi t kvs key x p why (model_keys _ _ _ Hin) Hi Hg), (report_iff E t (field_report_ok _ _ _ _ _ Hin Hi)).
  split; (intros [H|[-> (x' & Hp & H)]]; [left; exact H|right]); (split; [reflexivity|]); exists x'; (split; [exact Hp|]); apply (model_text c k fs fi t x x' why E Hin Hi Hp); exact H.
Qed.
(** So two objects that give a field the same value have the same errors under its key. *)
Theorem c81_independent E c k fs fi t a b key x p why : In (TModel c k fs) all_types -> In (fi, t) fs -> given fi a key x -> given fi b key x ->
  (In (AtKey key :: p, why) (report E (TModel c k fs) (VDict a)) <-> In (AtKey key :: p, why) (report E (TModel c k fs) (VDict b))).
Proof. intros Hin Hi Ha Hb. rewrite (c81_field E c k fs fi t a key x p why Hin Hi Ha), (c81_field E c k fs fi t b key x p why Hin Hi Hb). reflexivity. Qed.
(** A required field that is not given is reported, whatever else the object contains. *)
Theorem c81_missing E c k fs fi t kvs : In (TModel c k fs) all_types -> In (fi, t) fs -> f_def fi = None -> assoc (f_alias fi) kvs = None -> assoc (f_name fi) kvs = None ->
  In ([AtKey (f_alias fi)], NoField) (report E (TModel c k fs) (VDict kvs)).
Proof. intros Hin Hi Hf Ha Hn. apply (c78_exactly_the_faults _ _ _ _ _ Hin). apply fault_here. eapply br_missing; eauto. constructor. Qed.
(** So is every unknown key of an object that allows none. *)
Theorem c81_extra E c fs kvs key : In (TModel c KForbid fs) all_types -> unclaimed fs kvs key ->
  In ([AtKey key], NotAllowed) (report E (TModel c KForbid fs) (VDict kvs)).
Proof. intros Hin Hu. apply (c78_exactly_the_faults _ _ _ _ _ Hin). apply fault_here. eapply br_extra; eauto. constructor. Qed.
(** The errors under an item of a list, or under a value of a mapping, are those of the item. *)
Theorem c81_item E t l i x p why : nth_error l i = Some x ->
  (In (AtIndex i :: p, why) (report E (TList t) (VList l)) <-> In (p, why) (report E t x)).
Proof.
  intros Hx. cbn [report]. rewrite in_rlist. split.
  - intros (j & y & p' & Hn & [= -> ->] & H). cbn in Hn. rewrite Hx in Hn. injection Hn as ->. exact H.
  - intros H. exists i, x, p. auto.
Qed.
Theorem c81_entry E c t d k x p why : NoDup (map fst d) -> In (k, x) d ->
  (In (AtKey k :: p, why) (report E (TRoot c t) (VDict d)) <-> In (p, why) (report E t x)) /\
  (In (AtKey k :: p, why) (report E (TDict t) (VDict d)) <-> In (p, why) (report E t x)).
Proof.
  intros Hd Hx. assert (H : In (AtKey k :: p, why) (rdict (report E) t d) <-> In (p, why) (report E t x)).
  { rewrite in_rdict. split.
    - intros (k' & y & p' & Hi & [= <- <-] & H). apply (In_assoc _ _ _ Hd) in Hx, Hi. rewrite Hx in Hi. injection Hi as ->. exact H.
    - intros H. exists k, x, p. auto. }
  split; [|exact H]. cbn [report]. unfold rroot. rewrite in_app_iff, H. split; [|auto]. intros [G|G]; [exact G|].
  destruct (vdict (validate E) t d) as [[d' n]|]; [|destruct G]. apply in_here_says in G as [G _]. discriminate G.
Qed.

(** ** C82 *)
(** An object whose fields are fine, and without forbidden keys, is reported with one sentence or not at all: the first unknown key
    that is no extension, else the first violated rule of its class. *)
Theorem c82_object E c k fs v kvs fv m : In (TModel c k fs) all_types -> mapping c v kvs -> typed_fields E kvs fs fv -> (k = KForbid -> forall key, ~ unclaimed fs kvs key) ->
  (report E (TModel c k fs) v = [([], Says m)] <-> object_rule E c k fs kvs fv m).
Proof.
  intros Hin Hm Ht Hu. assert (Hr : report E (TModel c k fs) v = here_says (after_says E c k fv (extras fs kvs))).
  { assert (Hx : report E (TModel c k fs) v = rmodel E (report E) c k fs kvs) by (destruct Hm; cbn [report]; rewrite ?String.eqb_refl; reflexivity). rewrite Hx. unfold rmodel.
    assert (Hv := Ht). apply vfields_typed in Hv as [n Hv]. rewrite (proj2 (typed_extras_none fs kvs k) Hu), Hv.
    assert (Hf : rfields E (report E) kvs fs = []).
    { apply rfields_nil; [|eauto]. rewrite Forall_forall. intros [fi t] Hi w. apply report_nil. exact (field_report_ok c k fs fi t Hin Hi). }
    rewrite Hf. reflexivity. }
  rewrite Hr, <- after_says_iff. destruct (after_says E c k fv (extras fs kvs)) as [m'|]; cbn; split; intros H; try discriminate H; [injection H as ->; reflexivity|injection H as ->; reflexivity].
Qed.
(** Rules that relate fields are only checked, and complained about, when all fields of the object are fine. *)
Theorem c82_rules_wait E c k fs v m : In (TModel c k fs) all_types -> In ([], Says m) (report E (TModel c k fs) v) -> report E (TModel c k fs) v = [([], Says m)].
Proof.
  intros Hin H. assert (Hf := H). apply (c78_exactly_the_faults _ _ _ _ _ Hin) in Hf as (q & r & t' & v' & Hq & Hl & Hb). symmetry in Hq. apply app_eq_nil in Hq as [-> ->].
  inversion Hl; subst. inversion Hb; subst. apply (c82_object E c k fs v' kvs fv m); auto.
Qed.
Lemma says_inj m m' : here_says (Some m) = [([], Says m')] -> m = m'.
Proof. cbn. intros [= ->]. reflexivity. Qed.
(** The same for the keys of a patterned map. *)
Theorem c82_keys E c t v d k : In (TRoot c t) all_types -> entries c v d -> (forall k' x, In (k', x) d -> parse E t x <> None) ->
  (report E (TRoot c t) v = [([], Says (u "Field '" ++ k ++ u "' does not match patterned object key pattern. Keys must contain letters, digits, hyphens, and underscores."))]
   <-> first_key (fun _ => True) (upto_nl doc_key) d k).
Proof.
  intros Hin Hm Hv. assert (Hr : exists d', map fst d = map fst d' /\ report E (TRoot c t) v = here_says (keys_say d')).
  { assert (Hx : report E (TRoot c t) v = rroot E (report E) t d) by (destruct Hm; cbn [report]; rewrite ?String.eqb_refl; reflexivity). rewrite Hx. unfold rroot.
    assert (Hd := Hv). apply vdict_all in Hd as [[d' n] Hd]. exists d'. apply vdict_ok in Hd as Hk. split; [symmetry; apply Hk|]. rewrite Hd.
    assert (Hn : rdict (report E) t d = []); [|rewrite Hn; reflexivity]. apply rdict_nil; [|eauto]. intros w. apply report_nil. exact (table_report_ok _ Hin). }
  destruct Hr as (d' & Hd & ->). split.
  - intros H. assert (Hs : exists m, keys_say d' = Some m) by (destruct (keys_say d'); [eauto|discriminate H]). destruct Hs as [m Hs]. rewrite Hs in H. apply says_inj in H.
    apply (keys_say_iff d d' _ Hd) in Hs as (k' & Hf & ->). unfold key_text in H. rename H into Hk. apply app_inv_head in Hk. apply app_inv_tail in Hk. rewrite <- Hk. exact Hf.
  - intros H. assert (Hs : keys_say d' = Some (key_text k)) by (apply (keys_say_iff d d' _ Hd); eauto). rewrite Hs. reflexivity.
Qed.

(** ** Examples *)
Local Open Scope string_scope.
(** A document with faults at several levels. *)
Definition docE : pv :=
  obj [("asyncapi", str "2.6.0");
       ("info", obj [("title", str "t"); ("contact", obj [("email", str "nobody"); ("phone", str "1")])]);
       ("channels", obj [("bad key", obj []); ("c", obj [("parameters", obj []); ("servers", VList [str "x"])])]);
       ("components", obj [("securitySchemes", obj [("s", obj [("type", str "http"); ("scopes", VList [])])])])].
Definition at_key (s : string) : locstep := AtKey (u s).
Example c78_ex : In T_AsyncAPI3 all_types /\ python_dicts docE /\ report E0 T_AsyncAPI3 docE = [
   ([at_key "asyncapi"], Says (u "asyncapi version 2.6.0 is not supported. This application only supports AsyncAPI 3.x.x versions"));
   ([at_key "info"; at_key "version"], NoField);
   ([at_key "info"; at_key "contact"; at_key "email"], Says (u "Invalid email format"));
   ([at_key "channels"; at_key "c"; AtMember 0; at_key "servers"; AtIndex 0], WrongInput);
   ([at_key "channels"; at_key "c"; AtMember 1; at_key "$ref"], NoField);
   ([at_key "channels"; at_key "c"; AtMember 1; at_key "parameters"], NotAllowed);
   ([at_key "channels"; at_key "c"; AtMember 1; at_key "servers"], NotAllowed);
   ([at_key "components"; at_key "securitySchemes"; at_key "s"; AtMember 0], Says (u "scheme is required for http type"));
   ([at_key "components"; at_key "securitySchemes"; at_key "s"; AtMember 1; at_key "$ref"], NoField);
   ([at_key "components"; at_key "securitySchemes"; at_key "s"; AtMember 1; at_key "type"], NotAllowed);
   ([at_key "components"; at_key "securitySchemes"; at_key "s"; AtMember 1; at_key "scopes"], NotAllowed)].
Proof. split; [in_table|]. split; [apply python_dicts_dec; vm_compute; reflexivity|]. vm_compute. reflexivity. Qed.
(** The key "bad key" of channels, the key "phone" of contact and the parameters of "c" are complained about once the rest is repaired. *)
Example c82_ex : report E0 T_AsyncAPI3 (obj [("asyncapi", str "3.0.0"); ("info", obj [("title", str "t"); ("version", str "1"); ("contact", obj [("phone", str "1")])]);
     ("channels", obj [("bad key", obj []); ("c", obj [("address", str "a")])])]) = [
   ([at_key "info"; at_key "contact"], Says (u "Field 'phone' does not match specification extension pattern. Extensions must start with 'x-' and contain only word characters, digits, dots, hyphens, and underscores."));
   ([at_key "channels"], Says (u "Field 'bad key' does not match patterned object key pattern. Keys must contain letters, digits, hyphens, and underscores."))].
Proof. vm_compute. reflexivity. Qed.
Definition fields_of (t : ty) : list (finfo * ty) := match t with TModel _ _ fs => fs | _ => [] end.
Definition given_fields (v : pv) : fields := match v with VDict d => d | _ => [] end.
Definition schemeE : pv := obj [("type", str "http"); ("scopes", VList [])].
Example c82_ex_object : In T_SecurityScheme all_types /\ T_SecurityScheme = TModel "SecurityScheme" KExt (fields_of T_SecurityScheme)
  /\ (exists fv, typed_fields E0 (given_fields schemeE) (fields_of T_SecurityScheme) fv)
  /\ report E0 T_SecurityScheme schemeE = [([], Says (u "scheme is required for http type"))].
Proof.
  split; [in_table|]. split; [reflexivity|]. split; [|vm_compute; reflexivity].
  assert (H : (match vfields E0 (validate E0) (given_fields schemeE) (fields_of T_SecurityScheme) with Some _ => true | None => false end) = true) by (vm_compute; reflexivity).
  destruct (vfields E0 (validate E0) (given_fields schemeE) (fields_of T_SecurityScheme)) as [[fv n]|] eqn:Ev; [|discriminate H]. exists fv. apply vfields_typed. eauto.
Qed.
(** C81: the same contact under a broken and under a repaired info object. *)
Example c81_ex : exists fi t, In (fi, t) (fields_of T_Info)
  /\ SpecErrors.given fi (given_fields (obj [("contact", obj [("email", str "nobody")])])) (u "contact") (obj [("email", str "nobody")])
  /\ SpecErrors.given fi (given_fields (obj [("title", str "t"); ("version", str "1"); ("contact", obj [("email", str "nobody")])])) (u "contact") (obj [("email", str "nobody")])
  /\ In ([at_key "contact"; at_key "email"], Says (u "Invalid email format")) (report E0 T_Info (obj [("contact", obj [("email", str "nobody")])])).
Proof.
  assert (Hf : exists fi t, In (fi, t) (fields_of T_Info) /\ f_alias fi = u "contact").
  { assert (H : (fix go l := match l with [] => false | (fi, _) :: r => str_eqb (f_alias fi) (u "contact") || go r end) (fields_of T_Info) = true) by (vm_compute; reflexivity).
    revert H. generalize (fields_of T_Info). intros l. induction l as [|[fi t] l IH]; intros H; [discriminate H|]. apply orb_prop in H as [H|H]; [exists fi, t; split; [left; reflexivity|apply str_eqb_eq; exact H]|].
    destruct (IH H) as (fi' & t' & H1 & H2). exists fi', t'. split; [right; exact H1|exact H2]. }
  destruct Hf as (fi & t & Hi & Ha). exists fi, t. split; [exact Hi|]. rewrite <- Ha. repeat split; try (apply gi_alias; rewrite Ha; vm_compute; reflexivity). vm_compute. right. right. left. reflexivity.
Qed.
Print Assumptions c78_silent_iff_accepted.
Print Assumptions c78_exactly_the_faults.
Print Assumptions c79_found.
Print Assumptions c79_missing.
Print Assumptions c80_once.
Print Assumptions c80_one_cause.
Print Assumptions c81_field.
Print Assumptions c81_independent.
Print Assumptions c81_missing.
Print Assumptions c81_extra.
Print Assumptions c81_item.
Print Assumptions c81_entry.
Print Assumptions c82_object.
Print Assumptions c82_rules_wait.
Print Assumptions c82_keys.
