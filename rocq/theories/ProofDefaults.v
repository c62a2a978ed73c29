(** Saving and loading fills in defaults, and does nothing else. *)
From Verif Require Import PyStr Regex Value Types Rules Pydantic ClassTable Classes Canon Fix Linked SpecParse ProofRules ProofParse State SpecState ProofState
  Resolve SpecResolve ProofResolve Dump SpecDump ProofDump SpecDefaults.

Definition wd_entries (d : fields) : fields := map (fun kv => match kv with (k, x) => (k, with_defaults x) end) d.
Definition refill (c : string) (fv : fields) : fields :=
  map (fun kv => match kv with (k, x) => (k, match x with VNone => null_default c k | _ => with_defaults x end) end) fv.
Lemma wd_obj c fv ex : with_defaults (VObj c fv ex) = VObj c (refill c fv) ex. Proof. reflexivity. Qed.
Lemma wd_dict d : with_defaults (VDict d) = VDict (wd_entries d). Proof. reflexivity. Qed.
Lemma wd_root c d : with_defaults (VRoot c d) = VRoot c (wd_entries d). Proof. reflexivity. Qed.
Lemma wd_none v : is_none (with_defaults v) = is_none v. Proof. destruct v; reflexivity. Qed.
Lemma wd_str s v : is_str s (with_defaults v) = is_str s v. Proof. destruct v; reflexivity. Qed.
Lemma wd_fv E f v : fv_check E f (with_defaults v) = fv_check E f v. Proof. destruct f, v; reflexivity. Qed.
Lemma wd_json v : is_json v -> with_defaults v = v.
Proof.
  induction v using pv_ind'; intros Hj; try reflexivity.
  - cbn [with_defaults]. f_equal. rewrite <- (map_id l) at 2. apply map_ext_in. intros x Hx. rewrite Forall_forall in H. apply (H x Hx). intros y Hy. apply Hj. eapply w_list; eauto.
  - rewrite wd_dict. f_equal. unfold wd_entries. rewrite <- (map_id d) at 2. apply map_ext_in. intros [k x] Hx. f_equal. rewrite Forall_forall in H. apply (H _ Hx). intros y Hy. apply Hj. eapply w_dict; eauto.
  - destruct (Hj _ (w_self _)).
  - destruct (Hj _ (w_self _)).
Qed.
Definition null_of (fi : finfo) : pv := if f_exnull fi then match f_def fi with Some d => d | None => VNone end else VNone.
Lemma null_default_of c k fs fi t : linked (TModel c k fs) = true -> wf_ty (TModel c k fs) = true -> In (fi, t) fs -> null_default c (f_name fi) = null_of fi.
Proof.
  intros Hl Hw Hi. apply linked_fields in Hl as [Hf _]. unfold null_default. rewrite Hf. assert (Hnd := names_NoDup c k fs Hw). clear Hf Hw.
  induction fs as [|[gi s] fs IH]; [destruct Hi|]. cbn [find fst map] in *. apply NoDup_cons_iff in Hnd as [Hn Hnd]. destruct Hi as [Hi|Hi].
  - injection Hi as -> ->. rewrite (proj2 (str_eqb_eq _ _) eq_refl). reflexivity.
  - destruct (str_eqb (f_name fi) (f_name gi)) eqn:Ee; [|exact (IH Hi Hnd)]. exfalso. apply Hn. apply str_eqb_eq in Ee. rewrite <- Ee. apply (in_map (fun ft => f_name (fst ft)) _ (fi, t)). exact Hi.
Qed.
Definition fill (fi : finfo) (x : pv) : pv := if ProofDump.written fi x then with_defaults x else match f_def fi with Some d => d | None => x end.
Fixpoint fills (fs : list (finfo * ty)) (fv : fields) : fields :=
  match fs, fv with
  | (fi, _) :: fs', (k, x) :: fv' => (k, fill fi x) :: fills fs' fv'
  | _, _ => []
  end.
Lemma vfields_fill E A kvs fs : forall fv, canon_fields E (canon A E) fs fv ->
  (forall fi t, In (fi, t) fs -> f_excl fi || f_exnull fi = true -> f_def fi <> None) ->
  (forall fi t x, In (fi, t) fs -> In (f_name fi, x) fv -> f_excl fi = false -> canon A E t x -> exists n, validate E t (dump x) = Some (with_defaults x, n)) ->
  (forall fi t x, In (fi, t) fs -> In (f_name fi, x) fv -> lookup_field fi kvs = if ProofDump.written fi x then Some (dump x) else None) ->
  exists n, vfields E (validate E) kvs fs = Some (fills fs fv, n).
Proof.
  induction fs as [|[fi t] fs IH]; intros [|[k x] fv] Hc Hs Hv Hl; cbn [canon_fields] in Hc; try tauto; [exists 0; reflexivity|].
  destruct Hc as [(-> & Hcan & Hf) Hc]. rewrite vfields_cons. cbn [fills].
  destruct (IH fv Hc) as [m Hm].
  { intros gi t' Hi. apply (Hs gi t'). right. exact Hi. }
  { intros gi t' y Hi Hy. apply Hv; right; assumption. }
  { intros gi t' y Hi Hy. apply (Hl gi t'); right; assumption. }
  rewrite Hm.
  rewrite (Hl fi t x (or_introl eq_refl) (or_introl eq_refl)). unfold fill. destruct (ProofDump.written fi x) eqn:Ew.
  - assert (Hx : f_excl fi = false) by (unfold ProofDump.written in Ew; destruct (f_excl fi); [discriminate Ew|reflexivity]).
    destruct (Hv fi t x (or_introl eq_refl) (or_introl eq_refl) Hx Hcan) as [n Hn]. rewrite Hn, wd_fv, Hf. eauto.
  - destruct (f_def fi) as [d|] eqn:Ed; [eauto|]. exfalso. apply (Hs fi t (or_introl eq_refl)); [|exact Ed].
    unfold ProofDump.written in Ew. apply Bool.negb_false_iff in Ew. destruct (f_excl fi); [reflexivity|]. cbn [orb] in *. apply andb_prop in Ew as [Ew _]. exact Ew.
Qed.
Lemma fills_refill c k fs fv : linked (TModel c k fs) = true -> wf_ty (TModel c k fs) = true -> (forall fi t, In (fi, t) fs -> f_excl fi = false) ->
  map fst fv = map (fun ft => f_name (fst ft)) fs -> fills fs fv = refill c fv.
Proof.
  intros Hl Hw He. assert (Hd : forall fi t, In (fi, t) fs -> null_default c (f_name fi) = null_of fi) by (intros fi t; apply (null_default_of c k fs fi t Hl Hw)). clear Hl Hw k.
  revert fv. induction fs as [|[fi t] fs IH]; intros [|[k x] fv] Hn; try discriminate Hn; [reflexivity|]. cbn [map fst] in Hn. injection Hn as -> Hn.
  cbn [fills refill map]. change (map _ fv) with (refill c fv). f_equal; [|apply IH; [intros gi s Hi; apply (He gi s); right; exact Hi|intros gi s Hi; apply (Hd gi s); right; exact Hi|exact Hn]].
  f_equal. assert (Hx := He fi t (or_introl eq_refl)). assert (Hdd := Hd fi t (or_introl eq_refl)). unfold fill, ProofDump.written. rewrite Hx. cbn [orb].
  destruct x; try (destruct (f_exnull fi); reflexivity). rewrite Hdd. unfold null_of. destruct (f_exnull fi); cbn [andb is_none negb]; [|reflexivity]. destruct (f_def fi); reflexivity.
Qed.
(** The rules relating fields. *)
Lemma refill_attr c fv k : attr k (refill c fv) = match attr k fv with VNone => match assoc k fv with Some _ => null_default c k | None => VNone end | x => with_defaults x end.
Proof.
  unfold attr. induction fv as [|[a x] fv IH]; [reflexivity|]. cbn [refill map assoc]. change (map _ fv) with (refill c fv). destruct (str_eqb k a) eqn:Ee; [|exact IH].
  apply str_eqb_eq in Ee. subst a. destruct x; reflexivity.
Qed.
Lemma sub_attr_filled f v : is_none (sub_attr f (with_defaults v)) = true -> is_none (sub_attr f v) = true.
Proof.
  destruct v; try (intros _; reflexivity). rewrite wd_obj. cbn [sub_attr]. rewrite refill_attr. destruct (attr (u f) fs) eqn:Ea; try reflexivity; intros H; discriminate H.
Qed.
Definition plain_nulls (fs : list (finfo * ty)) : bool := forallb (fun ft => is_none (null_of (fst ft))) fs.
Lemma plain_default fs k : plain_nulls fs = true -> match find (fun ft : finfo * ty => str_eqb k (f_name (fst ft))) fs with
  | Some (fi, _) => if f_exnull fi then match f_def fi with Some d => d | None => VNone end else VNone | None => VNone end = VNone.
Proof.
  intros H. destruct (find _ fs) as [[fi t]|] eqn:Ef; [|reflexivity]. apply find_some in Ef as [Hi _]. unfold plain_nulls in H. rewrite forallb_forall in H. apply H in Hi. apply is_none_iff in Hi. exact Hi.
Qed.
Lemma hooks_plain : forallb (fun ch => plain_nulls (class_fields (fst ch))) hooks = true.
Proof. vm_compute. reflexivity. Qed.
Lemma at_plain c fv f : (forall k, null_default c k = VNone) -> at_ f (refill c fv) = with_defaults (at_ f fv).
Proof. intros H. unfold at_. rewrite refill_attr. destruct (attr (u f) fv); try reflexivity. rewrite H. destruct (assoc (u f) fv); reflexivity. Qed.
Lemma one_of_wd l v : one_of l (with_defaults v) = one_of l v.
Proof. unfold one_of. induction l as [|s l IH]; [reflexivity|]. cbn [existsb]. rewrite wd_str, IH. reflexivity. Qed.
Lemma notnone_wd v : notnone (with_defaults v) = notnone v.
Proof. unfold notnone. rewrite wd_none. reflexivity. Qed.
Lemma sub_keep f v : negb (is_none (sub_attr f v)) = true -> negb (is_none (sub_attr f (with_defaults v))) = true.
Proof. intros H. destruct (is_none (sub_attr f (with_defaults v))) eqn:Ee; [|reflexivity]. apply sub_attr_filled in Ee. rewrite Ee in H. discriminate H. Qed.
Lemma sub_keep_if a f v : negb (a && is_none (sub_attr f v)) = true -> negb (a && is_none (sub_attr f (with_defaults v))) = true.
Proof. destruct a; [apply sub_keep|reflexivity]. Qed.
Lemma address_wd v : match with_defaults v with VStr a => py_search addr_expr_rx a | _ => false end = match v with VStr a => py_search addr_expr_rx a | _ => false end.
Proof. destruct v; reflexivity. Qed.
Lemma hook_refill c fv : hook c fv = true -> hook c (refill c fv) = true.
Proof.
  unfold hook. destruct (hook_of c hooks) as [h|] eqn:Eh; [|reflexivity].
  assert (Hin : In (c, h) hooks).
  { revert Eh. generalize hooks. intros l. induction l as [|[c' h'] l IH]; [discriminate|]. cbn [hook_of]. destruct (String.eqb_spec c c') as [->|_]; [intros [= ->]; left; reflexivity|intros H; right; exact (IH H)]. }
  clear Eh. assert (Hp : forall k, null_default c k = VNone).
  { intros k. apply plain_default. exact (proj1 (forallb_forall _ _) hooks_plain (c, h) Hin). }
  repeat (destruct Hin as [Hin|Hin]; [apply pair_equal_spec in Hin as [_ <-]|]); [..|destruct Hin];
  unfold channel_rule, message_example_rule, oauth_flows_rule, security_scheme_rule, amqp_channel_rule, ibmmq_channel_rule, ibmmq_message_rule, kafka_server_rule, solace_destination_rule,
    implicit_rule, password_rule, client_credentials_rule, authorization_code_rule, api_key_rule, bearer_rule, http_api_key_rule, http_rule, oauth2_rule, openid_rule, scopes_rule;
  rewrite !(at_plain c fv) by exact Hp; rewrite ?wd_none, ?notnone_wd, ?wd_str, ?one_of_wd, ?address_wd; try (intros H; exact H).
  intros H. apply andb_prop in H as [H H4]. apply andb_prop in H as [H H3]. apply andb_prop in H as [H1 H2].
  rewrite (sub_keep_if _ _ _ H1), (sub_keep_if _ _ _ H2), (sub_keep_if _ _ _ H3). cbn [andb].
  destruct (notnone (at_ "authorization_code"%string fv)); [|reflexivity]. apply andb_prop in H4 as [H4 H5]. rewrite (sub_keep _ _ H4), (sub_keep _ _ H5). reflexivity.
Qed.
Definition readable (v : pv) : Prop := python_dicts v /\ no_shadowing v /\ no_ambiguity v.
Lemma readable_closed : closed readable.
Proof. unfold readable. repeat apply closed_and; [apply pd_closed|apply ns_closed|apply na_closed]. Qed.
Lemma earlier_weak_gen E ti tj v w n : apart_earlier ti tj = true -> canon is_json E ti v -> ~ ambiguous v -> validate E tj v = None ->
  validate E ti (dump v) = Some (w, n) -> validate E tj (dump v) = None \/ (1 <= n /\ exists w, validate E tj (dump v) = Some (w, 0)).
Proof.
  unfold apart_earlier. intros H Hc Hna Hr Hv. apply orb_prop in H as [H|H]; [apply orb_prop in H as [H|H]; [apply orb_prop in H as [H|H]|]|].
  - left. eapply shape_apart_none; [exact H|]. intros s. eapply canon_dshape. exact Hc.
  - left. destruct ti as [| | | | | | | | |ti| | | | |]; try discriminate H. destruct ti; try discriminate H.
    cbn [canon] in Hc. destruct Hc as (d & -> & Hd). assert (Hj : is_json (VDict d)).
    { intros x Hx. inversion Hx as [|? y|? k y H1 H2| | |]; subst; [exact I|]. rewrite Forall_forall in Hd. exact (Hd _ H1 x H2). }
    rewrite (dump_json _ Hj). exact Hr.
  - apply andb_prop in H as [H1 H2]. apply ty_eqb_eq in H1. subst ti. apply canon_reference in Hc as [s ->].
    rewrite dump_reference in *. rewrite (reference_reads E s T_Reference eq_refl) in Hv. injection Hv as _ <-.
    destruct tj as [| | | | | | | | | | | | |c k fs|]; try discriminate H2. destruct (ref_weak E s c k fs H2) as [->|[x ->]]; [left; reflexivity|right; eauto].
  - apply andb_prop in H as [H1 H2]. apply ty_eqb_eq in H1, H2. subst ti tj. left. apply canon_schema in Hc as (a & b & d & ex & -> & Hj).
    apply schema_not_mfs. intros Hi. apply Hna. cbn [ambiguous]. left. split; [reflexivity|]. left. exact Hi.
Qed.
Lemma model_fill E c k fs fv ex fv' : linked (TModel c k fs) = true -> wf_ty (TModel c k fs) = true ->
  python_dicts (VObj c fv ex) -> no_shadowing (VObj c fv ex) -> canon is_json E (TModel c k fs) (VObj c fv ex) ->
  (forall fi t, In (fi, t) fs -> f_excl fi || f_exnull fi = true -> f_def fi <> None) ->
  (forall fi t x, In (fi, t) fs -> In (f_name fi, x) fv -> f_excl fi = false -> canon is_json E t x -> exists n, validate E t (dump x) = Some (with_defaults x, n)) ->
  fills fs fv = fv' -> (hook c fv = true -> hook c fv' = true) ->
  exists n, validate E (TModel c k fs) (dump (VObj c fv ex)) = Some (VObj c fv' ex, n).
Proof.
  intros Hl Hw Hp Hs Hc Hd Hv Hre Hh. cbn [canon] in Hc. destruct Hc as (fv0 & ex' & Heq & Hf & Hj & Ha). injection Heq as <- <-.
  assert (Hn := canon_fields_names _ _ _ _ Hf). assert (Hnd := proj2 (pd_here _ Hp)).
  assert (Hx := fun key => extras_apart E c k fs fv ex key Hl Hw Hs Ha). assert (Hk := wf_keys c k fs Hw).
  rewrite (dump_flat c k fs fv ex Hl Hw Hn Hnd Hx Hj). cbn [validate]. unfold vmodel.
  destruct (vfields_fill E is_json (zdump fs fv ++ ex) fs fv Hf Hd Hv) as [n Hr].
  { intros fi t x Hi Hix. eapply lookup_dump; eauto. }
  rewrite Hr, (extras_dump fs fv ex Hn Hx), Hre. unfold after_ok in *. apply andb_prop in Ha as [Ha1 Ha2]. rewrite Ha1, (Hh Ha2). cbn [andb]. eauto.
Qed.
Lemma dump_is_none v : dump v = VNone -> v = VNone.
Proof. destruct v; cbn [dump]; intros Ed; try discriminate Ed; reflexivity. Qed.
Theorem fill_back E t : url_idem E -> linked t = true -> wf_ty t = true -> rt_ty t = true -> forall v, canon is_json E t v -> readable v ->
  exists n, validate E t (dump v) = Some (with_defaults v, n).
Proof.
  intros Hu. induction t using ty_ind'; intros Hl Hw Hr v Hc Hq.
  - cbn [canon] in Hc. rewrite (dump_json v Hc), (wd_json v Hc). cbn [validate]. eauto.
  - cbn [canon] in Hc. destruct Hc as (s & -> & Hs). cbn [validate dump]. rewrite Hs. eauto.
  - cbn [canon] in Hc. destruct Hc as (s & -> & Hs). cbn [validate dump]. rewrite Hs. eauto.
  - cbn [canon] in Hc. destruct Hc as (z & ->). cbn [validate dump]. eauto.
  - cbn [canon] in Hc. destruct Hc as (z & ->). cbn [validate dump]. eauto.
  - cbn [canon] in Hc. destruct Hc as (s & -> & s0 & Hs). cbn [validate dump]. rewrite (Hu _ _ _ Hs). eauto.
  - cbn [canon] in Hc. destruct Hc as (s & -> & Hs). cbn [validate dump]. rewrite Hs. eauto.
  - cbn [canon] in Hc. destruct Hc as (s & -> & Hs). cbn [validate dump]. rewrite Hs. eauto.
  - cbn [canon] in Hc. destruct Hc as (l & -> & Hcl). apply (cl_list _ readable_closed) in Hq. cbn [validate dump with_defaults].
    assert (exists n, vlist (validate E) t (map dump l) = Some (map with_defaults l, n)) as [n ->]; [|eauto].
    induction l as [|x l IHl]; [exists 0; reflexivity|]. inversion Hcl; subst. inversion Hq as [|? ? Hx Hq']; subst.
    destruct (IHt Hl Hw Hr x) as [n Hn]; [assumption|exact Hx|]. destruct IHl as [m Hm]; [assumption|assumption|].
    cbn [map]. rewrite vlist_cons, Hn, Hm. eauto.
  - cbn [canon] in Hc. destruct Hc as (l & -> & Hcl). apply (cl_dict _ readable_closed) in Hq. rewrite wd_dict. cbn [validate dump].
    change (map (fun kv => match kv with (k, x) => (k, dump x) end) l) with (dump_entries l).
    assert (exists n, vdict (validate E) t (dump_entries l) = Some (wd_entries l, n)) as [n ->]; [|eauto].
    induction l as [|[k x] l IHl]; [exists 0; reflexivity|]. inversion Hcl; subst. inversion Hq as [|? ? Hx Hq']; subst. cbn [snd] in *.
    destruct (IHt Hl Hw Hr x) as [n Hn]; [assumption|exact Hx|]. destruct IHl as [m Hm]; [assumption|assumption|].
    rewrite dump_entries_cons, vdict_cons, Hn, Hm. eauto.
  - cbn [canon] in Hc. destruct Hc as [->|Hc]; [cbn [validate dump]; eauto|]. destruct (IHt Hl Hw Hr v Hc Hq) as [n Hn]. cbn [validate].
    destruct (dump v) eqn:Ed; try (exists n; exact Hn). exists 0. rewrite (dump_is_none v Ed). reflexivity.
  - cbn [canon] in Hc. apply canon_union_split in Hc as (pre & t & post & -> & Hc & Hrp & Hrq). cbn [rt_ty] in Hr. apply andb_prop in Hr as [Hsep Hr].
    apply sep_split in Hsep as [Hse Hsl].
    assert (Hin : In t (pre ++ t :: post)) by (apply in_or_app; right; left; reflexivity).
    assert (Hlt := linked_union _ t Hl Hin). assert (Hwt := wf_union _ t Hw Hin). rewrite forallb_forall in Hr. rewrite Forall_forall in H.
    destruct (H t Hin Hlt Hwt (Hr t Hin) v Hc Hq) as [n Hn]. exists n. cbn [validate]. rewrite map_app. cbn [map]. rewrite Hn.
    assert (Hna : ~ ambiguous v) by (apply (proj2 (proj2 Hq)); constructor).
    apply best_of_mid.
    + apply Forall_forall. intros r Hir. apply in_map_iff in Hir as (t' & <- & Hit). rewrite Forall_forall in Hse, Hrp.
      eapply earlier_weak_gen; [exact (Hse t' Hit)|exact Hc|exact Hna|exact (Hrp t' Hit)|exact Hn].
    + apply Forall_forall. intros r Hir. apply in_map_iff in Hir as (t' & <- & Hit). rewrite Forall_forall in Hsl.
      eapply later_weak; [exact (Hsl t' Hit)|exact Hlt|exact Hwt|exact Hc|exact (proj1 Hq)|exact Hna].
  - discriminate Hr.
  - assert (Hc' := Hc). cbn [canon] in Hc'. destruct Hc' as (fv & ex & -> & Hf & _). cbn [rt_ty] in Hr. apply andb_prop in Hr as [Hff Hr].
    assert (Hn := canon_fields_names _ _ _ _ Hf). rewrite wd_obj.
    assert (Hre : fills fs fv = refill c fv).
    { apply (fills_refill c k fs fv Hl Hw); [|exact Hn]. intros fi t Hi. rewrite forallb_forall in Hff. specialize (Hff _ Hi). cbn [fst] in Hff. unfold faithful_field in Hff.
      apply andb_prop in Hff as [Hff _]. apply negb_true_iff. exact Hff. }
    apply (model_fill E c k fs fv ex _ Hl Hw (proj1 Hq) (proj1 (proj2 Hq)) Hc (rt_needs fs Hff)); [|exact Hre|apply hook_refill].
    intros fi t x Hi Hx _ Hcx. rewrite Forall_forall in H. rewrite forallb_forall in Hr. apply (H (fi, t) Hi); [apply (linked_sub c k fs (fi, t) Hl Hi)|apply (wf_sub c k fs (fi, t) Hw Hi)|exact (Hr _ Hi)|exact Hcx|].
    apply (cl_obj _ readable_closed) in Hq as [Hq _]. rewrite Forall_forall in Hq. exact (Hq _ Hx).
  - cbn [canon] in Hc. destruct Hc as (l & -> & Hcl & Hk). apply (cl_root _ readable_closed) in Hq. rewrite wd_root. cbn [validate dump].
    change (map (fun kv => match kv with (k, x) => (k, dump x) end) l) with (dump_entries l).
    assert (exists n, vdict (validate E) t (dump_entries l) = Some (wd_entries l, n)) as [n ->].
    { clear Hk. apply linked_root_sub in Hl.
      induction l as [|[k x] l IHl]; [exists 0; reflexivity|]. inversion Hcl; subst. inversion Hq as [|? ? Hx Hq']; subst. cbn [snd] in *.
      destruct (IHt Hl Hw Hr x) as [n Hn]; [assumption|exact Hx|]. destruct IHl as [m Hm]; [assumption|assumption|].
      rewrite dump_entries_cons, vdict_cons, Hn, Hm. eauto. }
    assert (Hk' : root_keys_ok (wd_entries l) = true).
    { unfold root_keys_ok in *. rewrite forallb_forall in *. intros [a y] Ha. unfold wd_entries in Ha. apply in_map_iff in Ha as ([b x] & [= -> <-] & Hb). exact (Hk _ Hb). }
    rewrite Hk'. eauto.
Qed.
Definition blank_procs (fv : fields) : fields := map (fun kv => if mem_str (fst kv) [u "extra_converters"; u "extra_validators"] && String.eqb "AsyncAPI3" "AsyncAPI3" then (fst kv, VNone) else kv) fv.
Lemma fills_doc fs fv : (forall fi t, In (fi, t) fs -> null_default "AsyncAPI3" (f_name fi) = null_of fi) -> forallb doc_field_ok fs = true ->
  map fst fv = map (fun ft => f_name (fst ft)) fs -> fills fs fv = refill "AsyncAPI3" (blank_procs fv).
Proof.
  intros Hd Hok. revert fv. induction fs as [|[fi t] fs IH]; intros [|[k x] fv] Hn; try discriminate Hn; [reflexivity|]. cbn [map fst] in Hn. injection Hn as -> Hn.
  cbn [forallb] in Hok. apply andb_prop in Hok as [Ho Hok]. assert (Hd1 := Hd fi t (or_introl eq_refl)).
  cbn [fills blank_procs map]. change (map _ fv) with (blank_procs fv). cbn [refill map]. change (map _ (blank_procs fv)) with (refill "AsyncAPI3" (blank_procs fv)).
  f_equal; [|apply IH; [intros gi s Hi; apply (Hd gi s); right; exact Hi|exact Hok|exact Hn]].
  unfold doc_field_ok in Ho. cbn [fst snd] in *. destruct (mem_str (f_name fi) _) eqn:Em.
  - cbn [andb String.eqb Ascii.eqb Bool.eqb]. apply andb_prop in Ho as [Hx Ho]. destruct (f_def fi) as [d|] eqn:Ed; [|discriminate Ho]. destruct d; try discriminate Ho.
    rewrite Hd1. unfold fill, ProofDump.written, null_of. rewrite Hx, Ed. cbn [orb negb]. destruct (f_exnull fi); reflexivity.
  - cbn [andb]. apply andb_prop in Ho as [Ho _]. unfold faithful_field in Ho. apply andb_prop in Ho as [Hx Ho]. apply negb_true_iff in Hx.
    f_equal. unfold fill, ProofDump.written. rewrite Hx. cbn [orb].
    destruct x; try (destruct (f_exnull fi); reflexivity). rewrite Hd1. unfold null_of. destruct (f_exnull fi); cbn [andb is_none negb]; [|reflexivity]. destruct (f_def fi); reflexivity.
Qed.
Lemma document_fill E k fs v : url_idem E -> linked (TModel "AsyncAPI3" k fs) = true -> wf_ty (TModel "AsyncAPI3" k fs) = true -> forallb doc_field_ok fs = true ->
  canon is_json E (TModel "AsyncAPI3" k fs) v -> readable v -> exists n, validate E (TModel "AsyncAPI3" k fs) (dump v) = Some (with_defaults (without_processors v), n).
Proof.
  intros Hu Hl Hw Hok0 Hc Hq. assert (Hc' := Hc). cbn [canon] in Hc'. destruct Hc' as (fv & ex & -> & Hf & _). assert (Hok := proj1 (forallb_forall _ _) Hok0).
  assert (Hn := canon_fields_names _ _ _ _ Hf).
  assert (Hplain : forall fi t, In (fi, t) fs -> f_excl fi = false -> faithful_field fi = true /\ rt_ty t = true).
  { intros fi t Hi Hx. specialize (Hok _ Hi). unfold doc_field_ok in Hok. cbn [fst snd] in Hok. rewrite Hx in Hok. destruct (mem_str _ _); [discriminate Hok|].
    apply andb_prop in Hok. exact Hok. }
  cbn [without_processors]. change (map _ fv) with (blank_procs fv). rewrite wd_obj.
  apply (model_fill E "AsyncAPI3" k fs fv ex _ Hl Hw (proj1 Hq) (proj1 (proj2 Hq)) Hc).
  - intros fi t Hi Hx. specialize (Hok _ Hi). unfold doc_field_ok in Hok. cbn [fst snd] in Hok. destruct (mem_str _ _).
    + apply andb_prop in Hok as [_ Hok]. destruct (f_def fi); [discriminate|discriminate Hok].
    + apply andb_prop in Hok as [Hok _]. refine (rt_needs [(fi, t)] _ fi t (or_introl eq_refl) Hx). cbn [forallb fst]. rewrite Hok. reflexivity.
  - intros fi t x Hi Hx He Hcx. apply fill_back; [exact Hu|apply (linked_sub _ k fs (fi, t) Hl Hi)|apply (wf_sub _ k fs (fi, t) Hw Hi)|exact (proj2 (Hplain fi t Hi He))|exact Hcx|].
    apply (cl_obj _ readable_closed) in Hq as [Hq _]. rewrite Forall_forall in Hq. exact (Hq _ Hx).
  - apply fills_doc; [|exact Hok0|exact Hn]. intros fi t. exact (null_default_of "AsyncAPI3" k fs fi t Hl Hw).
  - intros _. reflexivity.
Qed.
Lemma any_fill E t v : url_idem E -> In t all_types -> canon is_json E t v -> readable v -> exists n, validate E t (dump v) = Some (with_defaults (without_processors v), n).
Proof.
  intros Hu Hi Hc Hq. assert (Hl := linked_all _ Hi). assert (Hw := wf_all _ Hi).
  assert (Hd := proj1 (forallb_forall _ _) all_types_dec t Hi). cbv beta in Hd. clear Hi.
  destruct t as [| | | | | | | | | | | | |c k fs|c t]; try discriminate Hd.
  - destruct (String.eqb_spec c "AsyncAPI3") as [->|Hne].
    + eapply document_fill; eauto.
    + destruct (fill_back E (TModel c k fs) Hu Hl Hw Hd v Hc Hq) as [n Hn]. exists n. rewrite wp_other; [exact Hn|].
      intros fv ex ->. cbn [canon] in Hc. destruct Hc as (fv' & ex' & He & _). injection He as He _ _. congruence.
  - destruct (fill_back E (TRoot c t) Hu Hl Hw Hd v Hc Hq) as [n Hn]. exists n. rewrite wp_other; [exact Hn|].
    intros fv ex ->. cbn [canon] in Hc. destruct Hc as (d & He & _). discriminate He.
Qed.
(** Nulls over defaults are exactly what [with_defaults] changes. *)
Definition plain_extras (v : pv) : Prop := forall c fv ex, within (VObj c fv ex) v -> Forall (fun kv => is_json (snd kv)) ex.
Lemma map_fixed {A} (f : A -> A) l : map f l = l -> Forall (fun x => f x = x) l.
Proof. induction l as [|x l IH]; [constructor|]. cbn [map]. intros [= H1 H2]. constructor; auto. Qed.
Lemma entries_fixed d : wd_entries d = d -> Forall (fun kv => with_defaults (snd kv) = snd kv) d.
Proof. intros H. apply map_fixed in H. rewrite Forall_forall in *. intros [k x] Hx. specialize (H _ Hx). cbn beta iota in H. cbn [snd]. congruence. Qed.
Lemma refill_fixed c fv : refill c fv = fv -> Forall (fun kv => with_defaults (snd kv) = snd kv /\ (snd kv = VNone -> null_default c (fst kv) = VNone)) fv.
Proof.
  intros H. apply map_fixed in H. rewrite Forall_forall in *. intros [k x] Hx. specialize (H _ Hx). cbn beta iota in H. cbn [fst snd]. injection H as H. split; [|intros ->; exact H]. destruct x; exact H || reflexivity.
Qed.
Lemma fixed_closed : closed (fun v => with_defaults v = v /\ plain_extras v).
Proof.
  constructor.
  - intros l [H He]. cbn [with_defaults] in H. injection H as H. apply map_fixed in H. rewrite Forall_forall in *. intros x Hx. split; [exact (H x Hx)|]. intros c fv ex Hw. apply (He c fv ex). eapply w_list; eauto.
  - intros d [H He]. rewrite wd_dict in H. injection H as H. apply entries_fixed in H. rewrite Forall_forall in *. intros [k x] Hx. split; [exact (H _ Hx)|]. intros c fv ex Hw. apply (He c fv ex). eapply w_dict; eauto.
  - intros c fv ex [H He]. rewrite wd_obj in H. injection H as H. apply refill_fixed in H. split.
    + rewrite Forall_forall in *. intros [k x] Hx. split; [exact (proj1 (H _ Hx))|]. intros c' fv' ex' Hw. apply (He c' fv' ex'). eapply w_field; eauto.
    + assert (Hj := He c fv ex (w_self _)). rewrite Forall_forall in *. intros [k x] Hx. split; [exact (wd_json _ (Hj _ Hx))|]. intros c' fv' ex' Hw. apply (He c' fv' ex'). eapply w_extra; eauto.
  - intros c d [H He]. rewrite wd_root in H. injection H as H. apply entries_fixed in H. rewrite Forall_forall in *. intros [k x] Hx. split; [exact (H _ Hx)|]. intros c' fv ex Hw. apply (He c' fv ex). eapply w_root; eauto.
Qed.
Lemma fixed_within v x : with_defaults v = v -> plain_extras v -> within x v -> with_defaults x = x.
Proof.
  intros Hv He Hx. revert Hv He. induction Hx as [|l y Hin Hx IH|d k y Hin Hx IH|c fv ex k y Hin Hx IH|c fv ex k y Hin Hx IH|c d k y Hin Hx IH]; intros Hv He; [exact Hv|..].
  - assert (H := cl_list _ fixed_closed _ (conj Hv He)). rewrite Forall_forall in H. destruct (H _ Hin). auto.
  - assert (H := cl_dict _ fixed_closed _ (conj Hv He)). rewrite Forall_forall in H. destruct (H _ Hin). auto.
  - destruct (cl_obj _ fixed_closed _ _ _ (conj Hv He)) as [H _]. rewrite Forall_forall in H. destruct (H _ Hin). auto.
  - destruct (cl_obj _ fixed_closed _ _ _ (conj Hv He)) as [_ H]. rewrite Forall_forall in H. destruct (H _ Hin). auto.
  - assert (H := cl_root _ fixed_closed _ _ (conj Hv He)). rewrite Forall_forall in H. destruct (H _ Hin). auto.
Qed.
Definition nullable (t : ty) : bool := match t with TOpt _ | TAny | TUnion _ => true | _ => false end.
Definition null_visible (ft : finfo * ty) : bool := match f_def (fst ft) with None | Some VNone => true | Some _ => f_exnull (fst ft) || negb (nullable (snd ft)) end.
Lemma nulls_visible : forallb (fun t => match t with TModel _ _ fs => forallb null_visible fs | _ => true end) all_types = true.
Proof. vm_compute. reflexivity. Qed.
Lemma canon_null A E t : canon A E t VNone -> nullable t = true.
Proof. destruct t; try reflexivity; cbn [canon]; intros H; exfalso; first [destruct H as (? & H & _); discriminate H|destruct H as (? & H); discriminate H|destruct H as (? & ? & H & _); discriminate H]. Qed.
Lemma fixed_here A E c k fs fv ex : linked (TModel c k fs) = true -> wf_ty (TModel c k fs) = true -> canon A E (TModel c k fs) (VObj c fv ex) -> with_defaults (VObj c fv ex) = VObj c fv ex ->
  forall fi t d, In (fi, t) (class_fields c) -> f_def fi = Some d -> d <> VNone -> assoc (f_name fi) fv <> Some VNone.
Proof.
  intros Hl Hw Hc Hx fi t d Hi Hd Hne Ha. assert (Hi' : In (fi, t) fs) by (rewrite <- (proj1 (linked_fields _ _ _ Hl)); exact Hi). clear Hi.
  assert (Ht := proj1 (forallb_forall _ _) nulls_visible _ (linked_in_table _ _ _ Hl)). cbn beta iota in Ht. rewrite forallb_forall in Ht. apply Ht in Hi' as Hv. unfold null_visible in Hv. cbn [fst snd] in Hv. rewrite Hd in Hv.
  assert (Hcf := canon_field A E c k fs fv ex fi t Hc (names_NoDup c k fs Hw) Hi'). unfold attr in Hcf. rewrite Ha in Hcf. destruct Hcf as [Hcf _]. apply canon_null in Hcf.
  rewrite wd_obj in Hx. injection Hx as Hx. apply refill_fixed in Hx. rewrite Forall_forall in Hx. apply assoc_In in Ha. destruct (Hx _ Ha) as [_ Hn]. specialize (Hn eq_refl). cbn [fst] in Hn.
  rewrite (null_default_of c k fs fi t Hl Hw Hi') in Hn. unfold null_of in Hn. rewrite Hd in Hn. destruct d; try (destruct (f_exnull fi); [discriminate Hn|rewrite Hcf in Hv; discriminate Hv]). apply Hne. reflexivity.
Qed.
