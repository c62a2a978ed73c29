(** Property C69: saving and loading a document keeps the verdicts. *)
From Verif Require Import PyStr Regex Value Types Rules Pydantic ClassTable Classes Canon Linked SpecParse Sample ProofRules ProofParse
  State SpecState ProofState PropState Resolve SpecResolve ProofResolve PropResolve Unified SpecUnified ProofUnified ProofCheck PropUnified
  Dump SpecDump ProofDump PropDump Validators SpecValidators ProofValidators PropValidators Pipeline SpecPipeline PropPipeline.
Local Open Scope string_scope.
Local Open Scope list_scope.

(** ** Vocabulary *)
(** The data of a saved document together with the processors [doc] has: AsyncAPI3( **json.loads(text), extra_converters=..., extra_validators=...). *)
Inductive loads_with (doc : pv) : pv -> Prop :=
| lw fv ex D : doc = VObj "AsyncAPI3" fv ex -> dump doc = VDict D ->
    loads_with doc (VDict (D ++ [(u "extra_converters", get "extra_converters" fv); (u "extra_validators", get "extra_validators" fv)])).

(** ** Reading the saved data with the processors *)
Definition procs_keys : list pystr := [u "extra_converters"; u "extra_validators"].
Definition blank (kv : pystr * pv) : pystr * pv := if mem_str (fst kv) procs_keys then (fst kv, VNone) else kv.
Lemma blank_key kv : fst (blank kv) = fst kv.
Proof. unfold blank. destruct (mem_str (fst kv) procs_keys); reflexivity. Qed.
Lemma without_obj fv ex : without_processors (VObj "AsyncAPI3" fv ex) = VObj "AsyncAPI3" (map blank fv) ex.
Proof.
  unfold without_processors. f_equal. apply map_ext. intros kv. unfold blank, procs_keys. rewrite andb_true_r. reflexivity.
Qed.
Definition proc_field (ft : finfo * ty) : bool :=
  if mem_str (f_name (fst ft)) procs_keys || mem_str (f_alias (fst ft)) procs_keys
  then str_eqb (f_name (fst ft)) (f_alias (fst ft)) && (match f_val (fst ft) with FvNone => true | _ => false end)
       && match snd ft with TOpt TProcs => true | _ => false end && f_excl (fst ft)
  else true.
Lemma doc_proc_fields : match T_AsyncAPI3 with TModel _ _ fs => forallb proc_field fs | _ => false end = true.
Proof. vm_compute. reflexivity. Qed.
Lemma doc_has_procs : match T_AsyncAPI3 with TModel _ _ fs => forallb (fun k => existsb (fun ft => str_eqb (f_alias (fst ft)) k) fs) procs_keys | _ => false end = true.
Proof. vm_compute. reflexivity. Qed.

Lemma procs_parse E x : well_typed E (TOpt TProcs) x -> parse E (TOpt TProcs) x = Some x.
Proof.
  cbn [well_typed]. intros [->|(l & -> & H)]; [reflexivity|]. unfold parse. cbn [validate].
  assert (Hf : forallb is_proc l = true) by (apply forallb_forall; intros y Hy; rewrite Forall_forall in H; destruct (H y Hy) as (n & ->); reflexivity).
  rewrite Hf. reflexivity.
Qed.
Section Add.
  Context (E : env) (D : fields) (a b : pv).
  Let P : fields := [(u "extra_converters", a); (u "extra_validators", b)].
  Hypothesis (HD : forall k, mem_str k procs_keys = true -> assoc k D = None).
  Lemma assoc_other k : mem_str k procs_keys = false -> assoc k (D ++ P) = assoc k D.
  Proof.
    intros H. rewrite assoc_app. destruct (assoc k D) as [x|]; [reflexivity|]. unfold P.
    apply assoc_None. intros Hi. assert (Hm : mem_str k procs_keys = true) by (apply mem_str_In; exact Hi). rewrite Hm in H. discriminate H.
  Qed.
  Lemma assoc_proc k : mem_str k procs_keys = true -> assoc k (D ++ P) = assoc k P.
  Proof. intros H. rewrite assoc_app, (HD k H). reflexivity. Qed.
  Lemma typed_add fs : forallb proc_field fs = true ->
    (forall k, mem_str k procs_keys = true -> assoc k P <> None) ->
    forall fv, typed_fields E D fs (map blank fv) ->
    (forall fi t k x, In (fi, t) fs -> In (k, x) fv -> k = f_name fi -> mem_str k procs_keys = true -> assoc k P = Some x /\ well_typed E t x) ->
    typed_fields E (D ++ P) fs fv.
  Proof.
    intros Hfs HP. unfold typed_fields. induction fs as [|[fi t] fs IH]; intros [|[k x] fv] H Hx; cbn [map] in H; inversion H as [|? ? ? ? [Hk Hv] Hr]; subst; constructor.
    - rewrite blank_key in Hk. cbn [fst snd] in *. split; [exact Hk|]. cbn [forallb] in Hfs. apply andb_prop in Hfs as [Hfi _].
      unfold proc_field in Hfi. cbn [fst snd] in Hfi. unfold blank in Hv. cbn [fst] in Hv. destruct (mem_str k procs_keys) eqn:Em.
      + assert (Em' := Em). rewrite Hk in Em'. rewrite Em' in Hfi. cbn [orb] in Hfi. apply andb_prop in Hfi as [Hfi _]. apply andb_prop in Hfi as [Hfi Ht]. apply andb_prop in Hfi as [Hna Hval].
        apply str_eqb_eq in Hna. destruct (Hx fi t k x (or_introl eq_refl) (or_introl eq_refl) Hk Em) as [Ha Hw].
        left. exists x. split; [left; rewrite <- Hna, <- Hk, (assoc_proc k Em); exact Ha|]. split.
        * destruct t as [| | | | | | | | | |t| | | |]; try discriminate Ht. destruct t; try discriminate Ht. apply procs_parse. exact Hw.
        * destruct (f_val fi); try discriminate Hval. exact I.
      + cbn [snd] in Hv. rewrite Hk in Em. rewrite Em in Hfi. cbn [orb] in Hfi.
        assert (Ea : mem_str (f_alias fi) procs_keys = false).
        { destruct (mem_str (f_alias fi) procs_keys) eqn:Ea; [|reflexivity]. apply andb_prop in Hfi as [Hfi _]. apply andb_prop in Hfi as [Hfi _].
          apply andb_prop in Hfi as [Hna _]. apply str_eqb_eq in Hna. rewrite Hna, Ea in Em. discriminate Em. }
        unfold field_value, gives in *. rewrite (assoc_other _ Em), (assoc_other _ Ea). exact Hv.
    - apply IH; [cbn [forallb] in Hfs; apply andb_prop in Hfs as [_ Hfs]; exact Hfs|exact Hr|].
      intros gi t' k' x' Hg Hin. apply (Hx gi t' k' x'); right; assumption.
  Qed.
  Lemma used_add fs : forallb proc_field fs = true -> map (fun ft : finfo * ty => used_key (D ++ P) (fst ft)) fs = map (fun ft => used_key D (fst ft)) fs.
  Proof.
    intros Hfs. apply map_ext_in. intros [fi t] Hi. rewrite forallb_forall in Hfs. specialize (Hfs _ Hi). unfold proc_field in Hfs. cbn [fst snd] in *.
    unfold used_key. destruct (mem_str (f_alias fi) procs_keys) eqn:Ea.
    - rewrite orb_true_r in Hfs. apply andb_prop in Hfs as [Hfs _]. apply andb_prop in Hfs as [Hfs _]. apply andb_prop in Hfs as [Hna _]. apply str_eqb_eq in Hna.
      rewrite Hna. destruct (has_key (f_alias fi) (D ++ P)), (has_key (f_alias fi) D); reflexivity.
    - assert (Hh : has_key (f_alias fi) (D ++ P) = has_key (f_alias fi) D); [|rewrite Hh; reflexivity].
      apply Bool.eq_iff_eq_true. rewrite !has_key_iff, map_app, in_app_iff. split; [|auto]. intros [H|H]; [exact H|].
      assert (Hm : mem_str (f_alias fi) procs_keys = true) by (apply mem_str_In; exact H). rewrite Hm in Ea. discriminate Ea.
  Qed.
  Lemma extras_add fs : forallb proc_field fs = true -> (forall k, mem_str k procs_keys = true -> exists ft, In ft fs /\ f_alias (fst ft) = k) ->
    extras fs (D ++ P) = extras fs D.
  Proof.
    intros Hfs Hk. unfold extras. rewrite (used_add fs Hfs), filter_app. rewrite <- (app_nil_r (filter _ D)) at 2. f_equal.
    assert (Hu : forall k, mem_str k procs_keys = true -> mem_str k (map (fun ft : finfo * ty => used_key D (fst ft)) fs) = true).
    { intros k Hm. destruct (Hk k Hm) as ([fi t] & Hi & Ha). apply mem_str_In. apply in_map_iff. exists (fi, t). split; [|exact Hi]. cbn [fst] in *.
      rewrite forallb_forall in Hfs. specialize (Hfs _ Hi). unfold proc_field in Hfs. cbn [fst] in Hfs. rewrite Ha, Hm, orb_true_r in Hfs.
      apply andb_prop in Hfs as [Hfs _]. apply andb_prop in Hfs as [Hfs _]. apply andb_prop in Hfs as [Hna _]. apply str_eqb_eq in Hna.
      unfold used_key. rewrite Hna, Ha. destruct (has_key k D); reflexivity. }
    unfold P. cbn [filter fst]. rewrite (Hu (u "extra_converters") eq_refl), (Hu (u "extra_validators") eq_refl). reflexivity.
  Qed.
  Lemma policy_add k fs : (forall key, mem_str key procs_keys = true -> exists ft, In ft fs /\ f_alias (fst ft) = key) ->
    (forall fi t, In (fi, t) fs -> mem_str (f_alias fi) procs_keys = true -> f_name fi = f_alias fi) ->
    extra_policy E k fs D -> extra_policy E k fs (D ++ P).
  Proof.
    intros Hk Hna. assert (Hx : forall key, unclaimed fs (D ++ P) key -> unclaimed fs D key).
    { intros key [Hin Hf]. split.
      - rewrite map_app in Hin. apply in_app_or in Hin as [Hin|Hin]; [exact Hin|]. exfalso.
        assert (Hm : mem_str key procs_keys = true) by (apply mem_str_In; exact Hin).
        destruct (Hk key Hm) as ([fi t] & Hi & Ha). destruct (Hf fi t Hi) as [Hn _]. cbn [fst] in Ha. congruence.
      - intros fi t Hi. destruct (Hf fi t Hi) as [H1 H2]. split; [exact H1|]. intros Hn. specialize (H2 Hn). rewrite map_app in H2. apply in_app_or in H2 as [H2|H2]; [exact H2|].
        exfalso. assert (Hm : mem_str (f_alias fi) procs_keys = true) by (apply mem_str_In; exact H2). specialize (Hna fi t Hi Hm). congruence. }
    destruct k; cbn [extra_policy]; intros H; [intros key Hu; apply H, Hx, Hu|intros key Hu; exact (H key (Hx key Hu))|exact I].
  Qed.
End Add.

(** The ten fields of a document, kept abstract. *)
Definition doc_fs : list (finfo * ty) := match T_AsyncAPI3 with TModel _ _ fs => fs | _ => [] end.
Lemma doc_type : T_AsyncAPI3 = TModel "AsyncAPI3" KExt doc_fs.
Proof. reflexivity. Qed.
Lemma doc_fs_procs : forallb proc_field doc_fs = true.
Proof. exact doc_proc_fields. Qed.
Lemma doc_fs_has k : mem_str k procs_keys = true -> exists ft, In ft doc_fs /\ f_alias (fst ft) = k.
Proof.
  intros H. assert (Hb : forallb (fun k => existsb (fun ft => str_eqb (f_alias (fst ft)) k) doc_fs) procs_keys = true) by exact doc_has_procs.
  rewrite forallb_forall in Hb. apply mem_str_In in H. specialize (Hb _ H). apply existsb_exists in Hb as (ft & Hi & He). apply str_eqb_eq in He. eauto.
Qed.
Lemma proc_field_spec fi t : proc_field (fi, t) = true -> mem_str (f_alias fi) procs_keys = true \/ mem_str (f_name fi) procs_keys = true ->
  f_name fi = f_alias fi /\ f_val fi = FvNone /\ t = TOpt TProcs /\ f_excl fi = true.
Proof.
  unfold proc_field. cbn [fst snd]. intros H Hm. assert (Ho : mem_str (f_name fi) procs_keys || mem_str (f_alias fi) procs_keys = true) by (destruct Hm as [->| ->]; [apply orb_true_r|reflexivity]).
  rewrite Ho in H. apply andb_prop in H as [H H4]. apply andb_prop in H as [H H3]. apply andb_prop in H as [H1 H2]. apply str_eqb_eq in H1.
  split; [exact H1|]. split; [destruct (f_val fi); try discriminate H2; reflexivity|]. split; [|exact H4].
  destruct t as [| | | | | | | | | |t| | | |]; try discriminate H3. destruct t; try discriminate H3. reflexivity.
Qed.
Section Doc.
  Context (E : env) (fs : list (finfo * ty)) (Hfs : forallb proc_field fs = true) (Hlink : linked (TModel "AsyncAPI3" KExt fs) = true)
    (Hwf : wf_ty (TModel "AsyncAPI3" KExt fs) = true) (Hhas : forall k, mem_str k procs_keys = true -> exists ft, In ft fs /\ f_alias (fst ft) = k).
  Lemma fs_field fi t : In (fi, t) fs -> proc_field (fi, t) = true.
  Proof. intros H. exact (proj1 (forallb_forall _ _) Hfs _ H). Qed.
  Lemma saved_no_procs fv ex D : wt_fields E (well_typed E) fs fv -> (forall fi t, In (fi, t) fs -> ~ In (f_name fi) (map fst ex)) ->
    dump (VObj "AsyncAPI3" fv ex) = VDict D -> forall k, mem_str k procs_keys = true -> assoc k D = None.
  Proof.
    intros Hw Hx Hd k Hk. rewrite (dump_linked _ _ _ _ _ Hlink) in Hd. injection Hd as <-. apply assoc_None. intros Hin.
    destruct (zip_keys_of fs fv ex k (names_NoDup _ _ _ Hwf) (wt_fields_names _ _ _ _ Hw) Hin) as [(fi & t & x & Hi & _ & Hwr & ->)|Hin'].
    - destruct (proc_field_spec fi t (fs_field _ _ Hi) (or_introl Hk)) as (_ & _ & _ & Hex). unfold written in Hwr. rewrite Hex in Hwr. discriminate Hwr.
    - destruct (Hhas k Hk) as ([fi t] & Hi & Ha). cbn [fst] in Ha. destruct (proc_field_spec fi t (fs_field _ _ Hi)) as (Hn & _); [left; rewrite Ha; exact Hk|].
      apply (Hx fi t Hi). rewrite Hn, Ha. exact Hin'.
  Qed.
  Lemma reload_with fv ex D : well_typed E (TModel "AsyncAPI3" KExt fs) (VObj "AsyncAPI3" fv ex) -> cross_field_spec "AsyncAPI3" fv ->
    dump (VObj "AsyncAPI3" fv ex) = VDict D -> parse E (TModel "AsyncAPI3" KExt fs) (VDict D) = Some (VObj "AsyncAPI3" (map blank fv) ex) ->
    parse E (TModel "AsyncAPI3" KExt fs) (VDict (D ++ [(u "extra_converters", get "extra_converters" fv); (u "extra_validators", get "extra_validators" fv)]))
      = Some (VObj "AsyncAPI3" fv ex).
  Proof.
    intros Hw Hc Hd Hp. cbn [well_typed] in Hw. destruct Hw as (fv0 & ex0 & Heq & Hf & _ & Hx). injection Heq as <- <-. specialize (Hx eq_refl).
    assert (HD := saved_no_procs fv ex D Hf Hx Hd). assert (Hnd := names_NoDup _ _ _ Hwf). assert (Hn := wt_fields_names _ _ _ _ Hf).
    apply model_parse_iff in Hp as (fv1 & Heq & Ht & Hpol & _). injection Heq as <- ->. apply model_parse_iff. exists fv.
    split; [f_equal; symmetry; apply extras_add; assumption|]. split; [|split; [|exact Hc]].
    - apply typed_add; [exact HD|exact Hfs| |exact Ht|].
      + intros k Hk Ha. apply assoc_None in Ha. apply Ha. apply mem_str_In in Hk. exact Hk.
      + intros fi t k x Hi Hin -> Hk. assert (Ha : assoc (f_name fi) fv = Some x) by (apply In_assoc; [rewrite Hn; exact Hnd|exact Hin]).
        split.
        * unfold get, attr. apply mem_str_In in Hk. destruct Hk as [Hk|[Hk|[]]]; rewrite <- Hk in Ha |- *; rewrite Ha; reflexivity.
        * assert (Hat := wt_fields_attr E _ fs fv fi t Hf Hnd Hi). unfold attr in Hat. rewrite Ha in Hat. exact (proj1 Hat).
    - apply policy_add; [exact Hhas| |exact Hpol]. intros fi t Hi Hm. exact (proj1 (proc_field_spec fi t (fs_field _ _ Hi) (or_introl Hm))).
  Qed.
End Doc.

(** ** The verdicts do not depend on the processors *)
Definition proc_value (x : pv) : Prop := x = VNone \/ exists l, x = VList l /\ Forall (fun y => exists n, y = VProc n) l.
Lemma proc_value_refs x : proc_value x -> reference_strings x = [].
Proof.
  intros [->|(l & -> & H)]; [reflexivity|]. cbn [reference_strings as_reference app]. induction H as [|y l (n & ->) H IH]; [reflexivity|]. cbn [flat_map]. rewrite IH. reflexivity.
Qed.
Section Verdict.
  Context (E : env) (fv ex : fields) (Hnd : NoDup (map fst fv)).
  Context (Hpv : forall k x, In (k, x) fv -> mem_str k procs_keys = true -> proc_value x).
  Notation doc := (VObj "AsyncAPI3" fv ex).
  Notation doc' := (VObj "AsyncAPI3" (map blank fv) ex).
  Lemma assoc_blank k : assoc k (map blank fv) = if mem_str k procs_keys then match assoc k fv with Some _ => Some VNone | None => None end else assoc k fv.
  Proof.
    clear Hnd Hpv. induction fv as [|[k0 x] l IH]; [destruct (mem_str k procs_keys); reflexivity|]. cbn [map assoc].
    destruct (blank (k0, x)) as [k1 y] eqn:Eb. assert (Hk : k1 = k0) by (assert (H := blank_key (k0, x)); rewrite Eb in H; exact H). subst k1. cbn [assoc].
    destruct (str_eqb k k0) eqn:Ek; [|exact IH]. apply str_eqb_eq in Ek. subst k0. unfold blank in Eb. cbn [fst] in Eb.
    destruct (mem_str k procs_keys); injection Eb as <-; reflexivity.
  Qed.
  Lemma part_blank p : resolve_part doc' p = resolve_part doc p \/ ((exists l, resolve_part doc p = Some (VList l)) /\ resolve_part doc' p = None).
  Proof.
    unfold resolve_part. cbn [root_mapping]. destruct (assoc (u "root") ex) as [[]|]; try (left; reflexivity);
      (destruct (find_field_name p (class_infos "AsyncAPI3")) as [name|]; [|left; reflexivity]; unfold attr; rewrite assoc_blank;
       destruct (mem_str name procs_keys) eqn:Em; [|left; reflexivity]; destruct (assoc name fv) as [x|] eqn:Ea; [|left; reflexivity];
       destruct (Hpv name x (assoc_In _ _ _ Ea) Em) as [->|(procs & -> & _)]; [left; reflexivity|right; split; [eauto|reflexivity]]).
  Qed.
  Lemma list_parts l parts : forall path, (exists q, resolve_parts (VList l) path parts = Some (VList l, q)) \/ resolve_parts (VList l) path parts = None.
  Proof. induction parts as [|[|c p] parts IH]; intros path; cbn [resolve_parts]; [left; eauto|apply IH|right; reflexivity]. Qed.
  Lemma parts_blank parts : forall path, Exists (fun p => p <> []) parts ->
    resolve_parts doc' path parts = resolve_parts doc path parts
    \/ ((exists l q, resolve_parts doc path parts = Some (VList l, q)) /\ resolve_parts doc' path parts = None).
  Proof.
    induction parts as [|p parts IH]; intros path Hx; [inversion Hx|]. cbn [resolve_parts]. destruct p as [|c p].
    - apply IH. inversion Hx as [? ? H|]; subst; [contradiction|assumption].
    - destruct (part_blank (c :: p)) as [->|[(l & ->) ->]]; [left; reflexivity|].
      destruct (list_parts l parts (path ++ u "." ++ (c :: p))) as [(q & ->)| ->]; [right; eauto|left; reflexivity].
  Qed.
  Lemma split_exists s parts : parse_ref s = inr parts -> Exists (fun p => p <> []) parts.
  Proof.
    intros H. apply parse_ref_ok in H as (r & -> & -> & l & Hl & Hne). assert (Hp := segments_parts r l Hl). rewrite <- strip_segments in Hp. unfold parts_of in Hp.
    apply Exists_exists. destruct l as [|w l]; [contradiction|]. exists w.
    assert (Hi : In w (filter ne (split 47 (strip 47 r)))) by (rewrite Hp; left; reflexivity).
    apply filter_In in Hi as [Hi Hw]. split; [exact Hi|]. intros ->. discriminate Hw.
  Qed.
  Lemma fuel_blank n : forall visited s,
    resolve_fuel n doc' visited s = resolve_fuel n doc visited s
    \/ (exists l q, resolve_fuel n doc visited s = Some (Resolved (VList l) q)) /\ resolve_fuel n doc' visited s = Some (Failed ENavigate).
  Proof.
    induction n as [|n IH]; intros visited s; [left; reflexivity|]. cbn [resolve_fuel]. destruct (mem_str s visited); [left; reflexivity|].
    destruct (is_external s); [left; reflexivity|]. destruct (parse_ref s) as [e|parts] eqn:Ep; [left; reflexivity|].
    destruct (parts_blank parts (u "spec") (split_exists s parts Ep)) as [->|[(l & q & ->) ->]]; [|right; split; [cbn [as_reference]; eauto|reflexivity]].
    destruct (resolve_parts doc (u "spec") parts) as [[v q]|]; [|left; reflexivity]. destruct (as_reference v); [apply IH|left; reflexivity].
  Qed.
  Lemma refs_blank : reference_strings doc' = reference_strings doc.
  Proof.
    cbn [reference_strings]. assert (Ha : as_reference doc' = as_reference doc) by reflexivity. rewrite Ha. f_equal. f_equal. clear Hnd Ha.
    induction fv as [|[k x] l IH]; [reflexivity|]. cbn [map flat_map]. rewrite IH by (intros k0 y Hy; apply Hpv; right; exact Hy). f_equal.
    unfold blank. cbn [fst]. destruct (mem_str k procs_keys) eqn:Em; [|reflexivity]. symmetry. exact (proc_value_refs x (Hpv k x (or_introl eq_refl) Em)).
  Qed.
  Lemma resolve_blank s : resolve doc' s = resolve doc s \/ (exists l q, resolve doc s = Resolved (VList l) q) /\ resolve doc' s = Failed ENavigate.
  Proof.
    unfold resolve. rewrite refs_blank. destruct (fuel_blank (2 + length (reference_strings doc)) [] s) as [->|[(l & q & ->) ->]]; [left; reflexivity|right; eauto].
  Qed.
  Lemma no_list_expected path tys : expected E path = Some tys -> ~ In "list" tys.
  Proof.
    intros H Hi. rewrite expected_mappings in H. apply c31_most_specific in H as (p & Hp & _).
    assert (Hb : forallb (fun r : pystr * list string => negb (existsb (String.eqb "list") (snd r))) mappings = true) by (vm_compute; reflexivity).
    rewrite forallb_forall in Hb. specialize (Hb _ Hp). cbn [snd] in Hb. apply negb_true_iff in Hb.
    assert (Hc : existsb (String.eqb "list") tys = true) by (apply existsb_string; exact Hi). rewrite Hc in Hb. discriminate Hb.
  Qed.
  Lemma check_blank path s : check_reference E doc' path s = None <-> check_reference E doc path s = None.
  Proof.
    unfold check_reference. destruct (resolve_blank s) as [->|[(l & q & ->) ->]]; [reflexivity|]. split; [discriminate 1|]. cbn [type_name].
    destruct (expected E path) as [tys|] eqn:Ee; [|discriminate 1]. destruct (compatible "list" tys) eqn:Ec; [|discriminate 1].
    apply compatible_iff in Ec. destruct (no_list_expected _ _ Ee Ec).
  Qed.
  Lemma scan_fst {X} (f g : kid -> option (pystr * X)) l : (forall k, In k l -> option_map fst (f k) = option_map fst (g k)) -> option_map fst (scan f l) = option_map fst (scan g l).
  Proof.
    induction l as [|k l IH]; intros H; [reflexivity|]. cbn [scan]. assert (Hk := H k (or_introl eq_refl)).
    destruct (f k) as [[? ?]|], (g k) as [[? ?]|]; cbn [option_map fst] in Hk |- *; try discriminate Hk; [exact Hk|]. apply IH. intros k' Hk'. apply H. right. exact Hk'.
  Qed.
  Lemma check_same v : forall path, option_map fst (check E doc' v path) = option_map fst (check E doc v path).
  Proof.
    induction v as [v IH] using kids_ind. intros path. rewrite !check_kids. destruct (as_reference v) as [s|].
    - assert (H := check_blank path s). destruct (check_reference E doc' path s), (check_reference E doc path s); cbn [option_map fst]; try reflexivity; exfalso; destruct H as [H1 H2].
      + discriminate (H2 eq_refl).
      + discriminate (H1 eq_refl).
    - apply scan_fst. intros [i [text x]] Hin. cbn [fst snd]. exact (IH _ _ _ Hin _).
  Qed.
  Lemma kids_blank : (forall k, mem_str k procs_keys = true -> excluded "AsyncAPI3" k = true) -> kids doc' = kids doc.
  Proof.
    intros Hex. cbn [kids]. f_equal. generalize 0. clear Hnd Hpv. induction fv as [|[k x] l IH]; intros i; [reflexivity|]. cbn [map numbered filter]. rewrite IH.
    unfold blank. cbn [fst snd]. destruct (mem_str k procs_keys) eqn:Em; [|reflexivity]. cbn [fst snd is_none orb negb]. rewrite (Hex k Em), orb_true_r. reflexivity.
  Qed.
  Lemma unified_blank : (forall k, mem_str k procs_keys = true -> excluded "AsyncAPI3" k = true) -> option_map fst (unified E doc') = option_map fst (unified E doc).
  Proof.
    intros Hex. unfold unified. rewrite !check_kids. assert (H1 : as_reference doc' = None) by reflexivity. assert (H2 : as_reference doc = None) by reflexivity.
    rewrite H1, H2, (kids_blank Hex). apply scan_fst. intros [i [text x]] _. cbn [fst snd]. apply check_same.
  Qed.
End Verdict.

(** The tag and external-documentation validators. *)
Lemma selects_blank fv ex f p r : mem_str (u f) procs_keys = false ->
  (selects (VObj "AsyncAPI3" (map blank fv) ex) (Attr f :: p) r <-> selects (VObj "AsyncAPI3" fv ex) (Attr f :: p) r).
Proof.
  intros Hf. split; intros H.
  - inversion H as [|c0 fv0 ex0 f0 x p0 r0 Ha Hs|c0 fv0 ex0 f0 x p0 r0 Hn Ha Hs| |]; subst; rewrite assoc_blank, Hf in *; [eapply se_field|eapply se_extra]; eauto.
  - inversion H as [|c0 fv0 ex0 f0 x p0 r0 Ha Hs|c0 fv0 ex0 f0 x p0 r0 Hn Ha Hs| |]; subst; [eapply se_field|eapply se_extra]; try rewrite assoc_blank, Hf; eauto.
Qed.
Definition plain_head (p : list dstep) : bool := match p with Attr f :: _ => negb (mem_str (u f) procs_keys) | _ => false end.
Lemma found_blank locs fv ex s : forallb plain_head locs = true -> (found locs (VObj "AsyncAPI3" (map blank fv) ex) s <-> found locs (VObj "AsyncAPI3" fv ex) s).
Proof.
  intros Hl. rewrite forallb_forall in Hl. split; intros (p & r & Hp & Hs & Hr); exists p, r; (split; [exact Hp|]); (split; [|exact Hr]);
    specialize (Hl _ Hp); destruct p as [|[f|] p]; try discriminate Hl; cbn [plain_head] in Hl; apply negb_true_iff in Hl; apply (selects_blank fv ex f p r Hl); exact Hs.
Qed.
Lemma entry_blank fv ex f k : entry_at (VObj "AsyncAPI3" (map blank fv) ex) ["components"; f] k = entry_at (VObj "AsyncAPI3" fv ex) ["components"; f] k.
Proof. cbn [entry_at]. unfold get, attr. rewrite !assoc_blank. assert (H : mem_str (u "components") procs_keys = false) by (vm_compute; reflexivity). rewrite H. reflexivity. Qed.
Lemma blank_within fv ex x : within x (VObj "AsyncAPI3" (map blank fv) ex) -> x = VObj "AsyncAPI3" (map blank fv) ex \/ x = VNone \/ within x (VObj "AsyncAPI3" fv ex).
Proof.
  intros H. inversion H as [|l0 y Hi Hw Hq|d0 k y Hi Hw Hq|c0 fv0 ex0 k y Hi Hw Hq|c0 fv0 ex0 k y Hi Hw Hq|c0 d0 k y Hi Hw Hq]; subst; [left; reflexivity| |].
  - right. apply in_map_iff in Hi as ([k0 z] & He & Hi). unfold blank in He. cbn [fst] in He. destruct (mem_str k0 procs_keys); injection He as <- <-.
    + left. inversion Hw. reflexivity.
    + right. eapply w_field; eassumption.
  - right. right. eapply w_extra; eassumption.
Qed.
Lemma whole_blank fv ex : whole (VObj "AsyncAPI3" fv ex) -> whole (VObj "AsyncAPI3" (map blank fv) ex).
Proof.
  intros H fr er Hw. apply blank_within in Hw as [Hw|[Hw|Hw]]; [discriminate Hw|discriminate Hw|]. exact (H fr er Hw).
Qed.
Lemma ok_blank fv ex prefix f s : reference_ok (VObj "AsyncAPI3" (map blank fv) ex) prefix f s <-> reference_ok (VObj "AsyncAPI3" fv ex) prefix f s.
Proof. unfold reference_ok. setoid_rewrite entry_blank. reflexivity. Qed.
Lemma wt_blank E fs : forallb proc_field fs = true -> forall fv, wt_fields E (well_typed E) fs fv -> wt_fields E (well_typed E) fs (map blank fv).
Proof.
  induction fs as [|[fi t] fs IH]; intros Hfs [|[k x] fv] H; cbn [wt_fields map] in H |- *; try contradiction; [exact I|].
  cbn [forallb] in Hfs. apply andb_prop in Hfs as [Hfi Hfs]. destruct H as (-> & Hw & Hr & H). specialize (IH Hfs fv H). unfold blank at 1. cbn [fst].
  destruct (mem_str (f_name fi) procs_keys) eqn:Em; [|auto]. destruct (proc_field_spec fi t Hfi (or_intror Em)) as (_ & Hv & Ht & _).
  rewrite Ht, Hv. split; [reflexivity|]. split; [left; reflexivity|]. split; [exact I|exact IH].
Qed.
(** A loaded document holds in its processor fields None or a list of processor classes. *)
Lemma doc_shape E doc : well_typed E T_AsyncAPI3 doc -> exists fv ex, doc = VObj "AsyncAPI3" fv ex /\ wt_fields E (well_typed E) doc_fs fv
  /\ (forall fi t, In (fi, t) doc_fs -> ~ In (f_name fi) (map fst ex)) /\ NoDup (map fst fv) /\ (forall k x, In (k, x) fv -> mem_str k procs_keys = true -> proc_value x).
Proof.
  rewrite doc_type. cbn [well_typed]. intros (fv & ex & -> & Hf & _ & Hx). exists fv, ex. split; [reflexivity|]. split; [exact Hf|]. split; [exact (Hx eq_refl)|].
  assert (Hwf : wf_ty (TModel "AsyncAPI3" KExt doc_fs) = true) by (rewrite <- doc_type; apply wf_all; in_table).
  assert (Hn := names_NoDup _ _ _ Hwf). assert (Hnd : NoDup (map fst fv)) by (rewrite (wt_fields_names _ _ _ _ Hf); exact Hn). split; [exact Hnd|].
  intros k x Hin Hk. assert (Hin' : In k (map fst fv)) by (apply in_map_iff; exists (k, x); auto). rewrite (wt_fields_names _ _ _ _ Hf) in Hin'.
  apply in_map_iff in Hin' as ([fi t] & <- & Hi). cbn [fst] in *. destruct (proc_field_spec fi t (fs_field doc_fs doc_fs_procs _ _ Hi) (or_intror Hk)) as (_ & _ & Ht & _).
  assert (Ha := wt_fields_attr E _ doc_fs fv fi t Hf Hn Hi). unfold attr in Ha. rewrite (In_assoc _ _ _ Hnd Hin) in Ha. destruct Ha as [Ha _]. rewrite Ht in Ha. cbn [well_typed] in Ha. exact Ha.
Qed.
Lemma procs_excluded k : mem_str k procs_keys = true -> excluded "AsyncAPI3" k = true.
Proof.
  intros H. apply mem_str_In in H. destruct H as [<-|[<-|[]]]; vm_compute; reflexivity.
Qed.
Lemma json_whole E v doc : parse E T_AsyncAPI3 v = Some doc -> json_data T_AsyncAPI3 doc -> whole doc.
Proof.
  intros Hp Hj fv ex Hw. assert (Hi : In T_AsyncAPI3 all_types) by in_table. assert (Hc := parsed_json E _ v doc Hi Hp Hj).
  destruct (canon_within _ _ _ (linked_all _ Hi) (wf_all _ Hi) _ Hc _ Hw I) as [(t & Hm & Hl & Hwf & Hx)|(a & HA & Hx)]; [|exfalso; exact (HA _ Hx)].
  destruct t; try contradiction; cbn [canon] in Hx; [|destruct Hx as (? & Hx & _); discriminate Hx].
  destruct Hx as (fv' & ex' & Heq & Hf & _). injection Heq as <- -> ->.
  assert (Hk := proj1 (linked_fields _ _ _ Hl)).
  assert (Hv : exists fi, class_fields "Reference" = [(fi, TStr None)] /\ f_name fi = u "ref") by (eexists; split; vm_compute; reflexivity).
  destruct Hv as (fi & Hv & Hn'). rewrite Hv in Hk. clear Hv Hl Hwf. subst fs. cbn [canon_fields] in Hf.
  destruct fv' as [|[k0 x] fv']; [contradiction|]. destruct Hf as (Hf & Hr). destruct Hf as (-> & Hf & _).
  cbn [canon] in Hf. destruct Hf as (s & -> & _). exists s. rewrite Hn'. cbn [assoc]. rewrite str_eqb_refl. reflexivity.
Qed.

(** ** C69.  Refuted: a schema written {"$ref": ..., "deprecated": null} is a Schema with a free-form entry; saved and loaded it is a Reference, and dangling. *)
Definition doc_turns : pv := spec [("components", obj [("schemas", obj [("k", obj [("$ref", str "#/components/schemas/gone"); ("deprecated", VNone)])])])].
Theorem c69_verdict_refuted : ~ (forall E v doc doc', is_json v -> python_dicts v -> parse E T_AsyncAPI3 v = Some doc -> unified E doc = None ->
  parse E T_AsyncAPI3 (dump doc) = Some doc' -> unified E doc' = None).
Proof.
  intros H. assert (Hp : parse E0 T_AsyncAPI3 doc_turns = Some (load_doc doc_turns)) by (apply load_doc_ok; vm_compute; reflexivity).
  assert (Hd : parse E0 T_AsyncAPI3 (dump (load_doc doc_turns)) = Some (load_doc (dump (load_doc doc_turns)))) by (apply load_doc_ok; vm_compute; reflexivity).
  assert (Hj : is_json doc_turns) by (apply json_dec; vm_compute; reflexivity).
  assert (Hpd : python_dicts doc_turns) by (apply python_dicts_dec; vm_compute; reflexivity).
  assert (Hu : unified E0 (load_doc doc_turns) = None) by (vm_compute; reflexivity).
  specialize (H E0 _ _ _ Hj Hpd Hp Hu Hd). vm_compute in H. discriminate H.
Qed.
(** The saved data read with the same processors gives the document back (the conditions are those of C17). *)
Theorem c69_same_document_partial E v doc w : url_idem E -> python_dicts v -> parse E T_AsyncAPI3 v = Some doc -> json_data T_AsyncAPI3 doc ->
  no_shadowing doc -> no_null_over_default doc -> no_ambiguity doc -> loads_with doc w -> parse E T_AsyncAPI3 w = Some doc.
Proof.
  intros Hu Hd Hp Hj Hs Hn Ha Hw. assert (Hi : In T_AsyncAPI3 all_types) by in_table.
  assert (Hr := c17_reload_partial E T_AsyncAPI3 v doc Hu Hi Hd Hp Hj Hs Hn Ha). unfold reloads in Hr.
  assert (Hwt := parsed_wt _ _ _ Hp). destruct Hw as [fv ex D Heq HD]. subst doc. rewrite HD, without_obj in Hr.
  assert (Hl := linked_all _ Hi). assert (Hf := wf_all _ Hi). rewrite doc_type in *.
  apply model_parse_sound in Hp as (fv1 & ex1 & Heq & Hc & _). injection Heq as <- <-.
  exact (reload_with E doc_fs doc_fs_procs Hl Hf doc_fs_has fv ex D Hwt Hc HD Hr).
Qed.
(** So, whatever the processors do, constructing from the saved data is the same run with the same result as constructing from the original. *)
Theorem c69_same_run_partial E acts v doc w : url_idem E -> python_dicts v -> parse E T_AsyncAPI3 v = Some doc -> json_data T_AsyncAPI3 doc ->
  no_shadowing doc -> no_null_over_default doc -> no_ambiguity doc -> loads_with doc w ->
  forall calls r, construct acts E w calls r <-> construct acts E v calls r.
Proof.
  intros Hu Hd Hp Hj Hs Hn Ha Hw calls r. assert (Hp' := c69_same_document_partial E v doc w Hu Hd Hp Hj Hs Hn Ha Hw).
  split; intros H; inversion H; subst; first [congruence|econstructor; [|eassumption]; congruence].
Qed.
(** Read back without processors, every bundled validator gives the same answer; the unified one also names the same place. *)
Theorem c69_without_processors E v doc : parse E T_AsyncAPI3 v = Some doc -> json_data T_AsyncAPI3 doc ->
  (forall n, bundled E n (without_processors doc) = bundled E n doc)
  /\ option_map fst (unified E (without_processors doc)) = option_map fst (unified E doc).
Proof.
  intros Hp Hj. assert (Hwt := parsed_wt _ _ _ Hp). assert (Hwh := json_whole _ _ _ Hp Hj).
  destruct (doc_shape E doc Hwt) as (fv & ex & -> & Hf & Hx & Hnd & Hpv). rewrite without_obj.
  assert (Hun := unified_blank E fv ex Hpv procs_excluded). split; [|exact Hun].
  assert (Hwt' : well_typed E T_AsyncAPI3 (VObj "AsyncAPI3" (map blank fv) ex)).
  { rewrite doc_type. cbn [well_typed]. exists (map blank fv), ex. split; [reflexivity|]. split; [exact (wt_blank E doc_fs doc_fs_procs fv Hf)|]. split; [discriminate 1|]. intros _. exact Hx. }
  assert (Hwh' := whole_blank fv ex Hwh).
  assert (Hret : forall A B (x : option A) (y : option B), (x = None <-> y = None) -> returns x = returns y).
  { intros A B [x|] [y|] H; try reflexivity; destruct H as [H1 H2]; [discriminate (H2 eq_refl)|discriminate (H1 eq_refl)]. }
  intros n. unfold bundled. destruct (str_eqb n (u "UnifiedReferencesValidator")).
  { f_equal. apply Hret. destruct (unified E (VObj "AsyncAPI3" (map blank fv) ex)), (unified E (VObj "AsyncAPI3" fv ex)); try discriminate Hun; split; intros; congruence. }
  destruct (str_eqb n (u "TagsRefValidator")).
  { f_equal. apply Hret. rewrite (c35_accepts_iff E _ Hwt), (c35_accepts_iff E _ Hwt').
    split; intros H s Hs; apply ok_blank, H; apply (found_blank tag_locations fv ex s eq_refl); exact Hs. }
  destruct (str_eqb n (u "ExternalDocsRefValidator")); [|reflexivity].
  f_equal. apply Hret. rewrite (c37_accepts_iff E _ Hwt Hwh), (c37_accepts_iff E _ Hwt' Hwh').
  split; intros H s Hs; apply ok_blank, H; apply (found_blank docs_locations fv ex s eq_refl); exact Hs.
Qed.
Theorem c69_verdicts_partial E v doc doc' : url_idem E -> python_dicts v -> parse E T_AsyncAPI3 v = Some doc -> json_data T_AsyncAPI3 doc ->
  no_shadowing doc -> no_null_over_default doc -> no_ambiguity doc -> parse E T_AsyncAPI3 (dump doc) = Some doc' ->
  (forall n, bundled E n doc' = bundled E n doc) /\ option_map fst (unified E doc') = option_map fst (unified E doc).
Proof.
  intros Hu Hd Hp Hj Hs Hn Ha Hp'. assert (Hi : In T_AsyncAPI3 all_types) by in_table.
  assert (Hr := c17_reload_partial E T_AsyncAPI3 v doc Hu Hi Hd Hp Hj Hs Hn Ha). unfold reloads in Hr. rewrite Hp' in Hr. injection Hr as ->.
  exact (c69_without_processors E v doc Hp Hj).
Qed.
(** An example: a document with validators, what is saved of it, and reading it back. *)
Definition jd_fields (f : ty -> pv -> bool) : list (finfo * ty) -> fields -> bool :=
  fix go fs fv := match fs, fv with (_, t) :: fs', (_, x) :: fv' => f t x && go fs' fv' | _, _ => true end.
Definition each_b (f : ty -> bool) : list ty -> bool := fix go ts := match ts with [] => true | t :: r => f t && go r end.
Fixpoint jd_b (t : ty) (v : pv) {struct t} : bool :=
  match t with
  | TAny => all_within json_b v
  | TList t' => match v with VList l => forallb (jd_b t') l | _ => true end
  | TDict t' => match v with VDict d => forallb (fun kv => jd_b t' (snd kv)) d | _ => true end
  | TOpt t' => is_none v || jd_b t' v
  | TUnion ts => each_b (fun t' => jd_b t' v) ts
  | TModel _ _ fs => match v with VObj _ fv ex => jd_fields jd_b fs fv && forallb (fun kv => all_within json_b (snd kv)) ex | _ => true end
  | TRoot _ t' => match v with VRoot _ d => forallb (fun kv => jd_b t' (snd kv)) d | _ => true end
  | _ => true
  end.
Lemma jd_dec t : forall v, jd_b t v = true -> json_data t v.
Proof.
  induction t using ty_ind'; intros v H0; cbn [jd_b json_data] in *; try exact I.
  - apply json_dec. exact H0.
  - destruct v; try exact I. apply Forall_forall. intros x Hx. rewrite forallb_forall in H0. auto.
  - destruct v; try exact I. apply Forall_forall. intros x Hx. rewrite forallb_forall in H0. auto.
  - apply orb_prop in H0 as [H0|H0]; [left; apply is_none_iff; exact H0|right; auto].
  - induction H as [|t ts Ht H IH]; cbn [each each_b] in *; [exact I|]. apply andb_prop in H0 as [H1 H2]. auto.
  - destruct v; try exact I. apply andb_prop in H0 as [H1 H2]. intros _. split.
    + clear H2. revert fs0 H1. induction H as [|[fi t] fs Ht H IH]; intros [|[k0 x] fv1] H1; cbn [jd_fields json_fields] in *; try exact I. apply andb_prop in H1 as [H1 H2]. auto.
    + apply Forall_forall. intros x Hx. rewrite forallb_forall in H2. apply json_dec. auto.
  - destruct v; try exact I. intros _. apply Forall_forall. intros x Hx. rewrite forallb_forall in H0. auto.
Qed.
Definition doc_kept : pv := spec
  [("channels", obj [("c", obj [("address", str "a"); ("tags", VList [ref "#/components/tags/t"]); ("x-team", VList [VInt 1])])]);
   ("components", obj [("tags", obj [("t", obj [("name", str "n")])])]);
   ("extra_validators", VList [VProc (u "UnifiedReferencesValidator"); VProc (u "TagsRefValidator")])].
Example c69_ex : parse E0 T_AsyncAPI3 doc_kept = Some (load_doc doc_kept) /\ python_dicts doc_kept /\ json_data T_AsyncAPI3 (load_doc doc_kept)
  /\ no_shadowing (load_doc doc_kept) /\ no_null_over_default (load_doc doc_kept) /\ no_ambiguity (load_doc doc_kept)
  /\ is_json (dump (load_doc doc_kept)) /\ (exists w, loads_with (load_doc doc_kept) w /\ parse E0 T_AsyncAPI3 w = Some (load_doc doc_kept))
  /\ bundled E0 (u "UnifiedReferencesValidator") (without_processors (load_doc doc_kept)) = Some true.
Proof.
  split; [apply load_doc_ok; vm_compute; reflexivity|]. split; [apply python_dicts_dec; vm_compute; reflexivity|]. split; [apply jd_dec; vm_compute; reflexivity|].
  split; [apply no_shadowing_dec; vm_compute; reflexivity|]. split; [apply null_dec; vm_compute; reflexivity|]. split; [apply ambiguity_dec; vm_compute; reflexivity|].
  split; [apply json_dec; vm_compute; reflexivity|]. split; [|vm_compute; reflexivity].
  eexists. split; [econstructor; [vm_compute; reflexivity|vm_compute; reflexivity]|]. vm_compute. reflexivity.
Qed.
Print Assumptions c69_same_run_partial.
Print Assumptions c69_verdicts_partial.
