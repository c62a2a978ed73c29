(** Properties C57, C58: assigning the contents of a map; assigning attributes of a document with processors. *)
From Verif Require Import PyStr Regex Value Types Rules Pydantic ClassTable Classes Canon Fix Linked SpecParse Sample ProofRules ProofParse
  State SpecState ProofState PropState Resolve SpecResolve ProofResolve PropResolve Unified SpecUnified ProofUnified ProofCheck PropUnified
  ProofDump Validators SpecValidators ProofValidators PropValidators Pipeline SpecPipeline PropPipeline Dump SpecDump ProofDump PropDump SpecDeep PropDeep SpecAssign.
Local Open Scope string_scope.

(** ** C57 *)
Theorem c57_root_assignment E procs c t d x o : In (TRoot c t) all_types ->
  (assign E procs (VRoot c d) (u "root") x = (true, o) <-> (exists d0, x = VDict d0) /\ parse E (TRoot c t) x = Some o).
Proof.
  intros Hi. assert (Hf := linked_root _ _ (linked_all _ Hi)). unfold assign. rewrite str_eqb_refl, Hf. unfold parse. cbn [validate].
  destruct x; try (split; [discriminate|intros [[dx Hd] _]; discriminate Hd]).
  destruct (vdict (validate E) t _) as [[d' n]|].
  - destruct (root_keys_ok d'); cbn [option_map fst].
    + split; [intros H; injection H as <-; split; [eexists; reflexivity|reflexivity]|intros [_ H]; injection H as <-; reflexivity].
    + split; [discriminate|intros [_ H]; discriminate H].
  - split; [discriminate|intros [_ H]; discriminate H].
Qed.
Theorem c57_other_attribute E procs c d name x : name <> u "root" -> assign E procs (VRoot c d) name x = (false, VRoot c d).
Proof. intros Hn. unfold assign. destruct (str_eqb name (u "root")) eqn:Ee; [apply str_eqb_eq in Ee; contradiction|reflexivity]. Qed.
(** Refuted: a failed assignment leaves the map as it was. *)
Theorem c57_failed_refuted :
  ~ (forall E procs c t d x o, In (TRoot c t) all_types -> assign E procs (VRoot c d) (u "root") x = (false, o) -> o = VRoot c d).
Proof.
  intros H. assert (Hi : In T_Tags all_types) by (apply find_root_In; vm_compute; reflexivity). unfold T_Tags in Hi.
  specialize (H E0 (fun o => (true, o)) "Tags" _ [] (obj [("bad key!", ref "#/x")]) _ Hi eq_refl). discriminate H.
Qed.
(** Strongest true version: it is as it was, or it holds the new entries, all valid, of which one has a bad key. *)
Theorem c57_failure_modes_partial E procs c t d x o : In (TRoot c t) all_types -> assign E procs (VRoot c d) (u "root") x = (false, o) ->
  o = VRoot c d \/ exists d0 d', x = VDict d0 /\ o = VRoot c d'
    /\ Forall2 (fun a b => fst a = fst b /\ parse E t (snd a) = Some (snd b)) d0 d' /\ exists k, In k (map fst d') /\ ~ upto_nl doc_key k.
Proof.
  intros Hi. assert (Hf := linked_root _ _ (linked_all _ Hi)). unfold assign. rewrite str_eqb_refl, Hf.
  destruct x; try (intros H; injection H as <-; left; reflexivity).
  destruct (vdict (validate E) t _) as [[d' n]|] eqn:Ev; [|intros H; injection H as <-; left; reflexivity].
  intros H. injection H as Hk <-. right. eexists _, d'. split; [reflexivity|]. split; [reflexivity|]. split; [exact (proj2 (vdict_ok _ _ _ _ _ Ev))|].
  unfold root_keys_ok in Hk. clear Ev. induction d' as [|[k y] d' IH]; [discriminate Hk|]. cbn [forallb fst] in Hk. apply andb_false_iff in Hk as [Hk|Hk].
  - exists k. split; [left; reflexivity|]. intros Hd. apply patterned_key_iff in Hd. rewrite Hd in Hk. discriminate Hk.
  - destruct (IH Hk) as (k' & Hi' & Hn). exists k'. split; [right; exact Hi'|exact Hn].
Qed.
Example c57_ex : assign E0 (fun o => (true, o)) (VRoot "Tags" []) (u "root") (obj [("a", ref "#/x")]) = (true, VRoot "Tags" [(u "a", VObj "Reference" [(u "ref", str "#/x")] [])])
  /\ assign E0 (fun o => (true, o)) (VRoot "Tags" []) (u "root") (obj [("a", VInt 1); ("bad key!", VInt 1)]) = (false, VRoot "Tags" []).
Proof. split; vm_compute; reflexivity. Qed.

(** ** C58 *)
Lemma store_replaced E procs c fs k fv ex fi t y : In (fi, t) fs -> NoDup (map (fun ft => f_name (fst ft)) fs) -> map fst fv = map (fun ft => f_name (fst ft)) fs ->
  NoDup (map fst ex) -> (forall n, In n (map fst ex) -> ~ In n (map fst fv)) ->
  exists fv', replaced (f_name fi) y fv fv'
    /\ store_in E procs fs k c fv ex (f_name fi) y = if after_ok E c k fv' ex then (if String.eqb c "AsyncAPI3" then procs (VObj c fv' ex) else (true, VObj c fv' ex)) else (false, VObj c fv' ex).
Proof.
  intros Hin Hnn Hf Hnd Hdis.
  assert (Hname : has_key (f_name fi) fv = true).
  { apply has_key_iff. rewrite Hf. exact (in_map (fun ft : finfo * ty => f_name (fst ft)) fs (fi, t) Hin). }
  exists (map (fun ft => (f_name (fst ft), attr (f_name (fst ft)) (dict_set (f_name fi) y fv))) fs). split.
  - split; [rewrite map_map; cbn [fst]; symmetry; exact Hf|].
    assert (Hall : forall n, assoc n (map (fun ft : finfo * ty => (f_name (fst ft), attr (f_name (fst ft)) (dict_set (f_name fi) y fv))) fs)
                  = if str_eqb n (f_name fi) then Some y else assoc n fv).
    { intros n. destruct (in_dec (list_eq_dec N.eq_dec) n (map (fun ft : finfo * ty => f_name (fst ft)) fs)) as [Hi|Hi].
      - transitivity (Some (attr n (dict_set (f_name fi) y fv))).
        + apply in_map_iff in Hi as ([gi s] & <- & Hi). clear -Hi. generalize (fun n => attr n (dict_set (f_name fi) y fv)) as f. intros f.
          cbn [fst]. induction fs as [|[hi r] fs IH]; [destruct Hi|]. cbn [map assoc fst]. destruct (str_eqb (f_name gi) (f_name hi)) eqn:Ee; [apply str_eqb_eq in Ee; rewrite Ee; reflexivity|].
          apply IH. destruct Hi as [Hi|Hi]; [|exact Hi]. injection Hi as -> _. rewrite str_eqb_refl in Ee. discriminate Ee.
        + unfold attr. rewrite assoc_dict_set. destruct (str_eqb n (f_name fi)); [reflexivity|]. destruct (assoc n fv) eqn:En; [reflexivity|].
          apply assoc_None in En. rewrite Hf in En. contradiction.
      - assert (Hb : str_eqb n (f_name fi) = false).
        { destruct (str_eqb n (f_name fi)) eqn:Ee; [|reflexivity]. apply str_eqb_eq in Ee. exfalso. apply Hi. rewrite Ee. exact (in_map (fun ft : finfo * ty => f_name (fst ft)) fs (fi, t) Hin). }
        rewrite Hb. transitivity (@None pv); [apply assoc_None; rewrite map_map; exact Hi|]. symmetry. apply assoc_None. rewrite Hf. exact Hi. }
    split; [rewrite Hall, str_eqb_refl; reflexivity|]. intros n Hn. rewrite Hall. destruct (str_eqb n (f_name fi)) eqn:Ee; [apply str_eqb_eq in Ee; contradiction|reflexivity].
  - unfold store_in. cbv zeta. rewrite dict_update_app; [|exact Hnd|exact Hdis]. rewrite (dict_set_app _ _ fv ex Hname), filter_app.
    rewrite (filter_none _ (dict_set (f_name fi) y fv)).
    2:{ intros kv Hkv. apply negb_false_iff, mem_str_In. rewrite <- Hf, <- (dict_set_present _ y _ Hname). apply in_map. exact Hkv. }
    rewrite (filter_all _ ex).
    2:{ intros kv Hkv. apply negb_true_iff, mem_str_not_In. rewrite <- Hf. apply Hdis. apply in_map. exact Hkv. }
    cbn [app].
    assert (Hm : map (fun ft : finfo * ty => (f_name (fst ft), attr (f_name (fst ft)) (dict_set (f_name fi) y fv ++ ex)%list)) fs
               = map (fun ft => (f_name (fst ft), attr (f_name (fst ft)) (dict_set (f_name fi) y fv))) fs).
    { apply map_ext_in. intros [gi s] Hg. cbn [fst]. f_equal. unfold attr. rewrite assoc_app. destruct (assoc (f_name gi) (dict_set (f_name fi) y fv)) eqn:Eg; [reflexivity|].
      exfalso. apply assoc_None in Eg. apply Eg. rewrite (dict_set_present _ y _ Hname), Hf. exact (in_map (fun ft : finfo * ty => f_name (fst ft)) fs (gi, s) Hg). }
    rewrite Hm. reflexivity.
Qed.
Lemma wt_fields_keys E wt fs : forall fv, wt_fields E wt fs fv -> map fst fv = map (fun ft => f_name (fst ft)) fs.
Proof.
  induction fs as [|[fi t] fs IH]; intros [|[k x] fv] H; cbn [wt_fields] in H; try contradiction; [reflexivity|]. destruct H as (-> & _ & _ & H). cbn [map fst]. f_equal. exact (IH _ H).
Qed.
Lemma no_hook fv : hook "AsyncAPI3" fv = true.
Proof. reflexivity. Qed.
Lemma valid_store E procs c k fs fv ex fi t y : In (TModel c k fs) all_types -> k <> KFree -> object_valid E c fv ex -> NoDup (map fst ex) -> In (fi, t) fs ->
  exists fv', replaced (f_name fi) y fv fv' /\ extras_ok E k ex = true
    /\ store_in E procs fs k c fv ex (f_name fi) y = if after_ok E c k fv' ex then (if String.eqb c "AsyncAPI3" then procs (VObj c fv' ex) else (true, VObj c fv' ex)) else (false, VObj c fv' ex).
Proof.
  intros Ht Hk (k' & fs' & Ht' & Hwt & _ & Hx) Hnd Hin. assert (H1 := linked_class _ _ _ (linked_all _ Ht)). assert (H2 := linked_class _ _ _ (linked_all _ Ht')).
  rewrite H1 in H2. injection H2 as <- <-. clear Ht' H1. assert (Hf := wt_fields_keys _ _ _ _ Hwt). assert (Hwf := wf_all _ Ht).
  destruct (store_replaced E procs c fs k fv ex fi t y Hin (names_NoDup _ _ _ Hwf) Hf Hnd) as (fv' & Hr & Hs).
  - intros n Hn Hi. rewrite Hf in Hi. apply in_map_iff in Hi as ([gi s] & Hg & Hi). cbn [fst] in Hg. destruct k; cbn [extras_valid] in Hx.
    + destruct (Hx n Hn) as [_ Hd]. apply Hd. exists gi, s. auto.
    + rewrite Hx in Hn. destruct Hn.
    + apply Hk. reflexivity.
  - exists fv'. split; [exact Hr|]. split; [|exact Hs]. destruct k; cbn [extras_ok extras_valid] in *.
    + apply forallb_forall. intros kv Hkv. apply ext_key_iff. apply (Hx (fst kv)). apply in_map. exact Hkv.
    + rewrite Hx. reflexivity.
    + reflexivity.
Qed.
(** Assigning a declared attribute of a (valid) document: refused and unchanged if its type or rule refuses the value; otherwise the value is
    stored, and all processors the changed document lists run on it, in order, as on construction; the assignment returns normally iff they do. *)
Theorem c58_assignment E acts procs k fs fv ex fi t x : runs acts procs -> In (TModel "AsyncAPI3" k fs) all_types -> object_valid E "AsyncAPI3" fv ex -> NoDup (map fst ex) -> In (fi, t) fs ->
  let r := assign E procs (VObj "AsyncAPI3" fv ex) (f_name fi) x in
  (~ (exists y, parse E t x = Some y /\ field_rule E (f_val fi) y) /\ r = (false, VObj "AsyncAPI3" fv ex))
  \/ exists y fv' calls, parse E t x = Some y /\ field_rule E (f_val fi) y /\ replaced (f_name fi) y fv fv' /\ run acts (VObj "AsyncAPI3" fv' ex) calls (fst r) (snd r).
Proof.
  intros Hr Ht Hv Hnd Hin. cbv zeta. assert (Hl := linked_all _ Ht). assert (Hwf := wf_all _ Ht).
  rewrite (assign_declared E procs "AsyncAPI3" k fs fv ex fi t x Hl Hwf Hin). unfold parse. destruct (validate E t x) as [[y n]|]; cbn [option_map fst].
  2:{ left. split; [intros (y & Hy & _); discriminate Hy|reflexivity]. }
  destruct (fv_check E (f_val fi) y) eqn:Ef.
  2:{ left. split; [|reflexivity]. intros (z & Hz & Hf). injection Hz as <-. apply fv_check_iff in Hf. rewrite Hf in Ef. discriminate Ef. }
  right. assert (Hk : k <> KFree). { intros ->. apply linked_class in Hl. vm_compute in Hl. discriminate Hl. }
  destruct (valid_store E procs "AsyncAPI3" k fs fv ex fi t y Ht Hk Hv Hnd Hin) as (fv' & Hrep & Hx & Hs). rewrite Hs. unfold after_ok. rewrite Hx, no_hook. cbn [andb].
  change (String.eqb "AsyncAPI3" "AsyncAPI3") with true. cbn iota. destruct (Hr (VObj "AsyncAPI3" fv' ex)) as (calls & Hc).
  exists y, fv', calls. split; [reflexivity|]. split; [apply fv_check_iff; exact Ef|]. split; [exact Hrep|exact Hc].
Qed.
(** Every freshly validated document meets the conditions. *)
Lemma parsed_object_valid E c k fs v fv ex : In (TModel c k fs) all_types -> parse E (TModel c k fs) v = Some (VObj c fv ex) -> object_valid E c fv ex.
Proof.
  intros Ht Hp. exists k, fs. split; [exact Ht|]. assert (Hwf := wf_all _ Ht). assert (Hwt := parse_wt _ _ _ _ Hwf Hp). apply parse_canon in Hp; [|exact Hwf].
  cbn [well_typed] in Hwt. destruct Hwt as (fv0 & ex0 & Heq0 & Hwt & _). injection Heq0 as <- <-. split; [exact Hwt|].
  cbn [canon] in Hp. destruct Hp as (fv0 & ex0 & Heq & _ & _ & Ha). injection Heq as <- <-. split; [|eapply extras_valid_canon; eauto].
  unfold after_ok in Ha. apply andb_prop in Ha as [_ Ha]. apply hook_iff. exact Ha.
Qed.
Lemma bundled_run E acts doc conv vals calls ok d' : standard E acts -> listed doc "extra_converters" conv -> listed doc "extra_validators" vals ->
  all_bundled E conv -> all_bundled E vals -> run acts doc calls ok d' -> d' = doc /\ (ok = true <-> forall p, In p (conv ++ vals)%list -> accepts E doc p).
Proof.
  intros Hst Hc Hv Ac Av Hr. apply listed_processors in Hc, Hv.
  destruct Hr as [l1 calls1 doc1 l2 calls2 ok doc2 H1 L1 H2 L2|l1 calls1 doc1 H1 L1|H1|l1 calls1 doc1 H1 L1 H2];
    rewrite Hc in H1; try discriminate H1; injection H1 as <-;
    destruct (bundled_loop E acts Hst _ _ _ _ _ _ Ac L1) as (-> & C1 & O1); cbn [skipn] in O1.
  - rewrite Hv in H2. injection H2 as <-. destruct (bundled_loop E acts Hst _ _ _ _ _ _ Av L2) as (-> & C2 & O2). cbn [skipn] in O2.
    split; [reflexivity|]. rewrite O2. split.
    + intros Ho p Hi. apply in_app_or in Hi as [Hi|Hi]; [apply (proj1 O1 eq_refl p Hi)|auto].
    + intros Ho p Hi. apply Ho. apply in_or_app. auto.
  - split; [reflexivity|]. split; [discriminate|]. intros Ho. apply O1. intros p Hi. apply Ho. apply in_or_app. auto.
  - rewrite Hv in H2. discriminate H2.
Qed.
(** In particular, with bundled validators only: the assignment returns normally iff the value is accepted and all of them accept the changed document. *)
Theorem c58_bundled E acts procs k fs fv ex fi t x y conv vals : standard E acts -> runs acts procs -> In (TModel "AsyncAPI3" k fs) all_types ->
  object_valid E "AsyncAPI3" fv ex -> NoDup (map fst ex) -> In (fi, t) fs ->
  f_name fi <> u "extra_converters" -> f_name fi <> u "extra_validators" ->
  listed (VObj "AsyncAPI3" fv ex) "extra_converters" conv -> listed (VObj "AsyncAPI3" fv ex) "extra_validators" vals -> all_bundled E conv -> all_bundled E vals ->
  parse E t x = Some y -> field_rule E (f_val fi) y ->
  exists fv' b, replaced (f_name fi) y fv fv' /\ assign E procs (VObj "AsyncAPI3" fv ex) (f_name fi) x = (b, VObj "AsyncAPI3" fv' ex)
    /\ (b = true <-> forall p, In p (conv ++ vals)%list -> accepts E (VObj "AsyncAPI3" fv' ex) p).
Proof.
  intros Hst Hr Ht Hv Hnd Hin Nc Nv Lc Lv Ac Av Hp Hf.
  destruct (c58_assignment E acts procs k fs fv ex fi t x Hr Ht Hv Hnd Hin) as [(Hno & _)|(z & fv' & calls & Hz & Hfz & Hrep & Hrun)]; [exfalso; apply Hno; eauto|].
  rewrite Hp in Hz. injection Hz as <-. destruct (assign E procs (VObj "AsyncAPI3" fv ex) (f_name fi) x) as [b o'] eqn:Ea. cbn [fst snd] in Hrun.
  assert (Hk : forall n l, u n <> f_name fi -> listed (VObj "AsyncAPI3" fv ex) n l -> listed (VObj "AsyncAPI3" fv' ex) n l).
  { intros n l Hn (c0 & f0 & e0 & Heq & Hl). injection Heq as <- <- <-. exists "AsyncAPI3", fv', ex. split; [reflexivity|]. destruct Hrep as (_ & _ & Hrep). rewrite (Hrep _ Hn). exact Hl. }
  destruct (bundled_run E acts _ conv vals calls b o' Hst (Hk _ _ (not_eq_sym Nc) Lc) (Hk _ _ (not_eq_sym Nv) Lv) Ac Av Hrun) as [-> Hb].
  exists fv', b. auto.
Qed.
(** A way to run the bundled processors. *)
Fixpoint run_list (E : env) (doc : pv) (l : list pv) : bool :=
  match l with [] => true | p :: r => match p with VProc n => match bundled E n doc with Some b => b && run_list E doc r | None => false end | _ => false end end.
Definition bundled_procs (E : env) (doc : pv) : bool * pv :=
  (match processors doc "extra_converters", processors doc "extra_validators" with Some l1, Some l2 => run_list E doc l1 && run_list E doc l2 | _, _ => false end, doc).
Lemma bundled_runs E : runs (bundled_acts E) (bundled_procs E).
Proof.
  intros doc. unfold bundled_procs. cbn [fst snd].
  assert (Hl : forall pre post, exists calls, loop (bundled_acts E) (length pre) doc (pre ++ post)%list calls (run_list E doc post) doc).
  { intros pre post. revert pre. induction post as [|p post IH]; intros pre.
    - exists []. constructor. rewrite app_nil_r. apply nth_error_None. lia.
    - assert (Hn : nth_error (pre ++ p :: post)%list (length pre) = Some p) by (rewrite nth_error_app2, Nat.sub_diag; [reflexivity|lia]).
      assert (Hok : (exists b, run_list E doc (p :: post) = (b && run_list E doc post)%bool /\ bundled_acts E p (doc, (pre ++ p :: post)%list) b (doc, (pre ++ p :: post)%list))).
      { cbn [run_list]. destruct p; try solve [exists false; cbn; auto]. destruct (bundled E n doc) as [b|] eqn:Eb; [exists b|exists false]; cbn [bundled_acts fst]; rewrite Eb; auto. }
      destruct Hok as ([] & -> & Ha); cbn [andb].
      + destruct (IH (pre ++ [p])%list) as (calls & Hc). rewrite app_length, <- app_assoc in Hc. cbn [length app] in Hc. rewrite Nat.add_1_r in Hc.
        exists (Call p doc true doc :: calls). eapply lp_next; eassumption.
      + exists [Call p doc false doc]. eapply lp_stop; eassumption. }
  destruct (processors doc "extra_converters") as [l1|] eqn:E1; [|exists []; apply run_bad_converters; exact E1].
  destruct (Hl [] l1) as (c1 & L1). cbn [length app] in L1. 
  destruct (run_list E doc l1) eqn:R1.
  - destruct (processors doc "extra_validators") as [l2|] eqn:E2.
    + destruct (Hl [] l2) as (c2 & L2). cbn [length app] in L2. cbn [andb]. eexists. eapply run_both; eassumption.
    + eexists. eapply run_bad_validators; eassumption.
  - exists c1. replace (match processors doc "extra_validators" with Some l2 => false && run_list E doc l2 | None => false end)%bool with false by (destruct (processors doc "extra_validators"); reflexivity).
    eapply run_converter; eassumption.
Qed.
Definition docC : pv := spec [("servers", obj [("s", obj [("host", str "h"); ("protocol", str "kafka")])]);
  ("channels", obj [("c", obj [("servers", VList [ref "#/servers/s"])])]); ("extra_validators", proc_names ["UnifiedReferencesValidator"])].
Example c58_ex : standard E0 (bundled_acts E0) /\ runs (bundled_acts E0) (bundled_procs E0)
  /\ (exists fv, load_doc docC = VObj "AsyncAPI3" fv [] /\ object_valid E0 "AsyncAPI3" fv [])
  /\ listed (load_doc docC) "extra_converters" [] /\ listed (load_doc docC) "extra_validators" [unified_validator]
  /\ fst (assign E0 (bundled_procs E0) (load_doc docC) (u "id") (str "urn:x")) = true.
Proof.
  split; [apply bundled_standard|]. split; [apply bundled_runs|]. split.
  - assert (Hp : parse E0 T_AsyncAPI3 docC = Some (load_doc docC)) by (apply load_doc_ok; vm_compute; reflexivity).
    eexists. split; [vm_compute; reflexivity|]. 
    refine (parsed_object_valid E0 _ _ _ docC _ _ _ Hp). in_table.
  - split; [eexists _, _, _; split; [vm_compute; reflexivity|right; split; [vm_compute; reflexivity|reflexivity]]|].
    split; [eexists _, _, _; split; [vm_compute; reflexivity|left; vm_compute; reflexivity]|]. vm_compute. reflexivity.
Qed.
(** ** C59
    Refuted: a document with the unified validator keeps satisfying it as long as modifications return normally.  Objects below the document do not know it. *)
Definition danglingC : assignment := {| as_path := [PField (u "channels"); PKey (u "c")]; as_name := u "servers"; as_value := VList [ref "#/servers/gone"] |}.
Theorem c59_nested_refuted :
  ~ (forall E acts procs v doc a doc', standard E acts -> runs acts procs -> parse E T_AsyncAPI3 v = Some doc -> listed doc "extra_validators" [unified_validator] ->
       unified E doc = None -> assign_at E procs a doc = Some (true, doc') -> unified E doc' = None).
Proof.
  intros H. destruct (assign_at E0 (bundled_procs E0) danglingC (load_doc docC)) as [[b d']|] eqn:Ea; [|vm_compute in Ea; discriminate Ea].
  assert (Hb : b = true) by (vm_compute in Ea; injection Ea as <- _; reflexivity). subst b.
  assert (Hx : unified E0 d' = None).
  { refine (H E0 (bundled_acts E0) (bundled_procs E0) docC (load_doc docC) danglingC d' (bundled_standard E0) (bundled_runs E0) _ _ _ Ea).
    - apply load_doc_ok. vm_compute. reflexivity.
    - eexists _, _, _. split; [vm_compute; reflexivity|left; vm_compute; reflexivity].
    - vm_compute. reflexivity. }
  vm_compute in Ea. injection Ea as <-. vm_compute in Hx. discriminate Hx.
Qed.
(** Refuted: a failed assignment leaves a document its validators accept.  The refused value has been stored. *)
Theorem c59_failed_refuted :
  ~ (forall E acts procs v doc name x doc', standard E acts -> runs acts procs -> parse E T_AsyncAPI3 v = Some doc -> listed doc "extra_validators" [unified_validator] ->
       unified E doc = None -> assign E procs doc name x = (false, doc') -> unified E doc' = None).
Proof.
  intros H. destruct (assign E0 (bundled_procs E0) (load_doc docC) (u "servers") VNone) as [b d'] eqn:Ea.
  assert (Hb : b = false) by (vm_compute in Ea; injection Ea as <- _; reflexivity). subst b.
  assert (Hx : unified E0 d' = None).
  { refine (H E0 (bundled_acts E0) (bundled_procs E0) docC (load_doc docC) (u "servers") VNone d' (bundled_standard E0) (bundled_runs E0) _ _ _ Ea).
    - apply load_doc_ok. vm_compute. reflexivity.
    - eexists _, _, _. split; [vm_compute; reflexivity|left; vm_compute; reflexivity].
    - vm_compute. reflexivity. }
  vm_compute in Ea. injection Ea as <-. vm_compute in Hx. discriminate Hx.
Qed.
(** Strongest true version: modifications of the document's own attributes that all return normally. *)
Lemma wt_fields_iff E wt fs : NoDup (map (fun ft => f_name (fst ft)) fs) -> forall fv, wt_fields E wt fs fv <->
  map fst fv = map (fun ft => f_name (fst ft)) fs /\ forall fi t, In (fi, t) fs -> exists x, assoc (f_name fi) fv = Some x /\ wt t x /\ field_rule E (f_val fi) x.
Proof.
  induction fs as [|[fi t] fs IH]; intros Hn fv; cbn [map fst] in *.
  - destruct fv as [|[k x] fv]; cbn [wt_fields map]; [split; [intros _; split; [reflexivity|intros ? ? []]|auto]|split; [contradiction|intros [H _]; discriminate H]].
  - inversion Hn as [|? ? Hni Hn']; subst. destruct fv as [|[k x] fv]; cbn [wt_fields map fst]; [split; [contradiction|intros [H _]; discriminate H]|]. rewrite (IH Hn' fv). split.
    + intros (-> & Hw & Hr & Hm & Ha). split; [f_equal; exact Hm|]. intros gi s [Hg|Hg].
      * injection Hg as -> ->. exists x. cbn [assoc]. rewrite str_eqb_refl. auto.
      * destruct (Ha gi s Hg) as (z & Hz & H1 & H2). exists z. split; [|auto]. cbn [assoc]. destruct (str_eqb (f_name gi) (f_name fi)) eqn:Ee; [|exact Hz].
        apply str_eqb_eq in Ee. exfalso. apply Hni. rewrite <- Ee. exact (in_map (fun ft : finfo * ty => f_name (fst ft)) fs (gi, s) Hg).
    + intros [Hm Ha]. injection Hm as -> Hm. split; [reflexivity|]. destruct (Ha fi t (or_introl eq_refl)) as (z & Hz & H1 & H2). cbn [assoc] in Hz. rewrite str_eqb_refl in Hz. injection Hz as <-.
      split; [exact H1|]. split; [exact H2|]. split; [exact Hm|]. intros gi s Hg. destruct (Ha gi s (or_intror Hg)) as (w & Hw & H3 & H4). exists w. split; [|auto]. cbn [assoc] in Hw.
      destruct (str_eqb (f_name gi) (f_name fi)) eqn:Ee; [|exact Hw]. apply str_eqb_eq in Ee. exfalso. apply Hni. rewrite <- Ee. exact (in_map (fun ft : finfo * ty => f_name (fst ft)) fs (gi, s) Hg).
Qed.
Lemma field_name_dec (fs : list (finfo * ty)) name : (exists fi t, In (fi, t) fs /\ f_name fi = name) \/ (forall fi t, In (fi, t) fs -> f_name fi <> name).
Proof.
  destruct (find_field name fs) as [[fi t]|] eqn:Ef; [left|right; apply find_field_None; exact Ef]. exists fi, t.
  induction fs as [|[gi s] fs IH]; cbn [find_field fst] in Ef; [discriminate Ef|]. destruct (str_eqb name (f_name gi)) eqn:Ee.
  - injection Ef as -> ->. apply str_eqb_eq in Ee. split; [left; reflexivity|auto].
  - destruct (IH Ef) as [H1 H2]. split; [right; exact H1|exact H2].
Qed.
Lemma dict_set_beside k v a b : has_key k a = false -> dict_set k v (a ++ b)%list = (a ++ dict_set k v b)%list.
Proof.
  induction a as [|[k' v'] a IH]; [reflexivity|]. cbn [app dict_set]. intros H. destruct (str_eqb k k') eqn:E.
  - apply str_eqb_eq in E. subst. assert (Hh : has_key k' ((k', v') :: a) = true) by (apply has_key_iff; left; reflexivity). rewrite Hh in H. discriminate H.
  - f_equal. apply IH. destruct (has_key k a) eqn:Eh; [|reflexivity]. apply has_key_iff in Eh. assert (Hh : has_key k ((k', v') :: a) = true) by (apply has_key_iff; right; exact Eh). rewrite Hh in H. discriminate H.
Qed.
Lemma rebuild_by (g : pystr -> pv) (fs : list (finfo * ty)) : forall fv, map fst fv = map (fun ft => f_name (fst ft)) fs -> (forall kv, In kv fv -> g (fst kv) = snd kv) ->
  map (fun ft : finfo * ty => (f_name (fst ft), g (f_name (fst ft)))) fs = fv.
Proof.
  induction fs as [|[fi t] fs IH]; intros [|[k x] fv] Hf Hg; try discriminate Hf; [reflexivity|].
  cbn [map fst] in *. injection Hf as -> Hf. f_equal; [f_equal; exact (Hg (f_name fi, x) (or_introl eq_refl))|]. apply IH; [exact Hf|]. intros kv Hi. apply Hg. right. exact Hi.
Qed.
Lemma rebuild_fields (fs : list (finfo * ty)) fv rest : NoDup (map fst fv) -> map fst fv = map (fun ft => f_name (fst ft)) fs ->
  map (fun ft : finfo * ty => (f_name (fst ft), attr (f_name (fst ft)) (fv ++ rest)%list)) fs = fv.
Proof.
  intros Hn Hf. apply (rebuild_by (fun n => attr n (fv ++ rest)%list)); [exact Hf|].
  intros [k x] Hi. unfold attr. rewrite assoc_app. cbn [fst snd]. rewrite (In_assoc _ _ _ Hn Hi). reflexivity.
Qed.
Lemma store_extra E procs c fs k fv ex name y : (forall fi t, In (fi, t) fs -> f_name fi <> name) -> NoDup (map fst fv) -> map fst fv = map (fun ft => f_name (fst ft)) fs ->
  NoDup (map fst ex) -> (forall n, In n (map fst ex) -> ~ In n (map fst fv)) ->
  store_in E procs fs k c fv ex name y = let ex' := dict_set name y ex in
    if after_ok E c k fv ex' then (if String.eqb c "AsyncAPI3" then procs (VObj c fv ex') else (true, VObj c fv ex')) else (false, VObj c fv ex').
Proof.
  intros Hu Hnf Hf Hnd Hdis. assert (Hno : ~ In name (map fst fv)).
  { rewrite Hf. intros Hi. apply in_map_iff in Hi as ([fi t] & Hn & Hi). exact (Hu fi t Hi Hn). }
  assert (Hh : has_key name fv = false) by (destruct (has_key name fv) eqn:Eh; [apply has_key_iff in Eh; contradiction|reflexivity]).
  unfold store_in. cbv zeta. rewrite dict_update_app; [|exact Hnd|exact Hdis]. rewrite (dict_set_beside _ _ fv ex Hh). rewrite (rebuild_fields fs fv _ Hnf Hf), filter_app.
  rewrite (filter_none _ fv), (filter_all _ (dict_set name y ex)); [reflexivity| |].
  - intros kv Hkv. apply negb_true_iff, mem_str_not_In. rewrite <- Hf. apply dict_set_In in Hkv as [Hkv|[Hkv _]]; [apply Hdis; apply in_map; exact Hkv|rewrite Hkv; exact Hno].
  - intros kv Hkv. apply negb_false_iff, mem_str_In. rewrite <- Hf. apply in_map. exact Hkv.
Qed.
(** A document as its constructor leaves it: valid, with bundled processors only, the unified validator among them. *)
Definition guarded (E : env) (doc : pv) : Prop := exists fv ex conv vals, doc = VObj "AsyncAPI3" fv ex /\ object_valid E "AsyncAPI3" fv ex /\ NoDup (map fst ex)
  /\ listed doc "extra_converters" conv /\ listed doc "extra_validators" vals /\ all_bundled E conv /\ all_bundled E vals /\ In unified_validator vals.
Lemma guarded_step E acts procs doc name x doc' : standard E acts -> runs acts procs -> guarded E doc -> name <> u "extra_converters" -> name <> u "extra_validators" ->
  assign E procs doc name x = (true, doc') -> guarded E doc' /\ unified E doc' = None.
Proof.
  intros Hst Hr (fv & ex & conv & vals & -> & Hv & Hnd & Lc & Lv & Ac & Av & Hu) Nc Nv Ha.
  assert (Hv0 := Hv). destruct Hv0 as (k & fs & Ht & Hwt & _ & Hx). assert (Hl := linked_all _ Ht). assert (Hwf := wf_all _ Ht). assert (Hnn := names_NoDup _ _ _ Hwf).
  assert (Hk : k = KExt). { apply linked_class in Hl. vm_compute in Hl. injection Hl as <- _. reflexivity. } subst k.
  assert (Hdone : forall fv' ex', (forall n, n <> name -> assoc n fv' = assoc n fv) -> object_valid E "AsyncAPI3" fv' ex' -> NoDup (map fst ex') ->
            (exists calls, run acts (VObj "AsyncAPI3" fv' ex') calls true doc') -> guarded E doc' /\ unified E doc' = None).
  { intros fv' ex' Hsame Hv' Hnd' (calls & Hrun).
    assert (Hkeep : forall n l, u n <> name -> listed (VObj "AsyncAPI3" fv ex) n l -> listed (VObj "AsyncAPI3" fv' ex') n l).
    { intros n l Hn (c0 & f0 & e0 & Heq & Hl0). injection Heq as <- <- <-. exists "AsyncAPI3", fv', ex'. split; [reflexivity|]. rewrite (Hsame _ Hn). exact Hl0. }
    apply not_eq_sym in Nc, Nv. assert (Lc' := Hkeep _ _ Nc Lc). assert (Lv' := Hkeep _ _ Nv Lv).
    destruct (bundled_run E acts _ conv vals calls true doc' Hst Lc' Lv' Ac Av Hrun) as [-> Hb]. split.
    - exists fv', ex', conv, vals. auto 10.
    - apply c41_accepts. apply (proj1 Hb eq_refl). apply in_or_app. right. exact Hu. }
  destruct (field_name_dec fs name) as [(fi & t & Hin & <-)|Hnew].
  - destruct (c58_assignment E acts procs KExt fs fv ex fi t x Hr Ht Hv Hnd Hin) as [(_ & Hf)|(y & fv' & calls & Hp & Hfr & (Hm & Hy & Ho) & Hrun)]; [rewrite Ha in Hf; discriminate Hf|].
    rewrite Ha in Hrun. cbn [fst snd] in Hrun. apply (Hdone fv' ex); [exact Ho| |exact Hnd|eauto].
    exists KExt, fs. split; [exact Ht|]. split; [|split; [apply hook_iff; reflexivity|exact Hx]].
    apply wt_fields_iff; [exact Hnn|]. apply (wt_fields_iff E _ fs Hnn) in Hwt as [Hm0 Hwt]. split; [rewrite Hm; exact Hm0|]. intros gi s Hg.
    destruct (str_eqb (f_name gi) (f_name fi)) eqn:Ee.
    + apply str_eqb_eq in Ee. assert (Heq : (gi, s) = (fi, t)).
      { assert (E1 := find_field_in _ _ _ Hg Hnn). assert (E2 := find_field_in _ _ _ Hin Hnn). rewrite Ee, E2 in E1. injection E1 as <- <-. reflexivity. }
      injection Heq as -> ->. exists y. split; [exact Hy|]. split; [|exact Hfr]. eapply parse_wt; [|exact Hp]. exact (wf_sub _ _ _ _ Hwf Hin).
    + destruct (Hwt gi s Hg) as (z & Hz & H1 & H2). exists z. split; [|auto]. rewrite Ho; [exact Hz|]. intros Hq. rewrite Hq, str_eqb_refl in Ee. discriminate Ee.
  - rewrite (assign_undeclared E procs "AsyncAPI3" KExt fs fv ex name x Hl Hnew) in Ha.
    assert (Hf := wt_fields_keys _ _ _ _ Hwt). assert (Hnf : NoDup (map fst fv)) by (rewrite Hf; exact Hnn).
    assert (Hdis : forall n, In n (map fst ex) -> ~ In n (map fst fv)).
    { intros n Hn Hi. rewrite Hf in Hi. apply in_map_iff in Hi as ([gi s] & Hg & Hi). cbn [fst] in Hg. destruct (Hx n Hn) as [_ Hd]. apply Hd. exists gi, s. auto. }
    rewrite (store_extra E procs "AsyncAPI3" fs KExt fv ex name x Hnew Hnf Hf Hnd Hdis) in Ha. cbv zeta in Ha.
    destruct (after_ok E "AsyncAPI3" KExt fv (dict_set name x ex)) eqn:Eok; [|discriminate Ha]. change (String.eqb "AsyncAPI3" "AsyncAPI3") with true in Ha. cbn iota in Ha.
    apply (Hdone fv (dict_set name x ex)); [reflexivity| | |].
    + exists KExt, fs. split; [exact Ht|]. split; [exact Hwt|]. split; [apply hook_iff; reflexivity|]. eapply extras_valid_canon; eauto.
    + rewrite dict_set_keys. destruct (has_key name ex) eqn:Eh; [exact Hnd|]. apply (NoDup_Add (Add_app name (map fst ex) [])). rewrite app_nil_r. split; [exact Hnd|].
      intros Hi. apply has_key_iff in Hi. rewrite Hi in Eh. discriminate Eh.
    + destruct (Hr (VObj "AsyncAPI3" fv (dict_set name x ex))) as (calls & Hc). rewrite Ha in Hc. eauto.
Qed.
Theorem c59_direct_partial E acts procs l doc doc' : standard E acts -> runs acts procs -> guarded E doc -> unified E doc = None ->
  (forall name x, In (name, x) l -> name <> u "extra_converters" /\ name <> u "extra_validators") -> all_return E procs l doc doc' ->
  guarded E doc' /\ unified E doc' = None.
Proof.
  intros Hst Hr Hg Hu Hn H. induction H as [o|name x l o o1 o2 Ha H IH]; [auto|].
  destruct (Hn name x (or_introl eq_refl)) as [N1 N2]. destruct (guarded_step E acts procs o name x o1 Hst Hr Hg N1 N2 Ha) as [Hg1 Hu1].
  apply IH; [exact Hg1|exact Hu1|]. intros n y Hi. apply (Hn n y). right. exact Hi.
Qed.
Example c59_ex : guarded E0 (load_doc docC) /\ unified E0 (load_doc docC) = None
  /\ exists d1 d2, d1 <> d2 /\ all_return E0 (bundled_procs E0) [(u "id", str "urn:x"); (u "x-a", VInt 1)] (load_doc docC) d2 /\ assign E0 (bundled_procs E0) (load_doc docC) (u "id") (str "urn:x") = (true, d1).
Proof.
  destruct c58_ex as (_ & _ & (fv & Hd & Hv) & Lc & Lv & _). split.
  - exists fv, [], [], [unified_validator]. split; [exact Hd|]. split; [exact Hv|]. split; [constructor|]. split; [exact Lc|]. split; [exact Lv|].
    split; [intros p []|]. split; [|left; reflexivity]. intros p [<-|[]]. eexists; split; [reflexivity|apply c41_bundled_names; cbn; tauto].
  - split; [vm_compute; reflexivity|]. eexists. eexists. split; [shelve|]. split.
    + eapply ar_next; [vm_compute; reflexivity|]. eapply ar_next; [vm_compute; reflexivity|]. apply ar_none.
    + vm_compute. reflexivity.
    Unshelve. discriminate.
Qed.
Print Assumptions c58_assignment.
Print Assumptions c59_direct_partial.
