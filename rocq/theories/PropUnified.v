(** Properties C28-C34 and C42-C45: the unified reference validator. *)
From Coq Require Import Permutation.
From Verif Require Import PyStr Regex Value Types Rules Pydantic ClassTable Classes Canon Linked SpecParse Sample ProofRules ProofParse
  State SpecState ProofState PropState Resolve SpecResolve ProofResolve PropResolve Unified SpecUnified ProofUnified ProofCheck ProofOrder ProofGraph.
Local Open Scope string_scope.

(** Documents for the examples. *)
Definition header : string * pv := ("info", obj [("title", str "T"); ("version", str "1")]).
Definition spec (l : list (string * pv)) : pv := obj (("asyncapi", str "3.0.0") :: header :: l).
Definition load_doc (v : pv) : pv := match parse E0 T_AsyncAPI3 v with Some o => o | None => VNone end.
Definition some_doc (o : option pv) : bool := match o with Some _ => true | None => false end.
Lemma load_doc_ok v : some_doc (parse E0 T_AsyncAPI3 v) = true -> parse E0 T_AsyncAPI3 v = Some (load_doc v).
Proof. unfold load_doc. destruct (parse E0 T_AsyncAPI3 v); [reflexivity|discriminate 1]. Qed.
Definition plain_b (x : pv) : bool := match x with VObj _ _ _ => false | _ => true end.
Lemma plain_dec v : all_within plain_b v = true -> no_objects v.
Proof. intros H c fv ex Hw. assert (Hx := all_within_spec _ _ _ Hw H). discriminate Hx. Qed.
Lemma is_ref_dec v s : as_reference v = Some s -> is_reference v s.
Proof. apply as_reference_iff. Qed.

(** A document with good references of several kinds. *)
Definition docU : pv :=
  spec [("channels", obj [("c1", obj [("address", str "a"); ("messages", obj [("m_1", ref "#/components/messages/m")]);
                                      ("servers", VList [ref "#/servers/s"])]);
                          ("c2", ref "#/channels/c1"); ("c3", ref "https://e.org/c")]);
        ("servers", obj [("s", obj [("host", str "h"); ("protocol", str "kafka"); ("security", VList [ref "#/components/securitySchemes/k"])])]);
        ("operations", obj [("o", obj [("action", str "send"); ("channel", ref "#/channels/c2")])]);
        ("components", obj [("messages", obj [("m", obj [("payload", ref "#/components/schemas/x"); ("tags", VList [ref "#/components/tags/t"])])]);
                            ("schemas", obj [("x", obj [("type", str "object")])]);
                            ("securitySchemes", obj [("k", obj [("type", str "plain")])]);
                            ("tags", obj [("t", obj [("name", str "n")])])])].
Definition parsedU : pv := load_doc docU.
Lemma parsedU_ok : parse E0 T_AsyncAPI3 docU = Some parsedU.
Proof. apply load_doc_ok. vm_compute. reflexivity. Qed.
Lemma parsedU_no_root : no_root_keyword parsedU.
Proof. apply no_root_dec. vm_compute. reflexivity. Qed.
Lemma docU_plain : no_objects docU.
Proof. apply plain_dec. vm_compute. reflexivity. Qed.

(** ** C28.  [unified] returns None when the document is accepted, otherwise the path and kind of the error raised. *)
Theorem c28_accepts_iff E doc : no_root_keyword doc ->
  (unified E doc = None <->
   forall pos path r s, reached doc pos path r -> is_reference r s -> acceptable E doc (u "spec" ++ path)%list s).
Proof.
  intros Hn. unfold unified. rewrite check_none. split; intros H pos path r s Hr Hs.
  - apply check_reference_ok; [exact Hn|]. eauto.
  - apply check_reference_ok; [exact Hn|]. eauto.
Qed.
(** The error is that of a Reference that is not acceptable while all visited before it are. *)
Theorem c28_first_offender E doc p e : no_root_keyword doc -> unified E doc = Some (p, e) ->
  exists pos path r s, reached doc pos path r /\ is_reference r s /\ p = (u "spec" ++ path)%list /\ ~ acceptable E doc p s
    /\ (forall pos' path' r' s', reached doc pos' path' r' -> is_reference r' s' -> before pos' pos -> acceptable E doc (u "spec" ++ path')%list s').
Proof.
  intros Hn H. unfold unified in H. apply check_some in H as (pos & rel & r & s & H1 & H2 & H3 & H4 & H5).
  exists pos, rel, r, s. split; [exact H1|]. split; [exact H2|]. split; [exact H3|]. split.
  - intros Ha. apply check_reference_ok in Ha; [|exact Hn]. rewrite H4 in Ha. discriminate Ha.
  - intros pos' path' r' s' Ha Hb Hc. apply check_reference_ok; [exact Hn|]. eauto.
Qed.
(** ... and it says why: the chain fails, or its end has no expected type, or another type. *)
Theorem c28_reason E doc p e : no_root_keyword doc -> unified E doc = Some (p, e) ->
  exists pos path r s, reached doc pos path r /\ is_reference r s /\ p = (u "spec" ++ path)%list
    /\ match e with
       | UInvalid x => resolve doc s = Failed x
       | UUnknown => expected E p = None /\ exists o l, ends_at doc s o l
       | UType => exists tys o l, expected E p = Some tys /\ ends_at doc s o l /\ ~ In (type_name o) tys
       end.
Proof.
  intros Hn H. unfold unified in H. apply check_some in H as (pos & rel & r & s & H1 & H2 & H3 & H4 & _).
  exists pos, rel, r, s. split; [exact H1|]. split; [exact H2|]. split; [exact H3|]. unfold check_reference in H4.
  destruct (resolve doc s) as [o q| |x] eqn:Er; [|discriminate H4|injection H4 as <-; reflexivity].
  apply (c23_resolves_iff doc s o q Hn) in Er as (l & Hl & _).
  destruct (expected E p) as [tys|] eqn:Ee; [|injection H4 as <-; eauto].
  destruct (compatible (type_name o) tys) eqn:Ec; [discriminate H4|]. injection H4 as <-.
  exists tys, o, l. split; [reflexivity|]. split; [exact Hl|]. intros Hi. apply compatible_iff in Hi. rewrite Hi in Ec. discriminate Ec.
Qed.
(** The visiting order compares positions: any two different references are ordered. *)
Theorem c28_order_total doc pos pos' path path' r r' s s' : reached doc pos path r -> is_reference r s ->
  reached doc pos' path' r' -> is_reference r' s' -> pos <> pos' -> before pos pos' \/ before pos' pos.
Proof.
  intros H. revert pos' path'. induction H as [v p0 Hp|v i text w pos path x Hc Hr IH]; intros pos' path' Hs H' Hs' Hne.
  - destruct H' as [q Hq|j t w pos' path' x Hc _]; [contradiction|]. destruct (reference_childless _ _ _ _ _ Hs Hc).
  - destruct H' as [q Hq|j t w' pos' path' x' Hc' H']; [destruct (reference_childless _ _ _ _ _ Hs' Hc)|].
    destruct (Nat.lt_trichotomy i j) as [Hl|[He|Hl]].
    + left. apply be_less. exact Hl.
    + subst j. assert (w = w').
      { destruct Hc; inversion Hc'; congruence. }
      subst w'. destruct (IH pos' path' Hs H' Hs') as [Hb|Hb]; [congruence| |].
      * left. apply be_same. exact Hb.
      * right. apply be_same. exact Hb.
    + right. apply be_less. exact Hl.
Qed.
Definition docU_bad : pv :=
  spec [("channels", obj [("c1", ref "https://e.org/c"); ("c2", ref "#/servers/s"); ("c3", ref "#/channels/gone")]);
        ("servers", obj [("s", obj [("host", str "h"); ("protocol", str "kafka")])])].
Example c28_ex : unified E0 parsedU = None /\ length (reference_strings parsedU) = 8.
Proof. split; vm_compute; reflexivity. Qed.
Example c28_ex_bad : parse E0 T_AsyncAPI3 docU_bad = Some (load_doc docU_bad) /\ no_root_keyword (load_doc docU_bad)
  /\ unified E0 (load_doc docU_bad) = Some (u "spec.channels.root.c2", UType).
Proof.
  split; [apply load_doc_ok; vm_compute; reflexivity|]. split; [apply no_root_dec; vm_compute; reflexivity|]. vm_compute. reflexivity.
Qed.

(** ** C25, the validator: the reference that is reported is never an external one, so that a document with only external references
    is accepted; a reference in an unsupported format anywhere makes it fail. *)
Theorem c25_not_blamed E doc p e : unified E doc = Some (p, e) ->
  exists pos path r s, reached doc pos path r /\ is_reference r s /\ p = (u "spec" ++ path)%list /\ ~ external s.
Proof.
  intros H. unfold unified in H. apply check_some in H as (pos & rel & r & s & H1 & H2 & H3 & H4 & H5).
  exists pos, rel, r, s. split; [exact H1|]. split; [exact H2|]. split; [exact H3|]. intros Hx.
  unfold check_reference in H4. rewrite (c25_external doc s Hx) in H4. discriminate H4.
Qed.
Theorem c25_all_external E doc : (forall pos path r s, reached doc pos path r -> is_reference r s -> external s) -> unified E doc = None.
Proof.
  intros H. destruct (unified E doc) as [[p e]|] eqn:Eu; [|reflexivity]. destruct (c25_not_blamed _ _ _ _ Eu) as (pos & path & r & s & Hr & Hs & _ & Hn).
  destruct (Hn (H _ _ _ _ Hr Hs)).
Qed.
Theorem c25_unsupported_rejected E doc pos path r s : reached doc pos path r -> is_reference r s -> ~ external s ->
  (forall x, s <> u "#" ++ x)%list -> unified E doc <> None.
Proof.
  intros Hr Hs He Hf Hu. unfold unified in Hu. rewrite check_none in Hu. specialize (Hu _ _ _ _ Hr Hs).
  unfold check_reference in Hu. rewrite (c25_unsupported doc s He) in Hu; [discriminate Hu|]. intros (x & Hx). exact (Hf x Hx).
Qed.
Definition doc_web : pv := spec [("channels", obj [("c", ref "http://e.org/c"); ("d", ref "https://e.org/d")])].
Definition doc_file : pv := spec [("channels", obj [("c", ref "http://e.org/c"); ("d", ref "d.yaml#/d")])].
Example c25_web_ex : parse E0 T_AsyncAPI3 doc_web = Some (load_doc doc_web) /\ unified E0 (load_doc doc_web) = None
  /\ reference_strings (load_doc doc_web) = [u "http://e.org/c"; u "https://e.org/d"]
  /\ parse E0 T_AsyncAPI3 doc_file = Some (load_doc doc_file) /\ unified E0 (load_doc doc_file) = Some (u "spec.channels.root.d", UInvalid EFormat).
Proof.
  split; [apply load_doc_ok; vm_compute; reflexivity|]. split; [vm_compute; reflexivity|]. split; [vm_compute; reflexivity|].
  split; [apply load_doc_ok; vm_compute; reflexivity|vm_compute; reflexivity].
Qed.

(** ** C29 *)
Theorem c29_split_join segs : segs <> [] -> split_path (join (u ".") (map escape segs)) = segs.
Proof. exact (split_join segs). Qed.
(** Hence two lists of segments never give the same path. *)
Theorem c29_injective a b : a <> [] -> b <> [] -> join (u ".") (map escape a) = join (u ".") (map escape b) -> a = b.
Proof. intros Ha Hb H. rewrite <- (split_join a Ha), <- (split_join b Hb), H. reflexivity. Qed.
Example c29_ex : join (u ".") (map escape [u "a.b"; u ""; u "c\"]) = u "a\.b..c\\".
Proof. vm_compute. reflexivity. Qed.

(** ** C30.  (fnmatch bracket expressions are not modelled; no pattern of the validator uses one.) *)
Theorem c30_matches pattern path : path_matches pattern path = true <-> matches (split_path pattern) (split_path path).
Proof. apply parts_match_iff. Qed.
Theorem c30_no_brackets p ty : In (p, ty) mappings -> ~ In 91%N p.
Proof.
  intros H. assert (Hx : forallb (fun r => negb (existsb (N.eqb 91) (fst r))) mappings = true) by (vm_compute; reflexivity).
  rewrite forallb_forall in Hx. specialize (Hx _ H). cbn [fst] in Hx. intros Hi.
  assert (Hy : existsb (N.eqb 91) p = true) by (apply existsb_exists; exists 91%N; split; [exact Hi|reflexivity]).
  rewrite Hy in Hx. discriminate Hx.
Qed.
Example c30_ex : matches (split_path (u "**.*_bindings.*.key")) (split_path (u "spec.components.x_bindings.a\.b.key"))
  /\ ~ matches (split_path (u "**.*_bindings.*.key")) (split_path (u "spec.components.x_bindings.a.b.key"))
  /\ matches (split_path (u "**.tags")) (split_path (u "tags")).
Proof.
  split; [apply parts_match_iff; vm_compute; reflexivity|]. split; [|apply parts_match_iff; vm_compute; reflexivity].
  intros H. apply parts_match_iff in H. vm_compute in H. discriminate H.
Qed.

(** ** C31.  For any table; [normalize] drops ".root" and list indices. *)
Theorem c31_most_specific E table path tys : expected_in E table path = Some tys ->
  exists p, In (p, tys) table /\ matches (split_path p) (split_path (normalize E path))
    /\ forall q t, In (q, t) table -> matches (split_path q) (split_path (normalize E path)) -> ~ more_specific (split_path q) (split_path p).
Proof.
  unfold expected_in. destruct (best_match (normalize E path) None table) as [[s ty]|] eqn:Eb; [|discriminate 1].
  intros H. cbn [option_map snd] in H. injection H as ->.
  destruct (best_match_spec _ _ _ _ Eb) as ([Hx|(p & Hp & Hs & Hm)] & _ & Hb); [discriminate Hx|].
  exists p. split; [exact Hp|]. split; [apply c30_matches; exact Hm|]. intros q t Hq Hqm Hc.
  apply c30_matches in Hqm. specialize (Hb q t Hq Hqm). apply score_gtb_iff in Hc. subst s. rewrite Hc in Hb. discriminate Hb.
Qed.
Theorem c31_none E table path : expected_in E table path = None <->
  forall p t, In (p, t) table -> ~ matches (split_path p) (split_path (normalize E path)).
Proof.
  unfold expected_in. destruct (best_match (normalize E path) None table) as [[s ty]|] eqn:Eb; cbn [option_map].
  - split; [discriminate 1|]. intros H. exfalso.
    destruct (best_match_spec _ _ _ _ Eb) as ([Hx|(p & Hp & Hs & Hm)] & _ & _); [discriminate Hx|].
    apply (H p ty Hp). apply c30_matches. exact Hm.
  - split; [|reflexivity]. intros _ p t Hp Hm. destruct (best_match_spec _ _ _ _ Eb) as [_ Hn].
    apply c30_matches in Hm. rewrite (Hn p t Hp) in Hm. discriminate Hm.
Qed.
Theorem c31_order E path table : Permutation mappings table -> expected_in E table path = expected_in E mappings path.
Proof. exact (expected_perm E path table). Qed.
(** Where no pattern matches, an internal reference is an error even if it resolves. *)
Lemma expected_mappings E path : expected E path = expected_in E mappings path.
Proof. unfold expected. generalize mappings. reflexivity. Qed.
Theorem c31_unmatched E doc pos path r s : no_root_keyword doc -> reached doc pos path r -> is_reference r s ->
  (forall n s', hops doc n s s' -> ~ external s') ->
  (forall p t, In (p, t) mappings -> ~ matches (split_path p) (split_path (normalize E (u "spec" ++ path)%list))) -> unified E doc <> None.
Proof.
  intros Hn Hr Hs Hx Hm Hu. destruct (proj1 (c28_accepts_iff E doc Hn) Hu _ _ _ _ Hr Hs) as [(n & s' & Hh & He)|(o & l & tys & _ & He & _)].
  - exact (Hx _ _ Hh He).
  - rewrite expected_mappings in He. generalize dependent mappings. intros table Hm He. apply c31_none in Hm. rewrite Hm in He. discriminate He.
Qed.
Example c31_ex : expected E0 (u "spec.operations.root.o.traits[0].bindings") = Some ["OperationBindingsObject"]
  /\ expected E0 (u "spec.operations.root.o.traits[0]") = Some ["OperationTrait"] /\ expected E0 (u "spec.info") = None.
Proof. split; [vm_compute; reflexivity|]. split; vm_compute; reflexivity. Qed.

(** ** C32.  Refuted: inside a trait given in place the expected type is that of the trait. *)
Definition doc_trait : pv :=
  spec [("components", obj [("messages", obj [("m", obj [("traits", VList [obj [("correlationId", ref "#/components/correlationIds/i")]])])]);
                            ("correlationIds", obj [("i", obj [("location", str "$message.header#/a")])])])].
Definition loc_trait : list lstep :=
  [LField (u "components"); LField (u "messages"); LMapKey (u "m"); LField (u "traits"); LIdx 0; LField (u "correlation_id")].
Ltac step n := lazymatch goal with
  | |- location (TModel _ _ ?fs) _ _ => refine (lo_field _ _ fs _ _ _ _ (nth_error_In fs n eq_refl) eq_refl _)
  | |- location (TUnion ?ts) _ _ => refine (lo_member ts _ _ _ (nth_error_In ts n eq_refl) _)
  end.
Lemma loc_trait_ok : location T_AsyncAPI3 loc_trait ["CorrelationID"].
Proof.
  unfold loc_trait, T_AsyncAPI3. step 7. apply lo_opt. unfold T_Components. step 4. apply lo_opt. unfold T_Messages. apply lo_root.
  step 0. unfold T_Message. step 12. apply lo_opt, lo_list. step 0. unfold T_MessageTrait. step 1. apply lo_opt.
  refine (lo_here [T_CorrelationID; T_Reference] _ _ (or_intror (or_introl eq_refl))).
Qed.
(** A key without dots and brackets is ordinary unless it is a keyword or ends in "_bindings". *)
Lemma ends_with_app a b : ends_with b (a ++ b)%list = true.
Proof.
  apply ends_with_iff. exists a. reflexivity.
Qed.
Definition ordinary_b (k : pystr) : bool :=
  negb (existsb (N.eqb 91) k) && negb (existsb (N.eqb 46) k) && negb (existsb (fun w => str_eqb k (u w)) path_keywords) && negb (ends_with (u "_bindings") k).
Lemma existsb_char c (k : pystr) : existsb (N.eqb c) k = false -> ~ In c k.
Proof.
  intros H Hi. assert (Hy : existsb (N.eqb c) k = true) by (apply existsb_exists; exists c; split; [exact Hi|apply N.eqb_refl]).
  rewrite Hy in H. discriminate H.
Qed.
Lemma ordinary_dec E k : ordinary_b k = true -> ordinary E k.
Proof.
  unfold ordinary_b. intros H. apply andb_prop in H as [H H4]. apply andb_prop in H as [H H3]. apply andb_prop in H as [H1 H2].
  apply Bool.negb_true_iff in H1, H2, H3, H4. apply existsb_char in H1, H2. split; [|split; [|split]].
  - intros w Hw He. assert (Hy : existsb (fun w => str_eqb k (u w)) path_keywords = true).
    { apply existsb_exists. exists w. split; [exact Hw|]. apply str_eqb_eq. exact He. }
    rewrite Hy in H3. discriminate H3.
  - intros [a ->]. rewrite ends_with_app in H4. discriminate H4.
  - intros [a ->]. apply H2. apply in_or_app. right. left. reflexivity.
  - intros (a & x & b & (d & _ & ->) & ->). apply H1. apply in_or_app. right. left. reflexivity.
Qed.
Lemma loc_ok_dec E p : forallb ordinary_b (keys_of p) = true -> loc_ok E p.
Proof. intros H k Hk. rewrite forallb_forall in H. apply ordinary_dec. exact (H k Hk). Qed.
Theorem c32_agrees_refuted : ~ (forall E p D, location T_AsyncAPI3 p D -> (forall k, In k (keys_of p) -> ordinary E k) ->
  exists tys, expected E (location_path p) = Some tys /\ forall c, In c tys <-> In c D).
Proof.
  intros H. destruct (H E0 loc_trait _ loc_trait_ok) as (tys & He & Hc).
  - apply (loc_ok_dec E0 loc_trait). vm_compute. reflexivity.
  - assert (Hx : expected E0 (location_path loc_trait) = Some ["MessageTrait"]) by (vm_compute; reflexivity).
    rewrite Hx in He. injection He as <-. destruct (proj1 (Hc "MessageTrait") (or_introl eq_refl)) as [Hf|[]]. discriminate Hf.
Qed.
(** A legitimate document is rejected. *)
Theorem c32_rejects : exists doc, parse E0 T_AsyncAPI3 doc_trait = Some doc /\ no_root_keyword doc
  /\ unified E0 doc = Some (u "spec.components.messages.root.m.traits[0].correlation_id", UType)
  /\ exists o, resolve doc (u "#/components/correlationIds/i") = Resolved o (u "spec.components.correlationIds.i") /\ type_name o = "CorrelationID".
Proof.
  exists (load_doc doc_trait). split; [apply load_doc_ok; vm_compute; reflexivity|]. split; [apply no_root_dec; vm_compute; reflexivity|].
  split; [vm_compute; reflexivity|]. eexists. split; vm_compute; reflexivity.
Qed.
(** Everywhere else the types agree.  Missing: the locations directly inside an in-place trait, for which
    [c32_inside_trait] says exactly what is expected instead. *)
Theorem c32_agrees_partial E p D : location T_AsyncAPI3 p D -> (forall k, In k (keys_of p) -> ordinary E k) -> ~ in_inline_trait p ->
  exists tys, expected E (location_path p) = Some tys /\ forall c, In c tys <-> In c D.
Proof. exact (location_agrees E p D). Qed.
Theorem c32_inside_trait E p D : location T_AsyncAPI3 p D -> (forall k, In k (keys_of p) -> ordinary E k) -> in_inline_trait p ->
  exists t, expected E (location_path p) = Some [t] /\ In t ["MessageTrait"; "OperationTrait"] /\ ~ In t D.
Proof. exact (location_trait E p D). Qed.
Definition loc_key (k : pystr) : list lstep :=
  [LField (u "channels"); LMapKey k; LField (u "messages"); LMapKey (u "m-1"); LField (u "tags"); LIdx 7].
Lemma loc_key_ok k : location T_AsyncAPI3 (loc_key k) ["Tag"].
Proof.
  unfold loc_key, T_AsyncAPI3. step 5. apply lo_opt. unfold T_Channels. apply lo_root. step 0. unfold T_Channel. step 1. apply lo_opt.
  unfold T_Messages. apply lo_root. step 0. unfold T_Message. step 8. apply lo_opt, lo_list.
  refine (lo_here [T_Tag; T_Reference] _ _ (or_intror (or_introl eq_refl))).
Qed.
Example c32_ex : location T_AsyncAPI3 (loc_key (u "c1")) ["Tag"] /\ loc_ok E0 (loc_key (u "c1")) /\ ~ in_inline_trait (loc_key (u "c1"))
  /\ location_path (loc_key (u "c1")) = u "spec.channels.root.c1.messages.root.m-1.tags[7]"
  /\ length root_positions = 354.
Proof.
  split; [apply loc_key_ok|]. split; [apply loc_ok_dec; vm_compute; reflexivity|].
  split; [intros H; apply inline_abs_iff in H; vm_compute in H; discriminate H|]. split; vm_compute; reflexivity.
Qed.

(** ** C33 *)
(** The same location up to user-chosen keys. *)
Inductive same_step : lstep -> lstep -> Prop :=
| ss_field f : same_step (LField f) (LField f)
| ss_key k k' : same_step (LKey k) (LKey k')
| ss_map k k' : same_step (LMapKey k) (LMapKey k')
| ss_idx i : same_step (LIdx i) (LIdx i).
Definition renamed (p p' : list lstep) : Prop := Forall2 same_step p p'.
Definition doc_named (k : string) : pv :=
  spec [("channels", obj [(k, ref "#/components/channels/c")]); ("components", obj [("channels", obj [("c", obj [])])])].
Definition loc_named (k : string) : list lstep := [LField (u "channels"); LMapKey (u k)].
Lemma loc_named_ok k : location T_AsyncAPI3 (loc_named k) ["Channel"].
Proof.
  unfold loc_named, T_AsyncAPI3. step 5. apply lo_opt. unfold T_Channels. apply lo_root.
  refine (lo_here [T_Channel; T_Reference] _ _ (or_intror (or_introl eq_refl))).
Qed.
Lemma key_ok s : forallb (fun c => (N.leb 97 c && N.leb c 122)%bool) (u s) = true -> u s <> [] -> doc_key (u s).
Proof.
  intros H Hn. split; [exact Hn|]. rewrite forallb_forall in H. apply Forall_forall. intros c Hc. specialize (H c Hc).
  apply andb_prop in H as [H1 H2]. apply N.leb_le in H1, H2. left. unfold letter. lia.
Qed.
Theorem c33_renaming_refuted : ~ (forall E p p' D, location T_AsyncAPI3 p D -> location T_AsyncAPI3 p' D -> renamed p p' ->
  (forall k, In k (keys_of p ++ keys_of p') -> doc_key k) -> expected E (location_path p) = expected E (location_path p')).
Proof.
  intros H. assert (Hx := H E0 (loc_named "root") (loc_named "c") _ (loc_named_ok _) (loc_named_ok _)).
  assert (Hr : renamed (loc_named "root") (loc_named "c")) by (repeat constructor).
  specialize (Hx Hr). vm_compute in Hx. discriminate Hx. intros k [<-|[<-|[]]].
  - apply (key_ok "root"); [vm_compute; reflexivity|discriminate 1].
  - apply (key_ok "c"); [vm_compute; reflexivity|discriminate 1].
Qed.
(** The documents: the same, but for the name of a channel; one is rejected. *)
Theorem c33_rejects : exists d d', parse E0 T_AsyncAPI3 (doc_named "root") = Some d /\ parse E0 T_AsyncAPI3 (doc_named "c") = Some d'
  /\ unified E0 d' = None /\ unified E0 d = Some (u "spec.channels.root.root", UUnknown).
Proof.
  exists (load_doc (doc_named "root")), (load_doc (doc_named "c")). split; [apply load_doc_ok; vm_compute; reflexivity|].
  split; [apply load_doc_ok; vm_compute; reflexivity|]. split; vm_compute; reflexivity.
Qed.
(** Keys that do not look like path syntax can be exchanged freely.  Missing: the keys of [path_keywords]
    (and keys ending in "_bindings" or ".root", or with "[0]" in them). *)
Theorem c33_renaming_partial E p p' D : location T_AsyncAPI3 p D -> renamed p p' ->
  (forall k, In k (keys_of p ++ keys_of p') -> ordinary E k) -> expected E (location_path p) = expected E (location_path p').
Proof.
  intros Hl Hr Ho. assert (Hp : loc_ok E p) by (intros k Hk; apply Ho, in_or_app; left; exact Hk).
  assert (Hp' : loc_ok E p') by (intros k Hk; apply Ho, in_or_app; right; exact Hk).
  assert (Ha : map abs p = map abs p').
  { clear Hl Ho Hp Hp'. induction Hr as [|a b p p' H _ IH]; [reflexivity|]. cbn [map]. rewrite IH. destruct H; reflexivity. }
  destruct (location_in E p D Hl Hp) as [Hi _].
  assert (Hc : forallb aclean (map abs p) = true) by exact (proj1 (forallb_forall _ _) positions_clean _ Hi).
  rewrite (expected_loc E p Hp Hc). rewrite Ha in *. symmetry. apply expected_loc; assumption.
Qed.
Example c33_ex : renamed (loc_key (u "c1")) (loc_key (u "other")) /\ (forall k, In k (keys_of (loc_key (u "c1")) ++ keys_of (loc_key (u "other"))) -> ordinary E0 k).
Proof.
  split; [repeat constructor|]. intros k Hk. apply ordinary_dec. revert k Hk. apply forallb_forall. vm_compute. reflexivity.
Qed.

(** ** C34.  Refuted: a correlation id of an in-place trait may refer to a trait. *)
Definition doc_wrong : pv :=
  spec [("components", obj [("messages", obj [("m", obj [("traits", VList [obj [("correlationId", ref "#/components/messageTraits/t")]])])]);
                            ("messageTraits", obj [("t", obj [])])])].
(** Following the visited parts by position. *)
Fixpoint at_position (v : pv) (pos : list nat) : option (pystr * pv) :=
  match pos with
  | [] => Some ([], v)
  | i :: r =>
      match as_reference v with
      | Some _ => None
      | None =>
          match find (fun k => Nat.eqb (fst k) i) (kids v) with
          | Some (_, (t, x)) => option_map (fun a => (t ++ fst a, snd a)%list) (at_position x r)
          | None => None
          end
      end
  end.
Lemma at_position_reached pos : forall v p x, at_position v pos = Some (p, x) -> reached v pos p x.
Proof.
  induction pos as [|i pos IH]; intros v p x H; cbn [at_position] in H.
  - injection H as <- <-. apply re_here. reflexivity.
  - destruct (ref_cases v) as [(s & _ & Hs)|[Hn Hs]]; rewrite Hs in H; [discriminate H|].
    destruct (find (fun k => Nat.eqb (fst k) i) (kids v)) as [[j [t y]]|] eqn:Ef; [|discriminate H].
    apply find_some in Ef as [Hi He]. cbn [fst] in He. apply Nat.eqb_eq in He. subst j.
    destruct (at_position y pos) as [[q z]|] eqn:Ea; [|discriminate H]. cbn [option_map fst snd] in H. injection H as <- <-.
    eapply re_step; [apply kids_child; [exact Hn|exact Hi]|]. apply IH. exact Ea.
Qed.
Theorem c34_sound_refuted : ~ (forall E v doc pos p D r s, parse E T_AsyncAPI3 v = Some doc -> no_objects v -> no_root_keyword doc ->
  unified E doc = None -> location T_AsyncAPI3 p D -> (forall k, In k (keys_of p) -> ordinary E k) ->
  reached doc pos (flat_map step_text p) r -> is_reference r s ->
  (exists n s', hops doc n s s' /\ external s') \/ exists o l, ends_at doc s o l /\ In (type_name o) D).
Proof.
  intros H. assert (Hp : parse E0 T_AsyncAPI3 doc_wrong = Some (load_doc doc_wrong)) by (apply load_doc_ok; vm_compute; reflexivity).
  assert (Hn : no_root_keyword (load_doc doc_wrong)) by (apply no_root_dec; vm_compute; reflexivity).
  assert (Hu : unified E0 (load_doc doc_wrong) = None) by (vm_compute; reflexivity).
  destruct (at_position (load_doc doc_wrong) [7; 4; 0; 12; 0; 1]) as [[q r]|] eqn:Ea; [|vm_compute in Ea; discriminate Ea].
  assert (Hq : q = flat_map step_text loc_trait /\ as_reference r = Some (u "#/components/messageTraits/t")).
  { vm_compute in Ea. injection Ea as <- <-. split; vm_compute; reflexivity. }
  destruct Hq as [-> Hr]. apply at_position_reached in Ea. apply is_ref_dec in Hr.
  destruct (H E0 doc_wrong (load_doc doc_wrong) _ loc_trait _ _ _ Hp (plain_dec doc_wrong eq_refl) Hn Hu loc_trait_ok
    (loc_ok_dec E0 loc_trait eq_refl) Ea Hr) as [Hx|(o & l & Hx & Ho)].
  - apply (c25_external_iff _ _ Hn) in Hx. vm_compute in Hx. discriminate Hx.
  - assert (Hy : resolve (load_doc doc_wrong) (u "#/components/messageTraits/t") = Resolved o (access_path l)).
    { apply c23_resolves_iff; [exact Hn|]. eauto. }
    vm_compute in Hy. injection Hy as <- _. destruct Ho as [Ho|[]]. discriminate Ho.
Qed.
(** The strongest true version: everything but the locations directly inside an in-place trait. Every Reference of a
    document read from plain data stands at some declared location ([c42_located]). *)
Theorem c34_sound_partial E doc pos p D r s : no_root_keyword doc -> unified E doc = None ->
  location T_AsyncAPI3 p D -> (forall k, In k (keys_of p) -> ordinary E k) -> ~ in_inline_trait p ->
  reached doc pos (flat_map step_text p) r -> is_reference r s ->
  (exists n s', hops doc n s s' /\ external s') \/ exists o l, ends_at doc s o l /\ In (type_name o) D.
Proof.
  intros Hn Hu Hl Hk Ht Hr Hs. destruct (location_agrees E p D Hl Hk Ht) as (tys & He & Hc).
  destruct (proj1 (c28_accepts_iff E doc Hn) Hu _ _ _ _ Hr Hs) as [Hx|(o & l & tys' & Hx & He' & Ho)]; [left; exact Hx|right].
  exists o, l. split; [exact Hx|]. unfold location_path in He. rewrite He in He'. injection He' as <-. apply Hc. exact Ho.
Qed.
(** Whatever the keys and the location, no reference of an accepted document dangles. *)
Theorem c34_no_dangling E v doc r s : parse E T_AsyncAPI3 v = Some doc -> no_objects v -> no_root_keyword doc ->
  unified E doc = None -> within r doc -> is_reference r s ->
  (exists n s', hops doc n s s' /\ external s') \/ exists o l, ends_at doc s o l.
Proof.
  intros Hp Hv Hn Hu Hw Hs. destruct (document_located E v doc r s Hp Hv Hw Hs) as (pos & p & D & _ & Hr).
  destruct (proj1 (c28_accepts_iff E doc Hn) Hu _ _ _ _ Hr Hs) as [Hx|(o & l & tys' & Hx & _)]; [left; exact Hx|right; eauto].
Qed.
Example c34_ex : parse E0 T_AsyncAPI3 docU = Some parsedU /\ no_objects docU /\ no_root_keyword parsedU /\ unified E0 parsedU = None
  /\ (exists r, reached parsedU [5; 1] (flat_map step_text (loc_named "c2")) r /\ is_reference r (u "#/channels/c1")).
Proof.
  split; [exact parsedU_ok|]. split; [exact docU_plain|]. split; [exact parsedU_no_root|]. split; [vm_compute; reflexivity|].
  destruct (at_position parsedU [5; 1]) as [[q r]|] eqn:Ea; [|vm_compute in Ea; discriminate Ea].
  assert (Hq : q = flat_map step_text (loc_named "c2") /\ as_reference r = Some (u "#/channels/c1")).
  { vm_compute in Ea. injection Ea as <- <-. split; vm_compute; reflexivity. }
  destruct Hq as [-> Hr]. exists r. split; [apply at_position_reached; exact Ea|apply is_ref_dec; exact Hr].
Qed.

(** ** C42.  Refuted: a $ref inside free-form schema content is not even a Reference object. *)
Definition doc_extra : pv :=
  spec [("components", obj [("schemas", obj [("s", obj [("properties", obj [("a", ref "#/components/schemas/gone")])])])])].
(** The chain of [s] ends neither outside the document nor at an object. *)
Definition dangling (doc : pv) (s : pystr) : Prop :=
  ~ (exists n s', hops doc n s s' /\ external s') /\ ~ exists o l, ends_at doc s o l.
Lemma dangling_iff doc s : no_root_keyword doc -> (dangling doc s <-> exists e, resolve doc s = Failed e).
Proof.
  intros Hn. split.
  - intros [H1 H2]. destruct (resolve doc s) as [o p| |e] eqn:Er.
    + exfalso. apply H2. apply (c23_resolves_iff _ _ _ _ Hn) in Er as (l & Hl & _). eauto.
    + exfalso. apply H1. apply (c25_external_iff _ _ Hn). exact Er.
    + exists e. reflexivity.
  - intros [e He]. split.
    + intros Hx. apply (c25_external_iff _ _ Hn) in Hx. rewrite Hx in He. discriminate He.
    + intros (o & l & Hx). assert (Hy : resolve doc s = Resolved o (access_path l)) by (apply c23_resolves_iff; [exact Hn|eauto]).
      rewrite Hy in He. discriminate He.
Qed.
Theorem c42_all_checked_refuted : ~ (forall E v doc s, parse E T_AsyncAPI3 v = Some doc -> no_objects v -> no_root_keyword doc ->
  within (VDict [(u "$ref", VStr s)]) v -> dangling doc s -> unified E doc <> None).
Proof.
  intros H. assert (Hp : parse E0 T_AsyncAPI3 doc_extra = Some (load_doc doc_extra)) by (apply load_doc_ok; vm_compute; reflexivity).
  assert (Hn : no_root_keyword (load_doc doc_extra)) by (apply no_root_dec; vm_compute; reflexivity).
  apply (H E0 doc_extra _ (u "#/components/schemas/gone") Hp (plain_dec doc_extra eq_refl) Hn); [| |vm_compute; reflexivity].
  - eapply w_dict; [right; right; left; reflexivity|]. eapply w_dict; [left; reflexivity|]. eapply w_dict; [left; reflexivity|].
    eapply w_dict; [left; reflexivity|]. eapply w_dict; [left; reflexivity|]. apply w_self.
  - apply dangling_iff; [exact Hn|]. exists ENavigate. vm_compute. reflexivity.
Qed.
(** Every Reference object of a document read from plain data stands at a declared location and is visited there. *)
Theorem c42_located E v doc r s : parse E T_AsyncAPI3 v = Some doc -> no_objects v -> within r doc -> is_reference r s ->
  exists pos p D, location T_AsyncAPI3 p D /\ reached doc pos (flat_map step_text p) r.
Proof. exact (document_located E v doc r s). Qed.
(** Missing: $ref entries kept as raw data inside free-form objects, which are not Reference objects. *)
Theorem c42_all_checked_partial E v doc r s : parse E T_AsyncAPI3 v = Some doc -> no_objects v -> no_root_keyword doc ->
  within r doc -> is_reference r s -> dangling doc s -> unified E doc <> None.
Proof.
  intros Hp Hv Hn Hw Hs [Hd1 Hd2] Hu. destruct (c34_no_dangling E v doc r s Hp Hv Hn Hu Hw Hs); contradiction.
Qed.
Definition doc_dangling : pv := spec [("channels", obj [("c1", ref "#/channels/gone")])].
Example c42_ex : parse E0 T_AsyncAPI3 doc_dangling = Some (load_doc doc_dangling) /\ no_objects doc_dangling /\ no_root_keyword (load_doc doc_dangling)
  /\ (exists r, within r (load_doc doc_dangling) /\ is_reference r (u "#/channels/gone")) /\ dangling (load_doc doc_dangling) (u "#/channels/gone").
Proof.
  assert (Hn : no_root_keyword (load_doc doc_dangling)) by (apply no_root_dec; vm_compute; reflexivity).
  split; [apply load_doc_ok; vm_compute; reflexivity|]. split; [apply plain_dec; reflexivity|]. split; [exact Hn|]. split.
  - destruct (at_position (load_doc doc_dangling) [5; 0]) as [[q r]|] eqn:Ea; [|vm_compute in Ea; discriminate Ea].
    assert (Hr : as_reference r = Some (u "#/channels/gone")) by (vm_compute in Ea; injection Ea as <- <-; vm_compute; reflexivity).
    exists r. split; [eapply reached_within, at_position_reached; exact Ea|apply is_ref_dec; exact Hr].
  - apply dangling_iff; [exact Hn|]. exists ENavigate. vm_compute. reflexivity.
Qed.

(** ** C43.  Object graphs: nodes of a heap; [gcheck .. fuel ..] is the recursive traversal with at most [fuel] nested
    calls ([None]: not finished). *)
Theorem c43_terminates chk h n path fuel : length h < fuel ->
  exists r, gcheck chk h fuel [] n path = Some r /\ forall fuel', fuel <= fuel' -> gcheck chk h fuel' [] n path = Some r.
Proof.
  intros Hf. destruct (gcheck_total chk h fuel [] n path) as [r Hr]; [constructor|intros x []|cbn [length]; lia|].
  exists r. split; [exact Hr|]. intros fuel' Hl. eapply gcheck_mono; eauto.
Qed.
(** If no error is raised, every reachable Reference has been checked along some path. *)
Theorem c43_covers chk h n path fuel text m s : gcheck chk h fuel [] n path = Some None ->
  gpath h n text m -> node_reference h m = Some s -> exists text', gpath h n text' m /\ chk (path ++ text')%list s = None.
Proof.
  intros Hg Hp Hs. apply gpath_walk in Hp as (l & Hw & _). apply walk_simplify in Hw as (l' & Hw & Hd).
  exists (flat_map fst l'). split; [apply walk_gpath; exact Hw|].
  eapply gcheck_covers; [|exact Hg|exact Hs]. apply walk_simple; [exact Hw|exact Hd|intros x []].
  Unshelve. all: exact chk.
Qed.
(** An error comes from a reachable Reference. *)
Theorem c43_error chk h n path fuel p e : gcheck chk h fuel [] n path = Some (Some (p, e)) ->
  exists text m s, gpath h n text m /\ node_reference h m = Some s /\ p = (path ++ text)%list /\ chk p s = Some e.
Proof. exact (gcheck_error chk h fuel [] n path p e). Qed.
(** On trees it coincides with the traversal of C28. *)
Theorem c43_tree E h n doc fuel : represents h n doc -> length h < fuel ->
  gcheck (check_reference E doc) h fuel [] n (u "spec") = Some (unified E doc).
Proof.
  intros Hr Hf. destruct (c43_terminates (check_reference E doc) h n (u "spec") fuel Hf) as (r & Hg & _).
  rewrite Hg. f_equal. eapply (gcheck_tree E doc h fuel []); [exact Hr|intros a []|exact Hg].
Qed.
(** A list containing itself, an object shared twice, and references. *)
Definition heapG : heap :=
  [NList [0; 1; 3; 3]; NObj "Reference" [(u "ref", 2)] []; NAtom (VStr (u "http://a")); NDict [(u "k", 1); (u "up", 0)]].
Example c43_ex : gcheck (check_reference E0 parsedU) heapG 5 [] 0 (u "spec") = Some None
  /\ gpath heapG 0 (u "[2].up[3].k") 1 /\ node_reference heapG 1 = Some (u "http://a").
Proof.
  split; [vm_compute; reflexivity|]. split; [|vm_compute; reflexivity].
  refine (gp_step heapG 0 (u "[2]") 3 (u ".up[3].k") 1 eq_refl _ _); [right; right; left; reflexivity|].
  refine (gp_step heapG 3 (u ".up") 0 (u "[3].k") 1 eq_refl _ _); [right; left; reflexivity|].
  refine (gp_step heapG 0 (u "[3]") 3 (u ".k") 1 eq_refl _ _); [do 3 right; left; reflexivity|].
  refine (gp_step heapG 3 (u ".k") 1 [] 1 eq_refl _ (gp_here _ _)). left. reflexivity.
Qed.
Example c43_ex_tree : represents [NList [1]; NObj "Reference" [(u "ref", 2)] []; NAtom (VStr (u "#/x"))] 0
  (VList [VObj "Reference" [(u "ref", VStr (u "#/x"))] []]).
Proof.
  eapply rp_list; [reflexivity|]. constructor; [|constructor]. eapply rp_obj; [reflexivity|intros m H; discriminate H| |constructor].
  constructor; [|constructor]. split; [reflexivity|]. apply rp_atom; [reflexivity|exact I].
Qed.

(** ** C44 *)
Theorem c44_order E doc doc' : python_dicts doc -> same_upto_order doc doc' -> (unified E doc = None <-> unified E doc' = None).
Proof. intros Hd Hs. exact (same_check E doc doc' Hd Hs doc doc' (u "spec") Hs). Qed.
(** References resolve to the same object up to order. *)
Theorem c44_resolves doc doc' s o p : python_dicts doc -> same_upto_order doc doc' -> resolve doc s = Resolved o p ->
  exists o', resolve doc' s = Resolved o' p /\ same_upto_order o o'.
Proof.
  intros Hd Hs Hr. assert (H := same_resolve doc doc' s Hd Hs). rewrite Hr in H. inversion H; subst. eauto.
Qed.
Definition distinct_b (x : pv) : bool :=
  match x with
  | VDict d | VRoot _ d => nodupb (map fst d)
  | VObj _ fv ex => (nodupb (map fst fv) && nodupb (map fst ex))%bool
  | _ => true
  end.
Lemma python_dec v : all_within distinct_b v = true -> python_dicts v.
Proof.
  intros H x Hx. assert (Hb := all_within_spec _ _ _ Hx H). destruct x; cbn [distinct_b own_keys_distinct] in *; try exact I;
    [apply nodupb_NoDup; exact Hb| |apply nodupb_NoDup; exact Hb].
  apply andb_prop in Hb as [H1 H2]. split; apply nodupb_NoDup; assumption.
Qed.
Example c44_ex : python_dicts parsedU /\ exists a b c d e, parsedU = VObj "AsyncAPI3" (a ++ (u "channels", VRoot "Channels" [b; c; d]) :: e)%list []
  /\ same_upto_order parsedU (VObj "AsyncAPI3" (a ++ (u "channels", VRoot "Channels" [c; b; d]) :: e)%list []).
Proof.
  split; [apply python_dec; vm_compute; reflexivity|].
  assert (Hx : exists a b c d e, parsedU = VObj "AsyncAPI3" (a ++ (u "channels", VRoot "Channels" [b; c; d]) :: e)%list []).
  { exists (firstn 5 (match parsedU with VObj _ fv _ => fv | _ => [] end)). do 4 eexists. vm_compute. reflexivity. }
  destruct Hx as (a & b & c & d & e & Hx). exists a, b, c, d, e. split; [exact Hx|]. rewrite Hx.
  assert (Hr : forall l : list (pystr * pv), Forall2 (fun x y => fst x = fst y /\ same_upto_order (snd x) (snd y)) l l).
  { intros l. induction l as [|x l IH]; constructor; [split; [reflexivity|apply su_refl]|exact IH]. }
  eapply su_obj; [|constructor|constructor]. apply Forall2_app; [apply Hr|]. constructor; [|apply Hr]. split; [reflexivity|].
  eapply su_root; [apply Hr|]. apply perm_swap.
Qed.

(** ** C45 *)
Theorem c45_resolves x doc doc' s o p : entry_added x doc doc' -> resolve doc s = Resolved o p ->
  exists o', resolve doc' s = Resolved o' p /\ (o' = o \/ entry_added x o o').
Proof.
  intros Ha Hr. assert (H := add_resolve x doc doc' s (or_intror Ha)).
  rewrite Hr in H. assert (Hf : forall e, Resolved o p <> Failed e) by (intros e Hf; discriminate Hf). specialize (H Hf).
  inversion H as [a o' b Hq Hx Hy| |]; subst. exists o'. split; [reflexivity|]. destruct Hq as [->|Hq]; [left; reflexivity|right; exact Hq].
Qed.
Theorem c45_external x doc doc' s : entry_added x doc doc' -> resolve doc s = External -> resolve doc' s = External.
Proof.
  intros Ha Hr. assert (H := add_resolve x doc doc' s (or_intror Ha)). rewrite Hr in H.
  assert (Hf : forall e, External <> Failed e) by (intros e Hf; discriminate Hf). specialize (H Hf). inversion H. reflexivity.
Qed.
(** Adding an entry without references of its own keeps an accepted document accepted. *)
Theorem c45_accepts E x doc doc' : entry_added x doc doc' -> (forall r s, within r x -> ~ is_reference r s) ->
  unified E doc = None -> unified E doc' = None.
Proof.
  intros Ha Hx Hu. apply (add_check x E doc doc' (or_intror Ha)) with (v := doc); [|right; exact Ha|exact Hu].
  intros path. apply check_none. intros pos rel r s Hr Hs. exfalso. exact (Hx r s (reached_within _ _ _ _ Hr) Hs).
Qed.
Example c45_ex : exists a k e, parsedU = VObj "AsyncAPI3" (a ++ (u "channels", VRoot "Channels" k) :: e)%list []
  /\ entry_added (VObj "Channel" [] []) parsedU (VObj "AsyncAPI3" (a ++ (u "channels", VRoot "Channels" (k ++ [(u "new", VObj "Channel" [] [])])) :: e)%list []).
Proof.
  assert (Hx : exists a k e, parsedU = VObj "AsyncAPI3" (a ++ (u "channels", VRoot "Channels" k) :: e)%list [] /\ mem_str (u "new") (map fst k) = false).
  { exists (firstn 5 (match parsedU with VObj _ fv _ => fv | _ => [] end)). do 2 eexists. split; vm_compute; reflexivity. }
  destruct Hx as (a & k & e & Hx & Hm). exists a, k, e. split; [exact Hx|]. rewrite Hx. apply ea_field.
  rewrite <- (app_nil_r k) at 1. apply ea_here. rewrite app_nil_r. intros Hi. apply mem_str_In in Hi. rewrite Hi in Hm. discriminate Hm.
Qed.
Print Assumptions c28_accepts_iff.
Print Assumptions c31_order.
Print Assumptions c32_agrees_partial.
Print Assumptions c33_renaming_partial.
Print Assumptions c34_sound_partial.
Print Assumptions c42_all_checked_partial.
Print Assumptions c43_tree.
Print Assumptions c44_order.
Print Assumptions c45_accepts.
