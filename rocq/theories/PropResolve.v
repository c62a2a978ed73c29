(** Properties C22-C27 and C49: reference resolution. *)
From Verif Require Import PyStr Regex Value Types Rules Pydantic ClassTable Classes Canon Linked SpecParse Sample ProofRules ProofParse
  State SpecState ProofState PropState Resolve SpecResolve ProofResolve.
Local Open Scope string_scope.

(** A document with chains, cycles, external and broken references. *)
Definition docR : pv :=
  obj [("info", obj [("title", str "T"); ("version", str "1")]);
       ("servers", obj [("a", ref "#/servers/b"); ("b", ref "#//components/servers/c/"); ("self", ref "#/servers/self");
                        ("x", ref "#/servers/y"); ("y", ref "#/servers/x"); ("ext", ref "#/servers/ext2"); ("ext2", ref "https://e.org/s");
                        ("file", ref "other.yml"); ("empty", ref "#//"); ("gone", ref "#/servers/nope")]);
       ("components", obj [("servers", obj [("c", obj [("host", str "h"); ("protocol", str "kafka")])]);
                           ("securitySchemes", obj [("k", obj [("type", str "plain")])])])].
Definition parsedR : pv := match parse E0 T_AsyncAPI3 docR with Some o => o | None => VNone end.
Lemma parsedR_ok : parse E0 T_AsyncAPI3 docR = Some parsedR.
Proof. vm_compute. reflexivity. Qed.
Definition no_root_b (x : pv) : bool :=
  match x with VObj _ _ ex => match assoc (u "root") ex with Some (VDict _) => false | _ => true end | _ => true end.
Lemma no_root_dec v : all_within no_root_b v = true -> no_root_keyword v.
Proof.
  intros H c fv ex d Hw He. assert (Hx := all_within_spec _ _ _ Hw H). cbn [no_root_b] in Hx. rewrite He in Hx. discriminate.
Qed.
Lemma parsedR_no_root : no_root_keyword parsedR.
Proof. apply no_root_dec. vm_compute. reflexivity. Qed.

(** ** C22.  [resolve_fuel n] is the recursive procedure with at most [n] nested calls; [None] would be
    "not finished after n calls".  No call sequence is longer than the number of Reference objects
    of the document plus two (the starting reference and the call that detects the cycle). *)
Theorem c22_terminates doc s n : 2 + length (reference_strings doc) <= n ->
  exists r, resolve_fuel n doc [] s = Some r /\ forall m, n <= m -> resolve_fuel m doc [] s = Some r.
Proof.
  intros H. exists (resolve doc s). split; [apply resolve_eq; exact H|]. intros m Hm. apply resolve_eq. lia.
Qed.
(** [reference_strings] lists the References occurring in the document. *)
Theorem c22_counts_references v s : In s (reference_strings v) <-> exists x, within x v /\ is_reference x s.
Proof. exact (reference_strings_iff v s). Qed.
Example c22_ex : resolve parsedR (u "#/servers/self") = Failed ECircular /\ resolve parsedR (u "#/servers/x") = Failed ECircular
  /\ (length (reference_strings parsedR) = 10).
Proof. split; [vm_compute; reflexivity|]. split; vm_compute; reflexivity. Qed.

(** ** C23.  A successful resolution returns exactly the object the chain ends at, with its access path. *)
Theorem c23_resolves_iff doc s o p : no_root_keyword doc ->
  (resolve doc s = Resolved o p <-> exists l, ends_at doc s o l /\ p = access_path l).
Proof.
  intros Hn. rewrite (resolve_iff doc s _ Hn). split.
  - intros H. inversion H; subst. exists l. split; [|reflexivity]. exists n, s'. auto.
  - intros (l & (n & s' & Hh & Hd & Hr) & ->). eapply oc_obj; eauto.
Qed.
(** What [ends_at] relates is unique, so this determines the result. *)
Theorem c23_chain_functional doc s o l o' l' : ends_at doc s o l -> ends_at doc s o' l' -> o = o' /\ l = l'.
Proof.
  intros (n & a & Hh & Hd & Hr) (n' & a' & Hh' & Hd' & Hr').
  destruct (stuck_unique _ _ _ _ _ _ Hh (stuck_obj _ _ _ _ Hd Hr) Hh' (stuck_obj _ _ _ _ Hd' Hr')) as [_ ->].
  destruct (designates_fun _ _ _ _ _ _ Hd Hd') as [-> ->]. auto.
Qed.
(** Documents read from plain data satisfy the side condition unless a free-form object (Schema,
    MultiFormatSchema, KafkaTopicConfiguration) has an entry "root" (see C49). *)
Theorem c23_side_condition E v doc : parse E T_AsyncAPI3 v = Some doc ->
  (forall c fv ex, within (VObj c fv ex) v -> False) ->
  (forall c fv ex d, within (VObj c fv ex) doc -> class_kind c = KFree -> assoc (u "root") ex <> Some (VDict d)) ->
  no_root_keyword doc.
Proof. exact (parsed_no_root E v doc). Qed.
Example c23_ex : no_root_keyword parsedR /\ exists o,
  resolve parsedR (u "#/servers/a") = Resolved o (u "spec.components.servers.c") /\ get_in "host" o = str "h".
Proof. split; [exact parsedR_no_root|]. eexists. split; [vm_compute; reflexivity|vm_compute; reflexivity]. Qed.

(** ** C24 *)
Theorem c24_circular_iff doc s : no_root_keyword doc -> (resolve doc s = Failed ECircular <-> circular doc s).
Proof.
  intros Hn. rewrite (resolve_iff doc s _ Hn). split; [intros H; inversion H; assumption|apply oc_circ].
Qed.
(** Otherwise the chain ends: in an object, an external reference, or a string that is malformed or
    designates nothing. *)
Theorem c24_otherwise doc s : no_root_keyword doc -> ~ circular doc s ->
  exists n s', hops doc n s s' /\
    ((exists l o, designates doc s' l o /\ (forall x, ~ is_reference o x) /\ resolve doc s = Resolved o (access_path l))
     \/ (external s' /\ resolve doc s = External)
     \/ ((forall l v, ~ designates doc s' l v) /\ ~ external s' /\ exists e, e <> ECircular /\ resolve doc s = Failed e)).
Proof.
  intros Hn Hc. assert (H := resolve_outcome doc s Hn). destruct H as [n s' l o Hh Hd Hr|n s' Hh He|n s' Hh He Hf|n s' r Hh Hs Hx|n s' r l Hh Hs Hx Hne Hw|H];
    [| | | | |contradiction]; exists n, s'; (split; [exact Hh|]).
  - left. exists l, o. auto.
  - right. left. auto.
  - right. right. split; [|split; [exact He|exists EFormat; split; [discriminate|reflexivity]]].
    intros l v (r & Hr & _). apply Hf. eauto.
  - right. right. subst s'. split; [|split; [apply hash_not_external|exists EPath; split; [discriminate|reflexivity]]].
    intros l v (r' & Hr & Hs & Hne & _). apply app_inv_head in Hr. subst r'. apply Hne. eapply segments_fun; eauto.
  - right. right. subst s'. split; [|split; [apply hash_not_external|exists ENavigate; split; [discriminate|reflexivity]]].
    intros l' v (r' & Hr & Hs & _ & Hv). apply app_inv_head in Hr. subst r'. rewrite (segments_fun _ _ _ Hx Hs) in Hw. exact (Hw _ Hv).
Qed.
Example c24_ex : circular parsedR (u "#/servers/x") /\ ~ circular parsedR (u "#/servers/a").
Proof.
  split.
  - apply c24_circular_iff; [exact parsedR_no_root|]. vm_compute. reflexivity.
  - intros H. apply c24_circular_iff in H; [|exact parsedR_no_root]. vm_compute in H. discriminate.
Qed.

(** ** C25 *)
Theorem c25_external doc s : external s -> resolve doc s = External.
Proof.
  intros H. apply external_iff in H. unfold resolve. cbn [Nat.add resolve_fuel mem_str]. rewrite H. reflexivity.
Qed.
(** ... also when reached through a chain, and only then. *)
Theorem c25_external_iff doc s : no_root_keyword doc ->
  (resolve doc s = External <-> exists n s', hops doc n s s' /\ external s').
Proof.
  intros Hn. rewrite (resolve_iff doc s _ Hn). split.
  - intros H. inversion H; subst. eauto.
  - intros (n & s' & H1 & H2). eapply oc_ext; eauto.
Qed.
Theorem c25_unsupported doc s : ~ external s -> (~ exists r, s = (u "#" ++ r)%list) -> resolve doc s = Failed EFormat.
Proof.
  intros H1 H2. unfold resolve. cbn [Nat.add resolve_fuel mem_str].
  destruct (is_external s) eqn:Ee; [apply external_iff in Ee; contradiction|].
  apply parse_ref_format in H2. rewrite H2. reflexivity.
Qed.
Theorem c25_only_slashes doc s : Forall (fun c => c = slash) s -> resolve doc (u "#" ++ s)%list = Failed EPath.
Proof.
  intros H. assert (Hs : segments s []).
  { induction H; [constructor|]. subst. apply seg_slash. assumption. }
  assert (Hp : parse_ref (u "#" ++ s)%list = inl EPath) by (apply parse_ref_path; eauto).
  unfold resolve. cbn [Nat.add resolve_fuel mem_str]. rewrite Hp. reflexivity.
Qed.
Example c25_ex : resolve parsedR (u "#/servers/ext") = External /\ resolve parsedR (u "#/servers/file") = Failed EFormat
  /\ resolve parsedR (u "#/servers/empty") = Failed EPath /\ resolve parsedR (u "#/servers/gone") = Failed ENavigate.
Proof. split; [vm_compute; reflexivity|]. split; [vm_compute; reflexivity|]. split; [vm_compute; reflexivity|]. vm_compute; reflexivity. Qed.

(** ** C26 *)
Theorem c26_factories E v doc f prefix path name :
  parse E T_AsyncAPI3 v = Some doc -> In (f, prefix) factories -> In (f, path) factory_places ->
  upto_nl doc_key name \/ (name <> [] /\ ~ In slash name) ->
  exists s, is_reference (make_reference prefix name) s
    /\ (forall o, entry_at doc path name = Some o -> (forall x, ~ is_reference o x) -> exists p, resolve doc s = Resolved o p)
    /\ (entry_at doc path name = None -> exists e, resolve doc s = Failed e).
Proof.
  intros Hp Hf Hq Hn.
  assert (Hn' : name <> [] /\ ~ In slash name) by (destruct Hn as [Hn|Hn]; [apply key_segment; exact Hn|exact Hn]).
  destruct Hn' as [Hn1 Hn2].
  assert (Hok : factory_ok prefix path = true).
  { assert (H := factories_ok). rewrite forallb_forall in H. specialize (H _ Hf). rewrite forallb_forall in H. specialize (H _ Hq).
    cbn [fst snd] in H. rewrite String.eqb_refl in H. exact H. }
  exists (u prefix ++ name)%list. split; [exists [(u "ref", VStr (u prefix ++ name)%list)], []; split; reflexivity|].
  assert (H := factory_resolves E v doc prefix path name Hp Hok Hn1 Hn2). split.
  - intros o He Hr. rewrite He in H. cbn [last_step] in H. destruct (as_reference o) as [x|] eqn:Ea; [|exact H].
    apply as_reference_iff in Ea. exfalso. exact (Hr _ Ea).
  - intros He. rewrite He in H. eexists. exact H.
Qed.
(** Both lists cover the same 22 methods. *)
Theorem c26_all_factories : map fst factories = map fst factory_places /\ NoDup (map fst factories) /\ length factories = 22.
Proof.
  split; [vm_compute; reflexivity|]. split; [|vm_compute; reflexivity].
  assert (H : nodupb (map (fun f => u (fst f)) factories) = true) by (vm_compute; reflexivity). apply nodupb_NoDup in H.
  rewrite <- map_map in H. exact (NoDup_map_inv _ _ H).
Qed.
Example c26_ex : parse E0 T_AsyncAPI3 docR = Some parsedR /\ In ("to_component_security_scheme_name", "#/components/securitySchemes/") factories
  /\ In ("to_component_security_scheme_name", ["components"; "security_schemes"]) factory_places /\ upto_nl doc_key (u "k")
  /\ exists o, entry_at parsedR ["components"; "security_schemes"] (u "k") = Some o /\ as_reference o = None
  /\ resolve parsedR (u "#/components/securitySchemes/k") = Resolved o (u "spec.components.securitySchemes.k").
Proof.
  split; [exact parsedR_ok|]. split; [do 8 right; left; reflexivity|]. split; [do 8 right; left; reflexivity|].
  split; [exists (u "k"); split; [split; [discriminate|constructor; [left; left; vm_compute; split; discriminate|constructor]]|left; reflexivity]|].
  eexists. split; [vm_compute; reflexivity|]. split; vm_compute; reflexivity.
Qed.

(** ** C27 *)
Theorem c27_injective f p f' p' name name' s :
  In (f, p) factories -> In (f', p') factories ->
  (upto_nl doc_key name \/ (name <> [] /\ ~ In slash name)) -> (upto_nl doc_key name' \/ (name' <> [] /\ ~ In slash name')) ->
  (is_reference (make_reference p name) s /\ is_reference (make_reference p' name') s -> f = f' /\ name = name')
  /\ (f = f' /\ name = name' -> make_reference p name = make_reference p' name').
Proof. exact (factories_injective f p f' p' name name' s). Qed.
(** References with the same string hash equal, for every hash of strings. *)
Theorem c27_hash h v v' s : is_reference v s -> is_reference v' s -> reference_hash h v = reference_hash h v'.
Proof. intros H1 H2. apply as_reference_iff in H1, H2. unfold reference_hash. rewrite H1, H2. reflexivity. Qed.
Example c27_ex : make_reference "#/servers/" (u "a") <> make_reference "#/components/servers/" (u "a").
Proof. intros H. vm_compute in H. discriminate. Qed.

(** ** C49.  Refuted: a free-form entry "root" hides the declared fields of its object. *)
Definition doc_root : pv :=
  obj [("info", obj [("title", str "T"); ("version", str "1")]);
       ("components", obj [("schemas", obj [("s", obj [("externalDocs", obj [("url", str "http://a/")]); ("root", obj [])])])])].
Theorem c49_walk_refuted : ~ (forall E v doc s l o, parse E T_AsyncAPI3 v = Some doc ->
  designates doc s l o -> (forall x, ~ is_reference o x) -> resolve doc s = Resolved o (access_path l)).
Proof.
  intros H. destruct (parse E0 T_AsyncAPI3 doc_root) as [d|] eqn:Ep; [|vm_compute in Ep; discriminate].
  assert (Hd := Ep). vm_compute in Hd. injection Hd as Hd.
  assert (Hx : exists o, designates d (u "#/components/schemas/s/externalDocs") [u "components"; u "schemas"; u "s"; u "externalDocs"] o
             /\ as_reference o = None).
  { eexists. split; [|shelve]. exists (u "/components/schemas/s/externalDocs"). split; [reflexivity|].
    split; [exact (parts_segments (u "/components/schemas/s/externalDocs"))|]. split; [discriminate|]. rewrite <- Hd.
    econstructor; [eapply (go_field "AsyncAPI3" _ _ _ _ _ (in_field "AsyncAPI3" 7 _ _ eq_refl)); [vm_compute; reflexivity|discriminate]|].
    econstructor; [eapply (go_field "Components" _ _ _ _ _ (in_field "Components" 0 _ _ eq_refl)); [vm_compute; reflexivity|discriminate]|].
    econstructor; [apply go_map; vm_compute; reflexivity|].
    econstructor; [eapply (go_alias "Schema" _ _ _ _ _ (in_field "Schema" 1 _ _ eq_refl)); [vm_compute; reflexivity|discriminate]|].
    constructor. Unshelve. reflexivity. }
  destruct Hx as (o & Hdes & Hnr).
  assert (Hr := H _ _ _ _ _ _ Ep Hdes). rewrite <- Hd in Hr. vm_compute in Hr.
  discriminate Hr. intros x Hx. apply as_reference_iff in Hx. rewrite Hnr in Hx. discriminate.
Qed.
(** The strongest true version is [c23_resolves_iff]. *)
Print Assumptions c22_terminates.
Print Assumptions c23_resolves_iff.
Print Assumptions c26_factories.
