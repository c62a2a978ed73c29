(** C95, C96: the JSON Schema published by model_json_schema(). *)
From Verif Require Import PyStr Value Types Rules Pydantic ClassTable Classes Linked Dump SpecDump SpecParse SpecState ProofParse ProofState PropLayout JsonSchema SpecJsonSchema ProofJsonSchema Sample.
Local Open Scope string_scope.

(** ** The whole schema document *)
Definition is_class (t : ty) : bool := match t with TModel _ _ _ | TRoot _ _ => true | _ => false end.
Lemma table_class t : In t all_types -> is_class t = true.
Proof. intros H. assert (Ha : forallb is_class all_types = true) by (vm_compute; reflexivity). exact (proj1 (forallb_forall _ _) Ha t H). Qed.
Lemma assoc_more k (d : fields) k' x : k <> k' -> assoc k (d ++ [(k', x)])%list = assoc k d.
Proof.
  intros H. induction d as [|[a y] d IH]; cbn [app assoc]; [destruct (str_eqb k k') eqn:Ee; [apply str_eqb_eq in Ee; contradiction|reflexivity]|]. destruct (str_eqb k a); auto.
Qed.
Lemma defs_found t : assoc (u "$defs") (model_json_schema t) = Some (VDict (definitions all_types)).
Proof. unfold model_json_schema. generalize (definitions all_types). intros ds. destruct t; reflexivity. Qed.
Lemma meets_more root kws ds v : meets root (VDict kws) v -> meets root (VDict (kws ++ [kw "$defs" ds])%list) v.
Proof.
  intros H. inversion H as [|? ? G1 G2 G3 G4 G5 G6 G7 G8 G9 G10 G11]; subst. unfold kw.
  assert (Hm : forall k s, mentioned (kws ++ [(u "$defs", ds)])%list k s <-> mentioned kws k s).
  { intros k s. unfold mentioned. split; intros (ps & Hp & Ha); exists ps; (split; [|exact Ha]); [rewrite assoc_more in Hp by discriminate; exact Hp|rewrite assoc_more by discriminate; exact Hp]. }
  apply meets_keywords; intros; repeat match goal with H : assoc _ (_ ++ _)%list = _ |- _ => rewrite assoc_more in H by discriminate end; eauto.
  - match goal with H : mentioned _ _ _ |- _ => apply Hm in H; eauto end.
  - match goal with H : forall s', ~ mentioned _ _ s' |- _ => eapply G8; eauto; intros s' Hs'; apply (H s'); apply Hm; exact Hs' end.
Qed.
Lemma meets_ref root c t v : In t all_types -> class_name t = [u c] -> assoc (u "$defs") root = Some (VDict (definitions all_types)) ->
  meets root (VDict [kw "$ref" (VStr (defs_prefix ++ u c)%list)]) v -> meets root (VDict (definition t)) v.
Proof.
  intros Hi Hc Hr H. inversion H as [|? ? G1 G2 G3 G4 G5 G6 G7 G8 G9 G10 G11]; subst. destruct (G11 _ eq_refl) as (s & (name & ds & He & Hd & Hs) & Hm).
  change (defs_prefix ++ u c = defs_prefix ++ name)%list in He. apply app_inv_head in He. subst name. assert (ds = definitions all_types) by congruence. subst ds. rewrite (definition_of all_types t c names_distinct Hi Hc) in Hs. injection Hs as <-. exact Hm.
Qed.
Lemma class_satisfies t v : In t all_types -> (exists s, In s (alternatives t) /\ meets (model_json_schema t) s v) -> satisfies (model_json_schema t) v.
Proof.
  intros Hi (s & Hs & Hm). unfold satisfies. assert (Hd := defs_found t). assert (Hg : meets (model_json_schema t) (VDict (definition t)) v).
  { assert (Hc := table_class _ Hi). destruct t; try discriminate Hc; destruct Hs as [<-|[]]; eapply meets_ref; eauto; reflexivity. }
  unfold model_json_schema at 2. generalize dependent (model_json_schema t). intros root _ _ Hg. apply meets_more. exact Hg.
Qed.
Lemma class_procs t : In t all_types -> has_procs t = false.
Proof. intros H. apply table_class in H. destruct t; try discriminate H; reflexivity. Qed.

(** ** C95 *)
(** Whatever the library has read, it writes so that it meets the published schema of its class. *)
Theorem c95_written E t v o : In t all_types -> url_output_sized E -> parse E t v = Some o -> satisfies (model_json_schema t) (dump o).
Proof.
  intros Hi Hu Hp. apply parse_some in Hp as [n Hp]. apply class_satisfies; [exact Hi|].
  apply (held_meets E _ _ (read_held E) Hu (defs_found t) t (linked_all _ Hi) (wf_all _ Hi) (class_procs _ Hi)). eauto.
Qed.
(** The same for an object changed since, as long as its fields are well typed (C14, C48: attribute assignment keeps them so). *)
Theorem c95_changed E t o : In t all_types -> url_output_sized E -> well_typed E t o -> own_aliases o -> satisfies (model_json_schema t) (dump o).
Proof.
  intros Hi Hu Hw Ha. apply class_satisfies; [exact Hi|].
  apply (held_meets E _ _ (wt_held E) Hu (defs_found t) t (linked_all _ Hi) (wf_all _ Hi) (class_procs _ Hi)). auto.
Qed.
(** The fields left out of the schema are exactly those never written. *)
Theorem c95_modes c k fs fi t : In (TModel c k fs) all_types -> In (fi, t) fs -> f_excl fi = skipped t.
Proof.
  intros Hi Hf. assert (Ha : forallb (fun t0 => match t0 with TModel _ _ fs => forallb (fun ft => eqb (f_excl (fst ft)) (skipped (snd ft))) fs | _ => true end) all_types = true) by (vm_compute; reflexivity).
  assert (Hx := proj1 (forallb_forall _ _) Ha _ Hi). cbn beta iota in Hx. rewrite forallb_forall in Hx. apply eqb_prop. exact (Hx _ Hf).
Qed.
(** A closed class publishes a closed schema, an open one an open schema; a required field is required there and only there. *)
Theorem c95_required c k fs d : In (TModel c k fs) all_types -> satisfies (model_json_schema (TModel c k fs)) (VDict d) ->
  (forall fi t, In (fi, t) fs -> f_def fi = None -> In (f_alias fi) (map fst d)) /\
  (k = KForbid -> forall key, In key (map fst d) -> exists fi t, In (fi, t) fs /\ key = f_alias fi).
Proof.
  intros Hi H. assert (Hrow := rows_ok _ Hi). cbn [row_ok] in Hrow. apply andb_prop in Hrow as [_ Hrow]. rewrite forallb_forall in Hrow.
  unfold satisfies in H. unfold model_json_schema in H at 2. cbn [definition app] in H. generalize dependent (model_json_schema (TModel c k fs)). intros root H. generalize dependent (definitions all_types). intros ds H.
  inversion H as [|? ? G1 G2 G3 G4 G5 G6 G7 G8 G9 G10 G11]; subst. split.
  - intros fi t Hf Hd. eapply G6; [reflexivity| |reflexivity]. apply in_map_iff. exists (fi, t). split; [reflexivity|]. apply filter_In. cbn [fst]. rewrite Hd. split; [|reflexivity].
    apply filter_In. split; [exact Hf|]. specialize (Hrow _ Hf). cbn [fst snd] in *. destruct (skipped t); [|reflexivity]. rewrite Hd in Hrow. rewrite andb_false_r in Hrow. discriminate Hrow.
  - intros -> key Hk. apply in_map_iff in Hk as ([a x] & <- & Hk). cbn [fst]. destruct (mem_str a (map (fun ft => f_alias (fst ft)) fs)) eqn:Em.
    + apply mem_str_In in Em. apply in_map_iff in Em as ([fi t] & <- & Hf). exists fi, t. auto.
    + exfalso. apply mem_str_not_In in Em. assert (Hx : meets root (VBool false) x); [|inversion Hx]. eapply G8; [reflexivity|exact Hk| |reflexivity].
      intros s (ps & Hp & Ha). change (Some (VDict (map (fun ft => (f_alias (fst ft), schema_at (snd ft))) (shown fs))) = Some (VDict ps)) in Hp. injection Hp as <-.
      apply assoc_In in Ha. apply in_map_iff in Ha as (ft & He & Ha). apply filter_In in Ha as [Ha _]. apply Em. apply in_map_iff. exists ft. split; [congruence|exact Ha].
Qed.
(** ** C96 *)
(** JSON written with the specification's names, accepted without conversions, meets the schema: what the schema refuses, the library refuses. *)
Theorem c96_accepted_partial E t v o : In t all_types -> url_input_sized E -> is_json v -> python_dicts v -> spec_spelling t v ->
  parse (strictly E) t v = Some o -> satisfies (model_json_schema t) v.
Proof.
  intros Hi Hu Hj Hd Hs Hp. apply parse_some in Hp as [n Hp]. apply class_satisfies; [exact Hi|].
  apply (accepted_meets E _ Hu (defs_found t) t (linked_all _ Hi) (wf_all _ Hi) (class_procs _ Hi) v Hj Hd Hs). eauto.
Qed.
(** ** Examples and limits *)
Definition E1 : env :=
  {| e_digit := fun _ => None; e_word := fun _ => false; e_int := fun v => match v with VStr _ => Some 5%Z | _ => None end; e_bool := fun _ => None;
     e_url := fun _ s => match s with [] => None | _ => if Nat.leb (List.length s) 2083 then Some s else None end |}.
Lemma E1_sized h s s' : e_url E1 h s = Some s' -> s' = s /\ url_size h s.
Proof.
  cbn [E1 e_url]. destruct s as [|a s]; [discriminate|]. destruct (Nat.leb (List.length (a :: s)) 2083) eqn:El; [|discriminate]. intros He. injection He as <-.
  apply Nat.leb_le in El. split; [reflexivity|]. split; [discriminate|auto].
Qed.
Lemma E1_in : url_input_sized E1.
Proof. intros h s s' He. apply E1_sized in He. tauto. Qed.
Lemma E1_out : url_output_sized E1.
Proof. intros h s s' He. apply E1_sized in He as [-> He]. exact He. Qed.
(** JSON data of the examples *)
Lemma json_flat d : Forall (fun kv : pystr * pv => match snd kv with VStr _ => True | _ => False end) d -> is_json (VDict d) /\ (NoDup (map fst d) -> python_dicts (VDict d)).
Proof.
  rewrite Forall_forall. intros H. assert (Hx : forall x, within x (VDict d) -> x = VDict d \/ exists s, x = VStr s).
  { intros x Hw. inversion Hw; subst; [auto|]. specialize (H _ H1). cbn [snd] in H. destruct y; try contradiction. inversion H2; subst. eauto. }
  split; [intros x Hw; destruct (Hx x Hw) as [->|[s ->]]; exact I|]. intros Hd x Hw. destruct (Hx x Hw) as [->|[s ->]]; [exact Hd|exact I].
Qed.
Ltac flat := apply json_flat; repeat constructor; cbn; try tauto; intuition discriminate.
Lemma server_row : In T_Server all_types.
Proof. in_table. Qed.
Definition server1 : pv := obj [("host", str "example.com"); ("protocol", str "kafka"); ("x-team", str "a")].
(** A server with an extension is read and meets the schema, and so does what is written; without its host it does not. *)
Example c95_ex : In T_Server all_types /\ url_output_sized E1 /\ exists o, parse E1 T_Server server1 = Some o /\ dump o = server1
  /\ satisfies (model_json_schema T_Server) (dump o) /\ ~ satisfies (model_json_schema T_Server) (obj [("protocol", str "kafka")]).
Proof.
  split; [exact server_row|]. split; [exact E1_out|]. assert (Hp : parse E1 T_Server server1 <> None) by (vm_compute; discriminate).
  destruct (parse E1 T_Server server1) as [o|] eqn:Eo; [|congruence]. exists o. split; [reflexivity|]. split; [vm_compute in Eo; injection Eo as <-; vm_compute; reflexivity|].
  split; [exact (c95_written _ _ _ _ server_row E1_out Eo)|]. intros Hs. destruct (c95_required _ _ _ _ server_row Hs) as [Hq _].
  specialize (Hq _ _ (or_introl eq_refl) eq_refl). vm_compute in Hq. destruct Hq as [Hq|[]]. discriminate Hq.
Qed.
Example c96_ex : url_input_sized E1 /\ is_json server1 /\ python_dicts server1 /\ spec_spelling T_Server server1 /\ exists o, parse (strictly E1) T_Server server1 = Some o.
Proof.
  split; [exact E1_in|]. split; [flat|]. split; [flat|]. split.
  - unfold T_Server, server1. cbn [spec_spelling obj map fst snd]. repeat split; try exact I; try (intros Hne; exfalso; apply Hne; reflexivity);
      try (intros _ Hk; vm_compute in Hk; intuition discriminate); try (intros x Hk; vm_compute in Hk; intuition (try discriminate)); try match goal with H : In _ _ |- _ => vm_compute in H; intuition discriminate end.
  - destruct (parse (strictly E1) T_Server server1) eqn:Eo; [eauto|vm_compute in Eo; discriminate Eo].
Qed.
(** Refuted as stated (for every JSON value accepted): the library accepts the Python names ... *)
Lemma reference_row : In T_Reference all_types.
Proof. in_table. Qed.
Definition pyref : pv := obj [("ref", str "#/servers/a")].
Theorem c96_refuted : ~ (forall E t v o, In t all_types -> url_input_sized E -> is_json v -> python_dicts v -> parse E t v = Some o -> satisfies (model_json_schema t) v).
Proof.
  intros H. assert (Hs : satisfies (model_json_schema T_Reference) pyref) by (eapply (H E1); [exact reference_row|exact E1_in|flat|flat|vm_compute; reflexivity]).
  destruct (c95_required _ _ _ _ reference_row Hs) as [Hq _]. specialize (Hq _ _ (or_introl eq_refl) eq_refl). vm_compute in Hq. destruct Hq as [Hq|[]]. discriminate Hq.
Qed.
(** ... and converts, e.g. "5" to 5. *)
Lemma kafka_row : In T_KafkaChannelBindings all_types.
Proof. in_table. Qed.
Definition kafka5 : pv := obj [("partitions", str "5")].
Theorem c96_conversions_needed : ~ (forall E t v o, In t all_types -> url_input_sized E -> is_json v -> python_dicts v -> spec_spelling t v -> parse E t v = Some o -> satisfies (model_json_schema t) v).
Proof.
  intros H. assert (Hs : satisfies (model_json_schema T_KafkaChannelBindings) kafka5).
  { eapply (H E1); [exact kafka_row|exact E1_in|flat|flat| |vm_compute; reflexivity]. unfold T_KafkaChannelBindings, kafka5. cbn [spec_spelling obj map fst snd].
    repeat split; try exact I; try (intros Hne; exfalso; apply Hne; reflexivity); try (intros _ Hk; vm_compute in Hk; intuition discriminate); try (intros x Hk; vm_compute in Hk; intuition (try discriminate)); try match goal with H : In _ _ |- _ => vm_compute in H; intuition discriminate end. }
  unfold satisfies in Hs. unfold model_json_schema in Hs at 2. generalize dependent (model_json_schema T_KafkaChannelBindings). intros root Hs. generalize dependent (definitions all_types). intros ds Hs.
  inversion Hs as [|? ? G1 G2 G3 G4 G5 G6 G7 G8 G9 G10 G11]; subst. assert (Hm : meets root (schema_at (TOpt TInt)) (str "5")).
  { eapply (G7 _ (u "partitions")); [reflexivity|left; reflexivity|]. eexists. split; [reflexivity|]. vm_compute. reflexivity. }
  inversion Hm as [|? ? K1 K2 K3 K4 K5 K6 K7 K8 K9 K10 K11]; subst. destruct (K10 _ eq_refl) as (s & Hi & Hx). cbn in Hi. destruct Hi as [<-|[<-|[]]];
    inversion Hx as [|? ? L1 L2 L3 L4 L5 L6 L7 L8 L9 L10 L11]; subst; specialize (L1 _ eq_refl); unfold has_type in L1;
    repeat match goal with H : _ \/ _ |- _ => destruct H | H : _ /\ _ |- _ => destruct H | H : exists _, _ |- _ => destruct H end; discriminate.
Qed.
(** C95 needs the assumption on URLs (here: a normaliser with an empty result). *)
Definition E2 : env :=
  {| e_digit := fun _ => None; e_word := fun _ => false; e_int := fun _ => None; e_bool := fun _ => None; e_url := fun _ s => Some [] |}.
Lemma docs_row : In T_ExternalDocumentation all_types.
Proof. in_table. Qed.
Theorem c95_url_needed : ~ (forall E t v o, In t all_types -> parse E t v = Some o -> satisfies (model_json_schema t) (dump o)).
Proof.
  intros H. assert (Hp : parse E2 T_ExternalDocumentation (obj [("url", str "u")]) <> None) by (vm_compute; discriminate).
  destruct (parse E2 T_ExternalDocumentation (obj [("url", str "u")])) as [o|] eqn:Eo; [|congruence]. assert (Hs := H _ _ _ _ docs_row Eo).
  assert (Hd : dump o = obj [("url", str "")]) by (vm_compute in Eo; injection Eo as <-; vm_compute; reflexivity). rewrite Hd in Hs.
  unfold satisfies in Hs. unfold model_json_schema in Hs at 2. generalize dependent (model_json_schema T_ExternalDocumentation). intros root Hs. generalize dependent (definitions all_types). intros ds Hs.
  inversion Hs as [|? ? G1 G2 G3 G4 G5 G6 G7 G8 G9 G10 G11]; subst. assert (Hm : meets root (schema_at (TUrl false)) (str "")).
  { eapply (G7 _ (u "url")); [reflexivity|left; reflexivity|]. eexists. split; [reflexivity|]. vm_compute. reflexivity. }
  inversion Hm as [|? ? K1 K2 K3 K4 K5 K6 K7 K8 K9 K10 K11]; subst. specialize (K5 _ _ eq_refl eq_refl). cbn in K5. lia.
Qed.
Print Assumptions c95_written. Print Assumptions c95_changed. Print Assumptions c95_required. Print Assumptions c96_accepted_partial. Print Assumptions c96_refuted. Print Assumptions c96_conversions_needed. Print Assumptions c95_url_needed.
