(** C74: validating an existing object again leaves it as it is exactly when it is valid. *)
From Verif Require Import PyStr Regex Value Types Rules Pydantic ClassTable Classes Canon Fix Linked SpecParse Sample ProofRules ProofParse
  State SpecState ProofState PropState Resolve SpecResolve ProofResolve Dump SpecDump ProofDump PropDump SpecDeep PropDeep
  Unified SpecUnified ProofUnified ProofCheck Validators Pipeline SpecPipeline PropUnified PropPipeline SpecRevalidate.
Local Open Scope string_scope.

Fixpoint strict (ts : list ty) : bool :=
  match ts with [] => true | t :: r => forallb (fun t' => rejects t' t && rejects t t') r && strict r end.
(** [looser tame t]: a union whose last member is a plain dictionary *)
Definition looser (tame : ty -> bool) : ty -> bool :=
  fix go t := match t with
  | TOpt t' => go t'
  | TUnion [a; b; TDict TAny] => strict [a; b] && tame a && tame b
  | _ => false
  end.
Fixpoint tame (t : ty) : bool :=
  match t with
  | TList t' | TDict t' | TOpt t' | TRoot _ t' => tame t'
  | TUnion ts => strict ts && forallb tame ts
  | TModel c _ fs => forallb (fun ft => match ft with (fi, t') =>
      if String.eqb c "KafkaMessageBindings" && str_eqb (f_name fi) (u "key")
      then looser tame t'
      else tame t' end) fs
  | _ => true
  end.
Lemma all_tame : forallb tame all_types = true.
Proof. vm_compute. reflexivity. Qed.
Definition clean (v : pv) : Prop := python_dicts v /\ no_shadowing v.
Lemma clean_closed : closed clean.
Proof.
  constructor; intros.
  - apply Forall_and; [apply (cl_list _ pd_closed)|apply (cl_list _ ns_closed)]; apply H.
  - apply Forall_and; [apply (cl_dict _ pd_closed)|apply (cl_dict _ ns_closed)]; apply H.
  - destruct H as [Ha Hb]. apply (cl_obj _ pd_closed) in Ha. apply (cl_obj _ ns_closed) in Hb. split; apply Forall_and; tauto.
  - apply Forall_and; [eapply (cl_root _ pd_closed)|eapply (cl_root _ ns_closed)]; apply H.
Qed.
Lemma clean_fit v : clean v -> extras_fit v.
Proof.
  intros [Hp Hw] c fv ex ->. split; [exact (proj2 (pd_here _ Hp))|]. intros Hk k Hin Hd. apply (Hw c fv ex k (w_self _) Hk Hin). exact (infos_declared c k Hd).
Qed.
Notation okc := (fun _ : pv => True).
Lemma union_canon E ts v : strict ts = true ->
  (forall t, In t ts -> well_typed E t v -> canon okc E t v /\ exists n, validate E t v = Some (v, n)) ->
  wt_one (fun t => well_typed E t v) ts -> canon_union (fun t => canon okc E t v) (fun t => validate E t v = None) ts
    /\ exists t n, In t ts /\ validate E t v = Some (v, n).
Proof.
  induction ts as [|t r IH]; cbn [strict wt_one canon_union]; intros Hs Hv Hw; [destruct Hw|].
  apply andb_prop in Hs as [Ha Hs]. rewrite forallb_forall in Ha. destruct Hw as [Hw|Hw].
  - destruct (Hv t (or_introl eq_refl) Hw) as [Hc [n Hn]]. split; [|exists t, n; split; [left; reflexivity|exact Hn]].
    left. split; [exact Hc|]. apply Forall_forall. intros t' Ht'. specialize (Ha t' Ht'). apply andb_prop in Ha as [Ha _]. eapply rejects_None; eauto.
  - destruct (IH Hs (fun t' Ht' => Hv t' (or_intror Ht')) Hw) as [Hc (t' & n & Ht' & Hn)]. split; [|exists t', n; split; [right; exact Ht'|exact Hn]].
    right. split; [|exact Hc]. specialize (Ha t' Ht'). apply andb_prop in Ha as [_ Ha]. eapply rejects_None; eauto.
Qed.
Record good (E : env) (v : pv) : Prop := { g_valid : valid_throughout E v; g_settled : settled v; g_clean : clean v }.
Lemma good_sub E v x : good E v -> within x v -> good E x.
Proof.
  intros [Hv Hs [Hp Hn]] Hw. constructor.
  - intros y Hy. apply Hv. eapply within_trans; eauto.
  - intros fv ex d Hy. apply (Hs fv ex d). eapply within_trans; eauto.
  - split; [intros y Hy; apply Hp; eapply within_trans; eauto|]. intros c fv ex k Hy. apply (Hn c fv ex k). eapply within_trans; eauto.
Qed.
Definition fits (t : ty) (v : pv) : Prop := tame t = true \/ (looser tame t = true /\ forall d, v <> VDict d).
Lemma wt_canon E t : url_idem E -> linked t = true -> wf_ty t = true -> forall v, fits t v -> well_typed E t v -> good E v -> canon okc E t v.
Proof.
  intros Hu. induction t using ty_ind'; intros Hl Hw v Ht Hwt Hg; cbn [well_typed canon] in *.
  - exact I.
  - destruct Hwt as (s & -> & H). exists s. split; [reflexivity|apply len_ok_iff; exact H].
  - destruct Hwt as (s & -> & H). exists s. split; [reflexivity|apply email_ok_iff; exact H].
  - exact Hwt.
  - exact Hwt.
  - destruct Hwt as (s & s0 & -> & H). eauto.
  - destruct Hwt as (s & -> & H). exists s. split; [reflexivity|apply mem_str_In; exact H].
  - destruct Hwt as (s & -> & H). exists s. split; [reflexivity|apply mem_Z_In; exact H].
  - destruct Hwt as (l & -> & H). exists l. split; [reflexivity|]. rewrite Forall_forall in *. destruct Ht as [Ht|[Ht _]]; [|discriminate Ht].
    intros x Hx. apply (IHt Hl Hw x (or_introl Ht) (H _ Hx)). eapply good_sub; [exact Hg|]. econstructor; [exact Hx|constructor].
  - destruct Hwt as (d & -> & H). exists d. split; [reflexivity|]. rewrite Forall_forall in *. destruct Ht as [Ht|[Ht _]]; [|discriminate Ht].
    intros [k x] Hx. apply (IHt Hl Hw x (or_introl Ht) (H _ Hx)). eapply good_sub; [exact Hg|]. econstructor; [exact Hx|constructor].
  - destruct Hwt as [->|Hwt]; [left; reflexivity|right; apply IHt; auto].
  - rewrite Forall_forall in H.
    assert (Hone : forall t, In t ts -> tame t = true -> well_typed E t v -> canon okc E t v /\ exists n, validate E t v = Some (v, n)).
    { intros t Hin Htm Hwt'. assert (Hc := H t Hin (linked_union _ _ Hl Hin) (wf_union _ _ Hw Hin) v (or_introl Htm) Hwt' Hg).
      split; [exact Hc|]. exact (canon_fix okc clean E t Hu clean_closed clean_fit (wf_union _ _ Hw Hin) v Hc (g_clean _ _ Hg)). }
    destruct Ht as [Ht|[Ht Hnd]].
    + cbn [tame] in Ht. apply andb_prop in Ht as [Hs Ht]. rewrite forallb_forall in Ht. apply union_canon; [exact Hs| |exact Hwt]. intros t Hin. apply Hone; [exact Hin|exact (Ht t Hin)].
    + cbn [looser] in Ht. destruct ts as [|a [|b [|c [|z ts]]]]; try discriminate Ht; [|exfalso; destruct c as [| | | | | | | | |c| | | | |]; try discriminate Ht; destruct c; discriminate Ht].
      destruct c as [| | | | | | | | |[]| | | | |]; try discriminate Ht. apply andb_prop in Ht as [Ht Hb]. apply andb_prop in Ht as [Hs Ha].
      destruct (union_canon E [a; b] v Hs) as [Hc _].
      * intros t [<-|[<-|[]]]; [apply Hone; [left; reflexivity|exact Ha]|apply Hone; [right; left; reflexivity|exact Hb]].
      * cbn [wt_one] in *. destruct Hwt as [Hwt|[Hwt|[Hwt|[]]]]; [left; exact Hwt|right; left; exact Hwt|]. cbn [well_typed] in Hwt. destruct Hwt as (d & -> & _). exfalso. exact (Hnd d eq_refl).
      * assert (Hd : validate E (TDict TAny) v = None). { cbn [validate]. destruct v; try reflexivity. exfalso. exact (Hnd _ eq_refl). }
        cbn [canon_union] in *. destruct Hc as [[Hc Hr]|[Hr [[Hc Hr']|[_ []]]]].
        -- left. split; [exact Hc|]. inversion Hr; subst. constructor; [assumption|constructor; [exact Hd|constructor]].
        -- right. split; [exact Hr|]. left. split; [exact Hc|]. constructor; [exact Hd|constructor].
  - destruct Hwt as (l & -> & H). exists l. split; [reflexivity|]. apply forallb_forall. rewrite Forall_forall in H. intros x Hx. destruct (H x Hx) as [n ->]. reflexivity.
  - destruct Hwt as (fv & ex & -> & Hwf & _). exists fv, ex. split; [reflexivity|].
    destruct (g_valid _ _ Hg _ (w_self _)) as (k' & fs' & Hin & _ & Hcross & Hex).
    assert (Hkf : k' = k /\ fs' = fs). { apply linked_all, linked_class in Hin. apply linked_class in Hl. rewrite Hl in Hin. injection Hin as -> ->. auto. }
    destruct Hkf as [-> ->]. clear Hin. destruct Ht as [Ht|[Ht _]]; [|discriminate Ht]. split; [|split].
    + cbn [tame] in Ht. rewrite forallb_forall in Ht. rewrite Forall_forall in H.
      assert (Hsub : forall ft, In ft fs -> linked (snd ft) = true /\ wf_ty (snd ft) = true) by (intros ft Hft; split; [exact (linked_sub _ _ _ _ Hl Hft)|exact (wf_sub _ _ _ _ Hw Hft)]).
      assert (Hgs : forall kv, In kv fv -> good E (snd kv)) by (intros [q x] Hx; eapply good_sub; [exact Hg|]; eapply w_field; [exact Hx|constructor]).
      assert (Hset : c = "KafkaMessageBindings" -> forall d, ~ In (u "key", VDict d) fv) by (intros -> d; exact (g_settled _ _ Hg fv ex d (w_self _))).
      clear Hl Hw Hg Hcross Hex. revert fv Hwf Hgs Hset. induction fs as [|[fi t] fs IHfs]; intros [|[q x] fv] Hwf Hgs Hset; cbn [wt_fields canon_fields] in *; try tauto.
      destruct Hwf as (-> & Hx & Hrule & Hwf). split.
      * split; [reflexivity|]. split; [|apply fv_check_iff; exact Hrule]. destruct (Hsub (fi, t) (or_introl eq_refl)) as [Hlt Hwt]. cbn [snd] in Hlt, Hwt.
        assert (Hxg := Hgs _ (or_introl eq_refl)). cbn [snd] in Hxg. assert (Htm := Ht (fi, t) (or_introl eq_refl)). cbn beta iota in Htm.
        apply (H (fi, t) (or_introl eq_refl) Hlt Hwt x); [|exact Hx|exact Hxg].
        destruct (String.eqb c "KafkaMessageBindings" && str_eqb (f_name fi) (u "key"))%bool eqn:Ek; [right|left; exact Htm].
        apply andb_prop in Ek as [Ek1 Ek2]. apply String.eqb_eq in Ek1. apply str_eqb_eq in Ek2. split; [exact Htm|].
        intros d ->. apply (Hset Ek1 d). left. rewrite Ek2. reflexivity.
      * apply IHfs; auto.
        -- intros ft Hft. apply H. right. exact Hft.
        -- intros ft Hft. apply Ht. right. exact Hft.
        -- intros ft Hft. apply Hsub. right. exact Hft.
        -- intros kv Hkv. apply Hgs. right. exact Hkv.
        -- intros Hc d Hd. apply (Hset Hc d). right. exact Hd.
    + apply Forall_forall. intros; exact I.
    + unfold after_ok. apply andb_true_intro. split; [|apply hook_iff; exact Hcross].
      destruct k; cbn [extras_ok extras_valid] in *; [|rewrite Hex; reflexivity|reflexivity].
      apply forallb_forall. intros kv Hkv. apply ext_key_iff. apply Hex. apply in_map. exact Hkv.
  - destruct Hwt as (d & -> & H). exists d. split; [reflexivity|]. destruct Ht as [Ht|[Ht _]]; [|discriminate Ht].
    destruct (g_valid _ _ Hg _ (w_self _)) as (t' & Hin & Hd). split.
    + rewrite Forall_forall in *. intros [k x] Hx. apply (IHt (linked_root_sub _ _ Hl) Hw x (or_introl Ht) (H _ Hx)). eapply good_sub; [exact Hg|]. econstructor; [exact Hx|constructor].
    + unfold root_keys_ok. apply forallb_forall. intros [key x] Hx. apply patterned_key_iff. exact (proj1 (Hd key x Hx)).
Qed.

(** ** C74 *)
(** A valid object, however it was obtained, is returned as it is. *)
Theorem c74_valid_unchanged E t o : In t all_types -> url_idem E -> python_dicts o -> no_shadowing o -> settled o ->
  well_typed E t o -> valid_throughout E o -> parse E t o = Some o.
Proof.
  intros Hin Hu Hp Hn Hs Hw Hv. assert (Htm : tame t = true) by exact (proj1 (forallb_forall _ _) all_tame t Hin).
  assert (Hc : canon okc E t o) by (apply (wt_canon E t Hu (linked_all _ Hin) (wf_all _ Hin) o (or_introl Htm) Hw); constructor; [exact Hv|exact Hs|split; assumption]).
  apply parse_some. exact (canon_fix okc clean E t Hu clean_closed clean_fit (wf_all _ Hin) o Hc (conj Hp Hn)).
Qed.
(** So validating again tells valid objects (whatever has been done to them) from others. *)
Theorem c74_unchanged_iff E t o : In t all_types -> url_idem E -> python_dicts o -> no_shadowing o -> settled o -> json_data t o ->
  (parse E t o = Some o <-> well_typed E t o /\ valid_throughout E o).
Proof.
  intros Hin Hu Hp Hn Hs Hj. split.
  - intros H. split; [exact (parse_wt _ _ _ _ (wf_all _ Hin) H)|exact (c52_instances_valid _ _ _ _ Hin H Hj)].
  - intros [Hw Hv]. apply c74_valid_unchanged; assumption.
Qed.
(** Whatever comes out of validating again is valid, and validating once more changes nothing. *)
Theorem c74_once E t o o' : In t all_types -> url_idem E -> python_dicts o -> parse E t o = Some o' -> no_shadowing o' ->
  well_typed E t o' /\ (json_data t o' -> valid_throughout E o') /\ parse E t o' = Some o'.
Proof.
  intros Hin Hu Hp H Hn. split; [exact (parse_wt _ _ _ _ (wf_all _ Hin) H)|]. split; [exact (c52_instances_valid _ _ _ _ Hin H)|].
  exact (c16_revalidation E t o o' Hu (or_introl Hin) Hp H Hn).
Qed.
(** A valid document with the bundled processors: constructing it again returns it if and only if they all accept it. *)
Theorem c74_document E acts doc conv vals calls r : standard E acts -> url_idem E -> python_dicts doc -> no_shadowing doc -> settled doc ->
  well_typed E T_AsyncAPI3 doc -> valid_throughout E doc ->
  listed doc "extra_converters" conv -> listed doc "extra_validators" vals -> all_bundled E conv -> all_bundled E vals ->
  construct acts E doc calls r ->
  (forall c, In c calls -> c_in c = doc /\ c_out c = doc) /\ (r = None \/ r = Some doc) /\ (r = Some doc <-> forall p, In p (conv ++ vals)%list -> accepts E doc p).
Proof.
  intros Hst Hu Hp Hn Hs Hw Hv Hc1 Hc2 A1 A2 H. assert (HinA : In T_AsyncAPI3 all_types) by (apply Linked.find_class_In; vm_compute; reflexivity).
  exact (c41_unchanged E acts doc doc conv vals calls r Hst (c74_valid_unchanged E _ doc HinA Hu Hp Hn Hs Hw Hv) Hc1 Hc2 A1 A2 H).
Qed.
(** In particular a document that was accepted once is accepted again, unchanged. *)
Theorem c74_accepted_again E acts v doc conv vals calls calls' r : standard E acts -> url_idem E -> python_dicts v -> no_shadowing doc ->
  listed doc "extra_converters" conv -> listed doc "extra_validators" vals -> all_bundled E conv -> all_bundled E vals -> parse E T_AsyncAPI3 v = Some doc ->
  construct acts E v calls (Some doc) -> construct acts E doc calls' r -> r = Some doc.
Proof.
  intros Hst Hu Hp Hn Hc1 Hc2 A1 A2 Hd H H'. assert (HinA : In T_AsyncAPI3 all_types) by (apply Linked.find_class_In; vm_compute; reflexivity).
  assert (Hdd := c16_revalidation E _ v doc Hu (or_introl HinA) Hp Hd Hn).
  destruct (c41_unchanged E acts v doc conv vals calls (Some doc) Hst Hd Hc1 Hc2 A1 A2 H) as (_ & _ & [Hok _]).
  destruct (c41_unchanged E acts doc doc conv vals calls' r Hst Hdd Hc1 Hc2 A1 A2 H') as (_ & _ & [_ Hback]). apply Hback, Hok. reflexivity.
Qed.
(** ** Cases *)
Definition settled_b (x : pv) : bool :=
  match x with VObj c fv _ => negb (String.eqb c "KafkaMessageBindings") || forallb (fun kv => negb (str_eqb (fst kv) (u "key")) || match snd kv with VDict _ => false | _ => true end) fv | _ => true end.
Lemma settled_dec v : all_within settled_b v = true -> settled v.
Proof.
  intros H fv ex d Hw Hin. assert (Hx := all_within_spec _ _ _ Hw H). cbn [settled_b] in Hx. rewrite String.eqb_refl in Hx. cbn [negb orb] in Hx.
  rewrite forallb_forall in Hx. specialize (Hx _ Hin). cbn [fst snd] in Hx. rewrite str_eqb_refl in Hx. discriminate Hx.
Qed.
(** The document after [doc.channels["d"] = x]. *)
Definition set_channel (k : string) (x doc : pv) : pv :=
  match doc with
  | VObj c fv ex => VObj c (map (fun kv => if str_eqb (fst kv) (u "channels") then (fst kv, match snd kv with VRoot r d => VRoot r (dict_set (u k) x d) | y => y end) else kv) fv) ex
  | _ => doc
  end.
Definition loaded0 : pv := load_doc doc0.
Definition channel_d : pv := match parse E0 T_Channel (obj [("address", str "z")]) with Some c => c | None => VNone end.
Definition doc0d : pv :=
  obj [("info", obj [("title", str "T"); ("version", str "1"); ("x-a", VInt 1)]);
       ("channels", obj [("c", obj [("address", str "a/{p}"); ("parameters", obj [("p", ref "#/x")]);
                                    ("messages", obj [("m", obj [("payload", obj [("type", str "object"); ("whatever", VInt 3)])])])]);
                         ("d", obj [("address", str "z")])]);
       ("servers", obj [("s", obj [("host", str "h"); ("protocol", str "kafka")])])].
(** After loading, a proper Channel object is put in (nothing to repair), a plain dictionary (turned into a Channel),
    and something that is no channel at all (rejected). *)
Example c74_ex :
  let good_doc := set_channel "d" channel_d loaded0 in let raw_doc := set_channel "d" (obj [("address", str "z")]) loaded0 in let bad_doc := set_channel "d" (VInt 1) loaded0 in
  good_doc <> loaded0 /\ (python_dicts good_doc /\ no_shadowing good_doc /\ settled good_doc) /\ parse E0 T_AsyncAPI3 good_doc = Some good_doc
  /\ raw_doc <> good_doc /\ parse E0 T_AsyncAPI3 raw_doc = Some good_doc /\ parse E0 T_AsyncAPI3 bad_doc = None
  /\ well_typed E0 T_AsyncAPI3 good_doc /\ valid_throughout E0 good_doc.
Proof.
  assert (HinA : In T_AsyncAPI3 all_types) by (apply Linked.find_class_In; vm_compute; reflexivity).
  assert (Hp : parse E0 T_AsyncAPI3 (set_channel "d" channel_d loaded0) = Some (set_channel "d" channel_d loaded0)) by (vm_compute; reflexivity).
  cbv zeta. split; [vm_compute; discriminate|]. split; [split; [apply python_dicts_dec; vm_compute; reflexivity|split; [apply no_shadowing_dec; vm_compute; reflexivity|apply settled_dec; vm_compute; reflexivity]]|].
  split; [exact Hp|]. split; [vm_compute; discriminate|]. split; [vm_compute; reflexivity|]. split; [vm_compute; reflexivity|].
  split; [exact (parse_wt _ _ _ _ (wf_all _ HinA) Hp)|].
  assert (Hd : parse E0 T_AsyncAPI3 doc0d = Some (set_channel "d" channel_d loaded0)) by (vm_compute; reflexivity).
  refine (c52_parsed_valid E0 _ doc0d _ HinA _ Hd). apply json_dec. vm_compute. reflexivity.
Qed.
(** [settled] is needed: a valid Kafka binding whose key is a dictionary that (by now) is a schema. *)
Definition kafka_dict : pv := VObj "KafkaMessageBindings"
  [(u "key", VDict [(u "type", VStr (u "object"))]); (u "schema_id_location", VNone); (u "schema_id_payload_encoding", VNone); (u "schema_lookup_strategy", VNone); (u "binding_version", VStr (u "0.5.0"))] [].
Theorem c74_settled_needed : exists o, python_dicts kafka_dict /\ no_shadowing kafka_dict /\ json_data T_KafkaMessageBindings kafka_dict
  /\ well_typed E0 T_KafkaMessageBindings kafka_dict /\ valid_throughout E0 kafka_dict
  /\ parse E0 T_KafkaMessageBindings kafka_dict = Some o /\ o <> kafka_dict.
Proof.
  destruct (parse E0 T_KafkaMessageBindings kafka_dict) as [o|] eqn:Eo; [|vm_compute in Eo; discriminate Eo]. exists o.
  assert (Hin : In T_KafkaMessageBindings all_types) by in_table.
  split; [apply python_dicts_dec; vm_compute; reflexivity|]. split; [apply no_shadowing_dec; vm_compute; reflexivity|].
  assert (Hk : well_typed E0 (TOpt (TUnion [T_Schema; T_Reference; TDict TAny])) (VDict [(u "type", VStr (u "object"))])).
  { right. right. right. left. eexists. split; [reflexivity|]. repeat constructor. }
  assert (Hwf : wt_fields E0 (well_typed E0) [
    (fld "key" "key" (Some VNone) true false FvNone, TOpt (TUnion [T_Schema; T_Reference; TDict TAny]));
    (fld "schema_id_location" "schemaIdLocation" (Some VNone) true false FvNone, TOpt (TStr None));
    (fld "schema_id_payload_encoding" "schemaIdPayloadEncoding" (Some VNone) true false FvNone, TOpt (TStr None));
    (fld "schema_lookup_strategy" "schemaLookupStrategy" (Some VNone) true false FvNone, TOpt (TStr None));
    (fld "binding_version" "bindingVersion" (Some (VStr (u "0.5.0"))) false false FvNone, TStr None)]
    [(u "key", VDict [(u "type", VStr (u "object"))]); (u "schema_id_location", VNone); (u "schema_id_payload_encoding", VNone); (u "schema_lookup_strategy", VNone); (u "binding_version", VStr (u "0.5.0"))]).
  { cbn [wt_fields]. split; [reflexivity|]. split; [exact Hk|]. split; [exact I|].
    do 3 (split; [reflexivity|split; [left; reflexivity|split; [exact I|]]]). split; [reflexivity|]. split; [|split; [exact I|exact I]].
    eexists. split; [reflexivity|]. discriminate. }
  split; [|split; [|split; [|split; [reflexivity|intros ->; vm_compute in Eo; discriminate Eo]]]].
  - unfold T_KafkaMessageBindings, kafka_dict. cbn [json_data]. intros _. split; [|constructor]. cbn [json_fields]. split; [|repeat split; left; reflexivity].
    right. cbn [each json_data]. split; [exact I|]. split; [exact I|]. split; [|exact I]. repeat constructor. apply json_dec. reflexivity.
  - unfold T_KafkaMessageBindings, kafka_dict. cbn [well_typed]. eexists _, _. split; [reflexivity|]. split; [exact Hwf|]. split; [reflexivity|discriminate].
  - intros x Hx. destruct x as [| | | | | | | |c fv ex|c d| |]; try exact I.
    + apply within_inv in Hx as [Hx|(q & y & [Hy|Hy] & Hx)]; [|exfalso|destruct Hy].
      * injection Hx as -> -> ->. eexists _, _. split; [exact Hin|]. split; [exact Hwf|]. split; [apply hook_iff; reflexivity|reflexivity].
      * repeat (destruct Hy as [Hy|Hy]; [injection Hy as <- <-; try (apply within_atom in Hx; discriminate Hx)|]); [|destruct Hy].
        apply within_inv in Hx as [Hx|(q & y & [Hy|[]] & Hx)]; [discriminate Hx|]. injection Hy as <- <-. apply within_atom in Hx. discriminate Hx.
    + exfalso. apply within_inv in Hx as [Hx|(q & y & [Hy|Hy] & Hx)]; [discriminate Hx| |destruct Hy].
      repeat (destruct Hy as [Hy|Hy]; [injection Hy as <- <-; try (apply within_atom in Hx; discriminate Hx)|]); [|destruct Hy].
      apply within_inv in Hx as [Hx|(q & y & [Hy|[]] & Hx)]; [discriminate Hx|]. injection Hy as <- <-. apply within_atom in Hx. discriminate Hx.
Qed.
