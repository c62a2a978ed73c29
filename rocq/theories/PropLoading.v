(** Property C83: the whole of loading a document, as its caller sees it. *)
From Verif Require Import PyStr Regex Value Types Rules Pydantic ClassTable Classes Canon Linked SpecParse Sample ProofRules ProofParse
  State SpecState ProofState Resolve SpecResolve ProofResolve PropResolve Unified SpecUnified ProofUnified PropUnified Validators SpecValidators ProofValidators PropValidators
  Pipeline SpecPipeline PropPipeline Messages SpecMessages PropMessages Texts SpecPlaces ProofPlaces PropPlaces Errors SpecErrors ProofErrors PropErrors Loading SpecLoading.
Local Open Scope string_scope.

(** ** One processor *)
Lemma unified_speaks low E doc : no_root_keyword doc ->
  speaks_out low E doc (u "UnifiedReferencesValidator") (fst (unified_says E doc)) (snd (unified_says E doc)).
Proof.
  intros Hn. destruct (traversal E doc doc (u "spec")) as (l & Hl & Hg). assert (Hx := run_split E doc l _ Hn Hg). fold (unified_says E doc) in Hx.
  destruct (unified_says E doc) as [log [m|]]; cbn [fst snd] in *.
  - destruct Hx as (a & [pos [p s]] & b & H1 & H2 & H3 & H4). eapply so_bad_reference; eauto.
  - destruct Hx as [H1 H2]. eapply so_references; eauto.
Qed.
Definition known (doc : pv) : Prop := no_root_keyword doc /\ whole doc.
Lemma stub_in n : existsb (fun s => str_eqb n (u s)) stubs = true -> exists s, In s stubs /\ n = u s.
Proof. intros H. apply existsb_exists in H as (s & H1 & H2). apply str_eqb_eq in H2. eauto. Qed.
Lemma bundled_speaks low E doc n : well_typed E T_AsyncAPI3 doc -> known doc -> bundled E n doc <> None ->
  exists log e, bundled_says low E n doc = Some (log, option_map Some e) /\ speaks_out low E doc n log e.
Proof.
  intros Hwt [Hn Hw] Hb. unfold bundled_says, bundled in *.
  destruct (str_eqb n (u "UnifiedReferencesValidator")) eqn:E1; [apply str_eqb_eq in E1; subst n; eexists _, _; split; [reflexivity|apply unified_speaks; exact Hn]|].
  destruct (str_eqb n (u "TagsRefValidator")) eqn:E2.
  { apply str_eqb_eq in E2; subst n. destruct (tags_says low doc) as [log err] eqn:Et. destruct (proj1 (c77_tags E low doc log err Hwt) Et) as (e & -> & He). exists log, e. split; [reflexivity|]. apply so_tags; [reflexivity|exact He]. }
  destruct (str_eqb n (u "ExternalDocsRefValidator")) eqn:E3.
  { apply str_eqb_eq in E3; subst n. destruct (docs_says low doc) as [log err] eqn:Et. destruct (proj1 (c77_docs E low doc log err Hwt Hw) Et) as (e & -> & He). exists log, e. split; [reflexivity|]. apply so_docs; [reflexivity|exact He]. }
  destruct (existsb _ stubs) eqn:E4; [|congruence]. apply stub_in in E4 as (s & Hs & ->). exists [], None. split; [reflexivity|]. apply (so_stub _ _ _ _ s); auto.
Qed.
Lemma first_refused {X} (P : X -> Prop) (a b a' b' : list X) x x' : (a ++ x :: b)%list = (a' ++ x' :: b')%list -> Forall P a -> Forall P a' -> ~ P x -> ~ P x' -> a = a' /\ x = x'.
Proof.
  revert a'. induction a as [|y a IH]; intros [|y' a'] H Ha Ha' Hx Hx'; cbn [app] in H; injection H as H1 H2.
  - auto.
  - subst. inversion Ha'; subst. contradiction.
  - subst. inversion Ha; subst. contradiction.
  - subst. inversion Ha; inversion Ha'; subst. destruct (IH a' H2) as [-> ->]; auto.
Qed.
Lemma warned_fun doc l : forall log log', warned doc l log -> warned doc l log' -> log = log'.
Proof.
  induction l as [|[pos [p s]] l IH]; intros log log' H H'; inversion H; inversion H'; subst; [reflexivity|].
  match goal with Hw : warns doc s ?w, Hw' : warns doc s ?w' |- (?w ++ _ = ?w' ++ _)%list => rewrite (warns_fun _ _ _ _ Hw Hw') end. f_equal. auto.
Qed.
Lemma lists_fun doc l l' : lists_references doc l -> lists_references doc l' -> l = l'.
Proof. intros [H1 H2] [H3 H4]. apply sorted_unique; [exact H1|exact H3|]. intros [pos [p s]]. rewrite H2, H4. reflexivity. Qed.
Lemma names_apart : NoDup (map u (["UnifiedReferencesValidator"; "TagsRefValidator"; "ExternalDocsRefValidator"] ++ stubs)%list).
Proof. apply nodupb_NoDup. vm_compute. reflexivity. Qed.
Lemma stub_apart n : In n stubs -> u n <> u "UnifiedReferencesValidator" /\ u n <> u "TagsRefValidator" /\ u n <> u "ExternalDocsRefValidator".
Proof.
  intros H. assert (Hn := names_apart). rewrite map_app in Hn. apply Fix.NoDup_app_inv in Hn as (_ & _ & Hd). apply (in_map u) in H.
  repeat split; intros He; rewrite He in H; (apply (Hd _) in H; [exact H|]); cbn; auto.
Qed.
Lemma speaks_fun low E doc n : no_root_keyword doc -> forall log e log' e', speaks_out low E doc n log e -> speaks_out low E doc n log' e' -> log = log' /\ e = e'.
Proof.
  intros Hn log e log' e' H H'.
  Local Ltac apart := exfalso; match goal with Hx : In ?st stubs |- _ => destruct (stub_apart st Hx) as (A1 & A2 & A3); congruence end.
  Local Ltac names := match goal with H1 : ?n = u ?a, H2 : ?n = u ?b |- _ => exfalso; rewrite H1 in H2; discriminate H2 end.
  destruct H as [n l lg Hnm Hl Hf Hw|n l a pos p s b lg m Hnm Hl Hs Hf Hw Hc|n lg er Hnm Hr|n lg er Hnm Hr|n st Hst Hnm];
  inversion H' as [n2 l2 lg2 Hnm2 Hl2 Hf2 Hw2|n2 l2 a2 pos2 p2 s2 b2 lg2 m2 Hnm2 Hl2 Hs2 Hf2 Hw2 Hc2|n2 lg2 er2 Hnm2 Hr2|n2 lg2 er2 Hnm2 Hr2|n2 st2 Hst2 Hnm2];
  subst n2; try (rewrite Hnm in Hnm2; discriminate Hnm2); try apart.
  - rewrite (lists_fun _ _ _ Hl Hl2) in *. split; [eapply warned_fun; eauto|reflexivity].
  - exfalso. rewrite (lists_fun _ _ _ Hl Hl2), Hs2 in Hf. apply Forall_app in Hf as [_ Hf]. inversion Hf as [|? ? Hx _]; subst. exact (complaint_refused _ _ _ _ _ Hn Hc2 Hx).
  - exfalso. rewrite <- (lists_fun _ _ _ Hl Hl2), Hs in Hf2. apply Forall_app in Hf2 as [_ Hf2]. inversion Hf2 as [|? ? Hx _]; subst. exact (complaint_refused _ _ _ _ _ Hn Hc Hx).
  - assert (Hll := lists_fun _ _ _ Hl Hl2). rewrite Hs, Hs2 in Hll.
    destruct (first_refused (SpecMessages.fine E doc) _ _ _ _ _ _ Hll Hf Hf2) as [-> Hx]; [exact (complaint_refused _ _ _ _ _ Hn Hc)|exact (complaint_refused _ _ _ _ _ Hn Hc2)|].
    injection Hx as -> -> ->. split; [eapply warned_fun; eauto|]. f_equal. eapply complaint_fun; eauto.
  - exact (report_fun _ _ _ _ _ _ fam_tags _ _ _ _ Hr Hr2).
  - exact (report_fun _ _ _ _ _ _ fam_docs _ _ _ _ Hr Hr2).
  - split; reflexivity.
Qed.
Lemma proceeds_fun low E doc l : no_root_keyword doc -> forall log e log' e', proceeds low E doc l log e -> proceeds low E doc l log' e' -> log = log' /\ e = e'.
Proof.
  intros Hn. induction l as [|p l IH]; intros log e log' e' H H'; inversion H as [|n1 l1 g1 g1' e1 S1 P1|n1 l1 g1 m1 S1]; inversion H' as [|n2 l2 g2 g2' e2 S2 P2|n2 l2 g2 m2 S2]; subst; try discriminate; [auto| | | | ];
  try match goal with Hv : VProc _ = VProc _ |- _ => injection Hv as -> end; destruct (speaks_fun low E doc _ Hn _ _ _ _ S1 S2) as [-> He]; try discriminate He.
  - destruct (IH _ _ _ _ P1 P2) as [-> ->]. auto.
  - injection He as ->. auto.
Qed.
Lemma processors_speak low E doc l : well_typed E T_AsyncAPI3 doc -> known doc -> all_bundled E l ->
  exists log e, processors_say low E l doc = Some (log, option_map Some e) /\ proceeds low E doc l log e.
Proof.
  intros Hwt Hk. induction l as [|p l IH]; intros Ha; [exists [], None; split; [reflexivity|constructor]|].
  destruct (Ha p (or_introl eq_refl)) as (n & -> & Hb). destruct (bundled_speaks low E doc n Hwt Hk (Hb doc)) as (log & e & Hs & Hp). cbn [processors_say]. rewrite Hs.
  destruct e as [m|]; cbn [option_map].
  - exists log, (Some m). split; [reflexivity|]. apply pr_stop. exact Hp.
  - destruct (IH (fun q Hq => Ha q (or_intror Hq))) as (log' & e' & -> & Hp'). exists (log ++ log')%list, e'. split; [reflexivity|]. apply pr_next; assumption.
Qed.

(** ** C83 *)
(** A document that fails validation of its fields: exactly its faults are reported, none of its processors runs, nothing is logged. *)
Theorem c83_invalid_fields low E v : parse E T_AsyncAPI3 v = None <->
  exists errs, load_says low E v = Some ([], Invalid errs) /\ errs <> [] /\ (forall p why, In (p, why) errs <-> fault E T_AsyncAPI3 v p why) /\ (exists p why, fault E T_AsyncAPI3 v p why).
Proof.
  assert (Hin : In T_AsyncAPI3 all_types) by in_table. split.
  - intros Hp. exists (Errors.report E T_AsyncAPI3 v). unfold load_says. rewrite Hp. split; [reflexivity|].
    assert (Hne : Errors.report E T_AsyncAPI3 v <> []) by (intros H; apply (c78_silent_iff_accepted _ _ _ Hin) in H; congruence). split; [exact Hne|].
    split; [intros p why; apply c78_exactly_the_faults; exact Hin|]. destruct (Errors.report E T_AsyncAPI3 v) as [|[p why] l] eqn:Er; [congruence|]. exists p, why. apply (c78_exactly_the_faults _ _ _ _ _ Hin). rewrite Er. left. reflexivity.
  - intros (errs & _ & _ & _ & p & why & Hf). destruct (parse E T_AsyncAPI3 v) as [doc|] eqn:Ep; [|reflexivity]. apply (c78_exactly_the_faults _ _ _ _ _ Hin) in Hf.
    assert (Hs : Errors.report E T_AsyncAPI3 v = []) by (apply (c78_silent_iff_accepted _ _ _ Hin); congruence). rewrite Hs in Hf. destruct Hf.
Qed.
(** Otherwise the listed processors run in order, converters first, up to the first that objects: its objection is the one error, at the
    root; what was logged is what they had to log until then. *)
Theorem c83_processors low E v doc conv vals log r : parse E T_AsyncAPI3 v = Some doc -> no_objects v -> no_root_keyword doc ->
  listed doc "extra_converters" conv -> listed doc "extra_validators" vals -> all_bundled E conv -> all_bundled E vals ->
  (load_says low E v = Some (log, r) <->
   exists e, proceeds low E doc (conv ++ vals) log e /\ r = match e with None => Loaded doc | Some m => Invalid [([], Says m)] end).
Proof.
  intros Hp Ho Hn Hc Hv Ac Av. assert (Hin : In T_AsyncAPI3 all_types) by in_table. assert (Hwt := parse_wt _ _ _ _ (wf_all _ Hin) Hp). assert (Hw := parsed_whole _ _ _ Hp Ho).
  assert (Ha : all_bundled E (conv ++ vals)) by (intros q Hq; apply in_app_or in Hq as [Hq|Hq]; auto).
  destruct (processors_speak low E doc (conv ++ vals) Hwt (conj Hn Hw) Ha) as (log0 & e0 & Hs & Hpr). apply listed_processors in Hc, Hv.
  assert (Hl : load_says low E v = Some (log0, match e0 with None => Loaded doc | Some m => Invalid [([], Says m)] end)).
  { unfold load_says. rewrite Hp, Hc, Hv, Hs. destruct e0; reflexivity. }
  rewrite Hl. split.
  - intros [= <- <-]. eauto.
  - intros (e & He & ->). destruct (proceeds_fun low E doc _ Hn _ _ _ _ Hpr He) as [-> ->]. reflexivity.
Qed.
(** The outcome is that of the model of the processor pipeline (C39, C41). *)
Theorem c83_same_outcome low E acts v doc conv vals calls r : standard E acts -> parse E T_AsyncAPI3 v = Some doc -> no_objects v -> no_root_keyword doc ->
  listed doc "extra_converters" conv -> listed doc "extra_validators" vals -> all_bundled E conv -> all_bundled E vals -> construct acts E v calls r ->
  (r = Some doc <-> exists log, load_says low E v = Some (log, Loaded doc)) /\ (r = None <-> exists log m, load_says low E v = Some (log, Invalid [([], Says m)])).
Proof.
  intros Hst Hp Ho Hn Hc Hv Ac Av Hcon. assert (Hin : In T_AsyncAPI3 all_types) by in_table. assert (Hwt := parse_wt _ _ _ _ (wf_all _ Hin) Hp). assert (Hw := parsed_whole _ _ _ Hp Ho).
  destruct (c41_unchanged E acts v doc conv vals calls r Hst Hp Hc Hv Ac Av Hcon) as (_ & Hr & Hacc).
  assert (Hsame : forall n b, bundled E n doc = Some b -> forall log e, bundled_says low E n doc = Some (log, e) -> (e = None <-> b = true)).
  { intros n b Hb log e Hs. unfold bundled, bundled_says in *. destruct (str_eqb n (u "UnifiedReferencesValidator")).
    - injection Hb as <-. injection Hs as _ <-. assert (H := c75_same_verdict E doc). destruct (snd (unified_says E doc)), (unified E doc); cbn [returns option_map];
        try (assert (Hx := proj2 H eq_refl); discriminate Hx); try (assert (Hx := proj1 H eq_refl); discriminate Hx); split; intros Hx; (reflexivity || discriminate Hx).
    - destruct (str_eqb n (u "TagsRefValidator")); [|destruct (str_eqb n (u "ExternalDocsRefValidator"))].
      + injection Hb as <-. injection Hs as _ <-. destruct (snd (tags_validator doc)); cbn; split; intros Hx; (reflexivity || discriminate Hx).
      + injection Hb as <-. injection Hs as _ <-. destruct (snd (docs_validator doc)); cbn; split; intros Hx; (reflexivity || discriminate Hx).
      + destruct (existsb _ stubs); [|discriminate Hb]. injection Hb as <-. injection Hs as _ <-. split; reflexivity. }
  assert (Hall : forall l, all_bundled E l -> forall log e, processors_say low E l doc = Some (log, e) -> (e = None <-> forall p, In p l -> accepts E doc p)).
  { induction l as [|p l IH]; intros Ha log e Hs; cbn [processors_say] in Hs; [injection Hs as _ <-; split; [intros _ p []|reflexivity]|].
    destruct (Ha p (or_introl eq_refl)) as (n & -> & Hb). specialize (Hb doc). destruct (bundled E n doc) as [b|] eqn:Eb; [|congruence].
    destruct (bundled_says low E n doc) as [[lg [x|]]|] eqn:Es; [| |discriminate Hs].
    - injection Hs as _ <-. split; [discriminate|]. intros H. destruct (H _ (or_introl eq_refl)) as (n' & Hn' & Hb'). injection Hn' as <-. rewrite Eb in Hb'. injection Hb' as Hb'.
      apply (Hsame n b Eb _ _ Es) in Hb'. discriminate Hb'.
    - destruct (processors_say low E l doc) as [[log' e']|] eqn:Er; [|discriminate Hs]. injection Hs as _ <-. rewrite (IH (fun q Hq => Ha q (or_intror Hq)) _ _ eq_refl).
      assert (Hb' : b = true) by (apply (Hsame n b Eb _ _ Es); reflexivity). subst b. split; [|intros H p Hi; apply H; right; exact Hi]. intros H p [<-|Hi]; [exists n; auto|auto]. }
  assert (Ha : all_bundled E (conv ++ vals)) by (intros q Hq; apply in_app_or in Hq as [Hq|Hq]; auto).
  destruct (processors_speak low E doc (conv ++ vals) Hwt (conj Hn Hw) Ha) as (log0 & e0 & Hs & _). specialize (Hall _ Ha _ _ Hs). apply listed_processors in Hc, Hv.
  assert (Hl : load_says low E v = Some (log0, match e0 with None => Loaded doc | Some m => Invalid [([], Says m)] end)).
  { unfold load_says. rewrite Hp, Hc, Hv, Hs. destruct e0; reflexivity. }
  rewrite Hl. destruct e0 as [m|]; cbn [option_map] in Hall.
  - assert (Hno : r <> Some doc) by (intros Hx; assert (Hy := proj2 Hall (proj1 Hacc Hx)); discriminate Hy). destruct Hr as [->|Hr]; [|contradiction]. split; split.
    + discriminate.
    + intros [log H]. discriminate H.
    + eauto.
    + reflexivity.
  - assert (Hyes : r = Some doc) by exact (proj2 Hacc (proj1 Hall eq_refl)). subst r. split; split; try discriminate; eauto. intros (log & m & H). discriminate H.
Qed.
(** A document whose tag reference is outside, whose message trait is missing, and that lists two validators. *)
Definition docL (ref_ : string) : pv :=
  obj [("asyncapi", str "3.0.0"); ("info", obj [("title", str "t"); ("version", str "1"); ("tags", VList [ref "https://e.org/t"])]);
       ("channels", obj [("c", obj [("tags", VList [ref ref_])])]);
       ("extra_validators", VList [VProc (u "TagsRefValidator"); VProc (u "UnifiedReferencesValidator")])].
Example c83_ex : let v := docL "#/components/tags/gone" in parse E0 T_AsyncAPI3 v = Some (load_doc v) /\ no_objects v /\ no_root_keyword (load_doc v)
  /\ listed (load_doc v) "extra_converters" [] /\ listed (load_doc v) "extra_validators" [VProc (u "TagsRefValidator"); VProc (u "UnifiedReferencesValidator")]
  /\ all_bundled E0 [VProc (u "TagsRefValidator"); VProc (u "UnifiedReferencesValidator")]
  /\ load_says (fun s => s) E0 v = Some ([u "Info tag reference 'https://e.org/t' is external. Cannot validate external references."],
       Invalid [([], Says (u "Channel 'c' references tag 'gone' but tag does not exist in components/tags."))]).
Proof.
  cbv zeta. split; [apply load_doc_ok; vm_compute; reflexivity|]. split; [apply plain_dec; vm_compute; reflexivity|]. split; [apply no_root_dec; vm_compute; reflexivity|].
  split; [|split; [|split]].
  - vm_compute. eexists _, _, _. split; [reflexivity|]. auto.
  - vm_compute. eexists _, _, _. split; [reflexivity|]. auto.
  - intros p [<-|[<-|[]]]; eexists; (split; [reflexivity|]); intros doc; discriminate.
  - vm_compute. reflexivity.
Qed.
Example c83_ex_fine : exists log, load_says (fun s => s) E0 (docL "https://e.org/u") = Some (log, Loaded (load_doc (docL "https://e.org/u"))) /\ length log = 4.
Proof. eexists. split; vm_compute; reflexivity. Qed.
Print Assumptions c83_invalid_fields.
Print Assumptions c83_processors.
Print Assumptions c83_same_outcome.
