(** Proofs about the tag and external-documentation validators: each check visits exactly the references
    found at its location, in order. *)
From Verif Require Import PyStr Regex Value Types Rules Pydantic ClassTable Classes Canon Linked SpecParse ProofRules ProofParse
  State SpecState ProofState Resolve SpecResolve ProofResolve Validators SpecValidators.
Local Open Scope string_scope.

(** ** References at a location, in order *)
Fixpoint gather (p : list dstep) (v : pv) : list pystr :=
  match p with
  | [] => match as_reference v with Some s => [s] | None => [] end
  | Attr f :: p' =>
      match v with
      | VObj _ fv ex => match assoc (u f) fv with
                        | Some x => gather p' x
                        | None => match assoc (u f) ex with Some x => gather p' x | None => [] end
                        end
      | _ => []
      end
  | Each :: p' =>
      match v with
      | VList l => flat_map (gather p') l
      | VRoot _ d => flat_map (fun kv => gather p' (snd kv)) d
      | _ => []
      end
  end.
Lemma gather_selects p : forall v s, In s (gather p v) <-> exists r, selects v p r /\ is_reference r s.
Proof.
  induction p as [|[f|] p IH]; intros v s; cbn [gather].
  - split.
    + destruct (as_reference v) as [s'|] eqn:E; [|intros []]. intros [<-|[]]. exists v. split; [constructor|]. apply as_reference_iff. exact E.
    + intros (r & H & Hr). inversion H; subst. apply as_reference_iff in Hr. rewrite Hr. left. reflexivity.
  - split.
    + destruct v; try (intros []). destruct (assoc (u f) fs) as [x|] eqn:E1.
      * intros H. apply IH in H as (r & H & Hr). exists r. split; [|exact Hr]. eapply se_field; eauto.
      * destruct (assoc (u f) ex) as [x|] eqn:E2; [|intros []]. intros H. apply IH in H as (r & H & Hr).
        exists r. split; [|exact Hr]. eapply se_extra; eauto.
    + intros (r & H & Hr). inversion H as [|c fv ex g x p0 r0 Ha Hs|c fv ex g x p0 r0 Hn Ha Hs| |]; subst.
      * rewrite Ha. apply IH. eauto.
      * rewrite Hn, Ha. apply IH. eauto.
  - split.
    + destruct v; try (intros []); intros H; apply in_flat_map in H as (x & Hx & H).
      * apply IH in H as (r & H & Hr). exists r. split; [|exact Hr]. eapply se_item; eauto.
      * destruct x as [k x]. apply IH in H as (r & H & Hr). exists r. split; [|exact Hr]. eapply se_entry; eauto.
    + intros (r & H & Hr). inversion H as [| | |l x p0 r0 Hi Hs|c d k x p0 r0 Hi Hs]; subst; apply in_flat_map.
      * exists x. split; [exact Hi|]. apply IH. eauto.
      * exists (k, x). split; [exact Hi|]. apply IH. eauto.
Qed.
Lemma gather_falsy p v : truthy v = false -> gather p v = [].
Proof.
  intros H. destruct p as [|[f|] p]; destruct v; cbn [truthy] in H; try discriminate H; cbn [gather as_reference]; try reflexivity.
  - destruct l; [reflexivity|discriminate H].
  - destruct d; [reflexivity|discriminate H].
Qed.

(** ** Effects without contexts *)
Definition feff := (list pystr * option (fault * pystr))%type.
Definition forget (e : effect) : feff := (map snd (fst e), option_map (fun x => (fst (fst x), snd x)) (snd e)).
Definition fthen (a b : feff) : feff := match a with (w, None) => ((w ++ fst b)%list, snd b) | (w, Some e) => (w, Some e) end.
Fixpoint visit (chk : pystr -> feff) (l : list pystr) : feff :=
  match l with [] => ([], None) | s :: r => fthen (chk s) (visit chk r) end.
Lemma forget_then a b : forget (then_ a b) = fthen (forget a) (forget b).
Proof. destruct a as [w [e|]]; unfold forget; cbn; [reflexivity|]. rewrite map_app. reflexivity. Qed.
Lemma fthen_nil_r a : fthen a ([], None) = a.
Proof. destruct a as [w [e|]]; cbn; [reflexivity|]. rewrite app_nil_r. reflexivity. Qed.
Lemma fthen_assoc a b c : fthen (fthen a b) c = fthen a (fthen b c).
Proof. destruct a as [w [e|]]; cbn; [reflexivity|]. destruct b as [w' [e'|]]; cbn; [reflexivity|]. rewrite app_assoc. reflexivity. Qed.
Lemma visit_app chk a b : visit chk (a ++ b)%list = fthen (visit chk a) (visit chk b).
Proof.
  induction a as [|s a IH]; cbn [app visit]; [destruct (visit chk b); reflexivity|]. rewrite IH, fthen_assoc. reflexivity.
Qed.
Lemma visit_one chk s : visit chk [s] = chk s.
Proof. cbn [visit]. apply fthen_nil_r. Qed.
Lemma visit_ok chk l : snd (visit chk l) = None <-> forall s, In s l -> snd (chk s) = None.
Proof.
  induction l as [|s l IH]; cbn [visit]; [split; [intros _ s []|reflexivity]|].
  destruct (chk s) as [w [e|]] eqn:E; cbn [fthen snd].
  - split; [discriminate 1|]. intros H. specialize (H s (or_introl eq_refl)). rewrite E in H. discriminate H.
  - rewrite IH. split; intros H.
    + intros x [<-|Hx]; [rewrite E; reflexivity|auto].
    + intros x Hx. apply H. right. exact Hx.
Qed.
Lemma visit_warned chk l : snd (visit chk l) = None -> fst (visit chk l) = flat_map (fun s => fst (chk s)) l.
Proof.
  induction l as [|s l IH]; cbn [visit flat_map]; [reflexivity|]. destruct (chk s) as [w [e|]]; cbn [fthen fst snd]; [discriminate 1|].
  intros H. rewrite IH; [reflexivity|exact H].
Qed.
Lemma visit_fault chk l e : snd (visit chk l) = Some e ->
  exists l1 s l2, l = (l1 ++ s :: l2)%list /\ snd (chk s) = Some e /\ forall x, In x l1 -> snd (chk x) = None.
Proof.
  induction l as [|s l IH]; cbn [visit]; [discriminate 1|]. destruct (chk s) as [w [e'|]] eqn:E; cbn [fthen snd].
  - intros H. exists [], s, l. rewrite E. split; [reflexivity|]. split; [exact H|intros x []].
  - intros H. destruct (IH H) as (l1 & x & l2 & -> & Hx & Hl). exists (s :: l1), x, l2. split; [reflexivity|]. split; [exact Hx|].
    intros y [<-|Hy]; [rewrite E; reflexivity|auto].
Qed.

(** ** One reference *)
Section One.
  Context (prefix : pystr) (f : string) (doc : pv).
  Definition chk (s : pystr) : feff :=
    if starts_with (u "#") s then forget (internal_ref prefix f doc [] s) else ([s], None).
  Lemma internal_ctx ctx s : forget (internal_ref prefix f doc ctx s) = forget (internal_ref prefix f doc [] s).
  Proof.
    unfold internal_ref. destruct (starts_with prefix s); [|reflexivity]. unfold dot.
    destruct (getattr doc "components") as [c|]; [|reflexivity]. destruct (truthy c); [|reflexivity].
    destruct (getattr c f) as [m|]; [|reflexivity]. destruct (truthy m); [|reflexivity].
    destruct m; try reflexivity. destruct (has_key (replace prefix [] s) d); reflexivity.
  Qed.
  Lemma one_ref_chk ctx r s : is_reference r s -> forget (one_ref prefix f doc ctx r) = chk s.
  Proof.
    intros (fv & ex & -> & Ha). unfold one_ref, dot. cbn [getattr]. rewrite Ha. unfold chk.
    destruct (starts_with (u "#") s); [apply internal_ctx|reflexivity].
  Qed.
End One.

(** Every Reference instance carries its string. *)
Definition whole (v : pv) : Prop := forall fv ex, within (VObj "Reference" fv ex) v -> exists s, assoc (u "ref") fv = Some (VStr s).

Lemma whole_part x y : whole x -> within y x -> whole y.
Proof. intros H Hy fv ex Hw. apply (H fv ex). eapply within_trans; eassumption. Qed.
(** ** Checks *)
Section Fits.
  Context (E : env) (prefix : pystr) (f0 : string) (doc : pv) (W : pv -> Prop).
  Hypothesis HW : forall x y, W x -> within y x -> W y.
  Local Notation check_one := (one_ref prefix f0 doc).
  Local Notation seen := (chk prefix f0 doc).
  Definition fits (t : ty) (p : list dstep) (K : pv -> effect) : Prop :=
    forall x, well_typed E t x -> W x -> forget (K x) = visit seen (gather p x).
  Lemma obj_shape c k fs v : well_typed E (TModel c k fs) v -> exists fv ex, v = VObj c fv ex /\ wt_fields E (well_typed E) fs fv /\ (k = KForbid -> ex = []).
  Proof. cbn [well_typed]. intros (fv & ex & H1 & H2 & H3 & _). eauto. Qed.
  Lemma find_typed fs : forall fv name fi t, wt_fields E (well_typed E) fs fv -> find_field name fs = Some (fi, t) ->
    exists x, assoc name fv = Some x /\ well_typed E t x.
  Proof.
    induction fs as [|[gi s] fs IH]; intros [|[k v] fv] name fi t H Hf; cbn [wt_fields] in H; try contradiction; [discriminate Hf|].
    destruct H as (-> & Hw & Hr & H). cbn [find_field fst] in Hf. cbn [assoc]. destruct (str_eqb name (f_name gi)).
    - injection Hf as -> ->. eauto.
    - eapply IH; eassumption.
  Qed.
  Lemma fits_dot c k fs f fi t p K : find_field (u f) fs = Some (fi, t) -> fits t p K ->
    fits (TModel c k fs) (Attr f :: p) (fun x => dot x f K).
  Proof.
    intros Hf HK v Hv Hw. apply obj_shape in Hv as (fv & ex & -> & Hv & _). destruct (find_typed _ _ _ _ _ Hv Hf) as (x & Hx & Ht).
    unfold dot. cbn [getattr gather]. rewrite Hx. apply HK; [exact Ht|]. eapply HW; [exact Hw|].
    eapply w_field; [apply assoc_In; exact Hx|apply w_self].
  Qed.
  Lemma fits_empty t p K : fits t p K -> fits t p (fun x => unless_empty x K).
  Proof.
    intros HK v Hv Hw. unfold unless_empty. destruct (truthy v) eqn:Et; [apply HK; assumption|]. rewrite gather_falsy; [reflexivity|exact Et].
  Qed.
  Lemma fits_opt t p K : fits t p K -> fits (TOpt t) p (fun x => unless_empty x K).
  Proof.
    intros HK v [->|Hv] Hw; [|exact (fits_empty t p K HK v Hv Hw)]. unfold unless_empty. cbn [truthy]. rewrite gather_falsy; reflexivity.
  Qed.
  Lemma fits_items c t p K : (forall name, fits t p (K name)) -> fits (TRoot c t) (Each :: p) (fun x => items x K).
  Proof.
    intros HK v Hv Hw. cbn [well_typed] in Hv. destruct Hv as (d & -> & Hd). cbn [items gather].
    assert (Hin : forall k x, In (k, x) d -> W x).
    { intros k x Hx. eapply HW; [exact Hw|]. eapply w_root; [exact Hx|apply w_self]. }
    clear Hw. induction Hd as [|[k x] d Hx Hd IH]; cbn [for_each flat_map fst snd]; [reflexivity|].
    rewrite forget_then, visit_app. f_equal.
    - apply HK; [exact Hx|]. apply (Hin k). left. reflexivity.
    - apply IH. intros k' x' H'. apply (Hin k'). right. exact H'.
  Qed.
  Lemma fits_elements t p K : (forall i, fits t p (K i)) -> fits (TList t) (Each :: p) (fun x => elements x K).
  Proof.
    intros HK v Hv Hw. cbn [well_typed] in Hv. destruct Hv as (l & -> & Hl). cbn [elements gather].
    assert (Hin : forall x, In x l -> W x).
    { intros x Hx. eapply HW; [exact Hw|]. eapply w_list; [exact Hx|apply w_self]. }
    clear Hw. generalize 0. induction Hl as [|x l Hx Hl IH]; intros i; cbn [for_enum flat_map]; [reflexivity|].
    rewrite forget_then, visit_app. f_equal.
    - apply HK; [exact Hx|]. apply Hin. left. reflexivity.
    - apply IH. intros x' H'. apply Hin. right. exact H'.
  Qed.
  Lemma reference_shape v : well_typed E T_Reference v -> exists s, v = VObj "Reference" [(u "ref", VStr s)] [].
  Proof.
    intros H. apply obj_shape in H as (fv & ex & -> & H & Hx). rewrite (Hx eq_refl). cbn [wt_fields] in H.
    destruct fv as [|[k x] fv]; [destruct H|]. destruct H as (-> & H & _ & Hr). destruct fv; [|destruct Hr].
    cbn [well_typed] in H. destruct H as (s & -> & _). exists s. reflexivity.
  Qed.
  Lemma fits_skip_ref c k fs f p K : String.eqb c "Reference" = false -> str_eqb (u f) (u "ref") = false -> fits (TModel c k fs) (Attr f :: p) K ->
    fits (TUnion [TModel c k fs; T_Reference]) (Attr f :: p) (fun x => unless_ref x (K x)).
  Proof.
    intros Hc Hf HK v Hv Hw. unfold unless_ref. destruct Hv as [Hv|[Hv|[]]].
    - destruct (obj_shape _ _ _ _ Hv) as (fv & ex & -> & _). cbn [is_ref]. rewrite Hc. apply HK; assumption.
    - destruct (reference_shape _ Hv) as (s & ->). cbn [is_ref String.eqb gather assoc].
      rewrite Hf. reflexivity.
  Qed.
  Lemma fits_ref_here c k fs (ctx : pystr) : String.eqb c "Reference" = false ->
    fits (TUnion [TModel c k fs; T_Reference]) [] (fun x => if is_ref x then check_one ctx x else done).
  Proof.
    intros Hc v Hv Hw. destruct Hv as [Hv|[Hv|[]]].
    - destruct (obj_shape _ _ _ _ Hv) as (fv & ex & -> & _). cbn [is_ref gather as_reference]. rewrite Hc. reflexivity.
    - destruct (reference_shape _ Hv) as (s & ->). cbn [is_ref]. rewrite String.eqb_refl. rewrite (one_ref_chk _ _ _ _ _ s).
      + cbn [gather]. replace (as_reference (VObj "Reference" [(u "ref", VStr s)] [])) with (Some s) by reflexivity.
        rewrite visit_one. reflexivity.
      + exists [(u "ref", VStr s)], []. split; reflexivity.
  Qed.
  Lemma fits_hasattr c k fs f fi t p K : find_field (u f) fs = Some (fi, TOpt t) -> str_eqb (u f) (u "ref") = false -> fits t p K ->
    fits (TUnion [TModel c k fs; T_Reference]) (Attr f :: p)
      (fun o => match getattr o f with Some x => unless_empty x K | None => done end).
  Proof.
    intros Hf Hr HK v Hv Hw. destruct Hv as [Hv|[Hv|[]]].
    - assert (H := fits_dot c k fs f fi (TOpt t) p (fun x => unless_empty x K) Hf (fits_opt t p K HK) v Hv Hw).
      destruct (obj_shape _ _ _ _ Hv) as (fv & ex & -> & Hv' & _). destruct (find_typed _ _ _ _ _ Hv' Hf) as (x & Hx & _).
      unfold dot in H. cbn [getattr] in H |- *. rewrite Hx in H |- *. exact H.
    - destruct (reference_shape _ Hv) as (s & ->). cbn [getattr gather assoc].
      rewrite Hr. reflexivity.
  Qed.
  (** _validate_ref_field needs no typing at all. *)
  Lemma field_any (ctx : pystr) v : whole v ->
    forget (match getattr v "external_docs" with
            | Some x => unless_empty x (fun x => if is_ref x then check_one ctx x else done) | None => done end)
    = visit seen (gather [Attr "external_docs"] v).
  Proof.
    intros Hw.
    assert (Hx : forall x, whole x -> forget (unless_empty x (fun x => if is_ref x then check_one ctx x else done)) = visit seen (gather [] x)).
    { intros x Hxw. unfold unless_empty. destruct (truthy x) eqn:Et; [|rewrite gather_falsy; [reflexivity|exact Et]].
      destruct (is_ref x) eqn:Er.
      - destruct x; try discriminate Er. apply String.eqb_eq in Er. subst c. destruct (Hxw _ _ (w_self _)) as [s Hs].
        rewrite (one_ref_chk _ _ _ _ _ s); [|exists fs, ex; split; [reflexivity|exact Hs]].
        replace (gather [] (VObj "Reference" fs ex)) with [s]; [rewrite visit_one; reflexivity|].
        cbn [gather]. assert (Ha : as_reference (VObj "Reference" fs ex) = Some s).
        { apply as_reference_iff. exists fs, ex. split; [reflexivity|exact Hs]. }
        rewrite Ha. reflexivity.
      - replace (gather [] x) with (@nil pystr); [reflexivity|]. cbn [gather]. destruct (as_reference x) as [s|] eqn:Ea; [|reflexivity].
        apply as_reference_iff in Ea as (fv & ex & -> & _). discriminate Er. }
    destruct v; try reflexivity.
    cbn [getattr gather]. destruct (assoc (u "external_docs") fs) as [x|] eqn:E1.
    - apply Hx. eapply whole_part; [exact Hw|]. eapply w_field; [apply assoc_In; exact E1|apply w_self].
    - destruct (assoc (u "external_docs") ex) as [x|] eqn:E2; [|reflexivity].
      apply Hx. eapply whole_part; [exact Hw|]. eapply w_extra; [apply assoc_In; exact E2|apply w_self].
  Qed.
End Fits.

(** ** The individual checks *)
Ltac head_type := lazymatch goal with
  | |- fits ?E ?p ?f ?d ?W ?t ?l ?K => let t' := eval hnf in t in change (fits E p f d W t' l K)
  end.
Ltac fit_step := cbv beta; head_type; lazymatch goal with
  | |- fits _ _ _ _ _ (TModel _ _ _) (Attr _ :: _) (fun x => dot x _ _) => eapply fits_dot; [first [exact whole_part|intros; exact I]|reflexivity|]
  | |- fits _ _ _ _ _ (TOpt _) _ (fun x => unless_empty x _) => apply fits_opt
  | |- fits _ _ _ _ _ _ _ (fun x => unless_empty x _) => apply fits_empty
  | |- fits _ _ _ _ _ (TRoot _ _) (Each :: _) (fun x => items x _) => apply fits_items; [first [exact whole_part|intros; exact I]|intros ?name]
  | |- fits _ _ _ _ _ (TList _) (Each :: _) (fun x => elements x _) => apply fits_elements; [first [exact whole_part|intros; exact I]|intros ?i]
  | |- fits _ _ _ _ _ _ (Attr _ :: _) (fun x => unless_ref x _) => refine (fits_skip_ref _ _ _ _ _ _ _ _ _ _ _ _ _ _); [reflexivity|reflexivity|]
  | |- fits _ _ _ _ _ _ [] (fun x => if is_ref x then _ else _) => apply fits_ref_here; reflexivity
  | |- fits _ _ _ _ _ _ (Attr _ :: _) (fun o => match getattr o _ with Some _ => _ | None => _ end) => eapply fits_hasattr; [first [exact whole_part|intros; exact I]|reflexivity|reflexivity|]
  end.
Lemma use_dot E prefix f0 doc (W : pv -> Prop) (HW : forall x y, W x -> within y x -> W y) v c k fs f fi t p K : well_typed E (TModel c k fs) v -> W v -> find_field (u f) fs = Some (fi, t) ->
  fits E prefix f0 doc W t p K -> forget (dot v f K) = visit (chk prefix f0 doc) (gather (Attr f :: p) v).
Proof. intros Hv Hw Hf HK. exact (fits_dot E prefix f0 doc W HW c k fs f fi t p K Hf HK v Hv Hw). Qed.
Section Tags.
  Context (E : env) (doc : pv) (Hwt : well_typed E T_AsyncAPI3 doc).
  Local Notation seen := (chk tag_prefix "tags" doc).
  Ltac start := unfold section, component; eapply (use_dot E _ _ _ (fun _ => True)); [intros; exact I|exact Hwt|exact I|reflexivity|].
  Lemma fits_tags_list ctx : fits E tag_prefix "tags" doc (fun _ => True) (TList (TUnion [T_Tag; T_Reference])) [Each] (tags_list doc ctx).
  Proof. unfold tags_list. repeat fit_step. Qed.
  Lemma tags_each : Forall2 (fun check path => forget (check doc) = visit seen (gather path doc)) tags_checks tag_locations.
  Proof.
    unfold tags_checks, tag_locations. repeat (apply Forall2_cons;
      [unfold tags_info, tags_servers, tags_channels, tags_channels_messages, tags_operations, tags_c_messages, tags_c_channels,
        tags_c_operations, tags_c_servers, tags_c_operation_traits, tags_c_message_traits, tags_c_channels_messages, tags_c_tags,
        tags_collection, tags_messages_of, tag_ref; start; repeat fit_step; try apply fits_tags_list|]). apply Forall2_nil.
  Qed.
End Tags.
Section Docs.
  Context (E : env) (doc : pv) (Hwt : well_typed E T_AsyncAPI3 doc) (Hw : whole doc).
  Local Notation seen := (chk docs_prefix "external_docs" doc).
  Ltac start := unfold section, component; eapply (use_dot E _ _ _ whole); [exact whole_part|exact Hwt|exact Hw|reflexivity|].
  Lemma fits_ref_field t ctx : fits E docs_prefix "external_docs" doc whole t [Attr "external_docs"] (ref_field doc ctx).
  Proof. intros v _ Hv. apply field_any. exact Hv. Qed.
  Lemma fits_docs_tags ctx : fits E docs_prefix "external_docs" doc whole (TList (TUnion [T_Tag; T_Reference])) [Each; Attr "external_docs"] (docs_tags doc ctx).
  Proof. unfold docs_tags. repeat fit_step. apply fits_ref_field. Qed.
  Lemma docs_each : Forall2 (fun check path => forget (check doc) = visit seen (gather path doc)) docs_checks docs_locations.
  Proof.
    unfold docs_checks, docs_locations. repeat (apply Forall2_cons;
      [unfold docs_info, docs_info_tags, docs_servers, docs_channels, docs_channels_messages, docs_channels_messages_headers,
   docs_channels_messages_payload, docs_channels_messages_tags, docs_channels_messages_traits, docs_channels_messages_traits_headers,
   docs_channels_messages_traits_tags, docs_operations, docs_operations_tags, docs_operations_traits, docs_operations_traits_tags,
   docs_c_channels, docs_c_external_docs, docs_c_messages, docs_c_messages_headers, docs_c_messages_payload, docs_c_message_traits,
   docs_c_message_traits_headers, docs_c_operations, docs_c_operation_traits, docs_c_servers, docs_c_tags, docs_c_schemas,
   docs_collection, channel_messages, traits_of, each_operation, c_part, doc_ref; start; repeat fit_step; first [apply fits_ref_field|apply fits_docs_tags|idtac]|]). apply Forall2_nil.
  Qed.
End Docs.

(** ** What one reference needs *)
Lemma replace_skip old new a : forall rest, replace_go old new (length a) (a ++ rest)%list = replace_go old new 0 rest.
Proof. induction a as [|c a IH]; intros rest; cbn [length app]; [reflexivity|]. cbn [replace_go]. apply IH. Qed.
Lemma replace_hit p s : p <> [] -> replace p [] (p ++ s)%list = replace p [] s.
Proof.
  intros Hp. destruct p as [|c p]; [contradiction|]. unfold replace. cbn [app replace_go].
  assert (Hs := starts_with_app (c :: p) s). cbn [app] in Hs. rewrite Hs. cbn [app length]. rewrite Nat.sub_succ, Nat.sub_0_r. apply replace_skip.
Qed.
Lemma replace_miss p c s : starts_with p (c :: s) = false -> replace p [] (c :: s) = c :: replace p [] s.
Proof. intros H. unfold replace. cbn [replace_go]. rewrite H. reflexivity. Qed.
Lemma erased_replace p s k : p <> [] -> erased p s k -> replace p [] s = k.
Proof.
  intros Hp H. induction H as [|s k H IH|c s k Hn H IH]; [reflexivity| |].
  - rewrite replace_hit; assumption.
  - rewrite replace_miss; [rewrite IH; reflexivity|]. destruct (starts_with p (c :: s)) eqn:E; [|reflexivity].
    apply starts_with_iff in E as [r Hr]. destruct (Hn r Hr).
Qed.
Lemma replace_erased p : p <> [] -> forall s, erased p s (replace p [] s).
Proof.
  intros Hp s. remember (length s) as n eqn:Hn. revert s Hn. induction n as [n IH] using lt_wf_ind. intros [|c s] Hn; [constructor|].
  destruct (starts_with p (c :: s)) eqn:E.
  - apply starts_with_iff in E as [r Hr]. rewrite Hr, replace_hit; [|exact Hp]. apply er_hit. apply (IH (length r)); [|reflexivity].
    assert (Hl := f_equal (@length N) Hr). rewrite app_length in Hl. rewrite Hn, Hl. destruct p; [contradiction|]. cbn [length]. lia.
  - rewrite replace_miss; [|exact E]. apply er_miss.
    + intros r Hr. assert (Hx : starts_with p (c :: s) = true) by (apply starts_with_iff; eauto). rewrite Hx in E. discriminate E.
    + apply (IH (length s)); [subst n; cbn [length]; lia|reflexivity].
Qed.
Lemma hash_prefix p f s : family p f -> starts_with p s = true -> starts_with (u "#") s = true.
Proof.
  intros Hf Hs. apply starts_with_iff in Hs as [r ->]. destruct Hf as [[-> _]|[-> _]]; reflexivity.
Qed.
Lemma family_nonempty p f : family p f -> p <> [].
Proof. intros [[-> _]|[-> _]]; discriminate 1. Qed.
Lemma outside_iff s : outside s <-> starts_with (u "#") s = false.
Proof.
  split.
  - intros H. destruct (starts_with (u "#") s) eqn:E; [|reflexivity]. apply starts_with_iff in E as [r Hr]. destruct (H r Hr).
  - intros H r Hr. assert (Hx : starts_with (u "#") s = true) by (apply starts_with_iff; eauto). rewrite Hx in H. discriminate H.
Qed.
(** The map the references name. *)
Definition comp_map (doc : pv) (f : string) : option fields :=
  match getattr doc "components" with
  | Some c => match getattr c f with Some (VRoot _ d) => Some d | _ => None end
  | None => None
  end.
Lemma family_comp E doc p f : well_typed E T_AsyncAPI3 doc -> family p f ->
  exists c, getattr doc "components" = Some c /\ (c = VNone \/
    (truthy c = true /\ exists m, getattr c f = Some m /\ (m = VNone \/ exists n d, m = VRoot n d))).
Proof.
  intros Hwt Hf. destruct (obj_shape E _ _ _ _ Hwt) as (fv & ex & -> & Hfv & _).
  destruct (find_typed E _ _ (u "components") _ _ Hfv eq_refl) as (c & Hc & Ht). exists c. cbn [getattr]. rewrite Hc. split; [reflexivity|].
  destruct Ht as [->|Ht]; [left; reflexivity|right]. destruct (obj_shape E _ _ _ _ Ht) as (cv & cx & -> & Hcv & _). split; [reflexivity|].
  destruct Hf as [[_ ->]|[_ ->]].
  - destruct (find_typed E _ _ (u "tags") _ _ Hcv eq_refl) as (m & Hm & Hmt). exists m. cbn [getattr]. rewrite Hm. split; [reflexivity|].
    destruct Hmt as [->|Hmt]; [left; reflexivity|right]. cbn [well_typed] in Hmt. destruct Hmt as (d & -> & _). eauto.
  - destruct (find_typed E _ _ (u "external_docs") _ _ Hcv eq_refl) as (m & Hm & Hmt). exists m. cbn [getattr]. rewrite Hm. split; [reflexivity|].
    destruct Hmt as [->|Hmt]; [left; reflexivity|right]. cbn [well_typed] in Hmt. destruct Hmt as (d & -> & _). eauto.
Qed.
Lemma entry_comp E doc p f key : well_typed E T_AsyncAPI3 doc -> family p f ->
  entry_at doc ["components"; f] key = match comp_map doc f with Some d => assoc key d | None => None end.
Proof.
  intros Hwt Hf. destruct (family_comp E doc p f Hwt Hf) as (c & Hc & Hx). unfold comp_map. rewrite Hc.
  destruct (obj_shape E _ _ _ _ Hwt) as (fv & ex & -> & Hfv & _).
  destruct (find_typed E _ _ (u "components") _ _ Hfv eq_refl) as (c' & Hc' & Ht').
  cbn [getattr] in Hc. rewrite Hc' in Hc. injection Hc as ->. cbn [entry_at]. unfold get, attr at 1. rewrite Hc'.
  destruct Hx as [->|(_ & m & Hm & Hx)]; [reflexivity|]. rewrite Hm.
  destruct Ht' as [->|Ht']; [discriminate Hm|]. destruct (obj_shape E _ _ _ _ Ht') as (cv & cx & -> & Hcv & _).
  assert (Ha : assoc (u f) cv = Some m).
  { cbn [getattr] in Hm. destruct Hf as [[_ ->]|[_ ->]].
    - destruct (find_typed E _ _ (u "tags") _ _ Hcv eq_refl) as (m' & Hm' & _). rewrite Hm' in Hm |- *. exact Hm.
    - destruct (find_typed E _ _ (u "external_docs") _ _ Hcv eq_refl) as (m' & Hm' & _). rewrite Hm' in Hm |- *. exact Hm. }
  unfold get, attr. rewrite Ha. destruct Hx as [->|(n & d & ->)]; reflexivity.
Qed.
(** The outcome for one reference string. *)
Lemma chk_cases E doc p f s : well_typed E T_AsyncAPI3 doc -> family p f ->
  chk p f doc s =
    if starts_with (u "#") s then
      if starts_with p s then
        match entry_at doc ["components"; f] (replace p [] s) with Some _ => ([], None) | None => ([], Some (Missing, replace p [] s)) end
      else ([], Some (Elsewhere, s))
    else ([s], None).
Proof.
  intros Hwt Hf. unfold chk. destruct (starts_with (u "#") s); [|reflexivity]. unfold internal_ref. destruct (starts_with p s); [|reflexivity].
  rewrite (entry_comp E doc p f _ Hwt Hf). unfold comp_map, dot.
  destruct (family_comp E doc p f Hwt Hf) as (c & -> & [->|(Ht & m & Hm & Hx)]); [reflexivity|]. rewrite Ht, Hm.
  destruct Hx as [->|(n & d & ->)]; [reflexivity|]. cbn [truthy]. destruct d as [|kv d]; [reflexivity|].
  destruct (has_key (replace p [] s) (kv :: d)) eqn:Ek.
  - apply has_key_iff, key_assoc in Ek as [v ->]. reflexivity.
  - destruct (assoc (replace p [] s) (kv :: d)) as [v|] eqn:Ea; [|reflexivity]. apply assoc_Some_key, has_key_iff in Ea. rewrite Ek in Ea. discriminate Ea.
Qed.
Lemma chk_ok E doc p f s : well_typed E T_AsyncAPI3 doc -> family p f -> (snd (chk p f doc s) = None <-> reference_ok doc p f s).
Proof.
  intros Hwt Hf. rewrite (chk_cases E doc p f s Hwt Hf). unfold reference_ok.
  destruct (starts_with (u "#") s) eqn:Eh.
  - destruct (starts_with p s) eqn:Ep.
    + destruct (entry_at doc ["components"; f] (replace p [] s)) as [v|] eqn:Ee; cbn [snd].
      * split; [|reflexivity]. intros _. right. split; [apply starts_with_iff; exact Ep|]. exists (replace p [] s), v.
        split; [apply replace_erased; eapply family_nonempty; exact Hf|exact Ee].
      * split; [discriminate 1|]. intros [Ho|(_ & key & v & Hk & Hv)].
        -- apply outside_iff in Ho. rewrite Ho in Eh. discriminate Eh.
        -- apply erased_replace in Hk; [|eapply family_nonempty; exact Hf]. subst key. rewrite Hv in Ee. discriminate Ee.
    + cbn [snd]. split; [discriminate 1|]. intros [Ho|(Hp & _)].
      * apply outside_iff in Ho. rewrite Ho in Eh. discriminate Eh.
      * apply starts_with_iff in Hp. rewrite Hp in Ep. discriminate Ep.
  - cbn [snd]. split; [|reflexivity]. intros _. left. apply outside_iff. exact Eh.
Qed.
Lemma chk_warned E doc p f s x : well_typed E T_AsyncAPI3 doc -> family p f -> (In x (fst (chk p f doc s)) <-> x = s /\ outside s).
Proof.
  intros Hwt Hf. rewrite (chk_cases E doc p f s Hwt Hf), outside_iff. destruct (starts_with (u "#") s).
  - destruct (starts_with p s); [destruct (entry_at doc ["components"; f] (replace p [] s))|]; cbn [fst In]; (split; [intros []|intros [_ H]; discriminate H]).
  - cbn [fst In]. split; [intros [<-|[]]; auto|intros [-> _]; left; reflexivity].
Qed.

(** ** All checks together *)
Lemma run_all (seen : pystr -> feff) checks locations doc :
  Forall2 (fun check path => forget (check doc) = visit seen (gather path doc)) checks locations ->
  forget (run_checks checks doc) = visit seen (flat_map (fun p => gather p doc) locations).
Proof.
  unfold run_checks. induction 1 as [|c p cs ps Hc H IH]; cbn [for_each flat_map]; [reflexivity|].
  rewrite forget_then, visit_app, Hc, IH. reflexivity.
Qed.
Lemma gathered locations doc s : In s (flat_map (fun p => gather p doc) locations) <-> found locations doc s.
Proof.
  rewrite in_flat_map. unfold found. split.
  - intros (p & Hp & H). apply gather_selects in H as (r & H & Hr). eauto.
  - intros (p & r & Hp & H & Hr). exists p. split; [exact Hp|]. apply gather_selects. eauto.
Qed.
Lemma forget_ok e : snd e = None <-> snd (forget e) = None.
Proof. destruct e as [w [x|]]; cbn; split; intros H; try discriminate H; reflexivity. Qed.
Lemma forget_warned e : map snd (fst e) = fst (forget e).
Proof. reflexivity. Qed.
Lemma forget_fault e f ctx s : snd e = Some (f, ctx, s) -> snd (forget e) = Some (f, s).
Proof. destruct e as [w o]. cbn. intros ->. reflexivity. Qed.
