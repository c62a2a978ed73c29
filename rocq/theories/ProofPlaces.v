(** Proofs about the sentences of the tag and external-documentation validators: each check visits the references of its location
    in order and calls their places as the table says. *)
From Verif Require Import PyStr Regex Value Types Rules Pydantic ClassTable Classes Canon Linked SpecParse ProofRules ProofParse
  State SpecState ProofState Resolve SpecResolve ProofResolve Validators SpecValidators ProofValidators Texts SpecPlaces.
Local Open Scope string_scope.

Lemma then_done_r a : then_ a done = a.
Proof. destruct a as [w [e|]]; cbn; [reflexivity|]. rewrite app_nil_r. reflexivity. Qed.
Lemma then_assoc a b c : then_ (then_ a b) c = then_ a (then_ b c).
Proof. destruct a as [w [e|]]; cbn; [reflexivity|]. destruct b as [w' [e'|]]; cbn; [reflexivity|]. rewrite app_assoc. reflexivity. Qed.
Lemma for_each_app {X} (g : X -> effect) a b : for_each g (a ++ b)%list = then_ (for_each g a) (for_each g b).
Proof.
  induction a as [|x a IH]; cbn [app for_each]; [unfold done, then_; destruct (for_each g b); reflexivity|]. rewrite IH, then_assoc. reflexivity.
Qed.
Lemma sites_falsy p v : truthy v = false -> sites p v = [].
Proof.
  intros H. destruct p as [|[f|] p]; destruct v; cbn [truthy] in H; try discriminate H; cbn [sites as_reference]; try reflexivity.
  - destruct l; [reflexivity|discriminate H].
  - destruct d; [reflexivity|discriminate H].
Qed.

Section Fits.
  Context (E : env) (prefix : pystr) (f0 : string) (doc : pv) (W : pv -> Prop).
  Hypothesis HW : forall x y, W x -> within y x -> W y.
  Local Notation check_one := (one_ref prefix f0 doc).
  Definition see (cs : pystr * pystr) : effect :=
    if starts_with (u "#") (snd cs) then internal_ref prefix f0 doc (fst cs) (snd cs) else ([cs], None).
  Definition named (ctx : list name -> pystr) (l : list (list name * pystr)) : list (pystr * pystr) := map (fun ns => (ctx (fst ns), snd ns)) l.
  Lemma one_ref_see ctx r s : is_reference r s -> check_one ctx r = for_each see [(ctx, s)].
  Proof.
    intros (fv & ex & -> & Ha). cbn [for_each]. rewrite then_done_r. unfold one_ref, dot, see. cbn [getattr fst snd]. rewrite Ha. reflexivity.
  Qed.
  Definition nfits (ctx : list name -> pystr) (t : ty) (p : list dstep) (K : pv -> effect) : Prop :=
    forall x, well_typed E t x -> W x -> K x = for_each see (named ctx (sites p x)).
  Lemma nfits_dot ctx c k fs f fi t p K : find_field (u f) fs = Some (fi, t) -> nfits ctx t p K ->
    nfits ctx (TModel c k fs) (Attr f :: p) (fun x => dot x f K).
  Proof.
    intros Hf HK v Hv Hw. apply obj_shape in Hv as (fv & ex & -> & Hv & _). destruct (find_typed _ _ _ _ _ _ Hv Hf) as (x & Hx & Ht).
    unfold dot. cbn [getattr sites]. rewrite Hx. apply HK; [exact Ht|]. eapply HW; [exact Hw|].
    eapply w_field; [apply assoc_In; exact Hx|apply w_self].
  Qed.
  Lemma nfits_empty ctx t p K : nfits ctx t p K -> nfits ctx t p (fun x => unless_empty x K).
  Proof.
    intros HK v Hv Hw. unfold unless_empty. destruct (truthy v) eqn:Et; [apply HK; assumption|]. rewrite sites_falsy; [reflexivity|exact Et].
  Qed.
  Lemma nfits_opt ctx t p K : nfits ctx t p K -> nfits ctx (TOpt t) p (fun x => unless_empty x K).
  Proof.
    intros HK v [->|Hv] Hw; [|exact (nfits_empty ctx t p K HK v Hv Hw)]. unfold unless_empty. cbn [truthy]. rewrite sites_falsy; reflexivity.
  Qed.
  Lemma named_inside ctx n l : named ctx (map (fun ns => (n :: fst ns, snd ns)) l) = named (fun ns => ctx (n :: ns)) l.
  Proof. unfold named. rewrite map_map. reflexivity. Qed.
  Lemma named_app ctx a b : named ctx (a ++ b)%list = (named ctx a ++ named ctx b)%list.
  Proof. apply map_app. Qed.
  Lemma nfits_items ctx c t p K : (forall k, nfits (fun ns => ctx (Key k :: ns)) t p (K k)) -> nfits ctx (TRoot c t) (Each :: p) (fun x => items x K).
  Proof.
    intros HK v Hv Hw. cbn [well_typed] in Hv. destruct Hv as (d & -> & Hd). cbn [items sites].
    assert (Hin : forall k x, In (k, x) d -> W x).
    { intros k x Hx. eapply HW; [exact Hw|]. eapply w_root; [exact Hx|apply w_self]. }
    clear Hw. induction Hd as [|[k x] d Hx Hd IH]; cbn [for_each flat_map map fst snd]; [reflexivity|].
    rewrite named_app, for_each_app, named_inside. f_equal.
    - apply HK; [exact Hx|]. apply (Hin k). left. reflexivity.
    - apply IH. intros k' x' H'. apply (Hin k'). right. exact H'.
  Qed.
  Lemma nfits_elements ctx t p K : (forall i, nfits (fun ns => ctx (Index i :: ns)) t p (K i)) -> nfits ctx (TList t) (Each :: p) (fun x => elements x K).
  Proof.
    intros HK v Hv Hw. cbn [well_typed] in Hv. destruct Hv as (l & -> & Hl). cbn [elements sites].
    assert (Hin : forall x, In x l -> W x).
    { intros x Hx. eapply HW; [exact Hw|]. eapply w_list; [exact Hx|apply w_self]. }
    clear Hw. generalize 0 as i. induction Hl as [|x l Hx Hl IH]; intros i; cbn [for_enum length seq map combine flat_map fst snd]; [reflexivity|].
    rewrite named_app, for_each_app, named_inside. f_equal.
    - apply HK; [exact Hx|]. apply Hin. left. reflexivity.
    - apply IH. intros x' H'. apply Hin. right. exact H'.
  Qed.
  Lemma nfits_skip_ref ctx c k fs f p K : String.eqb c "Reference" = false -> str_eqb (u f) (u "ref") = false -> nfits ctx (TModel c k fs) (Attr f :: p) K ->
    nfits ctx (TUnion [TModel c k fs; T_Reference]) (Attr f :: p) (fun x => unless_ref x (K x)).
  Proof.
    intros Hc Hf HK v Hv Hw. unfold unless_ref. destruct Hv as [Hv|[Hv|[]]].
    - destruct (obj_shape _ _ _ _ _ Hv) as (fv & ex & -> & _). cbn [is_ref]. rewrite Hc. apply HK; assumption.
    - destruct (reference_shape _ _ Hv) as (s & ->). cbn [is_ref String.eqb sites assoc].
      rewrite Hf. reflexivity.
  Qed.
  Lemma nfits_ref_here ctx c k fs : String.eqb c "Reference" = false ->
    nfits ctx (TUnion [TModel c k fs; T_Reference]) [] (fun x => if is_ref x then check_one (ctx []) x else done).
  Proof.
    intros Hc v Hv Hw. destruct Hv as [Hv|[Hv|[]]].
    - destruct (obj_shape _ _ _ _ _ Hv) as (fv & ex & -> & _). cbn [is_ref sites as_reference]. rewrite Hc. reflexivity.
    - destruct (reference_shape _ _ Hv) as (s & ->). cbn [is_ref]. rewrite String.eqb_refl. rewrite (one_ref_see _ _ s).
      + cbn [sites]. replace (as_reference (VObj "Reference" [(u "ref", VStr s)] [])) with (Some s) by reflexivity. reflexivity.
      + exists [(u "ref", VStr s)], []. split; reflexivity.
  Qed.
  Lemma nfits_hasattr ctx c k fs f fi t p K : find_field (u f) fs = Some (fi, TOpt t) -> str_eqb (u f) (u "ref") = false -> nfits ctx t p K ->
    nfits ctx (TUnion [TModel c k fs; T_Reference]) (Attr f :: p)
      (fun o => match getattr o f with Some x => unless_empty x K | None => done end).
  Proof.
    intros Hf Hr HK v Hv Hw. destruct Hv as [Hv|[Hv|[]]].
    - assert (H := nfits_dot ctx c k fs f fi (TOpt t) p (fun x => unless_empty x K) Hf (nfits_opt ctx t p K HK) v Hv Hw).
      destruct (obj_shape _ _ _ _ _ Hv) as (fv & ex & -> & Hv' & _). destruct (find_typed _ _ _ _ _ _ Hv' Hf) as (x & Hx & _).
      unfold dot in H. cbn [getattr] in H |- *. rewrite Hx in H |- *. exact H.
    - destruct (reference_shape _ _ Hv) as (s & ->). cbn [getattr sites assoc].
      rewrite Hr. reflexivity.
  Qed.
  Lemma field_sites (ctx : list name -> pystr) v : whole v ->
    match getattr v "external_docs" with
            | Some x => unless_empty x (fun x => if is_ref x then check_one (ctx []) x else done) | None => done end
    = for_each see (named ctx (sites [Attr "external_docs"] v)).
  Proof.
    intros Hw.
    assert (Hx : forall x, whole x -> unless_empty x (fun x => if is_ref x then check_one (ctx []) x else done) = for_each see (named ctx (sites [] x))).
    { intros x Hxw. unfold unless_empty. destruct (truthy x) eqn:Et; [|rewrite sites_falsy; [reflexivity|exact Et]].
      destruct (is_ref x) eqn:Er.
      - destruct x; try discriminate Er. apply String.eqb_eq in Er. subst c. destruct (Hxw _ _ (w_self _)) as [s Hs].
        assert (Hr : is_reference (VObj "Reference" fs ex) s) by (exists fs, ex; split; [reflexivity|exact Hs]).
        rewrite (one_ref_see _ _ s Hr). cbn [sites]. apply as_reference_iff in Hr. rewrite Hr. reflexivity.
      - replace (sites [] x) with (@nil (list name * pystr)); [reflexivity|]. cbn [sites]. destruct (as_reference x) as [s|] eqn:Ea; [|reflexivity].
        apply as_reference_iff in Ea as (fv & ex & -> & _). discriminate Er. }
    destruct v; try reflexivity.
    cbn [getattr sites]. destruct (assoc (u "external_docs") fs) as [x|] eqn:E1.
    - apply Hx. eapply whole_part; [exact Hw|]. eapply w_field; [apply assoc_In; exact E1|apply w_self].
    - destruct (assoc (u "external_docs") ex) as [x|] eqn:E2; [|reflexivity].
      apply Hx. eapply whole_part; [exact Hw|]. eapply w_extra; [apply assoc_In; exact E2|apply w_self].
  Qed.
End Fits.

(** ** The individual checks *)
Ltac nhead_type := lazymatch goal with
  | |- nfits ?E ?p ?f ?d ?W ?c ?t ?l ?K => let t' := eval hnf in t in change (nfits E p f d W c t' l K)
  end.
Ltac spell := unfold called; cbn [flat_map say the nth_error spelled]; unfold the, num, q; cbn [nth_error spelled]; rewrite ?app_nil_r, <- ?app_assoc; reflexivity.
Ltac side := first [exact whole_part|intros; exact I].
Ltac nfit_step := cbv beta; nhead_type; lazymatch goal with
  | |- nfits _ _ _ _ _ _ (TModel _ _ _) (Attr _ :: _) (fun x => dot x _ _) => eapply nfits_dot; [side|reflexivity|]
  | |- nfits _ _ _ _ _ _ (TOpt _) _ (fun x => unless_empty x _) => apply nfits_opt
  | |- nfits _ _ _ _ _ _ _ _ (fun x => unless_empty x _) => apply nfits_empty
  | |- nfits _ _ _ _ _ _ (TRoot _ _) (Each :: _) (fun x => items x _) => apply nfits_items; [side|intros ?name]
  | |- nfits _ _ _ _ _ _ (TList _) (Each :: _) (fun x => elements x _) => apply nfits_elements; [side|intros ?i]
  | |- nfits _ _ _ _ _ _ _ (Attr _ :: _) (fun x => unless_ref x _) => refine (nfits_skip_ref _ _ _ _ _ _ _ _ _ _ _ _ _ _ _); [reflexivity|reflexivity|]
  | |- nfits _ _ _ _ _ _ _ (Attr _ :: _) (fun o => match getattr o _ with Some _ => _ | None => _ end) => eapply nfits_hasattr; [side|reflexivity|reflexivity|]
  end.
Lemma use_ndot E prefix f0 doc (W : pv -> Prop) (HW : forall x y, W x -> within y x -> W y) ctx v c k fs f fi t p K : well_typed E (TModel c k fs) v -> W v -> find_field (u f) fs = Some (fi, t) ->
  nfits E prefix f0 doc W ctx t p K -> dot v f K = for_each (see prefix f0 doc) (named ctx (sites (Attr f :: p) v)).
Proof. intros Hv Hw Hf HK. exact (nfits_dot E prefix f0 doc W HW ctx c k fs f fi t p K Hf HK v Hv Hw). Qed.
Section Tags.
  Context (E : env) (doc : pv) (Hwt : well_typed E T_AsyncAPI3 doc).
  Ltac start := unfold section, component; eapply (use_ndot E _ _ _ (fun _ => True)); [side|exact Hwt|exact I|reflexivity|].
  Lemma nfits_tags_list (ctx : list name -> pystr) c : (forall i, ctx [Index i] = c) ->
    nfits E tag_prefix "tags" doc (fun _ => True) ctx (TList (TUnion [T_Tag; T_Reference])) [Each] (tags_list doc c).
  Proof.
    intros Hc. unfold tags_list. nfit_step. nhead_type. rewrite <- (Hc i).
    apply (nfits_ref_here E tag_prefix "tags" doc (fun _ => True) (fun ns => ctx (Index i :: ns))). reflexivity.
  Qed.
  Lemma tags_named : Forall2 (fun check pt => check doc = for_each (see tag_prefix "tags" doc) (named (called (snd pt)) (sites (fst pt) doc))) tags_checks tag_places.
  Proof.
    unfold tags_checks, tag_places. cbn [combine tag_locations]. repeat (apply Forall2_cons;
      [cbn [fst snd]; unfold tags_info, tags_servers, tags_channels, tags_channels_messages, tags_operations, tags_c_messages, tags_c_channels,
        tags_c_operations, tags_c_servers, tags_c_operation_traits, tags_c_message_traits, tags_c_channels_messages, tags_c_tags,
        tags_collection, tags_messages_of, tag_ref; start; repeat nfit_step;
        first [apply nfits_tags_list; intros ?; spell|idtac]|]); [|apply Forall2_nil].
    assert (Hc : (u "components tag " ++ q name)%list = called [T "components tag "; Q 0] [Key name]) by spell. rewrite Hc.
    apply (nfits_ref_here E tag_prefix "tags" doc (fun _ => True) (fun ns => called [T "components tag "; Q 0] (Key name :: ns))). reflexivity.
  Qed.
End Tags.
Section Docs.
  Context (E : env) (doc : pv) (Hwt : well_typed E T_AsyncAPI3 doc) (Hw : whole doc).
  Ltac start := unfold section, component; eapply (use_ndot E _ _ _ whole); [side|exact Hwt|exact Hw|reflexivity|].
  Lemma nfits_ref_field t (ctx : list name -> pystr) c : ctx [] = c -> nfits E docs_prefix "external_docs" doc whole ctx t [Attr "external_docs"] (ref_field doc c).
  Proof. intros <- v _ Hv. exact (field_sites docs_prefix "external_docs" doc ctx v Hv). Qed.
  Lemma nfits_docs_tags (ctx : list name -> pystr) c : (forall i, ctx [Index i] = (u "tag " ++ num i ++ u " in " ++ c)%list) ->
    nfits E docs_prefix "external_docs" doc whole ctx (TList (TUnion [T_Tag; T_Reference])) [Each; Attr "external_docs"] (docs_tags doc c).
  Proof. intros Hc. unfold docs_tags. repeat nfit_step. apply nfits_ref_field. apply Hc. Qed.
  Lemma docs_named : Forall2 (fun check pt => check doc = for_each (see docs_prefix "external_docs" doc) (named (called (snd pt)) (sites (fst pt) doc))) docs_checks docs_places.
  Proof.
    unfold docs_checks, docs_places. cbn [combine docs_locations]. repeat (apply Forall2_cons;
      [cbn [fst snd]; unfold docs_info, docs_info_tags, docs_servers, docs_channels, docs_channels_messages, docs_channels_messages_headers,
   docs_channels_messages_payload, docs_channels_messages_tags, docs_channels_messages_traits, docs_channels_messages_traits_headers,
   docs_channels_messages_traits_tags, docs_operations, docs_operations_tags, docs_operations_traits, docs_operations_traits_tags,
   docs_c_channels, docs_c_external_docs, docs_c_messages, docs_c_messages_headers, docs_c_messages_payload, docs_c_message_traits,
   docs_c_message_traits_headers, docs_c_operations, docs_c_operation_traits, docs_c_servers, docs_c_tags, docs_c_schemas,
   docs_collection, channel_messages, traits_of, each_operation, c_part, doc_ref; start; repeat nfit_step;
   first [apply nfits_ref_field; spell|apply nfits_docs_tags; intros ?; spell|idtac]|]); [|apply Forall2_nil].
    assert (Hc : (u "components.externalDocs['" ++ name ++ u "']")%list = called [T "components.externalDocs["; Q 0; T "]"] [Key name]) by spell. rewrite Hc.
    apply (nfits_ref_here E docs_prefix "external_docs" doc whole (fun ns => called [T "components.externalDocs["; Q 0; T "]"] (Key name :: ns))). reflexivity.
  Qed.
End Docs.

Lemma run_named prefix f checks places doc :
  Forall2 (fun check pt => check doc = for_each (see prefix f doc) (named (called (snd pt)) (sites (fst pt) doc))) checks places ->
  run_checks checks doc = for_each (see prefix f doc) (agenda places doc).
Proof.
  unfold run_checks, agenda. induction 1 as [|c pt cs ps Hc H IH]; cbn [for_each flat_map]; [reflexivity|].
  rewrite for_each_app, Hc, IH. reflexivity.
Qed.

(** ** Sentences *)
Lemma lower_of_iff c d : lower_of c d <-> d = to_lower c.
Proof.
  unfold lower_of, to_lower, ascii_upper. destruct (N.leb_spec 65 c) as [H1|H1], (N.leb_spec c 90) as [H2|H2]; cbn [andb]; split; intros H; try lia.
Qed.
Lemma upper_iff c d : (((97 <= c <= 122)%N /\ c = (d + 32)%N) \/ (~ (97 <= c <= 122)%N /\ c = d)) <-> d = to_upper c.
Proof.
  unfold to_upper, ascii_lower. destruct (N.leb_spec 97 c) as [H1|H1], (N.leb_spec c 122) as [H2|H2]; cbn [andb]; split; intros H; try lia.
Qed.
Lemma ascii_iff s : Forall ascii_char s <-> forallb (fun c => N.ltb c 128) s = true.
Proof. rewrite forallb_forall, Forall_forall. unfold ascii_char. split; intros H c Hc; specialize (H c Hc); apply N.ltb_lt in H || apply N.ltb_lt; exact H. Qed.
Lemma subject_iff low s sub : subject low s sub <-> sub = capitalize low s.
Proof.
  unfold capitalize. destruct (forallb (fun c => N.ltb c 128) s) eqn:Ea.
  - apply ascii_iff in Ea. split.
    + intros H. inversion H as [|c d r r' Hf Hu Hl|s' Hn]; subst; [reflexivity| |destruct (Hn Ea)]. apply upper_iff in Hu as ->. f_equal.
      clear -Hl. induction Hl as [|x y l l' Hx Hl IH]; [reflexivity|]. apply lower_of_iff in Hx as ->. cbn [map]. rewrite IH. reflexivity.
    + intros ->. destruct s as [|c r]; [constructor|]. constructor; [exact Ea|apply upper_iff; reflexivity|]. clear.
      induction r as [|x r IH]; [constructor|]. cbn [map]. constructor; [apply lower_of_iff; reflexivity|exact IH].
  - assert (Hn : ~ Forall ascii_char s) by (intros H; apply ascii_iff in H; rewrite H in Ea; discriminate Ea). split.
    + intros H. inversion H as [|c d r r' Hf Hu Hl|s' Hn']; subst; [destruct Hn; constructor|destruct (Hn Hf)|reflexivity].
    + intros ->. constructor. exact Hn.
Qed.
(** The effect of looking at one reference string in a well-typed document. *)
Lemma see_cases E prefix f doc ctx s : well_typed E T_AsyncAPI3 doc -> family prefix f ->
  see prefix f doc (ctx, s) =
    if starts_with (u "#") s then
      if starts_with prefix s then
        match entry_at doc ["components"; f] (replace prefix [] s) with Some _ => ([], None) | None => ([], Some (Missing, ctx, replace prefix [] s)) end
      else ([], Some (Elsewhere, ctx, s))
    else ([(ctx, s)], None).
Proof.
  intros Hwt Hf. unfold see. cbn [fst snd]. destruct (starts_with (u "#") s); [|reflexivity]. unfold internal_ref. destruct (starts_with prefix s); [|reflexivity].
  rewrite (entry_comp E doc prefix f _ Hwt Hf). unfold comp_map, dot.
  destruct (family_comp E doc prefix f Hwt Hf) as (c & -> & [->|(Ht & m & Hm & Hx)]); [reflexivity|]. rewrite Ht, Hm.
  destruct Hx as [->|(n & d & ->)]; [reflexivity|]. cbn [truthy]. destruct d as [|kv d]; [reflexivity|].
  destruct (has_key (replace prefix [] s) (kv :: d)) eqn:Ek.
  - apply has_key_iff, key_assoc in Ek as [v ->]. reflexivity.
  - destruct (assoc (replace prefix [] s) (kv :: d)) as [v|] eqn:Ea; [|reflexivity]. apply assoc_Some_key, has_key_iff in Ea. rewrite Ek in Ea. discriminate Ea.
Qed.
Section Report.
  Context (E : env) (tx : family_texts) (low : pystr -> pystr) (doc : pv) (prefix : pystr) (f : string).
  Hypothesis Hwt : well_typed E T_AsyncAPI3 doc.
  Hypothesis Hf : family prefix f.
  Context (warn : pystr * pystr -> pystr) (err : fault * pystr * pystr -> option pystr).
  Hypothesis Hwarn : forall c s, warn (c, s) = (capitalize low c ++ u (warn_mid tx) ++ s ++ u (warn_end tx))%list.
  Hypothesis Helse : forall c s, err (Elsewhere, c, s) = Some (capitalize low c ++ u (else_mid tx) ++ s ++ u (else_end tx))%list.
  Hypothesis Hmiss : forall c s, err (Missing, c, s) = Some (capitalize low c ++ u (miss_mid tx) ++ s ++ u (miss_end tx))%list.
  Lemma run_reports l : exists e, says warn err (for_each (see prefix f doc) l) = (fst (says warn err (for_each (see prefix f doc) l)), option_map Some e)
    /\ report tx low doc prefix f l (fst (says warn err (for_each (see prefix f doc) l))) e.
  Proof.
    induction l as [|[w s] l IH]; cbn [for_each]; [exists None; split; [reflexivity|constructor]|].
    rewrite (see_cases E prefix f doc w s Hwt Hf). destruct (starts_with (u "#") s) eqn:Eh.
    - assert (Ho : ~ outside s) by (intros Ho; apply outside_iff in Ho; rewrite Ho in Eh; discriminate Eh). destruct (starts_with prefix s) eqn:Ep.
      + assert (Hp := Ep). apply starts_with_iff in Ep as [x Hx]. assert (He := replace_erased prefix (family_nonempty _ _ Hf) s). destruct (entry_at doc ["components"; f] (replace prefix [] s)) as [v|] eqn:Ev.
        * destruct IH as (e & H1 & H2). exists e. replace (then_ ([], None) (for_each (see prefix f doc) l)) with (for_each (see prefix f doc) l) by (destruct (for_each (see prefix f doc) l); reflexivity).
          split; [exact H1|]. constructor; [exact Ho|right; split; [eauto|]; eauto|exact H2].
        * unfold says. cbn [then_ fst snd map option_map]. rewrite Hmiss. eexists (Some _). split; [reflexivity|].
          eapply re_missing; [exact Hx|exact He|exact Ev|apply subject_iff; reflexivity].
      + unfold says. cbn [then_ fst snd map option_map]. rewrite Helse. eexists (Some _). split; [reflexivity|].
        apply re_elsewhere; [exact Ho| |apply subject_iff; reflexivity]. intros x Hx. assert (Hy : starts_with prefix s = true) by (apply starts_with_iff; eauto). rewrite Hy in Ep. discriminate Ep.
    - destruct IH as (e & H1 & H2). exists e. unfold says in *. cbn [then_ fst snd map option_map app] in *. injection H1 as H1. rewrite H1, Hwarn. split; [reflexivity|].
      apply re_outside; [apply outside_iff; exact Eh|apply subject_iff; reflexivity|exact H2].
  Qed.
End Report.
