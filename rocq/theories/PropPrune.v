(** C108: removing many entries at once. *)
From Verif Require Import PyStr Regex Value Types Rules Pydantic ClassTable Classes Canon Linked SpecParse Sample ProofRules ProofParse
  State SpecState ProofState PropState Resolve SpecResolve ProofResolve PropResolve Unified SpecUnified ProofUnified ProofCheck ProofOrder PropUnified SpecEntries PropEntries SpecDeep PropHistory SpecPrune.
Local Open Scope string_scope.
Local Open Scope list_scope.

Section P.
Context (K : pystr -> Prop).
Notation pr := (pruned K).
Lemma pr_shape v v' : pr v v' -> shape v v'.
Proof. destruct 1; constructor. Qed.
Lemma pr_assoc k d d' : Forall2 (fun a b => fst a = fst b /\ pr (snd a) (snd b)) d d' -> opt_rel pr (assoc k d) (assoc k d').
Proof. intros H. exact (assoc_rel pr k d d' H). Qed.
Lemma pr_ref v v' : pr v v' -> as_reference v = as_reference v'.
Proof.
  destruct 1 as [v|l l' H|d d' H|c d keep d' Hk H|c fv fv' ex H]; try reflexivity. apply ref_shape. eapply opt_mono; [exact pr_shape|]. apply pr_assoc. exact H.
Qed.
Lemma pr_is_ref v v' s : pr v v' -> (is_reference v s <-> is_reference v' s).
Proof. intros H. rewrite <- !as_reference_iff, (pr_ref _ _ H). reflexivity. Qed.
Lemma filter_key (p : pystr -> bool) k (d : fields) : assoc k (filter (fun kv => p (fst kv)) d) = if p k then assoc k d else None.
Proof.
  induction d as [|[a x] d IH]; [destruct (p k); reflexivity|]. cbn [filter fst assoc]. destruct (p a) eqn:Ea; cbn [assoc].
  - destruct (str_eqb k a) eqn:Ek; [|exact IH]. apply str_eqb_eq in Ek. subst a. rewrite Ea. reflexivity.
  - destruct (str_eqb k a) eqn:Ek; [|exact IH]. apply str_eqb_eq in Ek. subst a. rewrite IH, Ea. reflexivity.
Qed.
(** a step in the smaller value is a step in the larger one, and back unless the key was removed *)
Lemma pr_field c fv fv' ex k : Forall2 (fun a b => fst a = fst b /\ pr (snd a) (snd b)) fv fv' -> opt_rel pr (resolve_part (VObj c fv ex) k) (resolve_part (VObj c fv' ex) k).
Proof.
  intros H. unfold resolve_part. cbn [root_mapping].
  assert (Hf : opt_rel pr
    (match find_field_name k (class_infos c) with Some name => match attr name fv with VNone => None | x => Some x end | None => None end)
    (match find_field_name k (class_infos c) with Some name => match attr name fv' with VNone => None | x => Some x end | None => None end)).
  { generalize (find_field_name k (class_infos c)). intros [name|]; [|exact I]. unfold attr. assert (Ha := pr_assoc name fv fv' H).
    destruct (assoc name fv) as [x|], (assoc name fv') as [y|]; try contradiction; [|exact I]. cbn [opt_rel] in Ha.
    assert (Hs := shape_none _ _ (pr_shape _ _ Ha)). destruct x, y; try discriminate Hs; try exact I; try exact Ha. }
  destruct (assoc (u "root") ex) as [[]|]; try exact Hf. destruct (assoc k d); cbn [opt_rel]; [constructor|exact I].
Qed.
Lemma pr_down v v' k w' : pr v v' -> resolve_part v' k = Some w' -> exists w, resolve_part v k = Some w /\ pr w w'.
Proof.
  destruct 1 as [v|l l' H|d d' H|c d keep d' Hk H|c fv fv' ex H].
  - intros H. exists w'. split; [exact H|constructor].
  - discriminate.
  - cbn [resolve_part root_mapping]. apply opt_some_r, pr_assoc. exact H.
  - cbn [resolve_part root_mapping]. intros Ha. destruct (opt_some_r _ _ _ _ (pr_assoc k _ _ H) Ha) as (y & Hy & Hp). rewrite filter_key in Hy. destruct (keep k); [|discriminate Hy]. eauto.
  - apply opt_some_r, pr_field. exact H.
Qed.
Lemma pr_up v v' k w : pr v v' -> resolve_part v k = Some w -> (exists w', resolve_part v' k = Some w' /\ pr w w') \/ (resolve_part v' k = None /\ K k).
Proof.
  destruct 1 as [v|l l' H|d d' H|c d keep d' Hk H|c fv fv' ex H].
  - intros H. left. exists w. split; [exact H|constructor].
  - discriminate.
  - cbn [resolve_part root_mapping]. intros Ha. left. exact (opt_some _ _ _ _ (pr_assoc k _ _ H) Ha).
  - cbn [resolve_part root_mapping]. intros Ha. assert (Hr := pr_assoc k _ _ H). rewrite filter_key in Hr. destruct (keep k) eqn:Ek.
    + left. exact (opt_some _ _ _ _ Hr Ha).
    + right. split; [destruct (assoc k d'); [contradiction|reflexivity]|]. apply Hk; [eapply assoc_Some_key; exact Ha|exact Ek].
  - intros Ha. left. exact (opt_some _ _ _ _ (pr_field c fv fv' ex k H) Ha).
Qed.
Lemma pr_parts_down parts : forall v v' path w' p, pr v v' -> resolve_parts v' path parts = Some (w', p) -> exists w, resolve_parts v path parts = Some (w, p) /\ pr w w'.
Proof.
  induction parts as [|q parts IH]; intros v v' path w' p H Hr; cbn [resolve_parts] in *; [injection Hr as <- <-; eauto|].
  destruct q as [|c q]; [eapply IH; eauto|]. destruct (resolve_part v' (c :: q)) as [y'|] eqn:Ey; [|discriminate Hr]. destruct (pr_down _ _ _ _ H Ey) as (y & -> & Hy). eapply IH; eauto.
Qed.
Lemma pr_parts_up parts : forall v v' path w p, pr v v' -> resolve_parts v path parts = Some (w, p) ->
  (exists w', resolve_parts v' path parts = Some (w', p) /\ pr w w') \/ (resolve_parts v' path parts = None /\ exists k, In k (filter ne parts) /\ K k).
Proof.
  induction parts as [|q parts IH]; intros v v' path w p H Hr; cbn [resolve_parts filter] in *; [injection Hr as <- <-; eauto|].
  destruct q as [|c q]; [eapply IH; eauto|]. cbn [ne]. destruct (resolve_part v (c :: q)) as [y|] eqn:Ey; [|discriminate Hr].
  destruct (pr_up _ _ _ _ H Ey) as [(y' & -> & Hy)|[-> Hk]].
  - destruct (IH _ _ _ _ _ Hy Hr) as [G|[G (k & Hi & Hk)]]; [left; exact G|right]. split; [exact G|]. exists k. split; [right; exact Hi|exact Hk].
  - right. split; [reflexivity|]. exists (c :: q). split; [left; reflexivity|exact Hk].
Qed.
Lemma pr_within v' x' : within x' v' -> forall v, pr v v' -> exists x, within x v /\ pr x x'.
Proof.
  induction 1 as [|l y Hi Hw IH|d k y Hi Hw IH|c fv ex k y Hi Hw IH|c fv ex k y Hi Hw IH|c d k y Hi Hw IH]; intros v H.
  - exists v. split; [constructor|exact H].
  - inversion H as [?|l0 ? HF| | | ]; subst; [exists x'; split; [eapply w_list; eauto|constructor]|]. destruct (Forall2_in_r _ _ _ _ HF Hi) as (y0 & H0 & Hp). destruct (IH _ Hp) as (x & Hx & Hpx). exists x. split; [eapply w_list; eauto|exact Hpx].
  - inversion H as [?| |d0 ? HF| | ]; subst; [exists x'; split; [eapply w_dict; eauto|constructor]|]. destruct (Forall2_in_r _ _ _ _ HF Hi) as ([k0 y0] & H0 & _ & Hp). destruct (IH _ Hp) as (x & Hx & Hpx). exists x. split; [eapply w_dict; eauto|exact Hpx].
  - inversion H as [?| | | |? fv0 ? ? HF]; subst; [exists x'; split; [eapply w_field; eauto|constructor]|]. destruct (Forall2_in_r _ _ _ _ HF Hi) as ([k0 y0] & H0 & _ & Hp). destruct (IH _ Hp) as (x & Hx & Hpx). exists x. split; [eapply w_field; eauto|exact Hpx].
  - inversion H as [?| | | |? fv0 ? ? HF]; subst; exists x'; (split; [eapply w_extra; eauto|constructor]).
  - inversion H as [?| | |? d0 keep ? Hk HF| ]; subst; [exists x'; split; [eapply w_root; eauto|constructor]|]. destruct (Forall2_in_r _ _ _ _ HF Hi) as ([k0 y0] & H0 & _ & Hp). apply filter_In in H0 as [H0 _].
    destruct (IH _ Hp) as (x & Hx & Hpx). exists x. split; [eapply w_root; eauto|exact Hpx].
Qed.
Lemma pr_no_root doc doc' : pr doc doc' -> no_root_keyword doc -> no_root_keyword doc'.
Proof.
  intros H Hn c fv ex d Hw. destruct (pr_within _ _ Hw _ H) as (x & Hx & Hp). inversion Hp; subst; eapply Hn; eauto.
Qed.
(** what is visited in the smaller document is visited in the larger one at the same location *)
Lemma pr_has_part v v' t w' : pr v v' -> has_part v' t w' -> exists w, has_part v t w /\ pr w w'.
Proof.
  destruct 1 as [v|l l' H|d d' H|c d keep d' Hk H|c fv fv' ex H]; intros Hp; [exists w'; split; [exact Hp|constructor]| | | |].
  - apply has_part_list in Hp as (i & Hi & ->). assert (Hn := Forall2_nth _ _ _ H i). rewrite Hi in Hn. destruct (nth_error l i) as [y|] eqn:Ey; [|contradiction]. exists y. split; [apply has_part_list; eauto|exact Hn].
  - apply has_part_dict in Hp as (k & Hi & ->). destruct (Forall2_in_r _ _ _ _ H Hi) as ([k0 y0] & H0 & Hq & Hp). cbn [fst snd] in *. subst k0. exists y0. split; [apply has_part_dict; eauto|exact Hp].
  - apply has_part_root in Hp as (k & Hi & ->). destruct (Forall2_in_r _ _ _ _ H Hi) as ([k0 y0] & H0 & Hq & Hp). cbn [fst snd] in *. subst k0. apply filter_In in H0 as [H0 _]. exists y0. split; [apply has_part_root; eauto|exact Hp].
  - apply has_part_obj in Hp as (k & Hi & Hn & He & ->). destruct (Forall2_in_r _ _ _ _ H Hi) as ([k0 y0] & H0 & Hq & Hp). cbn [fst snd] in *. subst k0. exists y0.
    split; [|exact Hp]. apply has_part_obj. exists k. rewrite (shape_none _ _ (pr_shape _ _ Hp)). auto.
Qed.
Lemma pr_reached v' pos rel r' : reached v' pos rel r' -> forall v, pr v v' -> exists pos' r, reached v pos' rel r /\ pr r r'.
Proof.
  induction 1 as [v' path0 Hp0|v' i text w pos rel r' Hc Hr IH]; intros v H; [exists [], v; split; [constructor; exact Hp0|exact H]|].
  assert (Hnr := child_not_ref _ _ _ _ Hc). assert (Hp : has_part v' text w) by (exists i; apply kids_child; [exact Hnr|exact Hc]).
  destruct (pr_has_part _ _ _ _ H Hp) as (w0 & Hp0 & Hw). destruct (IH _ Hw) as (pos' & r & Hr' & Hpr).
  assert (Hn : as_reference v = None). { rewrite (pr_ref _ _ H). destruct (ref_cases v') as [(s0 & Hs0 & _)|[_ Hz]]; [exfalso; exact (Hnr s0 Hs0)|exact Hz]. }
  destruct (reached_cons _ _ _ _ _ _ Hn Hp0 Hr') as [q Hq]. eauto.
Qed.
(** ** Resolution *)
Section Docs.
Context (doc doc' : pv) (Hroot : no_root_keyword doc) (H : pr doc doc').
Lemma pr_fuel_ok n : forall visited s o' p, resolve_fuel n doc' visited s = Some (Resolved o' p) -> exists o, resolve_fuel n doc visited s = Some (Resolved o p) /\ pr o o'.
Proof.
  induction n as [|n IH]; intros visited s o' p Hr; [discriminate Hr|]. cbn [resolve_fuel] in *.
  destruct (mem_str s visited); [discriminate Hr|]. destruct (is_external s); [discriminate Hr|]. destruct (parse_ref s) as [e0|parts]; [discriminate Hr|].
  destruct (resolve_parts doc' (u "spec") parts) as [[v' q]|] eqn:Ev; [|discriminate Hr]. destruct (pr_parts_down _ _ _ _ _ _ H Ev) as (v & -> & Hv). rewrite (pr_ref _ _ Hv).
  destruct (as_reference v') as [next|]; [exact (IH _ _ _ _ Hr)|]. injection Hr as <- <-. eauto.
Qed.
Lemma pr_fuel n : forall visited s e r, resolve_fuel n doc' visited s = Some (Failed e) -> resolve_fuel n doc visited s = Some r -> (forall e', r <> Failed e') ->
  e = ENavigate /\ exists m s', hops doc' m s s' /\ cut_off doc doc' s' /\ exists k, K k /\ mentions s' k.
Proof.
  assert (Hroot' := pr_no_root _ _ H Hroot).
  induction n as [|n IH]; intros visited s e r Hr' Hr Hne; [discriminate Hr|]. cbn [resolve_fuel] in *.
  destruct (mem_str s visited); [injection Hr as <-; exfalso; eapply Hne; reflexivity|]. destruct (is_external s); [discriminate Hr'|].
  destruct (parse_ref s) as [e0|parts] eqn:Ep; [injection Hr as <-; exfalso; eapply Hne; reflexivity|].
  destruct (resolve_parts doc (u "spec") parts) as [[v p]|] eqn:Ev; [|injection Hr as <-; exfalso; eapply Hne; reflexivity].
  destruct (pr_parts_up _ _ _ _ _ _ H Ev) as [(v' & Ev' & Hv)|[Ev' (k & Hk & HK)]]; rewrite Ev' in Hr'.
  - rewrite (pr_ref _ _ Hv) in Hr. destruct (as_reference v') as [next|] eqn:En; [|discriminate Hr'].
    destruct (IH _ _ _ _ Hr' Hr Hne) as [-> (m & s' & Hh & Hm)]. split; [reflexivity|]. exists (S m), s'. split; [|exact Hm].
    apply (designates_iff doc' s Hroot' parts Ep) in Ev' as (l & Hd & _). econstructor; [exact Hd|apply as_reference_iff; exact En|exact Hh].
  - injection Hr' as <-. split; [reflexivity|]. exists 0, s. split; [constructor|]. split.
    + destruct (proj1 (designates_iff doc s Hroot parts Ep v p) Ev) as (l & Hd & Hp). exists l, v. split; [exact Hd|]. intros [o' Hw]. destruct Hd as (q & Hs & Hq & Hl & _).
      assert (Hd' : designates doc' s l o') by (exists q; auto). assert (G := proj2 (designates_iff doc' s Hroot' parts Ep o' (access_path l)) (ex_intro _ l (conj Hd' eq_refl))). congruence.
    + exists k. split; [exact HK|]. apply parse_ref_ok in Ep as (q & -> & -> & l & Hl & _). exists q, l. split; [reflexivity|]. split; [exact Hl|].
      change (filter ne (split 47 (strip 47 q))) with (parts_of (strip 47 q)) in Hk. rewrite strip_segments, (segments_parts _ _ Hl) in Hk. exact Hk.
Qed.
Lemma pr_check_reference E path s e : check_reference E doc path s = None -> check_reference E doc' path s = Some e ->
  e = UInvalid ENavigate /\ exists m s', hops doc' m s s' /\ cut_off doc doc' s' /\ exists k, K k /\ mentions s' k.
Proof.
  intros Hc Hc'. destruct (resolve_big doc doc' s) as (n & H1 & H2). unfold check_reference in Hc'. destruct (resolve doc' s) as [o' p| |e0] eqn:Er.
  - exfalso. destruct (pr_fuel_ok _ _ _ _ _ H2) as (o & Ho & Hoo). rewrite H1 in Ho. injection Ho as Ho. unfold check_reference in Hc. rewrite Ho, (shape_name _ _ (pr_shape _ _ Hoo)) in Hc. congruence.
  - discriminate Hc'.
  - injection Hc' as <-. destruct (pr_fuel _ _ _ _ _ H2 H1) as [-> Hm]; [|auto]. intros e' He. unfold check_reference in Hc. rewrite He in Hc. discriminate Hc.
Qed.
End Docs.
(** ** C108 *)
(** A document that was accepted, with entries removed: what can be reported is a reference whose chain runs into a place that is gone, and it has a removed key as a segment. *)
Theorem c108_report E doc doc' p e : no_root_keyword doc -> pr doc doc' -> unified E doc = None -> unified E doc' = Some (p, e) ->
  e = UInvalid ENavigate /\ exists pos path r s n s' k, reached doc' pos path r /\ p = u "spec" ++ path /\ is_reference r s /\ hops doc' n s s' /\ cut_off doc doc' s' /\ K k /\ mentions s' k.
Proof.
  intros Hn H Hu Hu'. apply check_some in Hu' as (pos & rel & r & s & Hr & Hs & -> & He & _). destruct (pr_reached _ _ _ _ Hr _ H) as (pos' & r0 & Hr0 & Hp0).
  assert (Hc := proj1 (check_none E doc doc (u "spec")) Hu _ _ _ _ Hr0 (proj2 (pr_is_ref _ _ s Hp0) Hs)).
  destruct (pr_check_reference doc doc' Hn H E _ s e Hc He) as [-> (m & s' & Hh & Hcut & k & HK & Hm)]. split; [reflexivity|]. exists pos, rel, r, s, m, s', k. auto 10.
Qed.
(** Entries no remaining reference leads through can be removed together, also when they refer to each other. *)
Theorem c108_unused E doc doc' : no_root_keyword doc -> pr doc doc' -> (forall r s, within r doc' -> is_reference r s -> ~ cut_off doc doc' s) -> unified E doc = None -> unified E doc' = None.
Proof.
  intros Hn H Hm Hu. destruct (unified E doc') as [[p e]|] eqn:Hu'; [exfalso|reflexivity].
  destruct (c108_report E doc doc' p e Hn H Hu Hu') as (_ & pos & path & r & s & n & s' & k & Hr & _ & Hs & Hh & Hk & _).
  destruct (hops_last _ _ _ _ Hh) as [->|(v & Hv & Hs')]; [exact (Hm r s (reached_within _ _ _ _ Hr) Hs Hk)|exact (Hm v s' Hv Hs' Hk)].
Qed.
(** In particular if no remaining reference mentions a key that was removed somewhere. *)
Theorem c108_unmentioned E doc doc' : no_root_keyword doc -> pr doc doc' -> (forall r s k, within r doc' -> is_reference r s -> K k -> ~ mentions s k) -> unified E doc = None -> unified E doc' = None.
Proof.
  intros Hn H Hm Hu. destruct (unified E doc') as [[p e]|] eqn:Hu'; [exfalso|reflexivity].
  destruct (c108_report E doc doc' p e Hn H Hu Hu') as (_ & pos & path & r & s & n & s' & k & Hr & _ & Hs & Hh & _ & HK & Hk).
  destruct (hops_last _ _ _ _ Hh) as [->|(v & Hv & Hs')]; [exact (Hm r s k (reached_within _ _ _ _ Hr) Hs HK Hk)|exact (Hm v s' k Hv Hs' HK Hk)].
Qed.
(** What resolves afterwards resolves as before. *)
Theorem c108_resolves doc doc' s o' p : pr doc doc' -> resolve doc' s = Resolved o' p -> exists o, resolve doc s = Resolved o p /\ pr o o'.
Proof.
  intros H Hr. destruct (resolve_big doc doc' s) as (n & H1 & H2). rewrite Hr in H2. destruct (pr_fuel_ok doc doc' H n [] s o' p H2) as (o & Ho & Hp). rewrite H1 in Ho. injection Ho as Ho. eauto.
Qed.
(** ** The smaller value is as valid as the larger one *)
Lemma pr_near v v' : pr v v' -> near v v'.
Proof. destruct 1; [left; reflexivity| | | |]; right; split; exact I. Qed.
Lemma pr_rule E f v v' : pr v v' -> field_rule E f v -> field_rule E f v'.
Proof.
  intros H. destruct H; [auto| | | |]; destruct f; cbn [field_rule]; try (intros; exact I); try (intros (s & Hs & _); discriminate Hs); try (intros (s & Hs); discriminate Hs); intros _ z Hz; discriminate Hz.
Qed.
Lemma pr_wt_fields E fs : Forall (fun ft => forall v v', pr v v' -> well_typed E (snd ft) v -> well_typed E (snd ft) v') fs -> forall fv fv',
  Forall2 (fun a b => fst a = fst b /\ pr (snd a) (snd b)) fv fv' -> wt_fields E (well_typed E) fs fv -> wt_fields E (well_typed E) fs fv'.
Proof.
  induction 1 as [|[fi t] fs Ht Hfs IH]; intros fv fv' H Hw; cbn [wt_fields] in *.
  - destruct H; [exact I|destruct Hw].
  - destruct H as [|[k x] [k' x'] fv fv' [Hk Hx] H]; [destruct Hw|]. cbn [fst snd] in *. subst k'. destruct Hw as (H1 & H2 & H3 & H4). split; [exact H1|]. split; [exact (Ht _ _ Hx H2)|]. split; [exact (pr_rule _ _ _ _ Hx H3)|exact (IH _ _ H H4)].
Qed.
Lemma pr_wt E t : forall v v', pr v v' -> well_typed E t v -> well_typed E t v'.
Proof.
  induction t using ty_ind'; intros v v' Hp Hw; cbn [well_typed] in *;
    try (destruct Hw as (s & -> & Hw); inversion Hp; subst; eauto; fail);
    try (destruct Hw as (s & ->); inversion Hp; subst; eauto; fail).
  - exact I.
  - destruct Hw as (s & s0 & -> & Hw). inversion Hp; subst. eauto.
  - destruct Hw as (l & -> & Hl). inversion Hp as [|? l' HF| | |]; subst; [eauto|]. exists l'. split; [reflexivity|]. rewrite Forall_forall in *. intros x' Hi.
    destruct (Forall2_in_r _ _ _ _ HF Hi) as (x & Hx & Hpx). exact (IHt _ _ Hpx (Hl _ Hx)).
  - destruct Hw as (l & -> & Hl). inversion Hp as [| |? l' HF| |]; subst; [eauto|]. exists l'. split; [reflexivity|]. rewrite Forall_forall in *. intros x' Hi.
    destruct (Forall2_in_r _ _ _ _ HF Hi) as (x & Hx & _ & Hpx). exact (IHt _ _ Hpx (Hl _ Hx)).
  - destruct Hw as [->|Hw]; [left; inversion Hp; reflexivity|right; eauto].
  - induction H as [|t ts Ht Hts IH]; cbn [wt_one] in *; [exact Hw|]. destruct Hw as [Hw|Hw]; [left; eauto|right; auto].
  - destruct Hw as (l & -> & Hl). inversion Hp as [|? l' HF| | |]; subst; [eauto|]. exists l'. split; [reflexivity|]. rewrite Forall_forall in *. intros x' Hi.
    destruct (Forall2_in_r _ _ _ _ HF Hi) as (x & Hx & Hpx). destruct (Hl _ Hx) as (n & ->). inversion Hpx; subst. eauto.
  - destruct Hw as (fv & ex & -> & H1 & H2 & H3). inversion Hp as [| | | |? ? fv' ? HF]; subst; [eauto 10|]. exists fv', ex. split; [reflexivity|]. split; [exact (pr_wt_fields E fs H _ _ HF H1)|auto].
  - destruct Hw as (d & -> & Hd). inversion Hp as [| | |? ? keep d' Hk HF|]; subst; [eauto|]. exists d'. split; [reflexivity|]. rewrite Forall_forall in *. intros x' Hi.
    destruct (Forall2_in_r _ _ _ _ HF Hi) as (x & Hx & _ & Hpx). apply filter_In in Hx as [Hx _]. exact (IHt _ _ Hpx (Hd _ Hx)).
Qed.
Lemma pr_near_fields fv fv' : Forall2 (fun a b => fst a = fst b /\ pr (snd a) (snd b)) fv fv' -> near_fields fv fv'.
Proof.
  intros H n. unfold attr. assert (Ha := pr_assoc n fv fv' H). destruct (assoc n fv), (assoc n fv'); try contradiction; [exact (pr_near _ _ Ha)|left; reflexivity].
Qed.
Lemma pr_cross c fv fv' : Forall2 (fun a b => fst a = fst b /\ pr (snd a) (snd b)) fv fv' -> cross_field_spec c fv -> cross_field_spec c fv'.
Proof.
  intros H. apply cross_near; [exact (pr_near_fields _ _ H)|]. intros _ n m. unfold get at 1 2. unfold attr. assert (Ha := pr_assoc (u n) fv fv' H).
  destruct (assoc (u n) fv) as [x|], (assoc (u n) fv') as [y|]; try contradiction; cbn [opt_rel] in Ha. destruct Ha as [z|? ? ?|? ? ?|? ? ? ? ? ?|c0 f0 f1 e0 HF]; try (intros Hp; destruct (Hp eq_refl)); auto.
  cbn [get_in]. apply near_present, near_get, pr_near_fields, HF.
Qed.
(** The smaller document is valid at every depth, and of the type it had. *)
Theorem c108_valid E t doc doc' : pr doc doc' -> valid_throughout E doc -> well_typed E t doc -> valid_throughout E doc' /\ well_typed E t doc'.
Proof.
  intros H Hv Ht. split; [|exact (pr_wt E t _ _ H Ht)]. intros x' Hw. destruct (pr_within _ _ Hw _ H) as (x & Hx & Hp). specialize (Hv x Hx).
  destruct Hp as [v|l l' HF|d d' HF|c d keep d' Hk HF|c fv fv' ex HF]; [exact Hv|exact I|exact I| |].
  - destruct Hv as (t0 & Hi & Hd). exists t0. split; [exact Hi|]. intros key y' Hy'. destruct (Forall2_in_r _ _ _ _ HF Hy') as ([k y] & Hy & Hq & Hpy). cbn [fst snd] in *. subst k.
    apply filter_In in Hy as [Hy _]. destruct (Hd _ _ Hy) as [G1 G2]. split; [exact G1|exact (pr_wt E t0 _ _ Hpy G2)].
  - destruct Hv as (k & fs & Hi & Hwf & Hc & Hx'). exists k, fs. split; [exact Hi|]. split; [|split; [exact (pr_cross c _ _ HF Hc)|exact Hx']].
    apply (pr_wt_fields E fs) with (fv := fv); [|exact HF|exact Hwf]. apply Forall_forall. intros ft _. exact (pr_wt E (snd ft)).
Qed.
End P.
(** ** Removing every entry whose key is not to be kept *)
Fixpoint prune (keep : pystr -> bool) (v : pv) : pv :=
  match v with
  | VList l => VList (map (prune keep) l)
  | VDict d => VDict (map (fun kv => (fst kv, prune keep (snd kv))) d)
  | VObj c fv ex => VObj c (map (fun kv => (fst kv, prune keep (snd kv))) fv) ex
  | VRoot c d => VRoot c (filter (fun kv => keep (fst kv)) (map (fun kv => (fst kv, prune keep (snd kv))) d))
  | _ => v
  end.
Lemma prune_fields (R : pv -> pv -> Prop) f (d : fields) : (forall k x, In (k, x) d -> R x (f x)) -> Forall2 (fun a b => fst a = fst b /\ R (snd a) (snd b)) d (map (fun kv => (fst kv, f (snd kv))) d).
Proof. induction d as [|[k x] d IH]; intros H; cbn [map]; constructor; [split; [reflexivity|]; apply (H k); left; reflexivity|apply IH; intros k' x' Hi; apply (H k'); right; exact Hi]. Qed.
Lemma filter_fields (keep : pystr -> bool) (f : pv -> pv) (d : fields) : filter (fun kv => keep (fst kv)) (map (fun kv => (fst kv, f (snd kv))) d) = map (fun kv => (fst kv, f (snd kv))) (filter (fun kv => keep (fst kv)) d).
Proof. induction d as [|[k x] d IH]; [reflexivity|]. cbn [map filter fst]. destruct (keep k); cbn [map]; rewrite IH; reflexivity. Qed.
Theorem c108_prune keep : forall v, pruned (fun k => keep k = false) v (prune keep v).
Proof.
  induction v using pv_ind'; cbn [prune]; try (constructor; fail).
  - apply pr_list. induction H as [|x l Hx Hl IH]; cbn [map]; constructor; auto.
  - apply pr_dict. apply prune_fields. rewrite Forall_forall in H. intros k x Hi. exact (H _ Hi).
  - apply pr_object. apply prune_fields. rewrite Forall_forall in H. intros k x Hi. exact (H _ Hi).
  - apply pr_map with (keep := keep); [auto|]. rewrite filter_fields. apply prune_fields. rewrite Forall_forall in H. intros k x Hi. apply filter_In in Hi as [Hi _]. exact (H _ Hi).
Qed.
(** Two channels and a message nobody else needs, which refer to each other; and the same with an operation that needs one of them. *)
Definition big (more : list (string * pv)) : pv :=
  spec (("channels", obj [("c", obj [("address", str "a")]); ("d", obj [("x-next", str "e"); ("messages", obj [("m", ref "#/components/messages/e")])]);
                          ("e", obj [("messages", obj [("m", ref "#/channels/d/messages/m")])])])
        :: ("components", obj [("messages", obj [("e", obj [("name", str "n")]); ("k", obj [("name", str "k")])])])
        :: ("operations", obj [("o", obj [("action", str "send"); ("channel", ref "#/channels/c")])]) :: more).
Definition small : pv :=
  spec [("channels", obj [("c", obj [("address", str "a")])]); ("components", obj [("messages", obj [("k", obj [("name", str "k")])])]);
        ("operations", obj [("o", obj [("action", str "send"); ("channel", ref "#/channels/c")])])].
Definition not_de (k : pystr) : bool := negb (mem_str k [u "d"; u "e"]).
Example c108_ex : load_doc small = prune not_de (load_doc (big [])) /\ no_root_keyword (load_doc (big [])) /\ reference_strings (load_doc small) <> []
  /\ (forall r s k, within r (prune not_de (load_doc (big []))) -> is_reference r s -> not_de k = false -> ~ mentions s k)
  /\ unified E0 (load_doc (big [])) = None /\ unified E0 (prune not_de (load_doc (big []))) = None.
Proof.
  split; [vm_compute; reflexivity|]. split; [apply no_root_dec; vm_compute; reflexivity|]. split; [vm_compute; discriminate|].
  assert (Hm : forall r s k, within r (prune not_de (load_doc (big []))) -> is_reference r s -> not_de k = false -> ~ mentions s k).
  { intros r s k Hw Hs Hk. apply negb_false_iff, mem_str_In in Hk. revert r s Hw Hs. destruct Hk as [<-|[<-|[]]]; apply mentions_dec; vm_compute; reflexivity. }
  split; [exact Hm|]. assert (Hu : unified E0 (load_doc (big [])) = None) by (vm_compute; reflexivity). split; [exact Hu|].
  apply (c108_unmentioned (fun k => not_de k = false) E0 (load_doc (big []))); [apply no_root_dec; vm_compute; reflexivity|apply c108_prune|exact Hm|exact Hu].
Qed.
(** An entry that is still used: the report. *)
Example c108_ex_used : unified E0 (load_doc (used [("d", obj [])])) = None
  /\ unified E0 (prune not_de (load_doc (used [("d", obj [])]))) = Some (u "spec.operations.root.o.channel", UInvalid ENavigate).
Proof. split; vm_compute; reflexivity. Qed.
Print Assumptions c108_report.
Print Assumptions c108_unused.
Print Assumptions c108_unmentioned.
Print Assumptions c108_resolves.
Print Assumptions c108_valid.
Print Assumptions c108_prune.
