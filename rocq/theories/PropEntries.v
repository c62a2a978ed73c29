(** C70: adding and removing entries of patterned maps. *)
From Verif Require Import PyStr Regex Value Types Rules Pydantic ClassTable Classes Canon Linked SpecParse Sample ProofRules ProofParse
  State SpecState ProofState PropState Resolve SpecResolve ProofResolve PropResolve Unified SpecUnified ProofUnified ProofCheck ProofOrder PropUnified SpecEntries.
Local Open Scope string_scope.
Local Open Scope list_scope.

Lemma added_entry x k t v v' : added_at x k t v v' -> entry_added x v v'.
Proof. induction 1; [apply ea_here|apply ea_list|apply ea_dict|apply ea_root|apply ea_field]; assumption. Qed.
Lemma added_noref x k t v v' : added_at x k t v v' -> as_reference v = None.
Proof.
  intros H. destruct (ref_cases v) as [(s & Hs & _)|[_ ->]]; [exfalso|reflexivity].
  destruct H; try (destruct Hs as (? & ? & Hs & _); discriminate Hs). match goal with Hn : forall s, ~ is_reference _ s |- _ => exact (Hn _ Hs) end.
Qed.
Lemma check_grows x E doc doc' v path : entry_added x doc doc' -> check E doc v path = None -> check E doc' v path = None.
Proof.
  intros Ha H. apply check_none. intros pos rel r s Hr Hs. apply (add_check_reference x E doc doc' _ _ (or_intror Ha)).
  exact (proj1 (check_none E doc v path) H _ _ _ _ Hr Hs).
Qed.
Lemma added_parts x k t v v' : added_at x k t v v' -> forall t' y', has_part v' t' y' ->
  (y' = x /\ t' = t) \/ has_part v t' y' \/ exists y t2, has_part v t' y /\ t = (t' ++ t2)%list /\ added_at x k t2 y y'.
Proof.
  intros H t' y' Hy. destruct H as [c d1 d2 Hn|t l1 v v' l2 H|t d1 k0 v v' d2 H|t c d1 k0 v v' d2 H|t c d1 f v v' d2 ex H Hr Hx].
  - apply has_part_root in Hy as (k1 & Hi & ->). apply in_app_or in Hi as [Hi|[Hi|Hi]].
    + right. left. apply has_part_root. exists k1. split; [apply in_or_app; auto|reflexivity].
    + injection Hi as <- <-. left. auto.
    + right. left. apply has_part_root. exists k1. split; [apply in_or_app; auto|reflexivity].
  - right. apply has_part_list in Hy as (i & Hi & ->). destruct (Nat.lt_trichotomy i (length l1)) as [Hl|[Hl|Hl]].
    + rewrite nth_error_app1 in Hi by exact Hl. left. apply has_part_list. exists i. rewrite nth_error_app1 by exact Hl. auto.
    + subst i. rewrite nth_error_app2, Nat.sub_diag in Hi by lia. injection Hi as <-. right. exists v, t. split; [|auto].
      apply has_part_list. exists (length l1). rewrite nth_error_app2, Nat.sub_diag by lia. auto.
    + rewrite nth_error_app2 in Hi by lia. left. apply has_part_list. exists i. rewrite nth_error_app2 by lia.
      replace (i - length l1) with (S (i - length l1 - 1)) in * by lia. auto.
  - right. apply has_part_dict in Hy as (k1 & Hi & ->). apply (in_middle _ _ (k0, v)) in Hi as [Hi|Hi].
    + injection Hi as -> ->. right. exists v, t. split; [apply has_part_dict; exists k0; split; [apply middle_in|reflexivity]|auto].
    + left. apply has_part_dict. eauto.
  - right. apply has_part_root in Hy as (k1 & Hi & ->). apply (in_middle _ _ (k0, v)) in Hi as [Hi|Hi].
    + injection Hi as -> ->. right. exists v, t. split; [apply has_part_root; exists k0; split; [apply middle_in|reflexivity]|auto].
    + left. apply has_part_root. eauto.
  - right. apply has_part_obj in Hy as (k1 & Hi & Hn & Hx' & ->). apply (in_middle _ _ (f, v)) in Hi as [Hi|Hi].
    + injection Hi as -> ->. right. exists v, t. split; [|auto]. apply has_part_obj. exists f.
      rewrite (shape_none _ _ (add_shape x v v' (or_intror (added_entry _ _ _ _ _ H)))). split; [apply middle_in|auto].
    + left. apply has_part_obj. exists k1. auto.
Qed.
Lemma added_check x k E doc doc' : entry_added x doc doc' -> forall v t v' path, added_at x k t v v' ->
  check E doc v path = None -> check E doc' x (path ++ t) = None -> check E doc' v' path = None.
Proof.
  intros Hdoc v. induction v as [v IH] using kids_ind. intros t v' path H Hc Hx.
  assert (Hr := added_noref _ _ _ _ _ H). assert (Hr' := Hr). rewrite (add_ref x v v' (or_intror (added_entry _ _ _ _ _ H))) in Hr'.
  rewrite (check_parts _ _ _ _ Hr) in Hc. apply (check_parts _ _ _ _ Hr'). intros t' y' Hy.
  destruct (added_parts _ _ _ _ _ H _ _ Hy) as [[-> ->]|[Hy'|(y & t2 & Hp & -> & Ha)]]; [exact Hx|apply (check_grows x E doc doc' _ _ Hdoc), Hc, Hy'|].
  destruct Hp as [i Hi]. apply (IH _ _ _ Hi t2 y' _ Ha); [apply Hc; exists i; exact Hi|]. rewrite <- app_assoc. exact Hx.
Qed.
Lemma added_back x k t v v' : added_at x k t v v' -> forall t' y, has_part v t' y -> exists y', has_part v' t' y' /\ (y' = y \/ exists t2, added_at x k t2 y y').
Proof.
  intros H t' y Hy. destruct H as [c d1 d2 Hn|t l1 v v' l2 H|t d1 k0 v v' d2 H|t c d1 k0 v v' d2 H|t c d1 f v v' d2 ex H Hr Hx].
  - apply has_part_root in Hy as (k1 & Hi & ->). exists y. split; [|auto]. apply has_part_root. exists k1. split; [|reflexivity].
    apply in_app_or in Hi as [Hi|Hi]; apply in_or_app; [left|right; right]; exact Hi.
  - apply has_part_list in Hy as (i & Hi & ->). destruct (Nat.lt_trichotomy i (length l1)) as [Hl|[Hl|Hl]].
    + rewrite nth_error_app1 in Hi by exact Hl. exists y. split; [|auto]. apply has_part_list. exists i. rewrite nth_error_app1 by exact Hl. auto.
    + subst i. rewrite nth_error_app2, Nat.sub_diag in Hi by lia. injection Hi as <-. exists v'. split; [|eauto].
      apply has_part_list. exists (length l1). rewrite nth_error_app2, Nat.sub_diag by lia. auto.
    + rewrite nth_error_app2 in Hi by lia. exists y. split; [|auto]. apply has_part_list. exists i. rewrite nth_error_app2 by lia.
      replace (i - length l1) with (S (i - length l1 - 1)) in * by lia. auto.
  - apply has_part_dict in Hy as (k1 & Hi & ->). apply (in_middle _ _ (k0, v')) in Hi as [Hi|Hi].
    + injection Hi as -> ->. exists v'. split; [apply has_part_dict; exists k0; split; [apply middle_in|reflexivity]|eauto].
    + exists y. split; [apply has_part_dict; eauto|auto].
  - apply has_part_root in Hy as (k1 & Hi & ->). apply (in_middle _ _ (k0, v')) in Hi as [Hi|Hi].
    + injection Hi as -> ->. exists v'. split; [apply has_part_root; exists k0; split; [apply middle_in|reflexivity]|eauto].
    + exists y. split; [apply has_part_root; eauto|auto].
  - apply has_part_obj in Hy as (k1 & Hi & Hn & Hx' & ->). apply (in_middle _ _ (f, v')) in Hi as [Hi|Hi].
    + injection Hi as -> ->. exists v'. split; [|eauto]. apply has_part_obj. exists f.
      rewrite <- (shape_none _ _ (add_shape x v v' (or_intror (added_entry _ _ _ _ _ H)))). split; [apply middle_in|auto].
    + exists y. split; [apply has_part_obj; exists k1; auto|auto].
Qed.
(** the new entry is visited, at its location *)
Lemma reached_cons v t y pos rel r : as_reference v = None -> has_part v t y -> reached y pos rel r -> exists pos', reached v pos' (t ++ rel) r.
Proof.
  intros Hr [i Hi] H. exists (i :: pos). eapply re_step; [|exact H]. apply kids_child; [|exact Hi].
  intros s Hs. apply as_reference_iff in Hs. congruence.
Qed.
Lemma added_reached x k t v v' : added_at x k t v v' -> forall pos rel r, reached x pos rel r -> exists pos', reached v' pos' (t ++ rel) r.
Proof.
  induction 1 as [c d1 d2 Hn|t l1 v v' l2 H IH|t d1 k0 v v' d2 H IH|t c d1 k0 v v' d2 H IH|t c d1 f v v' d2 ex H IH Hr Hx]; intros pos rel r Hp.
  - eapply reached_cons; [reflexivity| |exact Hp]. apply has_part_root. exists k. split; [apply middle_in|reflexivity].
  - destruct (IH _ _ _ Hp) as [q Hq]. rewrite <- app_assoc. eapply reached_cons; [reflexivity| |exact Hq].
    apply has_part_list. exists (length l1). rewrite nth_error_app2, Nat.sub_diag by lia. auto.
  - destruct (IH _ _ _ Hp) as [q Hq]. rewrite <- app_assoc. eapply reached_cons; [reflexivity| |exact Hq].
    apply has_part_dict. exists k0. split; [apply middle_in|reflexivity].
  - destruct (IH _ _ _ Hp) as [q Hq]. rewrite <- app_assoc. eapply reached_cons; [reflexivity| |exact Hq].
    apply has_part_root. exists k0. split; [apply middle_in|reflexivity].
  - destruct (IH _ _ _ Hp) as [q Hq]. rewrite <- app_assoc. eapply reached_cons; [| |exact Hq].
    + rewrite <- (add_ref x (VObj c (d1 ++ (f, v) :: d2) ex) _ (or_intror (ea_field x c d1 f v v' d2 ex (added_entry _ _ _ _ _ H)))).
      destruct (ref_cases (VObj c (d1 ++ (f, v) :: d2) ex)) as [(s & Hs & _)|[_ Hz]]; [exfalso; exact (Hr s Hs)|exact Hz].
    + apply has_part_obj. exists f. split; [apply middle_in|]. split; [|split; [apply excluded_iff; exact Hx|reflexivity]].
      destruct H; reflexivity.
Qed.

(** Accepted before: accepted after iff the references inside the new entry are. *)
Theorem c70_new_entry E x k t doc doc' : no_root_keyword doc' -> added_at x k t doc doc' -> unified E doc = None ->
  (unified E doc' = None <->
   forall pos path r s, reached x pos path r -> is_reference r s -> acceptable E doc' (u "spec" ++ t ++ path) s).
Proof.
  intros Hn Ha Hu. split.
  - intros Hu' pos path r s Hr Hs. destruct (added_reached _ _ _ _ _ Ha _ _ _ Hr) as [q Hq].
    exact (proj1 (c28_accepts_iff E doc' Hn) Hu' _ _ _ _ Hq Hs).
  - intros H. apply (added_check x k E doc doc' (added_entry _ _ _ _ _ Ha) doc t doc' _ Ha Hu).
    apply check_none. intros pos rel r s Hr Hs. rewrite <- app_assoc. apply (check_reference_ok E doc' _ s Hn). eapply H; eauto.
Qed.
Lemma reached_split x k v : forall t v', added_at x k t v v' -> forall pos rel r s, reached v' pos rel r -> is_reference r s ->
  (exists pos' path, reached x pos' path r /\ rel = t ++ path) \/ exists pos', reached v pos' rel r.
Proof.
  induction v as [v IH] using kids_ind. intros t v' H pos rel r s Hr Hs.
  assert (Hn := added_noref _ _ _ _ _ H). assert (Hn' := Hn). rewrite (add_ref x v v' (or_intror (added_entry _ _ _ _ _ H))) in Hn'.
  inversion Hr as [p0 Hp0|i text w pos' path y Hc Hr']; subst; [apply as_reference_iff in Hs; congruence|].
  assert (Hp : has_part v' text w). { exists i. apply kids_child; [|exact Hc]. exact (child_not_ref _ _ _ _ Hc). }
  destruct (added_parts _ _ _ _ _ H _ _ Hp) as [[-> ->]|[Hy|(y & t2 & Hy & -> & Ha)]].
  - left. exists pos', path. auto.
  - right. exact (reached_cons _ _ _ _ _ _ Hn Hy Hr').
  - assert (Hy' := Hy). destruct Hy' as [j Hj]. destruct (IH _ _ _ Hj _ _ Ha _ _ _ _ Hr' Hs) as [(q & path' & Hq & ->)|[q Hq]].
    + left. exists q, path'. rewrite app_assoc. auto.
    + right. exact (reached_cons _ _ _ _ _ _ Hn Hy Hq).
Qed.
(** ... and if it is rejected, the reported location is inside the new entry. *)
Theorem c70_blame E x k t doc doc' p e : added_at x k t doc doc' -> unified E doc = None -> unified E doc' = Some (p, e) ->
  exists pos path r s, reached x pos path r /\ is_reference r s /\ p = u "spec" ++ t ++ path.
Proof.
  intros Ha Hu Hu'. apply check_some in Hu' as (pos & rel & r & s & Hr & Hs & -> & He & _).
  destruct (reached_split _ _ _ _ _ Ha _ _ _ _ Hr Hs) as [(q & path & Hq & ->)|[q Hq]]; [exists q, path, r, s; auto|exfalso].
  assert (Hc := proj1 (check_none E doc doc (u "spec")) Hu _ _ _ _ Hq Hs).
  rewrite (add_check_reference x E doc doc' _ _ (or_intror (added_entry _ _ _ _ _ Ha)) Hc) in He. discriminate He.
Qed.

(** ** Removing *)
Definition addk (x : pv) (k : pystr) (v v' : pv) : Prop := v' = v \/ exists t, added_at x k t v v'.
Lemma addk_addq x k v v' : addk x k v v' -> addq x v v'.
Proof. intros [->|[t H]]; [left; reflexivity|right; eapply added_entry; exact H]. Qed.
Lemma assoc_middle_k k1 d1 k0 (v v' : pv) d2 x k t : added_at x k t v v' -> opt_rel (addk x k) (assoc k1 (d1 ++ (k0, v) :: d2)) (assoc k1 (d1 ++ (k0, v') :: d2)).
Proof.
  intros H. rewrite !assoc_app. destruct (assoc k1 d1) as [y|]; [left; reflexivity|]. cbn [assoc]. destruct (str_eqb k1 k0); [right; exists t; exact H|].
  destruct (assoc k1 d2); [left; reflexivity|exact I].
Qed.
Lemma opt_some_r {X} (R : X -> X -> Prop) a b z : opt_rel R a b -> b = Some z -> exists y, a = Some y /\ R y z.
Proof. destruct a, b; cbn; intros H E; try discriminate; try contradiction. injection E as ->. eauto. Qed.
Lemma rem_part x k v v' k1 w' : addk x k v v' -> k1 <> k -> resolve_part v' k1 = Some w' -> exists w, resolve_part v k1 = Some w /\ addk x k w w'.
Proof.
  intros [->|[t H]] Hk; [intros H; exists w'; split; [exact H|left; reflexivity]|].
  destruct H as [c d1 d2 Hn|t l1 v v' l2 H|t d1 k0 v v' d2 H|t c d1 k0 v v' d2 H|t c d1 f v v' d2 ex H Hr Hx].
  - cbn [resolve_part root_mapping]. intros Ha. exists w'. split; [|left; reflexivity]. rewrite assoc_app in *. destruct (assoc k1 d1); [exact Ha|].
    cbn [assoc] in Ha. destruct (str_eqb k1 k) eqn:Ek; [|exact Ha]. apply str_eqb_eq in Ek. contradiction.
  - discriminate.
  - cbn [resolve_part root_mapping]. apply opt_some_r. eapply assoc_middle_k. exact H.
  - cbn [resolve_part root_mapping]. apply opt_some_r. eapply assoc_middle_k. exact H.
  - unfold resolve_part. cbn [root_mapping]. destruct (assoc (u "root") ex) as [[]|]; try (intros Ha; exists w'; split; [exact Ha|left; reflexivity]; fail);
      (generalize (find_field_name k1 (class_infos c)); intros [name|]; [|discriminate]; unfold attr;
       assert (Ha := assoc_middle_k name d1 f v v' d2 x k t H); destruct (assoc name (d1 ++ (f, v) :: d2)) as [y|], (assoc name (d1 ++ (f, v') :: d2)) as [y'|];
       cbn [opt_rel] in Ha; try contradiction; [|discriminate];
       assert (Hs := shape_none _ _ (add_shape _ _ _ (addk_addq _ _ _ _ Ha)));
       intros Hw; assert (Hy : y' = w') by (destruct y'; try discriminate Hw; injection Hw as <-; reflexivity); subst y';
       exists y; split; [destruct y; try reflexivity; destruct w'; discriminate|exact Ha]).
Qed.
Lemma rem_parts x k parts : Forall (fun p => p <> []) parts -> ~ In k parts -> forall v v' path w' p, addk x k v v' -> resolve_parts v' path parts = Some (w', p) -> exists w, resolve_parts v path parts = Some (w, p) /\ addk x k w w'.
Proof.
  induction parts as [|q parts IH]; intros Hne Hk v v' path w' p H Hr.
  - cbn [resolve_parts] in *. injection Hr as <- <-. exists v. auto.
  - inversion Hne as [|? ? Hq Hne']; subst. cbn [resolve_parts] in *. destruct q as [|c q]; [congruence|].
    destruct (resolve_part v' (c :: q)) as [y'|] eqn:Ey; [|discriminate Hr].
    destruct (rem_part _ _ _ _ (c :: q) _ H (fun e => Hk (or_introl e)) Ey) as (y & -> & Hy). eapply (IH Hne'); eauto. intros Hi. apply Hk. right. exact Hi.
Qed.
Lemma rem_fuel x k doc doc' : no_root_keyword doc -> addk x k doc doc' -> forall n visited s e r',
  resolve_fuel n doc visited s = Some (Failed e) -> resolve_fuel n doc' visited s = Some r' -> (forall e', r' <> Failed e') ->
  e = ENavigate /\ exists m s', hops doc m s s' /\ mentions s' k.
Proof.
  intros Hroot H. induction n as [|n IH]; intros visited s e r' Hr Hr' Hne; [discriminate Hr|]. cbn [resolve_fuel] in *.
  destruct (mem_str s visited); [injection Hr' as <-; exfalso; eapply Hne; reflexivity|]. destruct (is_external s); [discriminate Hr|].
  destruct (parse_ref s) as [e0|parts] eqn:Ep; [injection Hr' as <-; exfalso; eapply Hne; reflexivity|].
  destruct (resolve_parts doc (u "spec") parts) as [[v p]|] eqn:Ev.
  - destruct (add_parts _ _ _ _ _ _ _ (addk_addq _ _ _ _ H) Ev) as (v' & Ev' & Hv). rewrite Ev' in Hr'. rewrite <- (add_ref _ _ _ Hv) in Hr'.
    destruct (as_reference v) as [next|] eqn:En; [|discriminate Hr].
    destruct (IH _ _ _ _ Hr Hr' Hne) as [-> (m & s' & Hh & Hm)]. split; [reflexivity|]. exists (S m), s'. split; [|exact Hm].
    apply (designates_iff doc s Hroot parts Ep) in Ev as (l & Hd & _). econstructor; [exact Hd|apply as_reference_iff; exact En|exact Hh].
  - injection Hr as <-. split; [reflexivity|]. exists 0, s. split; [constructor|].
    destruct (resolve_parts doc' (u "spec") parts) as [[v' p']|] eqn:Ev'; [|injection Hr' as <-; exfalso; eapply Hne; reflexivity].
    apply parse_ref_ok in Ep as (r & -> & -> & l & Hl & _). exists r, l. split; [reflexivity|]. split; [exact Hl|].
    rewrite resolve_parts_filter in Ev, Ev'. change (filter ne (split 47 (strip 47 r))) with (parts_of (strip 47 r)) in Ev, Ev'.
    rewrite strip_segments, (segments_parts _ _ Hl) in Ev, Ev'. destruct (mem_str k l) eqn:Em; [apply mem_str_In; exact Em|exfalso].
    assert (Hk : ~ In k l) by (intros Hi; apply mem_str_In in Hi; congruence).
    destruct (rem_parts x k l (segments_ne _ _ Hl) Hk _ _ _ _ _ H Ev') as (w & Hw & _). congruence.
Qed.
Lemma rem_check_reference x k E doc doc' path s e : no_root_keyword doc -> addk x k doc doc' -> check_reference E doc' path s = None -> check_reference E doc path s = Some e ->
  e = UInvalid ENavigate /\ exists m s', hops doc m s s' /\ mentions s' k.
Proof.
  intros Hroot H Hc' Hc. unfold check_reference in Hc. destruct (resolve doc s) as [o p| |e0] eqn:Er.
  - exfalso. assert (Hx := add_resolve x doc doc' s (addk_addq _ _ _ _ H)). rewrite Er in Hx. specialize (Hx ltac:(discriminate)).
    unfold check_reference in Hc'. inversion Hx as [? o' ? Ho Ha Hb| |]; subst. rewrite <- Hb in Hc'. rewrite <- (shape_name _ _ (add_shape _ _ _ Ho)) in Hc'. congruence.
  - discriminate Hc.
  - injection Hc as <-. destruct (resolve_big doc doc' s) as (n & H1 & H2). rewrite Er in H1.
    destruct (rem_fuel x k doc doc' Hroot H n [] s e0 (resolve doc' s) H1 H2) as [-> Hm]; [|auto].
    intros e' He. unfold check_reference in Hc'. rewrite He in Hc'. discriminate Hc'.
Qed.
Lemma rem_reached x k E doc' v pos rel r : reached v pos rel r -> forall s v' path, is_reference r s -> addk x k v v' -> check E doc' v' path = None -> check_reference E doc' (path ++ rel) s = None.
Proof.
  induction 1 as [v path0 Hp0|v i text w pos rel r Hc Hr IH]; intros s v' path Hs Ha Hch; [subst path0|].
  - rewrite app_nil_r. rewrite check_kids in Hch. apply as_reference_iff in Hs. rewrite (add_ref _ _ _ (addk_addq _ _ _ _ Ha)) in Hs. rewrite Hs in Hch.
    destruct (check_reference E doc' path s); [discriminate Hch|reflexivity].
  - assert (Hnr := child_not_ref _ _ _ _ Hc). assert (Hp : has_part v text w) by (exists i; apply kids_child; [exact Hnr|exact Hc]).
    assert (Hn : as_reference v = None) by (destruct (ref_cases v) as [(s0 & Hs0 & _)|[_ Hz]]; [exfalso; exact (Hnr s0 Hs0)|exact Hz]).
    rewrite app_assoc. assert (Hn' := Hn). rewrite (add_ref _ _ _ (addk_addq _ _ _ _ Ha)) in Hn'. rewrite (check_parts _ _ _ _ Hn') in Hch.
    destruct Ha as [->|[t Ha]].
    + apply (IH s w _ Hs (or_introl eq_refl)). apply Hch. exact Hp.
    + destruct (added_back _ _ _ _ _ Ha _ _ Hp) as (w' & Hp' & Hw). apply (IH s w' _ Hs); [exact Hw|]. apply Hch. exact Hp'.
Qed.
(** Removing an entry from an accepted document: what can be reported is a navigation failure of a reference whose chain mentions the removed key. *)
Theorem c70_removed E x k t doc doc' p e : no_root_keyword doc -> added_at x k t doc doc' -> unified E doc' = None -> unified E doc = Some (p, e) ->
  e = UInvalid ENavigate /\ exists pos path r s n s', reached doc pos path r /\ p = u "spec" ++ path /\ is_reference r s /\ hops doc n s s' /\ mentions s' k.
Proof.
  intros Hn Ha Hu' Hu. apply check_some in Hu as (pos & rel & r & s & Hr & Hs & -> & He & _).
  assert (Hk : addk x k doc doc') by (right; exists t; exact Ha).
  assert (Hc := rem_reached x k E doc' doc pos rel r Hr s doc' (u "spec") Hs Hk Hu').
  destruct (rem_check_reference x k E doc doc' _ s e Hn Hk Hc He) as [-> (n & s' & Hh & Hm)]. split; [reflexivity|]. exists pos, rel, r, s, n, s'. auto.
Qed.
Lemma hops_last doc n s s' : hops doc n s s' -> s' = s \/ exists v, within v doc /\ is_reference v s'.
Proof.
  induction 1 as [s|n s l v s' s'' Hd Hs Hh IH]; [left; reflexivity|right]. destruct IH as [->|IH]; [|exact IH]. exists v. split; [|exact Hs].
  destruct Hd as (r & _ & _ & _ & Hw). clear -Hw. induction Hw as [v|v k w l x Hg Hw IH]; [constructor|]. eapply within_trans; [exact IH|]. eapply goes_within. exact Hg.
Qed.
(** An entry that no remaining reference mentions can be removed. *)
Theorem c70_unused E x k t doc doc' : no_root_keyword doc -> added_at x k t doc doc' -> (forall r s, within r doc -> is_reference r s -> ~ mentions s k) ->
  unified E doc' = None -> unified E doc = None.
Proof.
  intros Hn Ha Hm Hu'. destruct (unified E doc) as [[p e]|] eqn:Hu; [exfalso|reflexivity].
  destruct (c70_removed E x k t doc doc' p e Hn Ha Hu' Hu) as (_ & pos & path & r & s & n & s' & Hr & _ & Hs & Hh & Hk).
  destruct (hops_last _ _ _ _ Hh) as [->|(v & Hv & Hs')]; [exact (Hm r s (reached_within _ _ _ _ Hr) Hs Hk)|exact (Hm v s' Hv Hs' Hk)].
Qed.

(** A document, the same with a channel more, the same with a channel more that refers to nothing. *)
Definition base_parts (chs : list (string * pv)) : pv :=
  spec [("servers", obj [("s", obj [("host", str "h"); ("protocol", str "amqp")])]);
        ("channels", obj (("c", obj [("address", str "a"); ("servers", VList [ref "#/servers/s"])]) :: chs))].
Definition doc70 : pv := load_doc (base_parts []).
Definition doc70_more : pv := load_doc (base_parts [("d", obj [("servers", VList [ref "#/servers/s"])])]).
Definition doc70_bad : pv := load_doc (base_parts [("d", obj [("servers", VList [ref "#/servers/s"; ref "#/servers/gone"])])]).
Definition chan (doc : pv) (k : string) : pv := match doc with VObj _ fv _ => match get "channels" fv with VRoot _ d => match assoc (u k) d with Some x => x | None => VNone end | _ => VNone end | _ => VNone end.
Definition before_channels (doc : pv) : fields := firstn 5 (match doc with VObj _ fv _ => fv | _ => [] end).
Definition after_channels (doc : pv) : fields := skipn 6 (match doc with VObj _ fv _ => fv | _ => [] end).
Definition channels_of (doc : pv) : fields := match doc with VObj _ fv _ => match get "channels" fv with VRoot _ d => d | _ => [] end | _ => [] end.
Lemma channel_added doc doc' k : doc = VObj "AsyncAPI3" (before_channels doc ++ (u "channels", VRoot "Channels" (channels_of doc ++ [])) :: after_channels doc) [] ->
  doc' = VObj "AsyncAPI3" (before_channels doc ++ (u "channels", VRoot "Channels" (channels_of doc ++ [(u k, chan doc' k)])) :: after_channels doc) [] ->
  mem_str (u k) (map fst (channels_of doc ++ [])) = false ->
  added_at (chan doc' k) (u k) ((u "." ++ u "channels") ++ u ".root." ++ escape (u k)) doc doc'.
Proof.
  intros H H' Hm. rewrite H at 1. rewrite H' at 2. apply aa_field.
  - apply aa_here. intros Hi. apply mem_str_In in Hi. congruence.
  - intros s (fv & ex & Hx & _). discriminate Hx.
  - apply excluded_iff. vm_compute. reflexivity.
Qed.
Example c70_ex_added : added_at (chan doc70_more "d") (u "d") (u ".channels.root.d") doc70 doc70_more /\ no_root_keyword doc70_more /\ unified E0 doc70 = None /\ unified E0 doc70_more = None.
Proof.
  split; [apply channel_added; vm_compute; reflexivity|]. split; [apply no_root_dec; vm_compute; reflexivity|]. split; vm_compute; reflexivity.
Qed.
Example c70_ex_blame : added_at (chan doc70_bad "d") (u "d") (u ".channels.root.d") doc70 doc70_bad /\ no_root_keyword doc70_bad /\ unified E0 doc70 = None
  /\ unified E0 doc70_bad = Some (u "spec.channels.root.d.servers[1]", UInvalid ENavigate).
Proof.
  split; [apply channel_added; vm_compute; reflexivity|]. split; [apply no_root_dec; vm_compute; reflexivity|]. split; vm_compute; reflexivity.
Qed.
(** Removing: a channel that an operation refers to, and one nobody mentions. *)
Definition with_operation (chs : list (string * pv)) : pv :=
  spec [("channels", obj (("c", obj [("address", str "a")]) :: chs));
        ("operations", obj [("o", obj [("action", str "send"); ("channel", ref "#/channels/c"); ("x-d", ref "#/channels/d")])])].
Definition used (chs : list (string * pv)) : pv :=
  spec [("channels", obj (("c", obj [("address", str "a")]) :: chs)); ("operations", obj [("o", obj [("action", str "send"); ("channel", ref "#/channels/d")])])].
Example c70_ex_removed : added_at (chan (load_doc (used [("d", obj [])])) "d") (u "d") (u ".channels.root.d") (load_doc (used [])) (load_doc (used [("d", obj [])]))
  /\ no_root_keyword (load_doc (used [])) /\ unified E0 (load_doc (used [("d", obj [])])) = None
  /\ unified E0 (load_doc (used [])) = Some (u "spec.operations.root.o.channel", UInvalid ENavigate).
Proof.
  split; [apply channel_added; vm_compute; reflexivity|]. split; [apply no_root_dec; vm_compute; reflexivity|]. split; vm_compute; reflexivity.
Qed.
Lemma mentions_dec doc k : forallb (fun s => match parse_ref s with inr parts => negb (mem_str k (filter ne parts)) | inl _ => true end) (reference_strings doc) = true ->
  forall r s, within r doc -> is_reference r s -> ~ mentions s k.
Proof.
  intros H r s Hw Hs (p & l & -> & Hl & Hi). assert (Hin : In (u "#" ++ p) (reference_strings doc)) by (apply reference_strings_iff; eauto).
  assert (Hb := proj1 (forallb_forall _ _) H _ Hin). cbv beta in Hb.
  destruct (parse_ref (u "#" ++ p)) as [e|parts] eqn:Ep.
  - assert (Hne : l <> []) by (intros ->; destruct Hi). assert (Hok : parse_ref (u "#" ++ p) = inr (split 47 (strip 47 p))) by (apply parse_ref_ok; exists p; eauto). congruence.
  - apply parse_ref_ok in Ep as (p' & Hp & -> & _). apply app_inv_head in Hp. subst p'. change (filter ne (split 47 (strip 47 p))) with (parts_of (strip 47 p)) in Hb.
    rewrite strip_segments, (segments_parts _ _ Hl) in Hb. apply negb_true_iff in Hb. apply mem_str_In in Hi. congruence.
Qed.
Example c70_ex_unused : added_at (chan (load_doc (with_operation [("e", obj [])])) "e") (u "e") (u ".channels.root.e") (load_doc (with_operation [])) (load_doc (with_operation [("e", obj [])]))
  /\ no_root_keyword (load_doc (with_operation [])) /\ (forall r s, within r (load_doc (with_operation [])) -> is_reference r s -> ~ mentions s (u "e"))
  /\ reference_strings (load_doc (with_operation [])) <> [] /\ unified E0 (load_doc (with_operation [("e", obj [])])) = None.
Proof.
  split; [apply channel_added; vm_compute; reflexivity|]. split; [apply no_root_dec; vm_compute; reflexivity|].
  split; [apply mentions_dec; vm_compute; reflexivity|]. split; vm_compute; [discriminate|reflexivity].
Qed.
Print Assumptions c70_new_entry.
Print Assumptions c70_blame.
Print Assumptions c70_removed.
Print Assumptions c70_unused.
