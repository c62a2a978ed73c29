(** Proofs about reference resolution. *)
From Verif Require Import PyStr Regex Value Types Rules Pydantic ClassTable Classes Canon Fix Linked SpecParse ProofRules ProofParse
  State SpecState ProofState Resolve SpecResolve.

(** ** Segments *)
Definition ne (p : pystr) : bool := match p with [] => false | _ => true end.
Definition parts_of (s : pystr) : list pystr := filter ne (split 47 s).

Lemma rev_nil_inv {X} (l : list X) : rev l = [] -> l = [].
Proof. intros H. rewrite <- (rev_involutive l), H. reflexivity. Qed.

Lemma split_go_segments s : forall cur, ~ In slash cur ->
  segments (rev cur ++ s) (filter ne (split_go 47 cur s)).
Proof.
  induction s as [|c s IH]; intros cur Hc; cbn [split_go].
  - cbn [filter]. destruct (rev cur) eqn:E; cbn [ne]; [constructor|].
    rewrite <- E. constructor; [rewrite E; discriminate|rewrite <- in_rev; exact Hc|constructor|auto].
  - destruct (N.eqb_spec c 47) as [->|Hn].
    + cbn [filter]. specialize (IH [] (fun x => x)). simpl in IH.
      destruct (rev cur) eqn:E; cbn [ne].
      * simpl. apply seg_slash. exact IH.
      * rewrite <- E. constructor; [rewrite E; discriminate|rewrite <- in_rev; exact Hc|apply seg_slash; exact IH|right; eauto].
    + replace (rev cur ++ c :: s) with (rev (c :: cur) ++ s) by (simpl; rewrite <- app_assoc; reflexivity).
      apply IH. intros [H|H]; [subst; apply Hn; reflexivity|contradiction].
Qed.
Lemma parts_segments s : segments s (parts_of s).
Proof. exact (split_go_segments s [] (fun x => x)). Qed.

Lemma split_word w : ~ In slash w -> forall s cur, split_go 47 cur (w ++ s) = split_go 47 (rev w ++ cur) s.
Proof.
  induction w as [|c w IH]; intros Hw s cur; [reflexivity|]. cbn [app split_go].
  destruct (N.eqb_spec c 47) as [->|Hn]; [exfalso; apply Hw; left; reflexivity|].
  rewrite IH; [|intros H; apply Hw; right; exact H]. simpl. rewrite <- app_assoc. reflexivity.
Qed.
Lemma segments_parts s l : segments s l -> parts_of s = l.
Proof.
  induction 1 as [|s l H IH|w s l Hne Hns H IH Hs].
  - reflexivity.
  - unfold parts_of, split in *. cbn [split_go]. rewrite N.eqb_refl. simpl. exact IH.
  - unfold parts_of, split in *. rewrite (split_word w Hns). rewrite app_nil_r.
    destruct Hs as [->|[s' ->]].
    + cbn [split_go] in *. simpl in IH. rewrite rev_involutive. simpl. destruct w; [congruence|]. simpl. rewrite ?app_nil_r. f_equal. exact IH.
    + cbn [split_go] in *. unfold slash in *. rewrite N.eqb_refl in *. rewrite rev_involutive. simpl in *.
      destruct w; [congruence|]. simpl. f_equal. exact IH.
Qed.
Lemma segments_fun s l l' : segments s l -> segments s l' -> l = l'.
Proof. intros H1 H2. apply segments_parts in H1, H2. congruence. Qed.
Lemma segments_app_slash s l : segments s l -> segments (s ++ [slash]) l.
Proof.
  induction 1 as [|s l H IH|w s l Hne Hns H IH Hs].
  - apply seg_slash. constructor.
  - simpl. apply seg_slash. exact IH.
  - rewrite <- app_assoc. constructor; auto. right. destruct Hs as [->|[s' ->]]; simpl; eauto.
Qed.
Lemma lstrip_segments s : parts_of (lstrip 47 s) = parts_of s.
Proof.
  induction s as [|c s IH]; [reflexivity|]. cbn [lstrip]. destruct (N.eqb_spec c 47) as [->|Hn]; [|reflexivity].
  rewrite IH. symmetry. apply segments_parts. apply (seg_slash s). apply parts_segments.
Qed.
Lemma rstrip_segments s : parts_of (rev (lstrip 47 (rev s))) = parts_of s.
Proof.
  induction s as [|c s IH] using rev_ind; [reflexivity|]. rewrite rev_app_distr. cbn [rev app lstrip].
  destruct (N.eqb_spec c 47) as [->|Hn].
  - rewrite IH. symmetry. apply segments_parts. apply (segments_app_slash s). apply parts_segments.
  - simpl. rewrite rev_involutive. reflexivity.
Qed.
Lemma strip_segments s : parts_of (strip 47 s) = parts_of s.
Proof. unfold strip. rewrite rstrip_segments, lstrip_segments. reflexivity. Qed.

Lemma split_go_ne s : forall cur, split_go 47 cur s <> [].
Proof. induction s as [|c s IH]; intros cur; cbn [split_go]; [discriminate|]. destruct (N.eqb c 47); [discriminate|apply IH]. Qed.
Lemma split_single s : split 47 s = [[]] <-> s = [].
Proof.
  split; [|intros ->; reflexivity]. unfold split.
  assert (H : forall s cur, split_go 47 cur s = [[]] -> s = [] /\ cur = []).
  { induction s0 as [|c s0 IH]; intros cur H; cbn [split_go] in H.
    - assert (Hr : rev cur = []) by congruence. apply rev_nil_inv in Hr. auto.
    - destruct (N.eqb c 47).
      + assert (H2 : split_go 47 [] s0 = []) by (injection H; auto). exfalso. exact (split_go_ne _ _ H2).
      + apply IH in H as [_ H]. discriminate. }
  intros Hs. apply H in Hs. tauto.
Qed.
Lemma segments_nil s : segments s [] -> strip 47 s = [].
Proof.
  intros H. assert (Hl : lstrip 47 s = []).
  { remember [] as l eqn:E. induction H; [reflexivity| |discriminate]. cbn [lstrip]. unfold slash. rewrite N.eqb_refl. auto. }
  unfold strip. rewrite Hl. reflexivity.
Qed.
Lemma strip_nil s : strip 47 s = [] -> segments s [].
Proof.
  intros H. assert (Hp := strip_segments s). rewrite H in Hp. assert (Hs := parts_segments s). rewrite <- Hp in Hs. exact Hs.
Qed.

Lemma hash_tl s : starts_with (u "#") s = true -> s = u "#" ++ tl s.
Proof. intros H. apply starts_with_iff in H as [t ->]. reflexivity. Qed.
Lemma parse_ref_ok s parts : parse_ref s = inr parts <->
  exists r, s = u "#" ++ r /\ parts = split 47 (strip 47 r) /\ (exists l, segments r l /\ l <> []).
Proof.
  unfold parse_ref. destruct (starts_with (u "#") s) eqn:Es.
  - apply hash_tl in Es. set (r := tl s) in *. clearbody r. subst s.
    assert (Hd : split 47 (strip 47 r) = [[]] <-> parts_of r = []).
    { rewrite split_single. split.
      - intros H. apply strip_nil in H. apply segments_parts in H. exact H.
      - intros H. apply segments_nil. rewrite <- H. apply parts_segments. }
    split.
    + intros H. exists r. split; [reflexivity|].
      destruct (split 47 (strip 47 r)) as [|[|c p] q] eqn:E; inversion H; subst.
      * split; [reflexivity|]. exists (parts_of r). split; [apply parts_segments|]. intros Hn. apply Hd in Hn. discriminate.
      * destruct q; [discriminate|]. inversion H; subst. split; [reflexivity|]. exists (parts_of r). split; [apply parts_segments|]. intros Hn. apply Hd in Hn. discriminate.
      * split; [reflexivity|]. exists (parts_of r). split; [apply parts_segments|]. intros Hn. apply Hd in Hn. discriminate.
    + intros (r' & Hr & -> & l & Hl & Hne). apply app_inv_head in Hr. subst r'.
      destruct (split 47 (strip 47 r)) as [|[|c p] q] eqn:E; try reflexivity. destruct q; [|reflexivity].
      exfalso. apply Hne. apply segments_parts in Hl. rewrite <- Hl. apply Hd. reflexivity.
  - split; [discriminate|]. intros (r & -> & _). rewrite starts_with_app in Es. discriminate.
Qed.
Lemma parse_ref_format s : parse_ref s = inl EFormat <-> ~ exists r, s = u "#" ++ r.
Proof.
  unfold parse_ref. destruct (starts_with (u "#") s) eqn:Es.
  - split; [|intros H; exfalso; apply H; apply starts_with_iff; exact Es].
    destruct (split 47 _) as [|[|] []]; discriminate.
  - split; [|reflexivity]. intros _ H. apply starts_with_iff in H. congruence.
Qed.
Lemma parse_ref_path s : parse_ref s = inl EPath <-> exists r, s = u "#" ++ r /\ segments r [].
Proof.
  unfold parse_ref. destruct (starts_with (u "#") s) eqn:Es.
  - apply hash_tl in Es. set (r := tl s) in *. clearbody r. subst s. split.
    + intros H. exists r. split; [reflexivity|]. apply strip_nil, split_single.
      destruct (split 47 _) as [|[|] []]; try discriminate. reflexivity.
    + intros (r' & Hr & Hs). apply app_inv_head in Hr. subst r'. apply segments_nil in Hs. rewrite Hs. reflexivity.
  - split; [discriminate|]. intros (r & -> & _). rewrite starts_with_app in Es. discriminate.
Qed.
Lemma parse_ref_cases s : (exists p, parse_ref s = inr p) \/ parse_ref s = inl EFormat \/ parse_ref s = inl EPath.
Proof. unfold parse_ref. destruct (starts_with _ _); [|auto]. destruct (split 47 _) as [|[|] []]; eauto. Qed.

Lemma external_iff s : is_external s = true <-> external s.
Proof.
  unfold is_external, external. rewrite orb_true_iff, !starts_with_iff. split.
  - intros [[t H]|[t H]]; eauto.
  - intros [r [H|H]]; eauto.
Qed.
Lemma as_reference_iff v s : as_reference v = Some s <-> is_reference v s.
Proof.
  unfold is_reference. split.
  - destruct v; try discriminate. cbn [as_reference]. destruct (String.eqb_spec c "Reference"); [|discriminate].
    destruct (assoc (u "ref") fs) as [[]|] eqn:E; try discriminate. intros H; inversion H; subst. eauto.
  - intros (fv & ex & -> & H). cbn [as_reference]. rewrite String.eqb_refl, H. reflexivity.
Qed.

(** ** Navigation *)
Lemma class_keys_NoDup c : NoDup (all_keys (class_infos c)).
Proof.
  unfold class_infos, class_fields. destruct (find_class c all_types) as [[k fs]|] eqn:E; [|constructor].
  apply Linked.find_class_In in E. apply wf_all in E. cbn [wf_ty] in E. apply andb_prop in E as [E _].
  unfold model_ok in E. repeat (apply andb_prop in E as [E _]). apply nodupb_NoDup. exact E.
Qed.
Lemma find_name_spec part fs : NoDup (all_keys fs) -> forall name,
  find_field_name part fs = Some name <-> exists fi, In fi fs /\ f_name fi = name /\ (part = f_name fi \/ part = f_alias fi).
Proof.
  induction fs as [|fi fs IH]; intros Hnd name; cbn [find_field_name].
  - split; [discriminate|intros (x & [] & _)].
  - cbn [all_keys flat_map] in Hnd. apply NoDup_app_inv in Hnd as (_ & Hb & Hd).
    destruct (str_eqb (f_name fi) part || str_eqb (f_alias fi) part) eqn:Eo.
    + assert (Hp : In part (field_keys fi)).
      { apply orb_prop in Eo as [Eo|Eo]; apply str_eqb_eq in Eo; subst; [apply field_keys_name|apply field_keys_alias]. }
      split.
      * intros H; inversion H; subst. exists fi. split; [left; reflexivity|]. split; [reflexivity|].
        apply orb_prop in Eo as [Eo|Eo]; apply str_eqb_eq in Eo; auto.
      * intros (x & [->|Hx] & <- & Hk); [reflexivity|]. exfalso. apply (Hd part Hp). apply (all_keys_in x); [exact Hx|].
        destruct Hk as [->| ->]; [apply field_keys_name|apply field_keys_alias].
    + apply orb_false_iff in Eo as [E1 E2]. apply str_eqb_neq in E1, E2. rewrite (IH Hb). split.
      * intros (x & Hx & H1 & H2). exists x. split; [right; exact Hx|auto].
      * intros (x & [->|Hx] & H1 & H2); [destruct H2; congruence|eauto].
Qed.
Lemma infos_in c fi : In fi (class_infos c) <-> exists t, In (fi, t) (class_fields c).
Proof.
  unfold class_infos. generalize (class_fields c). intros fs. split.
  - intros H. apply in_map_iff in H as ([a t] & <- & H). eauto.
  - intros [t H]. change fi with (fst (fi, t)). apply in_map. exact H.
Qed.
Lemma goes_iff v part v' : root_mapping v = match v with VRoot _ d => Some d | _ => None end ->
  (resolve_part v part = Some v' <-> goes v part v').
Proof.
  intros Hr. unfold resolve_part. rewrite Hr. split.
  - destruct v; try discriminate; intros H.
    + constructor; exact H.
    + destruct (find_field_name part (class_infos c)) as [name|] eqn:Ef; [|discriminate].
      apply (find_name_spec _ _ (class_keys_NoDup c)) in Ef as (fi & Hfi & <- & Hp). apply infos_in in Hfi as [t Hfi].
      unfold attr in H. destruct (assoc (f_name fi) fs) as [w|] eqn:Ea; [|discriminate].
      assert (w = v' /\ w <> VNone) as [-> Hn] by (destruct w; inversion H; subst; split; congruence).
      destruct Hp as [->| ->]; [eapply go_field|eapply go_alias]; eauto.
    + constructor; exact H.
  - intros H. destruct H as [c d k v H|d k v H|c fv ex fi t v Hin Ha Hv|c fv ex fi t v Hin Ha Hv]; try exact H.
    + assert (Ef : find_field_name (f_name fi) (class_infos c) = Some (f_name fi)).
      { apply (find_name_spec _ _ (class_keys_NoDup c)). exists fi. split; [apply infos_in; eauto|auto]. }
      rewrite Ef. unfold attr. rewrite Ha. destruct v; congruence.
    + assert (Ef : find_field_name (f_alias fi) (class_infos c) = Some (f_name fi)).
      { apply (find_name_spec _ _ (class_keys_NoDup c)). exists fi. split; [apply infos_in; eauto|auto]. }
      rewrite Ef. unfold attr. rewrite Ha. destruct v; congruence.
Qed.
Lemma goes_within v k w : goes v k w -> within w v.
Proof.
  intros H. destruct H.
  - eapply w_root; [apply assoc_In; eassumption|constructor].
  - eapply w_dict; [apply assoc_In; eassumption|constructor].
  - eapply w_field; [apply assoc_In; eassumption|constructor].
  - eapply w_field; [apply assoc_In; eassumption|constructor].
Qed.
Lemma within_trans x y z : within x y -> within y z -> within x z.
Proof. intros H1 H2. induction H2; [exact H1|econstructor 2; eauto|econstructor 3; eauto|econstructor 4; eauto|econstructor 5; eauto|econstructor 6; eauto]. Qed.
Lemma part_within v k w : resolve_part v k = Some w -> within w v.
Proof.
  unfold resolve_part. destruct (root_mapping v) as [d|] eqn:Er.
  - intros H. apply assoc_In in H. destruct v; try discriminate; cbn [root_mapping] in Er.
    + destruct (assoc (u "root") ex) as [[]|] eqn:Ea; try discriminate. inversion Er; subst.
      apply assoc_In in Ea. eapply w_extra; [exact Ea|]. eapply w_dict; [exact H|constructor].
    + inversion Er; subst. eapply w_root; [exact H|constructor].
  - destruct v; try discriminate.
    + intros H. apply assoc_In in H. eapply w_dict; [exact H|constructor].
    + destruct (find_field_name k (class_infos c)) as [name|]; [|discriminate]. unfold attr.
      destruct (assoc name fs) as [x|] eqn:Ea; [|discriminate]. intros H. assert (x = w) by (destruct x; congruence). subst.
      eapply w_field; [apply assoc_In; exact Ea|constructor].
Qed.
Lemma parts_within parts : forall v path w p, resolve_parts v path parts = Some (w, p) -> within w v.
Proof.
  induction parts as [|k parts IH]; intros v path w p H; cbn [resolve_parts] in H; [inversion H; subst; constructor|].
  destruct k; [eapply IH; eauto|]. destruct (resolve_part v (n :: k)) as [v'|] eqn:E; [|discriminate].
  eapply within_trans; [eapply IH; eauto|eapply part_within; eauto].
Qed.
Lemma resolve_parts_filter parts : forall v path, resolve_parts v path parts = resolve_parts v path (filter ne parts).
Proof.
  induction parts as [|k parts IH]; intros v path; [reflexivity|]. cbn [filter resolve_parts]. destruct k; cbn [ne]; [apply IH|].
  cbn [resolve_parts]. destruct (resolve_part v (n :: k)); [apply IH|reflexivity].
Qed.
Lemma no_root_sub doc v : no_root_keyword doc -> within v doc -> no_root_keyword v.
Proof. intros H Hw c fv ex d Hx. apply (H c fv ex d). eapply within_trans; eauto. Qed.
Lemma no_root_mapping v : no_root_keyword v -> root_mapping v = match v with VRoot _ d => Some d | _ => None end.
Proof.
  intros H. destruct v; try reflexivity. cbn [root_mapping]. destruct (assoc (u "root") ex) as [[]|] eqn:E; try reflexivity.
  exfalso. exact (H _ _ _ _ (w_self _) E).
Qed.
Lemma walks_resolve l : forall v path, no_root_keyword v -> Forall (fun p => p <> []) l -> forall w p,
  resolve_parts v path l = Some (w, p) <-> walks v l w /\ p = path ++ dotted l.
Proof.
  induction l as [|k l IH]; intros v path Hn Hl w p.
  - cbn [resolve_parts dotted]. rewrite app_nil_r. split; [intros H; inversion H; subst; split; [constructor|reflexivity]|].
    intros [H ->]. inversion H; subst. reflexivity.
  - inversion Hl as [|? ? Hk Hl']; subst. cbn [resolve_parts]. destruct k as [|c k]; [congruence|].
    set (key := c :: k) in *. clearbody key. split.
    + destruct (resolve_part v key) as [v'|] eqn:Ep; [|discriminate]. intros H.
      assert (Hw := part_within _ _ _ Ep). apply goes_iff in Ep; [|apply no_root_mapping; exact Hn].
      apply IH in H as [Hwk ->]; [|eapply no_root_sub; eauto|exact Hl']. split; [econstructor; eauto|].
      cbn [dotted]. rewrite <- !app_assoc. reflexivity.
    + intros [H ->]. inversion H; subst.
      match goal with Hg : goes v key ?v' |- _ => assert (Hgo := Hg); apply goes_iff in Hg; [|apply no_root_mapping; exact Hn]; rewrite Hg;
        apply IH; [eapply no_root_sub; [exact Hn|eapply goes_within; exact Hgo]|exact Hl'|] end.
      split; [assumption|]. cbn [dotted]. rewrite <- !app_assoc. reflexivity.
Qed.
Lemma segments_ne s l : segments s l -> Forall (fun p => p <> []) l.
Proof. induction 1; auto. Qed.
(** What one hop of [resolve_reference] computes. *)
Lemma designates_iff doc s : no_root_keyword doc -> forall parts, parse_ref s = inr parts -> forall v p,
  resolve_parts doc (u "spec") parts = Some (v, p) <-> exists l, designates doc s l v /\ p = access_path l.
Proof.
  intros Hn parts Hp v p. apply parse_ref_ok in Hp as (r & -> & -> & l & Hl & Hne).
  rewrite resolve_parts_filter. change (filter ne (split 47 (strip 47 r))) with (parts_of (strip 47 r)).
  rewrite strip_segments, (segments_parts _ _ Hl).
  rewrite (walks_resolve l doc (u "spec") Hn (segments_ne _ _ Hl) v p). split.
  - intros [Hw ->]. exists l. split; [exists r; auto|reflexivity].
  - intros (l' & (r' & Hr & Hs & _ & Hw) & ->). apply app_inv_head in Hr. subst r'.
    rewrite (segments_fun _ _ _ Hl Hs). auto.
Qed.
Lemma designates_parse doc s l v : designates doc s l v -> exists parts, parse_ref s = inr parts.
Proof. intros (r & -> & Hs & Hne & _). eexists. apply parse_ref_ok. exists r. split; [reflexivity|]. split; [reflexivity|]. eauto. Qed.
Lemma designates_not_external doc s l v : designates doc s l v -> ~ external s.
Proof. intros (r & -> & _) (x & [H|H]); discriminate. Qed.
Lemma goes_fun v k w w' : goes v k w -> goes v k w' -> w = w'.
Proof.
  intros H1 H2.
  assert (G : forall x, goes v k x -> match v with
     | VRoot _ d | VDict d => assoc k d = Some x
     | VObj c fv _ => match find_field_name k (class_infos c) with Some n => assoc n fv = Some x | None => False end
     | _ => False end).
  { intros x H. destruct H as [c d k v H|d k v H|c fv ex fi t v Hin Ha Hv|c fv ex fi t v Hin Ha Hv]; try exact H.
    - assert (Ef : find_field_name (f_name fi) (class_infos c) = Some (f_name fi)).
      { apply (find_name_spec _ _ (class_keys_NoDup c)). exists fi. split; [apply infos_in; eauto|auto]. }
      rewrite Ef. exact Ha.
    - assert (Ef : find_field_name (f_alias fi) (class_infos c) = Some (f_name fi)).
      { apply (find_name_spec _ _ (class_keys_NoDup c)). exists fi. split; [apply infos_in; eauto|auto]. }
      rewrite Ef. exact Ha. }
  apply G in H1, H2. destruct v; try contradiction; try congruence.
  destruct (find_field_name k (class_infos c)); [congruence|contradiction].
Qed.
Lemma walks_fun v l w : walks v l w -> forall w', walks v l w' -> w = w'.
Proof.
  induction 1; intros w' H'; inversion H'; subst; [reflexivity|].
  assert (w = w0) by (eapply goes_fun; eauto). subst. auto.
Qed.
Lemma designates_fun doc s l v l' v' : designates doc s l v -> designates doc s l' v' -> l = l' /\ v = v'.
Proof.
  intros (r & -> & Hs & _ & Hw) (r' & Hr & Hs' & _ & Hw'). apply app_inv_head in Hr. subst r'.
  assert (l = l') by (eapply segments_fun; eauto). subst. split; [reflexivity|]. eapply walks_fun; eauto.
Qed.
Lemma is_reference_fun v s s' : is_reference v s -> is_reference v s' -> s = s'.
Proof. intros (fv & ex & -> & H) (fv' & ex' & Heq & H'). inversion Heq; subst. congruence. Qed.

(** ** Chains *)
Lemma hops_snoc doc n s s' : hops doc n s s' -> forall l v s'', designates doc s' l v -> is_reference v s'' -> hops doc (S n) s s''.
Proof. induction 1; intros; econstructor; eauto. constructor. Qed.
Lemma hops_app doc n s s' : hops doc n s s' -> forall m s'', hops doc m s' s'' -> hops doc (n + m) s s''.
Proof. induction 1; intros; [assumption|]. simpl. econstructor; eauto. Qed.
Lemma hops_fun doc n s s' : hops doc n s s' -> forall s'', hops doc n s s'' -> s' = s''.
Proof.
  induction 1; intros x Hx; inversion Hx; subst; [reflexivity|].
  match goal with H1 : designates doc s ?a ?b, H2 : designates doc s ?c ?d |- _ => destruct (designates_fun _ _ _ _ _ _ H1 H2); subst end.
  match goal with H1 : is_reference ?a ?b, H2 : is_reference ?a ?c |- _ => pose proof (is_reference_fun _ _ _ H1 H2); subst end. auto.
Qed.
Lemma hops_split doc n m s s' : hops doc (n + m) s s' -> exists x, hops doc n s x /\ hops doc m x s'.
Proof.
  revert s. induction n as [|n IH]; intros s H; [exists s; split; [constructor|exact H]|].
  simpl in H. inversion H; subst. match goal with Hh : hops doc (n + m) _ _ |- _ => destruct (IH _ Hh) as (x & Hx & Hy) end. exists x. split; [econstructor; eauto|exact Hy].
Qed.
Definition stuck (doc : pv) (s : pystr) : Prop := forall l v s', designates doc s l v -> ~ is_reference v s'.
Lemma stuck_bound doc n s s' : hops doc n s s' -> stuck doc s' -> forall m x, hops doc m s x -> m <= n.
Proof.
  induction 1; intros Hs m x Hm.
  - inversion Hm; subst; [lia|]. exfalso. eapply Hs; eauto.
  - inversion Hm; subst; [lia|].
    match goal with H1 : designates doc s ?a ?b, H2 : designates doc s ?c ?d |- _ => destruct (designates_fun _ _ _ _ _ _ H1 H2); subst end.
    match goal with H1 : is_reference ?a ?b, H2 : is_reference ?a ?c |- _ => pose proof (is_reference_fun _ _ _ H1 H2); subst end.
    match goal with Hh : hops doc _ _ x |- _ => specialize (IHhops Hs _ _ Hh) end. lia.
Qed.
Lemma stuck_unique doc n s a m b : hops doc n s a -> stuck doc a -> hops doc m s b -> stuck doc b -> n = m /\ a = b.
Proof.
  intros H1 S1 H2 S2. assert (m <= n) by (eapply stuck_bound; eauto). assert (n <= m) by (eapply stuck_bound; eauto).
  assert (n = m) by lia. subst. split; [reflexivity|eapply hops_fun; eauto].
Qed.
Lemma circular_not_stuck doc s n a : circular doc s -> hops doc n s a -> stuck doc a -> False.
Proof.
  intros (i & j & x & Hij & Hi & Hj) Hn Hs.
  assert (Hc : hops doc (j - i) x x).
  { replace j with (i + (j - i)) in Hj by lia. apply hops_split in Hj as (y & Hy & Hz). rewrite (hops_fun _ _ _ _ Hi _ Hy) at 1. exact Hz. }
  assert (Hp : forall k, exists m, k <= m /\ hops doc m s x).
  { induction k as [|k (m & Hk & Hm)]; [exists i; split; [lia|exact Hi]|].
    exists (m + (j - i)). split; [lia|]. eapply hops_app; eauto. }
  destruct (Hp (S n)) as (m & Hk & Hm). assert (m <= n) by (eapply stuck_bound; eauto). lia.
Qed.

Inductive outcome_of (doc : pv) (s : pystr) : resolution -> Prop :=
| oc_obj n s' l o : hops doc n s s' -> designates doc s' l o -> (forall x, ~ is_reference o x) -> outcome_of doc s (Resolved o (access_path l))
| oc_ext n s' : hops doc n s s' -> external s' -> outcome_of doc s External
| oc_format n s' : hops doc n s s' -> ~ external s' -> (~ exists r, s' = u "#" ++ r) -> outcome_of doc s (Failed EFormat)
| oc_path n s' r : hops doc n s s' -> s' = u "#" ++ r -> segments r [] -> outcome_of doc s (Failed EPath)
| oc_nav n s' r l : hops doc n s s' -> s' = u "#" ++ r -> segments r l -> l <> [] -> (forall v, ~ walks doc l v) -> outcome_of doc s (Failed ENavigate)
| oc_circ : circular doc s -> outcome_of doc s (Failed ECircular).

Lemma resolve_fuel_sound doc s0 : no_root_keyword doc -> forall fuel visited s n r,
  hops doc n s0 s -> (forall x, In x visited -> exists i, i < n /\ hops doc i s0 x) ->
  resolve_fuel fuel doc visited s = Some r -> outcome_of doc s0 r.
Proof.
  intros Hn. induction fuel as [|fuel IH]; intros visited s n r Hh Hv H; [discriminate|]. cbn [resolve_fuel] in H.
  destruct (mem_str s visited) eqn:Em.
  { inversion H; subst. apply mem_str_In in Em. destruct (Hv _ Em) as (i & Hi & Hx). apply oc_circ. exists i, n, s. auto. }
  destruct (is_external s) eqn:Ee.
  { inversion H; subst. apply external_iff in Ee. eapply oc_ext; eauto. }
  assert (Hne : ~ external s) by (intros He; apply external_iff in He; congruence).
  destruct (parse_ref s) as [e|parts] eqn:Ep.
  { inversion H; subst. destruct e.
    - destruct (parse_ref_cases s) as [[p Hp]|[Hp|Hp]]; congruence.
    - eapply oc_format; eauto. apply parse_ref_format. exact Ep.
    - apply parse_ref_path in Ep as (r & Hr & Hs). eapply oc_path; eauto.
    - destruct (parse_ref_cases s) as [[p Hp]|[Hp|Hp]]; congruence. }
  assert (Hd := designates_iff doc s Hn parts Ep).
  destruct (resolve_parts doc (u "spec") parts) as [[v path]|] eqn:Er.
  - destruct (proj1 (Hd v path) eq_refl) as (l & Hl & ->).
    destruct (as_reference v) as [s'|] eqn:Ea.
    + apply as_reference_iff in Ea. apply (IH (s :: visited) s' (S n)); [eapply hops_snoc; eauto| |exact H].
      intros x [<-|Hx]; [exists n; split; [lia|exact Hh]|]. destruct (Hv x Hx) as (i & Hi & Hxx). exists i. split; [lia|exact Hxx].
    + inversion H; subst. eapply oc_obj; eauto. intros x Hx. apply as_reference_iff in Hx. congruence.
  - inversion H; subst. apply parse_ref_ok in Ep as (r & Hr & Hsp & l & Hl & Hne2). eapply oc_nav; eauto.
    intros v Hw. assert (Hx : designates doc s l v) by (exists r; auto).
    assert (Hy := proj2 (Hd v (access_path l)) (ex_intro _ l (conj Hx eq_refl))). discriminate.
Qed.

(** ** Termination *)
Lemma within_references x v s : within x v -> as_reference x = Some s -> In s (reference_strings v).
Proof.
  intros Hw Hr. induction Hw.
  - destruct x; cbn [reference_strings]; rewrite Hr; left; reflexivity.
  - cbn [reference_strings]. apply in_or_app. right. apply in_flat_map. eauto.
  - cbn [reference_strings]. apply in_or_app. right. apply in_flat_map. exists (k, y). auto.
  - cbn [reference_strings]. apply in_or_app. right. apply in_or_app. left. apply in_flat_map. exists (k, y). auto.
  - cbn [reference_strings]. apply in_or_app. right. apply in_or_app. right. apply in_flat_map. exists (k, y). auto.
  - cbn [reference_strings]. apply in_or_app. right. apply in_flat_map. exists (k, y). auto.
Qed.
Lemma resolve_fuel_total doc s0 : forall fuel visited s,
  NoDup visited -> (forall x, In x visited -> In x (s0 :: reference_strings doc)) -> In s (s0 :: reference_strings doc) ->
  2 + length (reference_strings doc) <= fuel + length visited -> resolve_fuel fuel doc visited s <> None.
Proof.
  induction fuel as [|fuel IH]; intros visited s Hnd Hv Hs Hf.
  - exfalso. assert (length visited <= length (s0 :: reference_strings doc)) by (apply NoDup_incl_length; assumption).
    cbn [length] in *. lia.
  - cbn [resolve_fuel]. destruct (mem_str s visited) eqn:Em; [discriminate|]. destruct (is_external s); [discriminate|].
    destruct (parse_ref s) as [e|parts]; [discriminate|].
    destruct (resolve_parts doc (u "spec") parts) as [[v path]|] eqn:Er; [|discriminate].
    destruct (as_reference v) as [s'|] eqn:Ea; [|discriminate].
    apply mem_str_not_In in Em. apply IH.
    + constructor; assumption.
    + intros x [<-|Hx]; auto.
    + right. eapply within_references; [eapply parts_within; exact Er|exact Ea].
    + cbn [length]. lia.
Qed.
Lemma fuel_mono doc : forall n visited s r, resolve_fuel n doc visited s = Some r -> forall m, n <= m -> resolve_fuel m doc visited s = Some r.
Proof.
  induction n as [|n IH]; intros visited s r H m Hm; [discriminate|]. destruct m as [|m]; [lia|]. cbn [resolve_fuel] in *.
  destruct (mem_str s visited); [exact H|]. destruct (is_external s); [exact H|]. destruct (parse_ref s); [exact H|].
  destruct (resolve_parts doc (u "spec") l) as [[v path]|]; [|exact H]. destruct (as_reference v); [|exact H]. apply IH; [exact H|lia].
Qed.
Lemma resolve_eq doc s : forall n, 2 + length (reference_strings doc) <= n -> resolve_fuel n doc [] s = Some (resolve doc s).
Proof.
  intros n Hn. unfold resolve.
  assert (Ht := resolve_fuel_total doc s (2 + length (reference_strings doc)) [] s).
  destruct (resolve_fuel (2 + length (reference_strings doc)) doc [] s) as [r|] eqn:E.
  - eapply fuel_mono; eauto.
  - exfalso. apply Ht; [constructor|intros ? []|left; reflexivity|simpl; lia|reflexivity].
Qed.
Lemma resolve_outcome doc s : no_root_keyword doc -> outcome_of doc s (resolve doc s).
Proof.
  intros Hn. eapply (resolve_fuel_sound doc s Hn _ [] s 0); [constructor|intros ? []|]. apply resolve_eq. apply le_n.
Qed.

(** Outcomes exclude each other. *)
Lemma stuck_ext doc s : external s -> stuck doc s.
Proof. intros H l v s' Hd _. exact (designates_not_external _ _ _ _ Hd H). Qed.
Lemma stuck_nohash doc s : (~ exists r, s = u "#" ++ r) -> stuck doc s.
Proof. intros H l v s' (r & Hr & _) _. apply H. eauto. Qed.
Lemma stuck_empty doc r : segments r [] -> stuck doc (u "#" ++ r).
Proof. intros H l v s' (r' & Hr & Hs & Hne & _) _. apply app_inv_head in Hr. subst r'. apply Hne. eapply segments_fun; eauto. Qed.
Lemma stuck_nav doc r l : segments r l -> (forall v, ~ walks doc l v) -> stuck doc (u "#" ++ r).
Proof. intros H Hw l' v s' (r' & Hr & Hs & _ & Hx) _. apply app_inv_head in Hr. subst r'. rewrite (segments_fun _ _ _ H Hs) in Hw. exact (Hw _ Hx). Qed.
Lemma stuck_obj doc s l o : designates doc s l o -> (forall x, ~ is_reference o x) -> stuck doc s.
Proof. intros H Hr l' v s' Hd. destruct (designates_fun _ _ _ _ _ _ H Hd) as [_ <-]. apply Hr. Qed.
Lemma hash_not_external r : ~ external (u "#" ++ r).
Proof. intros (x & [H|H]); discriminate. Qed.

Lemma outcome_fun doc s r r' : outcome_of doc s r -> outcome_of doc s r' -> r = r'.
Proof.
  intros H1 H2.
  assert (Hst : forall r, outcome_of doc s r -> r = Failed ECircular /\ circular doc s \/
     exists n s', hops doc n s s' /\ stuck doc s' /\
       ((exists l o, r = Resolved o (access_path l) /\ designates doc s' l o)
        \/ (r = External /\ external s')
        \/ (r = Failed EFormat /\ ~ external s' /\ ~ exists x, s' = u "#" ++ x)
        \/ (r = Failed EPath /\ exists x, s' = u "#" ++ x /\ segments x [])
        \/ (r = Failed ENavigate /\ exists x l, s' = u "#" ++ x /\ segments x l /\ l <> [] /\ forall v, ~ walks doc l v))).
  { clear. intros r H. destruct H as [n s' l o Hh Hd Hr|n s' Hh He|n s' Hh He Hf|n s' x Hh Hs Hx|n s' x l Hh Hs Hx Hne Hw|Hc]; [right|right|right|right|right|left; auto].
    - exists n, s'. split; [exact Hh|]. split; [eapply stuck_obj; eauto|]. left. eauto.
    - exists n, s'. split; [exact Hh|]. split; [apply stuck_ext; exact He|]. right. left. auto.
    - exists n, s'. split; [exact Hh|]. split; [apply stuck_nohash; exact Hf|]. do 2 right. left. auto.
    - exists n, s'. split; [exact Hh|]. subst. split; [apply stuck_empty; exact Hx|]. do 3 right. left. eauto.
    - exists n, s'. split; [exact Hh|]. subst. split; [eapply stuck_nav; eauto|]. do 4 right. split; [reflexivity|]. eauto 8. }
  apply Hst in H1, H2. destruct H1 as [[-> Hc1]|(n1 & s1 & Hh1 & Hs1 & H1)], H2 as [[-> Hc2]|(n2 & s2 & Hh2 & Hs2 & H2)]; [reflexivity| | |].
  - exfalso. eapply circular_not_stuck; eauto.
  - exfalso. eapply circular_not_stuck; eauto.
  - destruct (stuck_unique _ _ _ _ _ _ Hh1 Hs1 Hh2 Hs2) as [_ <-]. clear -H1 H2.
    destruct H1 as [(l1 & o1 & -> & Hd1)|[[-> He1]|[(-> & He1 & Hf1)|[(-> & x1 & Hx1 & Hy1)|(-> & x1 & l1 & Hx1 & Hy1 & Hn1 & Hw1)]]]],
             H2 as [(l2 & o2 & -> & Hd2)|[[-> He2]|[(-> & He2 & Hf2)|[(-> & x2 & Hx2 & Hy2)|(-> & x2 & l2 & Hx2 & Hy2 & Hn2 & Hw2)]]]]; try reflexivity;
    try (destruct (designates_fun _ _ _ _ _ _ Hd1 Hd2) as [-> ->]; reflexivity); exfalso;
    try (eapply designates_not_external; eassumption);
    try (apply hash_not_external with (r := x2); subst; assumption); try (apply hash_not_external with (r := x1); subst; assumption);
    try contradiction;
    try (match goal with Hd : designates _ _ _ _, Hf : ~ (exists x, _) |- _ => destruct Hd as (q & Hq & _); apply Hf; exists q; exact Hq end);
    try (match goal with Hd : designates _ _ _ _, Hx : _ = u "#" ++ ?x, Hy : segments ?x [] |- _ =>
      destruct Hd as (q & Hq & Hq2 & Hq3 & _); rewrite Hx in Hq; apply app_inv_head in Hq; subst q; apply Hq3; eapply segments_fun; eauto end);
    try (match goal with Hd : designates _ _ _ _, Hx : _ = u "#" ++ ?x, Hy : segments ?x ?l, Hw : forall v, ~ walks _ ?l v |- _ =>
      destruct Hd as (q & Hq & Hq2 & Hq3 & Hq4); rewrite Hx in Hq; apply app_inv_head in Hq; subst q; rewrite (segments_fun _ _ _ Hy Hq2) in Hw; exact (Hw _ Hq4) end);
    try (match goal with Hf : ~ (exists x, _), Hx : _ = u "#" ++ ?x |- _ => apply Hf; exists x; exact Hx end);
    try (match goal with Ha : ?s = u "#" ++ ?x, Hb : ?s = u "#" ++ ?y |- _ => rewrite Ha in Hb; apply app_inv_head in Hb; subst y end;
         match goal with Hn : ?l <> [], Ha : segments ?x ?l, Hb : segments ?x [] |- _ => apply Hn; eapply segments_fun; eauto end).
Qed.
Lemma resolve_iff doc s r : no_root_keyword doc -> (resolve doc s = r <-> outcome_of doc s r).
Proof.
  intros Hn. split; [intros <-; apply resolve_outcome; exact Hn|]. intros H. eapply outcome_fun; [apply resolve_outcome; exact Hn|exact H].
Qed.

(** ** Factories *)
Lemma root_not_ext E : ext_key_ok E (u "root") = false.
Proof. reflexivity. Qed.
Lemma ext_no_root A E c fs fv ex : canon A E (TModel c KExt fs) (VObj c fv ex) -> root_mapping (VObj c fv ex) = None.
Proof.
  intros (fv' & ex' & Heq & _ & _ & Ha). inversion Heq; subst. unfold after_ok in Ha. apply andb_prop in Ha as [Ha _].
  cbn [root_mapping]. destruct (assoc (u "root") ex') as [w|] eqn:Er; [|reflexivity]. exfalso.
  apply assoc_In in Er. unfold extras_ok in Ha. rewrite forallb_forall in Ha. specialize (Ha _ Er). simpl in Ha. discriminate.
Qed.
Lemma ext_part E c fs fv ex part name : canon (fun _ => True) E (TModel c KExt fs) (VObj c fv ex) ->
  find_field_name part (class_infos c) = Some name ->
  resolve_part (VObj c fv ex) part = match attr name fv with VNone => None | x => Some x end.
Proof. intros Hc Hf. unfold resolve_part. rewrite (ext_no_root _ _ _ _ _ _ Hc), Hf. reflexivity. Qed.
Definition root_field (a : pystr) (fs : list (finfo * ty)) : option pystr :=
  match find_field a fs with Some (fi, TOpt (TRoot _ _)) => Some (f_alias fi) | _ => None end.
Definition clean_seg (s : pystr) : bool := ne s && negb (existsb (N.eqb 47) s).
Definition factory_ok (prefix : string) (path : list string) : bool :=
  match path with
  | [a] => match root_field (u a) (class_fields "AsyncAPI3") with
           | Some s => clean_seg s && str_eqb (u prefix) (u "#/" ++ s ++ u "/") && match find_field_name s (class_infos "AsyncAPI3") with Some n => str_eqb n (u a) | None => false end
           | None => false end
  | [a; b] => String.eqb a "components" &&
           match root_field (u b) (class_fields "Components") with
           | Some s => clean_seg s && str_eqb (u prefix) (u "#/components/" ++ s ++ u "/") && match find_field_name s (class_infos "Components") with Some n => str_eqb n (u b) | None => false end
           | None => false end
  | _ => false
  end.
Lemma factories_ok : forallb (fun fp => forallb (fun fq => if String.eqb (fst fp) (fst fq) then factory_ok (snd fp) (snd fq) else true) factory_places) factories = true.
Proof. vm_compute. reflexivity. Qed.
Lemma clean_seg_spec s : clean_seg s = true -> s <> [] /\ ~ In slash s.
Proof.
  unfold clean_seg. intros H. apply andb_prop in H as [H1 H2]. split; [destruct s; [discriminate|discriminate]|].
  intros Hin. rewrite negb_true_iff in H2. assert (existsb (N.eqb 47) s = true); [|congruence].
  apply existsb_exists. exists slash. split; [exact Hin|reflexivity].
Qed.
Lemma root_field_value E c fs fv ex a s : wf_ty (TModel c KExt fs) = true -> canon (fun _ => True) E (TModel c KExt fs) (VObj c fv ex) ->
  root_field a fs = Some s -> attr a fv = VNone \/ exists c' d, attr a fv = VRoot c' d.
Proof.
  intros Hwf Hc Hr. unfold root_field in Hr. destruct (find_field a fs) as [[fi t]|] eqn:Ef; [|discriminate].
  apply find_field_spec in Ef as [Hin <-]. destruct t; try discriminate. destruct t; try discriminate.
  destruct (canon_field _ _ _ _ _ _ _ _ _ Hc (names_NoDup _ _ _ Hwf) Hin) as [H _]. destruct H as [H|(d & H & _)]; eauto.
Qed.
Lemma seg_last name : name <> [] -> ~ In slash name -> segments name [name].
Proof. intros H1 H2. assert (H := seg_name name [] [] H1 H2 seg_end (or_introl eq_refl)). rewrite app_nil_r in H. exact H. Qed.
Lemma seg_cons s rest l : s <> [] -> ~ In slash s -> segments rest l -> segments (slash :: s ++ slash :: rest) (s :: l).
Proof. intros H1 H2 H3. apply seg_slash. apply seg_name; [exact H1|exact H2|apply seg_slash; exact H3|right; eauto]. Qed.

Definition last_step (doc : pv) (e : option pv) (s : pystr) : Prop :=
  match e with
  | Some o => match as_reference o with Some _ => True | None => exists p, resolve doc s = Resolved o p end
  | None => resolve doc s = Failed ENavigate
  end.
Lemma resolve_local doc r l : segments r l -> l <> [] ->
  match resolve_parts doc (u "spec") l with
  | None => resolve doc (u "#" ++ r) = Failed ENavigate
  | Some (o, p) => match as_reference o with Some _ => True | None => resolve doc (u "#" ++ r) = Resolved o p end
  end.
Proof.
  intros Hs Hne. assert (Hp : parse_ref (u "#" ++ r) = inr (split 47 (strip 47 r))).
  { apply parse_ref_ok. exists r. eauto. }
  assert (He : is_external (u "#" ++ r) = false) by reflexivity.
  assert (Hl : resolve_parts doc (u "spec") (split 47 (strip 47 r)) = resolve_parts doc (u "spec") l).
  { rewrite resolve_parts_filter. change (filter ne (split 47 (strip 47 r))) with (parts_of (strip 47 r)).
    rewrite strip_segments, (segments_parts _ _ Hs). reflexivity. }
  unfold resolve. cbn [Nat.add resolve_fuel mem_str]. rewrite He, Hp, Hl.
  destruct (resolve_parts doc (u "spec") l) as [[o p]|]; [|reflexivity].
  destruct (as_reference o); [exact I|reflexivity].
Qed.
Lemma ne_cons {X} (x : X) l : x :: l <> [].
Proof. discriminate. Qed.
Lemma factory_resolves E v doc prefix path name : parse E T_AsyncAPI3 v = Some doc -> factory_ok prefix path = true ->
  name <> [] -> ~ In slash name -> last_step doc (entry_at doc path name) (u prefix ++ name).
Proof.
  intros Hp Hok Hn1 Hn2.
  assert (HinA : In T_AsyncAPI3 all_types) by (apply Linked.find_class_In; vm_compute; reflexivity).
  assert (HinC : In T_Components all_types) by (apply Linked.find_class_In; vm_compute; reflexivity).
  assert (Hc := parse_canon E _ _ _ (wf_all _ HinA) Hp).
  assert (Hobj : exists fv ex, doc = VObj "AsyncAPI3" fv ex).
  { destruct Hc as (fv & ex & -> & _). eauto. }
  destruct Hobj as (fv & ex & ->).
  assert (HfA := proj1 (linked_fields _ _ _ (linked_all _ HinA))).
  assert (HfC := proj1 (linked_fields _ _ _ (linked_all _ HinC))).
  destruct path as [|a [|b [|]]]; try discriminate Hok; unfold factory_ok in Hok.
  - destruct (root_field (u a) (class_fields "AsyncAPI3")) as [s|] eqn:Er; [|discriminate Hok].
    apply andb_prop in Hok as [Hok Hf]. apply andb_prop in Hok as [Hs Hpre]. apply str_eqb_eq in Hpre.
    apply clean_seg_spec in Hs as [Hs1 Hs2].
    destruct (find_field_name s (class_infos "AsyncAPI3")) as [n|] eqn:Ef; [|discriminate Hf]. apply str_eqb_eq in Hf. subst n.
    rewrite HfA in Er. destruct (root_field_value _ _ _ _ _ _ _ (wf_all _ HinA) Hc Er) as [Hv|(c' & d & Hv)];
    assert (Hseg := seg_cons s name [name] Hs1 Hs2 (seg_last _ Hn1 Hn2));
    assert (Hres := resolve_local (VObj "AsyncAPI3" fv ex) _ _ Hseg (ne_cons _ _));
    replace (u prefix ++ name) with (u "#" ++ slash :: s ++ slash :: name) by (rewrite Hpre; simpl; rewrite <- app_assoc; reflexivity);
    (destruct s as [|s0 s']; [exfalso; auto|]); cbn [resolve_parts] in Hres;
    rewrite (ext_part _ _ _ _ _ _ _ Hc Ef), Hv in Hres; cbn [entry_at]; unfold get; rewrite Hv; cbn [last_step].
    + exact Hres.
    + cbn [resolve_parts] in Hres. destruct name as [|n0 name]; [exfalso; auto|]. unfold resolve_part in Hres. cbn [root_mapping] in Hres.
      destruct (assoc (n0 :: name) d) as [o|]; cbn [last_step].
      * cbn [resolve_parts] in Hres. destruct (as_reference o); [exact I|]. eexists; exact Hres.
      * exact Hres.
  - destruct (String.eqb_spec a "components") as [->|]; [|discriminate Hok]. rewrite andb_true_l in Hok.
    destruct (root_field (u b) (class_fields "Components")) as [s|] eqn:Er; [|discriminate Hok].
    apply andb_prop in Hok as [Hok Hf]. apply andb_prop in Hok as [Hs Hpre]. apply str_eqb_eq in Hpre.
    apply clean_seg_spec in Hs as [Hs1 Hs2].
    destruct (find_field_name s (class_infos "Components")) as [n|] eqn:Ef; [|discriminate Hf]. apply str_eqb_eq in Hf. subst n.
    rewrite HfC in Er.
    assert (Ec : find_field_name (u "components") (class_infos "AsyncAPI3") = Some (u "components")) by (vm_compute; reflexivity).
    assert (Hcomp : attr (u "components") fv = VNone \/ exists cfv cex, attr (u "components") fv = VObj "Components" cfv cex
                       /\ canon (fun _ => True) E T_Components (VObj "Components" cfv cex)).
    { assert (Hin : exists fi, In (fi, TOpt T_Components) (class_fields "AsyncAPI3") /\ f_name fi = u "components").
      { eexists. split; [rewrite HfA; do 7 right; left; reflexivity|reflexivity]. }
      destruct Hin as (fi & Hin & Hnm). rewrite HfA in Hin.
      destruct (canon_field _ _ _ _ _ _ _ _ _ Hc (names_NoDup _ _ _ (wf_all _ HinA)) Hin) as [H _]. rewrite Hnm in H.
      destruct H as [H|H]; [left; exact H|right]. assert (H' := H). destruct H' as (cfv & cex & Hx & _). exists cfv, cex.
      split; [exact Hx|]. rewrite <- Hx. exact H. }
    assert (Hseg : segments (slash :: u "components" ++ slash :: s ++ slash :: name) [u "components"; s; name]).
    { apply seg_slash. apply seg_name; [apply ne_cons| |apply seg_cons; [exact Hs1|exact Hs2|apply seg_last; assumption]|right; eauto].
      vm_compute. intuition congruence. }
    assert (Hres := resolve_local (VObj "AsyncAPI3" fv ex) _ _ Hseg (ne_cons _ _)).
    replace (u prefix ++ name) with (u "#" ++ slash :: u "components" ++ slash :: s ++ slash :: name) by (rewrite Hpre; simpl; rewrite <- app_assoc; reflexivity).
    remember (u "components") as comp eqn:Hcp. destruct comp as [|c0 comp]; [discriminate Hcp|]. cbn [resolve_parts] in Hres.
    rewrite (ext_part _ _ _ _ _ _ _ Hc Ec) in Hres. cbn [entry_at]. unfold get. rewrite <- Hcp.
    destruct Hcomp as [Hv|(cfv & cex & Hv & HcC)]; rewrite Hv in Hres |- *; [exact Hres|].
    cbn [entry_at]. cbn [resolve_parts] in Hres. destruct s as [|s0 s']; [exfalso; auto|].
    rewrite (ext_part _ _ _ _ _ _ _ HcC Ef) in Hres. unfold get.
    destruct (root_field_value _ _ _ _ _ _ _ (wf_all _ HinC) HcC Er) as [Hv2|(c' & d & Hv2)]; rewrite Hv2 in Hres |- *; [exact Hres|].
    cbn [resolve_parts] in Hres. destruct name as [|n0 name]; [exfalso; auto|]. unfold resolve_part in Hres. cbn [root_mapping] in Hres.
    destruct (assoc (n0 :: name) d) as [o|]; cbn [last_step].
    + cbn [resolve_parts] in Hres. destruct (as_reference o); [exact I|]. eexists; exact Hres.
    + exact Hres.
Qed.

(** Every object inside a validated value was validated as an instance of its class, or lies inside
    free data. *)
Lemma canon_fields_each E can fs : forall fv, canon_fields E can fs fv -> forall k x, In (k, x) fv -> exists fi t, In (fi, t) fs /\ can t x.
Proof.
  induction fs as [|[fi t] fs IH]; intros [|[k v] fv] H k0 x Hin; cbn [canon_fields] in H; try contradiction.
  destruct H as [(-> & Hc & _) H]. destruct Hin as [Heq|Hin]; [inversion Heq; subst; exists fi, t; split; [left; reflexivity|exact Hc]|].
  destruct (IH _ H _ _ Hin) as (gi & s & Hs & Hx). exists gi, s. split; [right; exact Hs|exact Hx].
Qed.
Lemma canon_union_each can rej ts : canon_union can rej ts -> exists t, In t ts /\ can t.
Proof. induction ts as [|t ts IH]; cbn [canon_union]; [contradiction|]. intros [[H _]|[_ H]]; [exists t; split; [left; reflexivity|exact H]|]. destruct (IH H) as (t' & Ht & Hc). exists t'. split; [right; exact Ht|exact Hc]. Qed.
Lemma within_atom x v : within x v -> match v with VList _ | VDict _ | VObj _ _ _ | VRoot _ _ => True | _ => x = v end.
Proof. destruct 1; try exact I. destruct x; auto. Qed.
Definition typed_at (A : pv -> Prop) (E : env) (x : pv) : Prop :=
  (exists t, match t with TModel _ _ _ | TRoot _ _ => True | _ => False end /\ linked t = true /\ wf_ty t = true /\ canon A E t x)
  \/ exists a, A a /\ within x a.
Definition is_instance (x : pv) : Prop := match x with VObj _ _ _ | VRoot _ _ => True | _ => False end.
Lemma canon_within A E t : linked t = true -> wf_ty t = true -> forall v, canon A E t v -> forall x, within x v -> is_instance x -> typed_at A E x.
Proof.
  induction t using ty_ind'; intros Hl Hw v Hc x Hx Hi; cbn [canon] in Hc;
    try (match goal with Hc : exists s, _ |- _ => destruct Hc as (s & -> & _) || destruct Hc as (s & ->); apply within_atom in Hx; subst; contradiction end).
  - right. eauto.
  - destruct Hc as (l & -> & HF). inversion Hx; subst; [contradiction|]. rewrite Forall_forall in HF. eapply IHt; eauto.
  - destruct Hc as (d & -> & HF). inversion Hx; subst; [contradiction|]. rewrite Forall_forall in HF. eapply (IHt Hl Hw y); eauto. apply (HF (k, y)); assumption.
  - destruct Hc as [->|Hc]; [apply within_atom in Hx; subst; contradiction|]. eapply IHt; eauto.
  - apply canon_union_each in Hc as (t & Ht & Hc). rewrite Forall_forall in H.
    eapply (H t Ht); eauto; [exact (linked_union _ _ Hl Ht)|exact (wf_union _ _ Hw Ht)].
  - destruct Hc as (l & -> & HF). inversion Hx; subst; [contradiction|]. rewrite forallb_forall in HF. 
    match goal with Hin : In y l |- _ => specialize (HF y Hin) end. destruct y; try discriminate. match goal with Hy : within x (VProc _) |- _ => apply within_atom in Hy end. subst. contradiction.
  - assert (Hc0 := Hc). destruct Hc as (fv & ex & -> & Hf & Hex & Ha). inversion Hx; subst.
    + left. exists (TModel c k fs). auto.
    + match goal with Hin : In (_, y) fv |- _ => destruct (canon_fields_each _ _ _ _ Hf _ _ Hin) as (fi & t & Hin' & Hct) end. rewrite Forall_forall in H.
      apply (H (fi, t) Hin' (linked_sub _ _ _ _ Hl Hin') (wf_sub _ _ _ _ Hw Hin') y Hct x); assumption.
    + right. rewrite Forall_forall in Hex. exists y. split; [apply (Hex (k0, y)); assumption|assumption].
  - assert (Hc0 := Hc). destruct Hc as (d & -> & HF & Hk). inversion Hx; subst.
    + left. exists (TRoot c t). auto.
    + rewrite Forall_forall in HF. eapply (IHt (linked_root_sub _ _ Hl) Hw y); eauto. apply (HF (k, y)); assumption.
Qed.
Definition no_objects (v : pv) : Prop := forall c fv ex, within (VObj c fv ex) v -> False.
Lemma no_objects_closed : closed no_objects.
Proof.
  constructor; intros.
  - apply Forall_forall. intros y Hy c fv ex Hx. apply (H c fv ex). econstructor; eauto.
  - apply Forall_forall. intros [k0 y] Hy c fv ex Hx. apply (H c fv ex). eapply w_dict; eauto.
  - split; apply Forall_forall; intros [k0 y] Hy c' fv' ex' Hx; apply (H c' fv' ex'); [eapply w_field|eapply w_extra]; eauto.
  - apply Forall_forall. intros [k0 y] Hy c' fv ex Hx. apply (H c' fv ex). eapply w_root; eauto.
Qed.
Lemma parsed_no_root E v doc : parse E T_AsyncAPI3 v = Some doc -> no_objects v ->
  (forall c fv ex d, within (VObj c fv ex) doc -> class_kind c = KFree -> assoc (u "root") ex <> Some (VDict d)) ->
  no_root_keyword doc.
Proof.
  intros Hp Hn Hfree c fv ex d Hw Ha.
  assert (HinA : In T_AsyncAPI3 all_types) by (apply Linked.find_class_In; vm_compute; reflexivity).
  apply parse_some in Hp as [n Hp].
  assert (Hc := validate_canon no_objects no_objects E _ no_objects_closed (fun _ H => H) (wf_all _ HinA) _ _ _ Hn Hp).
  destruct (canon_within _ _ _ (linked_all _ HinA) (wf_all _ HinA) _ Hc _ Hw I) as [(t & Hm & Hl & Hwf & Hx)|(a & HA & Hx)]; [|exact (HA _ _ _ Hx)].
  destruct t; try contradiction; cbn [canon] in Hx; [|destruct Hx as (? & Hx & _); discriminate].
  assert (Hx0 := Hx). destruct Hx as (fv' & ex' & Heq & _ & _ & Hok). injection Heq as -> -> ->.
  assert (Hk := proj2 (linked_fields _ _ _ Hl)). destruct k.
  - assert (Hr := ext_no_root _ _ _ _ _ _ Hx0). cbn [root_mapping] in Hr. rewrite Ha in Hr. discriminate Hr.
  - unfold after_ok in Hok. apply andb_prop in Hok as [Hok _]. unfold extras_ok in Hok. destruct ex'; [discriminate Ha|discriminate Hok].
  - exact (Hfree _ _ _ _ Hw Hk Ha).
Qed.

Lemma reference_strings_iff v s : In s (reference_strings v) <-> exists x, within x v /\ is_reference x s.
Proof.
  split.
  - revert v. fix IH 1. intros v H.
    assert (Hd : forall d : fields, In s (flat_map (fun kv => match kv with (_, x) => reference_strings x end) d) ->
       exists k y x, In (k, y) d /\ within x y /\ is_reference x s).
    { induction d as [|[k y] d IHd]; intros Hi; [contradiction|]. cbn [flat_map] in Hi. apply in_app_or in Hi as [Hi|Hi].
      - destruct (IH y Hi) as (x & Hx & Hr). exists k, y, x. split; [left; reflexivity|auto].
      - destruct (IHd Hi) as (k' & y' & x & Hin & Hx). exists k', y', x. split; [right; exact Hin|exact Hx]. }
    assert (Hs : as_reference v = Some s -> exists x, within x v /\ is_reference x s).
    { intros Ha. exists v. split; [constructor|apply as_reference_iff; exact Ha]. }
    destruct v; cbn [reference_strings as_reference app] in H; try contradiction.
    + clear Hd Hs. revert H. induction l as [|y l IHl]; intros H; [contradiction|]. cbn [flat_map] in H. apply in_app_or in H as [H|H].
      * destruct (IH y H) as (x & Hx & Hr). exists x. split; [eapply w_list; [left; reflexivity|exact Hx]|exact Hr].
      * destruct (IHl H) as (x & Hx & Hr). exists x. split; [|exact Hr]. inversion Hx; subst; [destruct Hr as (? & ? & ? & _); discriminate|].
        eapply w_list; [right; eassumption|assumption].
    + destruct (Hd _ H) as (k & y & x & Hin & Hx & Hr). exists x. split; [eapply w_dict; eauto|exact Hr].
    + apply in_app_or in H as [H|H].
      * apply Hs. cbn [as_reference]. destruct (String.eqb c "Reference"); [|contradiction].
        destruct (assoc (u "ref") fs) as [[]|]; try contradiction. destruct H as [->|[]]. reflexivity.
      * apply in_app_or in H as [H|H]; destruct (Hd _ H) as (k & y & x & Hin & Hx & Hr); exists x; (split; [|exact Hr]);
          [eapply w_field|eapply w_extra]; eauto.
    + destruct (Hd _ H) as (k & y & x & Hin & Hx & Hr). exists x. split; [eapply w_root; eauto|exact Hr].
  - intros (x & Hx & Hr). apply as_reference_iff in Hr. eapply within_references; eauto.
Qed.
Lemma key_segment k : upto_nl doc_key k -> k <> [] /\ ~ In slash k.
Proof.
  intros (w & [Hne HF] & Hk). assert (Hns : ~ In slash w).
  { intros Hin. rewrite Forall_forall in HF. specialize (HF _ Hin). unfold letter, digit09, slash in HF. lia. }
  destruct Hk as [->| ->]; [auto|]. split; [destruct w; discriminate|].
  intros Hin. apply in_app_or in Hin as [Hin|[Hin|[]]]; [contradiction|discriminate].
Qed.
Lemma in_field c n fi t : nth_error (class_fields c) n = Some (fi, t) -> In (fi, t) (class_fields c).
Proof. generalize (class_fields c). intros fs H. apply nth_error_In in H. exact H. Qed.

(** Factory prefixes end with a slash, so a slash-free name is what follows the last slash. *)
Lemma last_slash a b n m : ~ In slash n -> ~ In slash m -> (a ++ slash :: n)%list = (b ++ slash :: m)%list -> a = b /\ n = m.
Proof.
  intros Hn Hm. revert b. induction a as [|x a IH]; intros [|y b] H; cbn [app] in H.
  - inversion H; auto.
  - inversion H; subst. exfalso. apply Hn. apply in_or_app. right. left. reflexivity.
  - inversion H; subst. exfalso. apply Hm. apply in_or_app. right. left. reflexivity.
  - inversion H; subst. destruct (IH _ H2) as [-> ->]. auto.
Qed.
Definition ends_slash (p : string) : bool := match rev (u p) with c :: _ => N.eqb c 47 | [] => false end.
Lemma factories_slash : forallb (fun fp => ends_slash (snd fp)) factories = true.
Proof. vm_compute. reflexivity. Qed.
Lemma factories_distinct : forallb (fun fp => forallb (fun fq => if str_eqb (u (snd fp)) (u (snd fq)) then String.eqb (fst fp) (fst fq) else negb (String.eqb (fst fp) (fst fq))) factories) factories = true.
Proof. vm_compute. reflexivity. Qed.
Lemma ends_slash_spec p : ends_slash p = true -> exists q, u p = (q ++ [slash])%list.
Proof.
  unfold ends_slash. intros H. destruct (rev (u p)) as [|c q] eqn:E; [discriminate|]. apply N.eqb_eq in H. subst c.
  exists (rev q). rewrite <- (rev_involutive (u p)), E. reflexivity.
Qed.
Lemma is_reference_make p name s : is_reference (make_reference p name) s -> s = (u p ++ name)%list.
Proof. intros H. apply as_reference_iff in H. cbn in H. inversion H. reflexivity. Qed.
Lemma factories_injective f p f' p' name name' s :
  In (f, p) factories -> In (f', p') factories ->
  (upto_nl doc_key name \/ (name <> [] /\ ~ In slash name)) -> (upto_nl doc_key name' \/ (name' <> [] /\ ~ In slash name')) ->
  (is_reference (make_reference p name) s /\ is_reference (make_reference p' name') s -> f = f' /\ name = name')
  /\ (f = f' /\ name = name' -> make_reference p name = make_reference p' name').
Proof.
  intros Hf Hf' Hn Hn'.
  assert (Hd := factories_distinct). rewrite forallb_forall in Hd. specialize (Hd _ Hf). rewrite forallb_forall in Hd. specialize (Hd _ Hf').
  cbn [fst snd] in Hd. split.
  - intros [H1 H2]. apply is_reference_make in H1, H2. subst s.
    assert (Hs := factories_slash). rewrite forallb_forall in Hs.
    destruct (ends_slash_spec _ (Hs _ Hf)) as [q Hq], (ends_slash_spec _ (Hs _ Hf')) as [q' Hq']. cbn [snd] in Hq, Hq'.
    assert (N1 : ~ In slash name) by (destruct Hn as [Hn|[_ Hn]]; [apply key_segment; exact Hn|exact Hn]).
    assert (N2 : ~ In slash name') by (destruct Hn' as [Hn'|[_ Hn']]; [apply key_segment; exact Hn'|exact Hn']).
    rewrite Hq, Hq' in H2. rewrite <- !app_assoc in H2. cbn [app] in H2. apply last_slash in H2 as [Hqq ->]; try assumption.
    rewrite Hqq in Hq. rewrite <- Hq' in Hq. rewrite Hq, str_eqb_refl in Hd. apply String.eqb_eq in Hd. auto.
  - intros [-> ->]. rewrite String.eqb_refl in Hd. destruct (str_eqb (u p) (u p')) eqn:Ee; [|discriminate].
    apply str_eqb_eq in Ee. unfold make_reference. rewrite Ee. reflexivity.
Qed.
