(** Property C90: equality of documents. *)
From Coq Require Import Permutation.
From Verif Require Import PyStr Regex Value Types Rules Pydantic ClassTable Classes Canon Fix Linked SpecParse Sample ProofRules ProofParse
  State SpecState ProofState PropState Resolve SpecResolve ProofResolve PropResolve Dump SpecDump ProofDump PropDump Unified SpecUnified ProofUnified ProofCheck ProofOrder PropUnified
  PropSame Validators SpecValidators ProofValidators PropValidators Equality SpecEquality ProofEquality.
Local Open Scope string_scope.

Section S.
Context (fnum : pystr -> Z + pystr).
Local Notation eqb := (py_eq fnum).
Local Notation eqp := (equal fnum).

(** a == b decides equality of values, whatever the order of keys. *)
Theorem c90_decides a b : python_dicts a -> python_dicts b -> (eqb a b = true <-> eqp a b).
Proof. apply py_eq_iff. Qed.
Theorem c90_equivalence : (forall a, python_dicts a -> eqb a a = true)
  /\ (forall a b, python_dicts a -> python_dicts b -> eqb a b = eqb b a)
  /\ (forall a b c, python_dicts a -> python_dicts b -> python_dicts c -> eqb a b = true -> eqb b c = true -> eqb a c = true).
Proof.
  split; [intros a Ha; apply py_eq_iff; try assumption; apply eq_refl_; exact Ha|]. split.
  - intros a b Ha Hb. apply eq_true_iff_eq. rewrite !py_eq_iff by assumption. split; apply eq_sym_.
  - intros a b c Ha Hb Hc H1 H2. apply py_eq_iff in H1, H2; try assumption. apply py_eq_iff; try assumption. eapply eq_trans_; eassumption.
Qed.

(** ** References: equal iff they have the same string, and then they hash the same *)
Lemma ref_form E v : well_typed E T_Reference v -> exists s, v = VObj "Reference" [(u "ref", VStr s)] [].
Proof.
  intros (fv & ex & -> & Hf & Hx & _). rewrite (Hx eq_refl). destruct fv as [|[k x] [|? ?]]; try (destruct Hf; fail).
  - destruct Hf as (Hk & (s & -> & _) & _). cbn [fst snd] in Hk. subst k. exists s. reflexivity.
  - destruct Hf as (_ & _ & _ & []).
Qed.
Theorem c90_reference E h v v' : well_typed E T_Reference v -> well_typed E T_Reference v' ->
  exists s s', is_reference v s /\ is_reference v' s' /\ (eqb v v' = true <-> s = s') /\ (eqb v v' = true -> reference_hash h v = reference_hash h v').
Proof.
  intros H H'. apply ref_form in H as [s ->]. apply ref_form in H' as [s' ->]. exists s, s'. split; [eexists; eexists; split; reflexivity|]. split; [eexists; eexists; split; reflexivity|].
  assert (He : eqb (VObj "Reference" [(u "ref", VStr s)] []) (VObj "Reference" [(u "ref", VStr s')] []) = str_eqb s s').
  { cbn [py_eq]. unfold dict_eq, entries_eq. cbn [length Nat.eqb assoc]. rewrite str_eqb_refl. cbn [py_eq]. rewrite !andb_true_r. reflexivity. }
  rewrite He, str_eqb_eq. split; [reflexivity|]. intros ->. reflexivity.
Qed.

(** ** The checks *)
Lemma no_number_expected E path tys v : expected E path = Some tys -> numeric v -> compatible (type_name v) tys = false.
Proof.
  intros H Hv. rewrite expected_mappings in H. apply c31_most_specific in H as (p & Hp & _).
  assert (Hb : forallb (fun r : pystr * list string => negb (compatible "bool" (snd r) || compatible "int" (snd r) || compatible "float" (snd r))) mappings = true) by (vm_compute; reflexivity).
  rewrite forallb_forall in Hb. specialize (Hb _ Hp). cbn [snd] in Hb. apply negb_true_iff in Hb. apply orb_false_iff in Hb as [Hb H3]. apply orb_false_iff in Hb as [H1 H2].
  destruct v; destruct Hv; assumption.
Qed.
Lemma eq_check_reference E doc doc' path s : pd_eq fnum doc doc' -> (check_reference E doc path s = None <-> check_reference E doc' path s = None).
Proof.
  intros H. unfold check_reference. destruct (eq_resolve fnum doc doc' s H) as [o o' p (_ & _ & Ho)| |e]; [|reflexivity|split; discriminate].
  destruct (expected E path) as [tys|] eqn:Ee; [|reflexivity]. destruct (eq_alike _ _ _ Ho) as [o o' N N'|o o' Hs].
  - rewrite (no_number_expected _ _ _ _ Ee N), (no_number_expected _ _ _ _ Ee N'). reflexivity.
  - rewrite (shape_name _ _ Hs). reflexivity.
Qed.
Lemma like_in (R : pv -> pv -> Prop) d d' k x : like_entries R d d' -> In (k, x) d -> exists x', In (k, x') d' /\ R x x'.
Proof.
  intros [Hk H] Hi. assert (Hj := in_map fst _ _ Hi). apply Hk in Hj. apply in_map_iff in Hj as ([k' y] & Heq & Hy). cbn [fst] in Heq. subst k'. exists y. split; [exact Hy|]. eapply H; eassumption.
Qed.
Lemma eq_parts_visited v v' : eqp v v' -> forall t x, has_part v t x -> exists x', has_part v' t x' /\ eqp x x'.
Proof.
  intros H t x Hx. destruct H as [v v' n H H'|v Hn Hc|l l' H|d d' H|c d d' H|c fv fv' ex ex' H He].
  - destruct Hx as [i Hi]. destruct H; destruct Hi.
  - destruct Hx as [i Hi]. destruct v; try destruct Hi; destruct (Hc I).
  - apply has_part_list in Hx as (i & Hi & ->). assert (Hn := Forall2_nth _ _ _ H i). rewrite Hi in Hn.
    destruct (nth_error l' i) as [y|] eqn:Ey; [|contradiction]. exists y. split; [apply has_part_list; exists i; auto|exact Hn].
  - apply has_part_dict in Hx as (k & Hi & ->). destruct (like_in _ _ _ _ _ H Hi) as (x' & Hi' & Hx). exists x'. split; [apply has_part_dict; eauto|exact Hx].
  - apply has_part_root in Hx as (k & Hi & ->). destruct (like_in _ _ _ _ _ H Hi) as (x' & Hi' & Hx). exists x'. split; [apply has_part_root; eauto|exact Hx].
  - apply has_part_obj in Hx as (k & Hi & Hn & Hxl & ->). destruct (like_in _ _ _ _ _ H Hi) as (x' & Hi' & Hx). exists x'. split; [|exact Hx]. apply has_part_obj. exists k.
    rewrite <- (alike_none _ _ (eq_alike _ _ _ Hx)). auto.
Qed.
Lemma part_pd v t x : python_dicts v -> has_part v t x -> python_dicts x.
Proof.
  intros Hd Hx. destruct v; try (destruct Hx as [? []]; fail).
  - apply has_part_list in Hx as (i & Hi & _). eapply pd_list; [exact Hd|]. eapply nth_error_In. exact Hi.
  - apply has_part_dict in Hx as (k & Hi & _). first [solve [eapply pd_dict; [exact Hd|eassumption]]|solve [eapply pd_dict; [exact Hd'|eassumption]]].
  - apply has_part_obj in Hx as (k & Hi & _). first [solve [eapply pd_field; [exact Hd|eassumption]]|solve [eapply pd_field; [exact Hd'|eassumption]]].
  - apply has_part_root in Hx as (k & Hi & _). first [solve [eapply pd_root; [exact Hd|eassumption]]|solve [eapply pd_root; [exact Hd'|eassumption]]].
Qed.
Lemma pd_eq_sym v v' : pd_eq fnum v v' -> pd_eq fnum v' v.
Proof. intros (H1 & H2 & H). split; [exact H2|]. split; [exact H1|]. apply eq_sym_. exact H. Qed.
Lemma eq_check E doc doc' : pd_eq fnum doc doc' -> forall v v' path, pd_eq fnum v v' -> check E doc' v' path = None -> check E doc v path = None.
Proof.
  intros Hdoc v. induction v as [v IH] using kids_ind. intros v' path (Hv & Hv' & H). assert (Hr := eq_ref _ _ _ Hv Hv' H).
  destruct (as_reference v) as [s|] eqn:Es.
  - rewrite !check_kids, <- Hr, Es. intros Hc. destruct (check_reference E doc' path s) eqn:Ec; [discriminate Hc|].
    apply (proj2 (eq_check_reference E doc doc' path s Hdoc)) in Ec. rewrite Ec. reflexivity.
  - rewrite (check_parts _ _ _ _ Es), (check_parts _ _ _ _ (eq_sym Hr)). intros Hc t x Hx. destruct (eq_parts_visited _ _ H t x Hx) as (x' & Hx' & Hxx).
    assert (Px := part_pd _ _ _ Hv Hx). destruct Hx as [i Hi]. apply (IH _ _ _ Hi x' (path ++ t)%list); [|apply Hc; exact Hx']. split; [exact Px|]. split; [exact (part_pd _ _ _ Hv' Hx')|exact Hxx].
Qed.
Lemma pd_eq_iff a b : python_dicts a -> python_dicts b -> eqb a b = true -> pd_eq fnum a b.
Proof. intros Ha Hb H. split; [exact Ha|]. split; [exact Hb|]. apply py_eq_iff; assumption. Qed.
(** Equal documents get the same verdict from the reference check ... *)
Theorem c90_checked E doc doc' : python_dicts doc -> python_dicts doc' -> eqb doc doc' = true -> (unified E doc = None <-> unified E doc' = None).
Proof.
  intros Hd Hd' H. apply pd_eq_iff in H; try assumption. assert (H' := pd_eq_sym _ _ H). split; [exact (eq_check E doc' doc H' doc' doc (u "spec") H')|exact (eq_check E doc doc' H doc doc' (u "spec") H)].
Qed.
(** ... and resolve every reference alike: to equal objects at the same place, or with the same error. *)
Definition alike_resolved (r r' : resolution) : Prop :=
  match r, r' with
  | Resolved o p, Resolved o' p' => eqb o o' = true /\ p = p'
  | External, External => True
  | Failed e, Failed e' => e = e'
  | _, _ => False
  end.
Theorem c90_resolves doc doc' s : python_dicts doc -> python_dicts doc' -> eqb doc doc' = true -> alike_resolved (resolve doc s) (resolve doc' s).
Proof.
  intros Hd Hd' H. apply pd_eq_iff in H; try assumption. destruct (eq_resolve _ _ _ s H) as [o o' p (H1 & H2 & Ho)| |e]; cbn [alike_resolved]; try exact I; [|reflexivity].
  split; [apply py_eq_iff; assumption|reflexivity].
Qed.

(** ** The tag and external-documentation validators *)
Lemma eq_selects p : forall v v' r, pd_eq fnum v v' -> selects v p r -> exists r', selects v' p r' /\ pd_eq fnum r r'.
Proof.
  induction p as [|st p IH]; intros v v' r Hp Hs.
  - inversion Hs; subst. exists v'. split; [constructor|exact Hp].
  - destruct Hp as (Hd & Hd' & H). inversion Hs as [|c fv ex f x ? ? Ha Hx|c fv ex f x ? ? Ha Hb Hx|l x ? ? Hi Hx|c d k x ? ? Hi Hx]; subst;
      inversion H as [? ? ? H1 _|? _ H1|? l' HF|? d' HF|? ? d' HF|? ? fv' ? ex' HF HE]; subst; try (inversion H1; fail); try (destruct (H1 I)).
    + assert (Hl := like_assoc _ (u f) _ _ (proj1 (Hd _ (w_self _))) (proj1 (Hd' _ (w_self _))) HF). rewrite Ha in Hl. destruct (assoc (u f) fv') as [x'|] eqn:Ea; [|destruct Hl].
      destruct (IH x x' r) as (r' & Hr & He); [split; [eapply pd_field; [exact Hd|apply assoc_In; exact Ha]|split; [eapply pd_field; [exact Hd'|apply assoc_In; exact Ea]|exact Hl]]|exact Hx|].
      exists r'. split; [eapply se_field; eassumption|exact He].
    + assert (Hl := like_assoc _ (u f) _ _ (proj1 (Hd _ (w_self _))) (proj1 (Hd' _ (w_self _))) HF). rewrite Ha in Hl. destruct (assoc (u f) fv') as [x'|] eqn:Ea; [destruct Hl|].
      assert (Hm := like_assoc _ (u f) _ _ (proj2 (Hd _ (w_self _))) (proj2 (Hd' _ (w_self _))) HE). rewrite Hb in Hm. destruct (assoc (u f) ex') as [x'|] eqn:Eb; [|destruct Hm].
      destruct (IH x x' r) as (r' & Hr & He); [split; [eapply pd_extra; [exact Hd|apply assoc_In; exact Hb]|split; [eapply pd_extra; [exact Hd'|apply assoc_In; exact Eb]|exact Hm]]|exact Hx|].
      exists r'. split; [eapply se_extra; eassumption|exact He].
    + destruct (Forall2_in_l _ _ _ _ HF Hi) as (x' & Hi' & Hxx). destruct (IH x x' r) as (r' & Hr & He); [split; [first [solve [eapply pd_list; [exact Hd|eassumption]]|solve [eapply pd_list; [exact Hd'|eassumption]]]|split; [first [solve [eapply pd_list; [exact Hd|eassumption]]|solve [eapply pd_list; [exact Hd'|eassumption]]]|exact Hxx]]|exact Hx|].
      exists r'. split; [eapply se_item; eassumption|exact He].
    + destruct (like_in _ _ _ _ _ HF Hi) as (x' & Hi' & Hxx). destruct (IH x x' r) as (r' & Hr & He); [split; [first [solve [eapply pd_root; [exact Hd|eassumption]]|solve [eapply pd_root; [exact Hd'|eassumption]]]|split; [first [solve [eapply pd_root; [exact Hd|eassumption]]|solve [eapply pd_root; [exact Hd'|eassumption]]]|exact Hxx]]|exact Hx|].
      exists r'. split; [eapply se_entry; eassumption|exact He].
Qed.
Lemma eq_found locs doc doc' s : pd_eq fnum doc doc' -> found locs doc s -> found locs doc' s.
Proof.
  intros H (p & r & Hp & Hs & Hr). destruct (eq_selects p _ _ _ H Hs) as (r' & Hs' & (H1 & H2 & He)). exists p, r'. split; [exact Hp|]. split; [exact Hs'|].
  apply as_reference_iff. rewrite <- (eq_ref _ _ _ H1 H2 He). apply as_reference_iff. exact Hr.
Qed.
Lemma eq_entry_at path k : forall v v' x, pd_eq fnum v v' -> entry_at v path k = Some x -> exists x', entry_at v' path k = Some x'.
Proof.
  induction path as [|a path IH]; intros v v' x (Hd & Hd' & H) Hx.
  - destruct v; try discriminate Hx. inversion H as [? ? ? H1 _|? _ H1|? l' HF|? d' HF|? ? d' HF|? ? fv' ? ex' HF HE]; subst; try (inversion H1; fail); try (destruct (H1 I)). cbn [entry_at] in *.
    assert (Hl := like_assoc _ k _ _ (Hd _ (w_self _)) (Hd' _ (w_self _)) HF). rewrite Hx in Hl. destruct (assoc k d') as [x'|]; [eauto|destruct Hl].
  - destruct v as [| | | | | | | |c fv ex| | |]; try discriminate Hx. inversion H as [? ? ? H1 _|? _ H1|? l' HF|? d' HF|? ? d' HF|? ? fv' ? ex' HF HE]; subst; try (inversion H1; fail); try (destruct (H1 I)). cbn [entry_at] in *.
    unfold get, attr in *. assert (Hl := like_assoc _ (u a) _ _ (proj1 (Hd _ (w_self _))) (proj1 (Hd' _ (w_self _))) HF).
    destruct (assoc (u a) fv) as [y|] eqn:E1, (assoc (u a) fv') as [y'|] eqn:E2; cbn [opt_rel] in Hl; try contradiction.
    + eapply IH; [|exact Hx]. split; [eapply pd_field; [exact Hd|apply assoc_In; exact E1]|]. split; [eapply pd_field; [exact Hd'|apply assoc_In; exact E2]|exact Hl].
    + destruct path; discriminate Hx.
Qed.
Lemma eq_reference_ok doc doc' prefix f s : pd_eq fnum doc doc' -> reference_ok doc prefix f s -> reference_ok doc' prefix f s.
Proof.
  intros H [Ho|(Hp & key & v & He & Hv)]; [left; exact Ho|]. right. split; [exact Hp|]. destruct (eq_entry_at _ _ _ _ _ H Hv) as (x' & Hx'). exists key, x'. auto.
Qed.
Lemma eq_all_ok locs prefix f doc doc' : pd_eq fnum doc doc' ->
  (forall s, found locs doc s -> reference_ok doc prefix f s) -> forall s, found locs doc' s -> reference_ok doc' prefix f s.
Proof. intros H Hs s Hf. apply (eq_reference_ok doc); [exact H|]. apply Hs. apply (eq_found _ doc'); [apply pd_eq_sym; exact H|exact Hf]. Qed.
(** Equal documents get the same verdict from the tag validator and warnings about the same external references ... *)
Theorem c90_tags E doc doc' : well_typed E T_AsyncAPI3 doc -> well_typed E T_AsyncAPI3 doc' -> python_dicts doc -> python_dicts doc' -> eqb doc doc' = true ->
  (snd (tags_validator doc) = None <-> snd (tags_validator doc') = None)
  /\ (snd (tags_validator doc) = None -> forall s, In s (map snd (fst (tags_validator doc))) <-> In s (map snd (fst (tags_validator doc')))).
Proof.
  intros W W' Hd Hd' H. apply pd_eq_iff in H; try assumption. assert (H' := pd_eq_sym _ _ H).
  assert (Hv : snd (tags_validator doc) = None <-> snd (tags_validator doc') = None).
  { rewrite (c35_accepts_iff E doc W), (c35_accepts_iff E doc' W'). split; apply eq_all_ok; assumption. }
  split; [exact Hv|]. intros Hn s. rewrite (c35_warnings E doc s W Hn), (c35_warnings E doc' s W' (proj1 Hv Hn)).
  split; intros [Hf Ho]; (split; [|exact Ho]); (eapply eq_found; [|exact Hf]); assumption.
Qed.
(** ... and so from the external-documentation validator. *)
Theorem c90_docs E doc doc' : well_typed E T_AsyncAPI3 doc -> well_typed E T_AsyncAPI3 doc' -> whole doc -> whole doc' -> python_dicts doc -> python_dicts doc' -> eqb doc doc' = true ->
  (snd (docs_validator doc) = None <-> snd (docs_validator doc') = None)
  /\ (snd (docs_validator doc) = None -> forall s, In s (map snd (fst (docs_validator doc))) <-> In s (map snd (fst (docs_validator doc')))).
Proof.
  intros W W' O O' Hd Hd' H. apply pd_eq_iff in H; try assumption. assert (H' := pd_eq_sym _ _ H).
  assert (Hv : snd (docs_validator doc) = None <-> snd (docs_validator doc') = None).
  { rewrite (c37_accepts_iff E doc W O), (c37_accepts_iff E doc' W' O'). split; apply eq_all_ok; assumption. }
  split; [exact Hv|]. intros Hn s. rewrite (c37_warnings E doc s W O Hn), (c37_warnings E doc' s W' O' (proj1 Hv Hn)).
  split; intros [Hf Ho]; (split; [|exact Ho]); (eapply eq_found; [|exact Hf]); assumption.
Qed.

(** ** Serialisation *)
Lemma like_lookup (R : pv -> pv -> Prop) d d' : NoDup (map fst d) -> NoDup (map fst d') -> (forall k, opt_rel R (assoc k d) (assoc k d')) -> like_entries R d d'.
Proof. intros N1 N2 H. destruct (lookup_entries R d d' N1 N2 H) as (_ & _ & H1 & H2). split; assumption. Qed.
Lemma dump_fields_in infos fv a y : In (a, y) (dump_fields infos fv) <-> exists k x, In (k, x) fv /\ out_key infos k x = Some a /\ y = dump x.
Proof.
  induction fv as [|[k x] fv IH]; [split; [intros []|intros (k & x & [] & _)]|]. rewrite dump_fields_cons. split.
  - destruct (out_key infos k x) as [b|] eqn:Eo.
    + intros [Heq|Hi]; [injection Heq as -> <-; exists k, x; split; [left; reflexivity|auto]|]. apply IH in Hi as (k' & x' & Hi & Hr). exists k', x'. split; [right; exact Hi|exact Hr].
    + intros Hi. apply IH in Hi as (k' & x' & Hi & Hr). exists k', x'. split; [right; exact Hi|exact Hr].
  - intros (k' & x' & [Heq|Hi] & Ho & Hy).
    + injection Heq as -> ->. rewrite Ho. left. rewrite Hy. reflexivity.
    + assert (Hr : In (a, y) (dump_fields infos fv)) by (apply IH; eauto). destruct (out_key infos k x); [right; exact Hr|exact Hr].
Qed.
Lemma out_key_alike infos k x x' : eqp x x' -> out_key infos k x = out_key infos k x'.
Proof. intros H. unfold out_key. rewrite (alike_none _ _ (eq_alike _ _ _ H)). reflexivity. Qed.
Lemma once_sub v x : writes_once v -> within x v -> writes_once x.
Proof. intros H Hx c fv ex Hy. apply (H c fv ex). eapply within_trans; eassumption. Qed.
Lemma like_dump_entries d d' : NoDup (map fst d) -> NoDup (map fst d') -> like_entries eqp d d' -> (forall k x x', In (k, x) d -> In (k, x') d' -> eqp x x' -> eqp (dump x) (dump x')) ->
  like_entries eqp (dump_entries d) (dump_entries d').
Proof.
  intros N N' H IH. apply like_lookup; [rewrite dump_entries_keys; exact N|rewrite dump_entries_keys; exact N'|]. intros k. rewrite !assoc_dump_entries.
  assert (Hl := like_assoc _ k _ _ N N' H). destruct (assoc k d) eqn:E1, (assoc k d') eqn:E2; cbn [opt_rel] in Hl; try contradiction; [|exact I]. cbn [option_map opt_rel]. apply (IH k); [apply assoc_In; exact E1|apply assoc_In; exact E2|exact Hl].
Qed.
Lemma dump_eq v : forall v', python_dicts v -> python_dicts v' -> writes_once v -> writes_once v' -> eqp v v' -> eqp (dump v) (dump v').
Proof.
  induction v using pv_ind'; intros w Hd Hd' Ho Ho' He.
  all: inversion He as [? ? ? H1 H2|? N C|? l' HF|? d' HF|? ? d' HF|? ? fv' ? ex' HF HE]; subst; try (inversion H1; fail); try (destruct (C I); fail); try (destruct (N I); fail).
  all: try (cbn [dump]; apply eq_same; intros []; fail).
  all: try (replace (dump w) with w by (destruct H2; reflexivity); cbn [dump]; eapply eq_number; [exact H1|exact H2]).
  - cbn [dump]. apply eq_list. rewrite Forall_forall in H.
    assert (Hin : forall x y, In x l -> In y l' -> eqp x y -> eqp (dump x) (dump y)).
    { intros x y Hx Hy. apply H; [exact Hx|first [solve [eapply pd_list; [exact Hd|eassumption]]|solve [eapply pd_list; [exact Hd'|eassumption]]]|first [solve [eapply pd_list; [exact Hd|eassumption]]|solve [eapply pd_list; [exact Hd'|eassumption]]]| |]; first [solve [eapply once_sub; [exact Ho|eapply w_list; [eassumption|constructor]]]|solve [eapply once_sub; [exact Ho'|eapply w_list; [eassumption|constructor]]]]. }
    clear -HF Hin. induction HF as [|x y l l' Hxy HF IH]; cbn [map]; constructor; [apply Hin; [left; reflexivity|left; reflexivity|exact Hxy]|]. apply IH. intros a b Ha Hb. apply Hin; right; assumption.
  - rewrite Forall_forall in H. apply eq_dict. apply like_dump_entries; [exact (Hd _ (w_self _))|exact (Hd' _ (w_self _))|exact HF|]. intros k x x' Hx Hx'.
    apply (H (k, x) Hx); [first [solve [eapply pd_dict; [exact Hd|eassumption]]|solve [eapply pd_dict; [exact Hd'|eassumption]]]|first [solve [eapply pd_dict; [exact Hd|eassumption]]|solve [eapply pd_dict; [exact Hd'|eassumption]]]| |]; first [solve [eapply once_sub; [exact Ho|eapply w_dict; [eassumption|constructor]]]|solve [eapply once_sub; [exact Ho'|eapply w_dict; [eassumption|constructor]]]].
  - rewrite Forall_forall in H, H0. rewrite !dump_obj. apply eq_dict. destruct (Hd _ (w_self _)) as [Nf Nx], (Hd' _ (w_self _)) as [Nf' Nx'].
    assert (W1 := Ho _ _ _ (w_self _)). assert (W2 := Ho' _ _ _ (w_self _)).
    assert (HF' : forall k x x', In (k, x) fs -> In (k, x') fv' -> eqp (dump x) (dump x')).
    { intros k x x' Hx Hx'. assert (Hxx := proj2 HF k x x' Hx Hx'). revert Hxx.
      apply (H (k, x) Hx); [first [solve [eapply pd_field; [exact Hd|eassumption]]|solve [eapply pd_field; [exact Hd'|eassumption]]]|first [solve [eapply pd_field; [exact Hd|eassumption]]|solve [eapply pd_field; [exact Hd'|eassumption]]]| |]; first [solve [eapply once_sub; [exact Ho|eapply w_field; [eassumption|constructor]]]|solve [eapply once_sub; [exact Ho'|eapply w_field; [eassumption|constructor]]]]. }
    assert (HE' : like_entries eqp (dump_entries ex) (dump_entries ex')).
    { apply like_dump_entries; try assumption. intros k x x' Hx Hx'.
      apply (H0 (k, x) Hx); [first [solve [eapply pd_extra; [exact Hd|eassumption]]|solve [eapply pd_extra; [exact Hd'|eassumption]]]|first [solve [eapply pd_extra; [exact Hd|eassumption]]|solve [eapply pd_extra; [exact Hd'|eassumption]]]| |]; first [solve [eapply once_sub; [exact Ho|eapply w_extra; [eassumption|constructor]]]|solve [eapply once_sub; [exact Ho'|eapply w_extra; [eassumption|constructor]]]]. }
    revert W1 W2. generalize (class_infos c). intros infos W1 W2.
    assert (HD : like_entries eqp (dump_fields infos fs) (dump_fields infos fv')).
    { assert (Hhalf : forall g g', like_entries eqp g g' -> forall a, In a (map fst (dump_fields infos g)) -> In a (map fst (dump_fields infos g'))).
      { intros g g' Hg a Hi. apply in_map_iff in Hi as ([a' y] & <- & Hi). apply dump_fields_in in Hi as (k & x & Hx & Hk & ->). destruct (like_in _ _ _ _ _ Hg Hx) as (x' & Hx' & Hxx).
        apply (in_map fst _ (a', dump x')). apply dump_fields_in. exists k, x'. rewrite <- (out_key_alike _ _ _ _ Hxx). auto. }
      split; [intros a; split; apply Hhalf; [exact HF|apply like_sym; [exact HF|]; intros k x y _ Hxy; apply eq_sym_; exact Hxy]|].
      intros a y y' Hy Hy'. apply dump_fields_in in Hy as (k & x & Hx & Hk & ->). apply dump_fields_in in Hy' as (k' & x' & Hx' & Hk' & ->).
      destruct (like_in _ _ _ _ _ HF Hx) as (x2 & Hx2 & Hxx).
      assert (Hin : In (a, dump x2) (dump_fields infos fv')) by (apply dump_fields_in; exists k, x2; rewrite <- (out_key_alike _ _ _ _ Hxx); auto).
      assert (Hin' : In (a, dump x') (dump_fields infos fv')) by (apply dump_fields_in; exists k', x'; auto).
      rewrite (nodup_fun _ _ _ _ W2 Hin' Hin). eapply HF'; eassumption. }
    apply like_lookup; [apply dict_update_nodup; exact W1|apply dict_update_nodup; exact W2|]. intros a. rewrite !merged' by (rewrite dump_entries_keys; assumption).
    assert (L1 := like_assoc _ a _ _ (eq_ind_r (fun l => NoDup l) Nx (dump_entries_keys ex)) (eq_ind_r (fun l => NoDup l) Nx' (dump_entries_keys ex')) HE').
    destruct (assoc a (dump_entries ex)), (assoc a (dump_entries ex')); cbn [opt_rel] in L1; try contradiction; [exact L1|]. apply like_assoc; assumption.
  - rewrite Forall_forall in H. change (eqp (VDict (dump_entries d)) (VDict (dump_entries d'))). apply eq_dict. apply like_dump_entries; [exact (Hd _ (w_self _))|exact (Hd' _ (w_self _))|exact HF|]. intros k x x' Hx Hx'.
    apply (H (k, x) Hx); [first [solve [eapply pd_root; [exact Hd|eassumption]]|solve [eapply pd_root; [exact Hd'|eassumption]]]|first [solve [eapply pd_root; [exact Hd|eassumption]]|solve [eapply pd_root; [exact Hd'|eassumption]]]| |]; first [solve [eapply once_sub; [exact Ho|eapply w_root; [eassumption|constructor]]]|solve [eapply once_sub; [exact Ho'|eapply w_root; [eassumption|constructor]]]].
Qed.
Lemma dump_pd v : python_dicts v -> writes_once v -> python_dicts (dump v).
Proof.
  induction v using pv_ind'; intros Hd Ho x Hx.
  all: try (cbn [dump] in Hx; inversion Hx; subst; exact I).
  - cbn [dump] in Hx. rewrite Forall_forall in H. inversion Hx as [|? y Hi Hy| | | |]; subst; [exact I|]. apply in_map_iff in Hi as (z & <- & Hi).
    apply (H z Hi); [first [solve [eapply pd_list; [exact Hd|eassumption]]|solve [eapply pd_list; [exact Hd'|eassumption]]]| |exact Hy]. eapply once_sub; [exact Ho|]. eapply w_list; [exact Hi|constructor].
  - change (within x (VDict (dump_entries d))) in Hx. rewrite Forall_forall in H. inversion Hx as [| |? k y Hi Hy| | |]; subst; [cbn [own_keys_distinct]; rewrite dump_entries_keys; exact (Hd _ (w_self _))|].
    unfold dump_entries in Hi. apply in_map_iff in Hi as ([k' z] & Heq & Hi). injection Heq as <- <-. apply (H (k', z) Hi); [first [solve [eapply pd_dict; [exact Hd|eassumption]]|solve [eapply pd_dict; [exact Hd'|eassumption]]]| |exact Hy].
    eapply once_sub; [exact Ho|]. eapply w_dict; [exact Hi|constructor].
  - rewrite Forall_forall in H, H0. rewrite dump_obj in Hx. assert (W := Ho _ _ _ (w_self _)). revert W Hx. generalize (class_infos c). intros infos W Hx.
    inversion Hx as [| |? k y Hi Hy| | |]; subst; [cbn [own_keys_distinct]; apply dict_update_nodup; exact W|].
    assert (Hin : In (k, y) (dump_fields infos fs) \/ In (k, y) (dump_entries ex)).
    { clear -Hi. revert Hi. generalize (dump_fields infos fs). generalize (dump_entries ex). intros e. unfold dict_update. induction e as [|[a z] e IH]; intros d Hi; [left; exact Hi|].
      cbn [fold_left fst snd] in Hi. apply IH in Hi as [Hi|Hi]; [|right; right; exact Hi]. apply dict_set_In in Hi as [Hi|[Hk Hz]]; [left; exact Hi|]. cbn [fst snd] in Hk, Hz. subst. right; left; reflexivity. }
    destruct Hin as [Hin|Hin].
    + apply dump_fields_in in Hin as (k' & z & Hz & _ & ->). apply (H (k', z) Hz); [first [solve [eapply pd_field; [exact Hd|eassumption]]|solve [eapply pd_field; [exact Hd'|eassumption]]]| |exact Hy]. eapply once_sub; [exact Ho|]. eapply w_field; [exact Hz|constructor].
    + unfold dump_entries in Hin. apply in_map_iff in Hin as ([k' z] & Heq & Hz). injection Heq as <- <-. apply (H0 (k', z) Hz); [first [solve [eapply pd_extra; [exact Hd|eassumption]]|solve [eapply pd_extra; [exact Hd'|eassumption]]]| |exact Hy].
      eapply once_sub; [exact Ho|]. eapply w_extra; [exact Hz|constructor].
  - change (within x (VDict (dump_entries d))) in Hx. rewrite Forall_forall in H. inversion Hx as [| |? k y Hi Hy| | |]; subst; [cbn [own_keys_distinct]; rewrite dump_entries_keys; exact (Hd _ (w_self _))|].
    unfold dump_entries in Hi. apply in_map_iff in Hi as ([k' z] & Heq & Hi). injection Heq as <- <-. apply (H (k', z) Hi); [first [solve [eapply pd_root; [exact Hd|eassumption]]|solve [eapply pd_root; [exact Hd'|eassumption]]]| |exact Hy].
    eapply once_sub; [exact Ho|]. eapply w_root; [exact Hi|constructor].
Qed.
(** Equal objects loaded from JSON serialise to equal data. *)
Theorem c90_serialised E t v v' o o' : In t all_types -> is_json v -> is_json v' -> python_dicts v -> python_dicts v' -> parse E t v = Some o -> parse E t v' = Some o' ->
  eqb o o' = true -> eqb (dump o) (dump o') = true.
Proof.
  intros Ht Hj Hj' Hp Hp' Ho Ho' H. assert (P := parse_pd _ _ _ _ (wf_all _ Ht) Hp Ho). assert (P' := parse_pd _ _ _ _ (wf_all _ Ht) Hp' Ho').
  assert (W := canon_once _ _ _ (linked_all _ Ht) (wf_all _ Ht) (loaded_json _ _ _ _ Ht Ho Hj)). assert (W' := canon_once _ _ _ (linked_all _ Ht) (wf_all _ Ht) (loaded_json _ _ _ _ Ht Ho' Hj')).
  apply py_eq_iff; [apply dump_pd; assumption|apply dump_pd; assumption|]. apply dump_eq; try assumption. apply py_eq_iff; assumption.
Qed.
End S.

(** Not to the same JSON, even up to the order of keys, as True == 1. *)
Definition eqA : pv := obj [("asyncapi", str "3.0.0"); ("info", obj [("title", str "T"); ("version", str "1"); ("x-b", VInt 2); ("x-a", VInt 1)])].
Definition eqB : pv := obj [("asyncapi", str "3.0.0"); ("info", obj [("version", str "1"); ("title", str "T"); ("x-a", VBool true); ("x-b", VInt 2)])].
Theorem c90_text_may_differ : ~ (forall fnum E v v' o o', is_json v -> is_json v' -> python_dicts v -> python_dicts v' -> parse E T_AsyncAPI3 v = Some o -> parse E T_AsyncAPI3 v' = Some o' ->
  py_eq fnum o o' = true -> same_upto_order (dump o) (dump o')).
Proof.
  intros H. assert (Ho : parse E0 T_AsyncAPI3 eqA = Some (load_doc eqA)) by (apply load_doc_ok; vm_compute; reflexivity).
  assert (Ho' : parse E0 T_AsyncAPI3 eqB = Some (load_doc eqB)) by (apply load_doc_ok; vm_compute; reflexivity).
  assert (Hs := H (fun t => inr t) E0 eqA eqB _ _ ltac:(apply json_dec; vm_compute; reflexivity) ltac:(apply json_dec; vm_compute; reflexivity)
    ltac:(apply python_dicts_dec; vm_compute; reflexivity) ltac:(apply python_dicts_dec; vm_compute; reflexivity) Ho Ho' ltac:(vm_compute; reflexivity)).
  clear H Ho Ho'. apply upto_same in Hs; [|apply python_dicts_dec; vm_compute; reflexivity].
  assert (Hstep : forall k v v', same v v' -> orel same (match v with VDict d => assoc k d | _ => None end) (match v' with VDict d => assoc k d | _ => None end)).
  { intros k v v' Hv. destruct Hv as [v Ha| |d d' Hd| |]; try exact I; [destruct v; try exact I; destruct Ha|]. exact (entries_lookup _ _ _ Hd k). }
  assert (Hi := Hstep (u "info") _ _ Hs). vm_compute in Hi. apply (Hstep (u "x-a")) in Hi. vm_compute in Hi. inversion Hi.
Qed.
Example c90_ex : python_dicts (load_doc eqA) /\ python_dicts (load_doc eqB) /\ py_eq (fun t => inr t) (load_doc eqA) (load_doc eqB) = true /\ load_doc eqA <> load_doc eqB
  /\ py_eq (fun t => inr t) (load_doc eqA) (load_doc orderA) = false.
Proof.
  split; [apply python_dicts_dec; vm_compute; reflexivity|]. split; [apply python_dicts_dec; vm_compute; reflexivity|]. split; [vm_compute; reflexivity|]. split; [|vm_compute; reflexivity].
  intros H. apply (f_equal (fun v => match SpecState.get_path [PField (u "info"); PExtra (u "x-a")] v with Some (VInt _) => true | _ => false end)) in H. vm_compute in H. discriminate H.
Qed.

Print Assumptions c90_decides.
Print Assumptions c90_equivalence.
Print Assumptions c90_reference.
Print Assumptions c90_checked.
Print Assumptions c90_resolves.
Print Assumptions c90_tags.
Print Assumptions c90_docs.
Print Assumptions c90_serialised.
Print Assumptions c90_text_may_differ.
