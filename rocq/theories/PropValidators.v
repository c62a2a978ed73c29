(** Properties C35-C38 and C51: the tag and external-documentation reference validators. *)
From Verif Require Import PyStr Regex Value Types Rules Pydantic ClassTable Classes Canon Linked SpecParse Sample ProofRules ProofParse
  State SpecState ProofState Resolve SpecResolve ProofResolve PropResolve Unified SpecUnified PropUnified Validators SpecValidators ProofValidators.
Local Open Scope string_scope.

Lemma in_root : In T_AsyncAPI3 all_types.
Proof. in_table. Qed.
Lemma parsed_wt E v doc : parse E T_AsyncAPI3 v = Some doc -> well_typed E T_AsyncAPI3 doc.
Proof. intros H. eapply parse_wt; [exact (wf_all _ in_root)|exact H]. Qed.
Lemma fam_tags : family tag_prefix "tags". Proof. left. split; reflexivity. Qed.
Lemma fam_docs : family docs_prefix "external_docs". Proof. right. split; reflexivity. Qed.

(** General form: a validator running [checks] looks at [locations] for references of the family. *)
Section General.
  Context (E : env) (prefix : pystr) (f : string) (checks : list (pv -> effect)) (locations : list (list dstep)) (doc : pv).
  Hypothesis Hwt : well_typed E T_AsyncAPI3 doc.
  Hypothesis Hf : family prefix f.
  Hypothesis Hall : Forall2 (fun check path => forget (check doc) = visit (chk prefix f doc) (gather path doc)) checks locations.
  Lemma general_ok : snd (run_checks checks doc) = None <-> forall s, found locations doc s -> reference_ok doc prefix f s.
  Proof.
    rewrite forget_ok, (run_all _ _ _ _ Hall), visit_ok. split; intros H s Hs.
    - apply (chk_ok E doc prefix f s Hwt Hf). apply H. apply gathered. exact Hs.
    - apply (chk_ok E doc prefix f s Hwt Hf). apply H. apply gathered. exact Hs.
  Qed.
  Lemma general_warned s : snd (run_checks checks doc) = None ->
    (In s (map snd (fst (run_checks checks doc))) <-> found locations doc s /\ outside s).
  Proof.
    rewrite forget_ok, forget_warned, (run_all _ _ _ _ Hall). intros H. rewrite (visit_warned _ _ H), in_flat_map. split.
    - intros (x & Hx & Hi). apply (chk_warned E doc prefix f x s Hwt Hf) in Hi as [-> Ho]. split; [apply gathered; exact Hx|exact Ho].
    - intros [Hs Ho]. exists s. split; [apply gathered; exact Hs|]. apply (chk_warned E doc prefix f s s Hwt Hf). auto.
  Qed.
  Lemma flat_map_split {X Y} (g : X -> list Y) l : forall a y b, flat_map g l = (a ++ y :: b)%list ->
    exists l1 x l2 a', l = (l1 ++ x :: l2)%list /\ In y (g x) /\ a = (flat_map g l1 ++ a')%list.
  Proof.
    induction l as [|x l IH]; intros a y b H; cbn [flat_map] in H; [destruct a; discriminate H|].
    destruct (le_lt_dec (length (g x)) (length a)) as [Hle|Hlt].
    - assert (Ha : exists c, a = (g x ++ c)%list /\ flat_map g l = (c ++ y :: b)%list).
      { clear IH. revert a Hle H. induction (g x) as [|z gx IHg]; intros a Hle H; [exists a; auto|].
        destruct a as [|z' a]; cbn in Hle; [lia|]. cbn in H. injection H as -> H. destruct (IHg a ltac:(lia) H) as (c & -> & Hc). exists c. auto. }
      destruct Ha as (c & -> & Hc). destruct (IH c y b Hc) as (l1 & x' & l2 & a' & -> & Hy & ->).
      exists (x :: l1), x', l2, a'. split; [reflexivity|]. split; [exact Hy|]. cbn [flat_map]. rewrite app_assoc. reflexivity.
    - exists [], x, l, a. split; [reflexivity|]. split; [|reflexivity]. clear IH. revert a Hlt H.
      induction (g x) as [|z gx IHg]; intros a Hlt H; cbn in Hlt; [lia|]. destruct a as [|z' a]; cbn in H; injection H as -> H; [left; reflexivity|].
      right. apply (IHg a); [cbn in Hlt; lia|exact H].
  Qed.
  Lemma general_fault flt ctx t : snd (run_checks checks doc) = Some (flt, ctx, t) ->
    exists l1 p l2 r s, locations = (l1 ++ p :: l2)%list /\ selects doc p r /\ is_reference r s /\ ~ reference_ok doc prefix f s
      /\ (forall s', found l1 doc s' -> reference_ok doc prefix f s')
      /\ ((flt = Elsewhere /\ t = s /\ forall x, s <> prefix ++ x)%list \/ (flt = Missing /\ erased prefix s t /\ entry_at doc ["components"; f] t = None)).
  Proof.
    intros H. apply forget_fault in H. rewrite (run_all _ _ _ _ Hall) in H. apply visit_fault in H as (a & s & b & Hl & Hc & Hb).
    apply flat_map_split in Hl as (l1 & p & l2 & a' & Hl & Hs & ->). apply gather_selects in Hs as (r & Hr & Hrs).
    exists l1, p, l2, r, s. split; [exact Hl|]. split; [exact Hr|]. split; [exact Hrs|]. split; [|split].
    - intros Hok. apply (chk_ok E doc prefix f s Hwt Hf) in Hok. rewrite Hc in Hok. discriminate Hok.
    - intros s' Hs'. apply (chk_ok E doc prefix f s' Hwt Hf). apply Hb. apply in_or_app. left. apply gathered. exact Hs'.
    - rewrite (chk_cases E doc prefix f s Hwt Hf) in Hc. destruct (starts_with (u "#") s); [|discriminate Hc]. destruct (starts_with prefix s) eqn:Ep.
      + right. destruct (entry_at doc ["components"; f] (replace prefix [] s)) eqn:Ee; [discriminate Hc|]. cbn [snd] in Hc. injection Hc as <- <-.
        split; [reflexivity|]. split; [apply replace_erased; eapply family_nonempty; exact Hf|exact Ee].
      + left. cbn [snd] in Hc. injection Hc as <- <-. split; [reflexivity|]. split; [reflexivity|]. intros x Hx.
        assert (Hy : starts_with prefix s = true) by (apply starts_with_iff; eauto). rewrite Hy in Ep. discriminate Ep.
  Qed.
End General.

(** ** C35 *)
Theorem c35_accepts_iff E doc : well_typed E T_AsyncAPI3 doc ->
  (snd (tags_validator doc) = None <-> forall s, found tag_locations doc s -> reference_ok doc tag_prefix "tags" s).
Proof. intros Hwt. exact (general_ok E tag_prefix "tags" tags_checks tag_locations doc Hwt fam_tags (tags_each E doc Hwt)). Qed.
(** External references are only warned about. *)
Theorem c35_warnings E doc s : well_typed E T_AsyncAPI3 doc -> snd (tags_validator doc) = None ->
  (In s (map snd (fst (tags_validator doc))) <-> found tag_locations doc s /\ outside s).
Proof. intros Hwt. exact (general_warned E tag_prefix "tags" tags_checks tag_locations doc Hwt fam_tags (tags_each E doc Hwt) s). Qed.
(** An error is a ValueError about a reference that is not acceptable, all earlier locations being acceptable; Python itself never fails. *)
Theorem c35_error E doc flt ctx t : well_typed E T_AsyncAPI3 doc -> snd (tags_validator doc) = Some (flt, ctx, t) ->
  exists l1 p l2 r s, tag_locations = (l1 ++ p :: l2)%list /\ selects doc p r /\ is_reference r s /\ ~ reference_ok doc tag_prefix "tags" s
    /\ (forall s', found l1 doc s' -> reference_ok doc tag_prefix "tags" s')
    /\ ((flt = Elsewhere /\ t = s /\ forall x, s <> tag_prefix ++ x)%list \/ (flt = Missing /\ erased tag_prefix s t /\ entry_at doc ["components"; "tags"] t = None)).
Proof. intros Hwt. exact (general_fault E tag_prefix "tags" tags_checks tag_locations doc Hwt fam_tags (tags_each E doc Hwt) flt ctx t). Qed.
(** References elsewhere do not matter: only the references found at the locations and the names of the component tags do. *)
Theorem c35_only_locations E doc doc' : well_typed E T_AsyncAPI3 doc -> well_typed E T_AsyncAPI3 doc' ->
  (forall s, found tag_locations doc s <-> found tag_locations doc' s) ->
  (forall k, entry_at doc ["components"; "tags"] k = None <-> entry_at doc' ["components"; "tags"] k = None) ->
  (snd (tags_validator doc) = None <-> snd (tags_validator doc') = None).
Proof.
  intros H1 H2 Hs Hk. rewrite (c35_accepts_iff E doc H1), (c35_accepts_iff E doc' H2).
  assert (Hx : forall s, reference_ok doc tag_prefix "tags" s <-> reference_ok doc' tag_prefix "tags" s).
  { intros s. unfold reference_ok. split; (intros [Ho|(Hp & key & v & He & Hv)]; [left; exact Ho|right; split; [exact Hp|]]).
    - destruct (entry_at doc' ["components"; "tags"] key) as [v'|] eqn:Ev; [eauto|]. apply Hk in Ev. rewrite Ev in Hv. discriminate Hv.
    - destruct (entry_at doc ["components"; "tags"] key) as [v'|] eqn:Ev; [eauto|]. apply Hk in Ev. rewrite Ev in Hv. discriminate Hv. }
  split; intros H s Hf; apply Hx, H, Hs, Hf.
Qed.
Definition tag_list (l : list string) : pv := VList (map ref l).
Definition docV : pv :=
  spec [("channels", obj [("c", obj [("address", str "a"); ("tags", tag_list ["#/components/tags/t"; "https://e.org/t"]);
                                     ("messages", obj [("m", obj [("tags", tag_list ["#/components/tags/t2"])]); ("n", ref "#/components/messages/gone")])]);
                          ("d", ref "#/channels/c")]);
        ("components", obj [("tags", obj [("t", obj [("name", str "x"); ("externalDocs", ref "#/components/externalDocs/e")]); ("t2", ref "#/components/tags/t")]);
                            ("externalDocs", obj [("e", obj [("url", str "https://e.org")])]);
                            ("messages", obj [("k", obj [("payload", obj [("externalDocs", ref "other.json#/e")])])])])].
Definition docV_bad : pv :=
  spec [("servers", obj [("s", obj [("host", str "h"); ("protocol", str "kafka"); ("tags", tag_list ["t.json"])])]);
        ("operations", obj [("o", obj [("action", str "send"); ("channel", ref "#/channels/c"); ("tags", tag_list ["#/components/tags/gone"])])]);
        ("components", obj [("tags", obj [("t", ref "#/tags/x")])])].
Lemma docV_ok : parse E0 T_AsyncAPI3 docV = Some (load_doc docV).
Proof. apply load_doc_ok. vm_compute. reflexivity. Qed.
Lemma docV_bad_ok : parse E0 T_AsyncAPI3 docV_bad = Some (load_doc docV_bad).
Proof. apply load_doc_ok. vm_compute. reflexivity. Qed.
Example c35_ex : well_typed E0 T_AsyncAPI3 (load_doc docV) /\ snd (tags_validator (load_doc docV)) = None
  /\ map snd (fst (tags_validator (load_doc docV))) = [u "https://e.org/t"]
  /\ flat_map (fun p => gather p (load_doc docV)) tag_locations
     = [u "#/components/tags/t"; u "https://e.org/t"; u "#/components/tags/t2"; u "#/components/tags/t"].
Proof. split; [exact (parsed_wt _ _ _ docV_ok)|]. split; [vm_compute; reflexivity|]. split; vm_compute; reflexivity. Qed.
Example c35_ex_bad : well_typed E0 T_AsyncAPI3 (load_doc docV_bad)
  /\ tags_validator (load_doc docV_bad) = ([(u "server 's'", u "t.json")], Some (Missing, u "operation 'o'", u "gone")).
Proof. split; [exact (parsed_wt _ _ _ docV_bad_ok)|]. vm_compute. reflexivity. Qed.

(** ** C36.  Acceptance of one reference [r] with string [s]. *)
Theorem c36_exact E doc prefix f ctx r s : well_typed E T_AsyncAPI3 doc -> family prefix f -> is_reference r s ->
  (snd (one_ref prefix f doc ctx r) = None <-> reference_ok doc prefix f s).
Proof.
  intros Hwt Hf Hr. rewrite forget_ok, (one_ref_chk prefix f doc ctx r s Hr). exact (chk_ok E doc prefix f s Hwt Hf).
Qed.
(** Refuted: every occurrence of the prefix is removed, not only the leading one, so a reference to nothing is accepted. *)
Definition doc_twice : pv :=
  spec [("components", obj [("tags", obj [("a", obj [("name", str "x")]); ("b", ref "#/components/tags/#/components/tags/a")])])].
Theorem c36_target_refuted : ~ (forall E v doc r s, parse E T_AsyncAPI3 v = Some doc -> within r doc -> is_reference r s -> ~ outside s ->
  (snd (one_ref tag_prefix "tags" doc [] r) = None <-> names_entry doc tag_prefix "tags" s)).
Proof.
  intros H. assert (Hp : parse E0 T_AsyncAPI3 doc_twice = Some (load_doc doc_twice)) by (apply load_doc_ok; vm_compute; reflexivity).
  assert (Hs : entry_at (load_doc doc_twice) ["components"; "tags"] (u "b")
     = Some (VObj "Reference" [(u "ref", VStr (u "#/components/tags/#/components/tags/a"))] [])) by (vm_compute; reflexivity).
  assert (Hin : In (u "#/components/tags/#/components/tags/a") (reference_strings (load_doc doc_twice))) by (vm_compute; left; reflexivity).
  apply reference_strings_iff in Hin as (r & Hw & Hr).
  destruct (H E0 doc_twice _ r _ Hp Hw Hr) as [H1 _].
  - intros Ho. apply outside_iff in Ho. discriminate Ho.
  - assert (Hok : reference_ok (load_doc doc_twice) tag_prefix "tags" (u "#/components/tags/#/components/tags/a")).
    { right. split; [exists (u "#/components/tags/a"); reflexivity|]. exists (u "a"). eexists. split.
      - apply (er_hit tag_prefix (u "#/components/tags/a")). apply (er_hit tag_prefix (u "a")).
        apply er_miss; [intros r0; vm_compute; discriminate|constructor].
      - vm_compute. reflexivity. }
    apply (c36_exact E0 _ tag_prefix "tags" [] r _ (parsed_wt _ _ _ Hp) fam_tags Hr) in Hok.
    destruct (H1 Hok)
      as (key & v & Hk & Hv).
    apply (f_equal (skipn (length tag_prefix))) in Hk. rewrite skipn_app, skipn_all, Nat.sub_diag in Hk. cbn [skipn app] in Hk.
    rewrite <- Hk in Hv. vm_compute in Hv. discriminate Hv.
Qed.
(** The documented reading holds for references in which the prefix occurs once ... *)
Theorem c36_target_partial E doc prefix f ctx r s : well_typed E T_AsyncAPI3 doc -> family prefix f -> is_reference r s -> ~ outside s ->
  (~ exists a b, s = prefix ++ a ++ prefix ++ b)%list ->
  (snd (one_ref prefix f doc ctx r) = None <-> names_entry doc prefix f s).
Proof.
  intros Hwt Hf Hr Ho Hs. rewrite (c36_exact E doc prefix f ctx r s Hwt Hf Hr). unfold reference_ok, names_entry.
  assert (He : forall key, (~ exists a b, key = a ++ prefix ++ b)%list -> erased prefix key key).
  { intros key. induction key as [|c key IH]; intros Hk; [constructor|]. apply er_miss.
    - intros x Hx. apply Hk. exists [], x. exact Hx.
    - apply IH. intros (a & b & ->). apply Hk. exists (c :: a), b. reflexivity. }
  split.
  - intros [H|((key & ->) & k & v & Hk & Hv)]; [contradiction|]. exists key, v. split; [reflexivity|].
    assert (Hkey : (~ exists a b, key = a ++ prefix ++ b)%list) by (intros (a & b & ->); apply Hs; exists a, b; reflexivity).
    apply He, (er_hit prefix) in Hkey. apply erased_replace in Hk; [|eapply family_nonempty; exact Hf].
    apply erased_replace in Hkey; [|eapply family_nonempty; exact Hf]. rewrite Hkey in Hk. subst k. exact Hv.
  - intros (key & v & -> & Hv). right. split; [eauto|]. exists key, v. split; [|exact Hv]. apply er_hit, He.
    intros (a & b & ->). apply Hs. exists a, b. reflexivity.
Qed.
(** ... in particular for every key a parsed map may have. *)
Theorem c36_ordinary_key E doc prefix f ctx key : well_typed E T_AsyncAPI3 doc -> family prefix f -> upto_nl doc_key key ->
  (snd (one_ref prefix f doc ctx (VObj "Reference" [(u "ref", VStr (prefix ++ key))] [])%list) = None
   <-> exists v, entry_at doc ["components"; f] key = Some v).
Proof.
  intros Hwt Hf Hk.
  assert (Hhash : ~ In 35%N key).
  { destruct Hk as (w & [_ Hw] & [->| ->]); intros Hi.
    - rewrite Forall_forall in Hw. specialize (Hw _ Hi). revert Hw. vm_compute. intuition discriminate.
    - apply in_app_or in Hi as [Hi|Hi]; [|vm_compute in Hi; intuition discriminate].
      rewrite Forall_forall in Hw. specialize (Hw _ Hi). revert Hw. vm_compute. intuition discriminate. }
  rewrite (c36_target_partial E doc prefix f ctx _ (prefix ++ key)%list Hwt Hf).
  - unfold names_entry. split.
    + intros (k & v & He & Hv). apply app_inv_head in He. subst k. eauto.
    + intros (v & Hv). eauto.
  - exists [(u "ref", VStr (prefix ++ key)%list)], []. split; reflexivity.
  - intros Ho. destruct Hf as [[-> _]|[-> _]]; eapply Ho; reflexivity.
  - intros (a & b & He). apply app_inv_head in He. subst key. apply Hhash. apply in_or_app. right. apply in_or_app. left.
    destruct Hf as [[-> _]|[-> _]]; left; reflexivity.
Qed.
Example c36_ex : family tag_prefix "tags" /\ upto_nl doc_key (u "t2") /\ exists v, entry_at (load_doc docV) ["components"; "tags"] (u "t2") = Some v.
Proof.
  split; [exact fam_tags|]. split; [|eexists; vm_compute; reflexivity]. apply patterned_key_iff. vm_compute. reflexivity.
Qed.

(** ** C37 *)
(** Documents parsed from data without model instances carry a string in every Reference object. *)
Lemma parsed_whole E v doc : parse E T_AsyncAPI3 v = Some doc -> no_objects v -> whole doc.
Proof.
  intros Hp Hn fv ex Hw. apply parse_some in Hp as [n Hp].
  assert (Hc := validate_canon no_objects no_objects E _ no_objects_closed (fun _ H => H) (wf_all _ in_root) _ _ _ Hn Hp).
  destruct (canon_within _ _ _ (linked_all _ in_root) (wf_all _ in_root) _ Hc _ Hw I) as [(t & Hm & Hl & Hwf & Hx)|(a & HA & Hx)]; [|destruct (HA _ _ _ Hx)].
  destruct t; try contradiction; cbn [canon] in Hx; [|destruct Hx as (? & Hx & _); discriminate Hx].
  destruct Hx as (fv' & ex' & Heq & Hf & _). injection Heq as <- -> ->.
  assert (Hk := proj1 (linked_fields _ _ _ Hl)).
  assert (Hv : exists fi, class_fields "Reference" = [(fi, TStr None)] /\ f_name fi = u "ref") by (eexists; split; vm_compute; reflexivity).
  destruct Hv as (fi & Hv & Hn'). rewrite Hv in Hk. clear Hv Hl Hwf. subst fs. cbn [canon_fields] in Hf.
  destruct fv' as [|[k0 x] fv']; [contradiction|]. destruct Hf as (Hf & Hr). destruct Hf as (-> & Hf & _).
  cbn [canon] in Hf. destruct Hf as (s & -> & _). exists s. rewrite Hn'. cbn [assoc]. rewrite str_eqb_refl. reflexivity.
Qed.

Theorem c37_accepts_iff E doc : well_typed E T_AsyncAPI3 doc -> whole doc ->
  (snd (docs_validator doc) = None <-> forall s, found docs_locations doc s -> reference_ok doc docs_prefix "external_docs" s).
Proof. intros Hwt Hw. exact (general_ok E docs_prefix "external_docs" docs_checks docs_locations doc Hwt fam_docs (docs_each E doc Hwt Hw)). Qed.
Theorem c37_warnings E doc s : well_typed E T_AsyncAPI3 doc -> whole doc -> snd (docs_validator doc) = None ->
  (In s (map snd (fst (docs_validator doc))) <-> found docs_locations doc s /\ outside s).
Proof. intros Hwt Hw. exact (general_warned E docs_prefix "external_docs" docs_checks docs_locations doc Hwt fam_docs (docs_each E doc Hwt Hw) s). Qed.
Theorem c37_error E doc flt ctx t : well_typed E T_AsyncAPI3 doc -> whole doc -> snd (docs_validator doc) = Some (flt, ctx, t) ->
  exists l1 p l2 r s, docs_locations = (l1 ++ p :: l2)%list /\ selects doc p r /\ is_reference r s /\ ~ reference_ok doc docs_prefix "external_docs" s
    /\ (forall s', found l1 doc s' -> reference_ok doc docs_prefix "external_docs" s')
    /\ ((flt = Elsewhere /\ t = s /\ forall x, s <> docs_prefix ++ x)%list
        \/ (flt = Missing /\ erased docs_prefix s t /\ entry_at doc ["components"; "external_docs"] t = None)).
Proof. intros Hwt Hw. exact (general_fault E docs_prefix "external_docs" docs_checks docs_locations doc Hwt fam_docs (docs_each E doc Hwt Hw) flt ctx t). Qed.
(** For documents read from plain data the side conditions hold. *)
Theorem c37_parsed E v doc : parse E T_AsyncAPI3 v = Some doc -> no_objects v ->
  (snd (docs_validator doc) = None <-> forall s, found docs_locations doc s -> reference_ok doc docs_prefix "external_docs" s).
Proof. intros Hp Hn. exact (c37_accepts_iff E doc (parsed_wt _ _ _ Hp) (parsed_whole _ _ _ Hp Hn)). Qed.
Example c37_ex : parse E0 T_AsyncAPI3 docV = Some (load_doc docV) /\ no_objects docV /\ whole (load_doc docV)
  /\ docs_validator (load_doc docV) = ([(u "payload in components message 'k'", u "other.json#/e")], None)
  /\ flat_map (fun p => gather p (load_doc docV)) docs_locations = [u "other.json#/e"; u "#/components/externalDocs/e"].
Proof.
  assert (Hn : no_objects docV) by (apply plain_dec; vm_compute; reflexivity).
  split; [exact docV_ok|]. split; [exact Hn|]. split; [exact (parsed_whole _ _ _ docV_ok Hn)|]. split; vm_compute; reflexivity.
Qed.

(** ** C25, the two other validators: external references are never reported. *)
Lemma ok_external doc prefix f s : external s -> reference_ok doc prefix f s.
Proof. intros (r & [->| ->]); left; intros x Hx; discriminate Hx. Qed.
Theorem c25_tags_docs E doc : well_typed E T_AsyncAPI3 doc -> whole doc ->
  (forall flt ctx t, snd (tags_validator doc) = Some (flt, ctx, t) -> exists s, found tag_locations doc s /\ ~ external s)
  /\ (forall flt ctx t, snd (docs_validator doc) = Some (flt, ctx, t) -> exists s, found docs_locations doc s /\ ~ external s).
Proof.
  intros Hwt Hw. split; intros flt ctx t H.
  - destruct (c35_error E doc flt ctx t Hwt H) as (l1 & p & l2 & r & s & He & Hs & Hr & Hn & _). exists s. split.
    + exists p, r. rewrite He. split; [apply in_elt|auto].
    + intros Hx. exact (Hn (ok_external _ _ _ _ Hx)).
  - destruct (c37_error E doc flt ctx t Hwt Hw H) as (l1 & p & l2 & r & s & He & Hs & Hr & Hn & _). exists s. split.
    + exists p, r. rewrite He. split; [apply in_elt|auto].
    + intros Hx. exact (Hn (ok_external _ _ _ _ Hx)).
Qed.

(** ** C38.  One document with a dangling externalDocs reference at each of seven documented locations. *)
Definition bad_docs := ("externalDocs", ref "#/components/externalDocs/gone").
Definition bad_trait : pv := obj [bad_docs; ("tags", VList [obj [("name", str "x"); bad_docs]])].
Definition doc_unseen : pv :=
  spec [("components", obj [
    ("channels", obj [("c", obj [("address", str "a"); ("messages", obj [("m", obj [bad_docs; ("traits", VList [bad_trait])])])])]);
    ("operations", obj [("o", obj [("action", str "send"); ("channel", ref "#/channels/c"); ("traits", VList [bad_trait])])]);
    ("messages", obj [("m", obj [("traits", VList [bad_trait])])])])].
Lemma doc_unseen_ok : parse E0 T_AsyncAPI3 doc_unseen = Some (load_doc doc_unseen).
Proof. apply load_doc_ok. vm_compute. reflexivity. Qed.
Lemma unseen_plain : no_objects doc_unseen.
Proof. apply plain_dec. vm_compute. reflexivity. Qed.
Lemma unseen_at p : In p documented_unchecked -> exists r, selects (load_doc doc_unseen) p r /\ is_reference r (u "#/components/externalDocs/gone").
Proof.
  intros Hp. apply gather_selects.
  assert (H : forallb (fun p => mem_str (u "#/components/externalDocs/gone") (gather p (load_doc doc_unseen))) documented_unchecked = true) by (vm_compute; reflexivity).
  apply mem_str_In. exact (proj1 (forallb_forall _ _) H p Hp).
Qed.
Lemma unseen_bad : ~ reference_ok (load_doc doc_unseen) docs_prefix "external_docs" (u "#/components/externalDocs/gone").
Proof.
  intros [Ho|(_ & key & v & He & Hv)]; [apply outside_iff in Ho; discriminate Ho|].
  apply erased_replace in He; [|discriminate]. subst key. vm_compute in Hv. discriminate Hv.
Qed.
(** Refuted: the listed fields are not all verified. *)
Theorem c38_documented_refuted : ~ (forall E v doc p r s, parse E T_AsyncAPI3 v = Some doc -> no_objects v ->
  In p documented_docs -> selects doc p r -> is_reference r s -> ~ outside s -> ~ names_entry doc docs_prefix "external_docs" s ->
  snd (docs_validator doc) <> None).
Proof.
  intros H. assert (Hin : In (hd [] documented_unchecked) documented_unchecked) by (left; reflexivity).
  destruct (unseen_at _ Hin) as (r & Hr & Hs).
  assert (Hd : In (hd [] documented_unchecked) documented_docs) by (cbn [hd documented_unchecked]; unfold documented_docs; do 13 right; left; reflexivity).
  refine (H E0 doc_unseen _ _ r _ doc_unseen_ok unseen_plain Hd Hr Hs _ _ _).
  - intros Ho. apply unseen_bad. left. exact Ho.
  - intros (key & v & Hk & Hv). change (u "#/components/externalDocs/gone") with (docs_prefix ++ u "gone")%list in Hk. apply app_inv_head in Hk.
    subst key. vm_compute in Hv. discriminate Hv.
  - vm_compute. reflexivity.
Qed.
(** None of the seven is looked at ... *)
Theorem c38_unchecked : (forall p, In p documented_unchecked -> In p documented_docs) /\
  exists E v doc s, parse E T_AsyncAPI3 v = Some doc /\ no_objects v /\ docs_validator doc = ([], None) /\ ~ reference_ok doc docs_prefix "external_docs" s
    /\ forall p, In p documented_unchecked -> exists r, selects doc p r /\ is_reference r s.
Proof.
  split.
  - intros p Hp. repeat (destruct Hp as [<-|Hp]; [unfold documented_docs; repeat ((left; reflexivity) || right)|]). destruct Hp.
  - exists E0, doc_unseen, (load_doc doc_unseen), (u "#/components/externalDocs/gone").
    split; [exact doc_unseen_ok|]. split; [exact unseen_plain|]. split; [vm_compute; reflexivity|]. split; [exact unseen_bad|exact unseen_at].
Qed.
(** ... and all the others are. *)
Theorem c38_documented_partial E doc p r s : well_typed E T_AsyncAPI3 doc -> whole doc ->
  In p documented_docs -> ~ In p documented_unchecked -> selects doc p r -> is_reference r s -> ~ reference_ok doc docs_prefix "external_docs" s ->
  snd (docs_validator doc) <> None.
Proof.
  intros Hwt Hw Hp Hu Hr Hs Hbad Hok. apply Hbad. apply (proj1 (c37_accepts_iff E doc Hwt Hw) Hok). exists p, r. split; [|auto]. clear Hr.
  repeat (destruct Hp as [<-|Hp]; [first [solve [exfalso; apply Hu; unfold documented_unchecked; repeat ((left; reflexivity) || right)]
                                         |solve [unfold docs_locations; repeat ((left; reflexivity) || right)]]|]).
  destruct Hp.
Qed.

Example c38_ex : exists p r, In p documented_docs /\ ~ In p documented_unchecked /\ selects (load_doc docV) p r /\ is_reference r (u "#/components/externalDocs/e")
  /\ ~ reference_ok (load_doc docV) docs_prefix "external_docs" (u "#/components/externalDocs/f").
Proof.
  assert (Hg : In (u "#/components/externalDocs/e") (gather [Attr "components"; Attr "tags"; Each; Attr "external_docs"] (load_doc docV))) by (vm_compute; left; reflexivity).
  apply gather_selects in Hg as (r & Hr & Hs). exists [Attr "components"; Attr "tags"; Each; Attr "external_docs"], r.
  split; [unfold documented_docs; repeat ((left; reflexivity) || right)|]. split; [unfold documented_unchecked; intros Hi; repeat (destruct Hi as [Hi|Hi]; [discriminate Hi|]); exact Hi|].
  split; [exact Hr|]. split; [exact Hs|]. intros [Ho|(_ & key & v & He & Hv)]; [apply outside_iff in Ho; discriminate Ho|].
  apply erased_replace in He; [|discriminate]. subst key. vm_compute in Hv. discriminate Hv.
Qed.

(** ** C51.  The per-field part of the document also marks the tags of traits as verified by TagsRefValidator. *)
Definition bad_tags := ("tags", VList [ref "#/components/tags/gone"]).
Definition doc_traits : pv :=
  let t := ("traits", VList [obj [bad_tags]]) in
  spec [("channels", obj [("c", obj [("address", str "a"); ("messages", obj [("m", obj [t])])])]);
        ("operations", obj [("o", obj [("action", str "send"); ("channel", ref "#/channels/c"); t])]);
        ("components", obj [
          ("channels", obj [("c", obj [("address", str "a"); ("messages", obj [("m", obj [t])])])]);
          ("operations", obj [("o", obj [("action", str "send"); ("channel", ref "#/channels/c"); t])]);
          ("messages", obj [("m", obj [t])])])].
Lemma doc_traits_ok : parse E0 T_AsyncAPI3 doc_traits = Some (load_doc doc_traits).
Proof. apply load_doc_ok. vm_compute. reflexivity. Qed.
Lemma traits_at p : In p documented_tags_per_field -> exists r, selects (load_doc doc_traits) p r /\ is_reference r (u "#/components/tags/gone").
Proof.
  intros Hp. apply gather_selects.
  assert (H : forallb (fun p => mem_str (u "#/components/tags/gone") (gather p (load_doc doc_traits))) documented_tags_per_field = true) by (vm_compute; reflexivity).
  apply mem_str_In. exact (proj1 (forallb_forall _ _) H p Hp).
Qed.
Theorem c51_traits_refuted : ~ (forall E v doc p r s, parse E T_AsyncAPI3 v = Some doc -> no_objects v ->
  In p documented_tags_per_field -> selects doc p r -> is_reference r s -> ~ reference_ok doc tag_prefix "tags" s ->
  snd (tags_validator doc) <> None).
Proof.
  intros H. assert (Hin : In (hd [] documented_tags_per_field) documented_tags_per_field) by (left; reflexivity).
  destruct (traits_at _ Hin) as (r & Hr & Hs).
  refine (H E0 doc_traits _ _ r _ doc_traits_ok _ Hin Hr Hs _ _).
  - apply plain_dec. vm_compute. reflexivity.
  - intros [Ho|(_ & key & v & He & Hv)]; [apply outside_iff in Ho; discriminate Ho|].
    apply erased_replace in He; [|discriminate]. subst key. vm_compute in Hv. discriminate Hv.
  - vm_compute. reflexivity.
Qed.
(** What is missing: the five fields inside traits; none of them is ever looked at, whatever the document. *)
Theorem c51_traits_partial E doc p r s : well_typed E T_AsyncAPI3 doc ->
  In p tag_locations -> selects doc p r -> is_reference r s -> ~ reference_ok doc tag_prefix "tags" s -> snd (tags_validator doc) <> None.
Proof.
  intros Hwt Hp Hr Hs Hbad Hok. apply Hbad. apply (proj1 (c35_accepts_iff E doc Hwt) Hok). exists p, r. auto.
Qed.
Theorem c51_none_checked : (forall p, In p documented_tags_per_field -> ~ In p tag_locations) /\
  exists E v doc s, parse E T_AsyncAPI3 v = Some doc /\ tags_validator doc = ([], None) /\ ~ reference_ok doc tag_prefix "tags" s
    /\ forall p, In p documented_tags_per_field -> exists r, selects doc p r /\ is_reference r s.
Proof.
  split.
  - intros p Hp Hi. unfold documented_tags_per_field in Hp.
    repeat (destruct Hp as [<-|Hp]; [unfold tag_locations in Hi; repeat (destruct Hi as [Hi|Hi]; [discriminate Hi|]); exact Hi|]). exact Hp.
  - exists E0, doc_traits, (load_doc doc_traits), (u "#/components/tags/gone").
    split; [exact doc_traits_ok|]. split; [vm_compute; reflexivity|]. split; [|exact traits_at].
    intros [Ho|(_ & key & v & He & Hv)]; [apply outside_iff in Ho; discriminate Ho|].
    apply erased_replace in He; [|discriminate]. subst key. vm_compute in Hv. discriminate Hv.
Qed.
