(** C17, C93: what saving and loading does to every document: it fills in defaults where a null was, and nothing else. *)
From Verif Require Import PyStr Regex Value Types Rules Pydantic ClassTable Classes Canon Fix Linked SpecParse Sample ProofRules ProofParse
  State SpecState ProofState PropState Resolve SpecResolve ProofResolve Dump SpecDump ProofDump PropDump SpecDefaults ProofDefaults
  PropSame ProofEquality PropEquality JsonText SpecJsonText ProofJsonText ProofJsonRead ProofJsonWrite PropJsonText.
From Verif Require ProofGraph.
Local Open Scope string_scope.

Theorem c17_reload_exact E t v o :
  url_idem E -> In t all_types -> python_dicts v -> parse E t v = Some o -> json_data t o ->
  no_shadowing o -> no_ambiguity o -> parse E t (dump o) = Some (with_defaults (without_processors o)).
Proof.
  intros Hu Hi Hp Ho Hj Hs Ha. destruct (any_fill E t o Hu Hi (parsed_json _ _ _ _ Hi Ho Hj)) as [n Hb].
  - split; [eapply parse_pd; [exact (wf_all _ Hi)|exact Hp|exact Ho]|]. auto.
  - apply parse_some. eauto.
Qed.
(** So the condition of C17 on nulls is exact. *)
Lemma blank_fixed fv : refill "AsyncAPI3" (blank_procs fv) = blank_procs fv -> (forall k, null_default "AsyncAPI3" k = VNone) -> Forall (fun kv => mem_str (fst kv) [u "extra_converters"; u "extra_validators"] = true \/ with_defaults (snd kv) = snd kv) fv.
Proof.
  intros H Hn. induction fv as [|[k x] fv IH]; [constructor|]. cbn [blank_procs map] in H. change (map _ fv) with (blank_procs fv) in H. cbn [fst] in H.
  destruct (mem_str k [u "extra_converters"; u "extra_validators"]) eqn:Em.
  - cbn [andb String.eqb Ascii.eqb Bool.eqb refill map] in H. injection H as _ H. constructor; [left; exact Em|exact (IH H)].
  - cbn [andb refill map] in H. injection H as H1 H. constructor; [right; cbn [snd]; destruct x; exact H1 || reflexivity|exact (IH H)].
Qed.
Definition proc_names : list pystr := [u "extra_converters"; u "extra_validators"].
Lemma doc_procs : forallb (fun t => match t with TModel c _ fs => negb (String.eqb c "AsyncAPI3") || forallb (fun ft => negb (mem_str (f_name (fst ft)) proc_names) || match snd ft with TOpt TProcs => true | _ => false end) fs | _ => true end) all_types = true.
Proof. vm_compute. reflexivity. Qed.
Lemma doc_plain : plain_nulls (class_fields "AsyncAPI3") = true.
Proof. vm_compute. reflexivity. Qed.
Lemma wd_procs A E x : canon A E (TOpt TProcs) x -> with_defaults x = x.
Proof.
  cbn [canon]. intros [->|(l & -> & Hl)]; [reflexivity|]. cbn [with_defaults]. f_equal. induction l as [|y l IH]; [reflexivity|]. cbn [forallb] in Hl. apply andb_prop in Hl as [Hy Hl].
  cbn [map]. f_equal; [destruct y; try discriminate Hy; reflexivity|exact (IH Hl)].
Qed.
Lemma wd_without E t o : In t all_types -> canon is_json E t o -> with_defaults (without_processors o) = without_processors o -> with_defaults o = o.
Proof.
  intros Hi Hc H. destruct o as [| | | | | | | |c fv ex| | |]; try exact H.
  destruct (String.eqb_spec c "AsyncAPI3") as [->|Hd]; [|rewrite wp_other in H; [exact H|intros fv' ex' He; injection He as He _ _; contradiction]].
  destruct (obj_in _ _ _ _ _ _ (linked_all _ Hi) (wf_all _ Hi) Hc (w_self _)) as (k & fs & Hl & Hw & Hc'). clear Hi Hc t.
  assert (Hp := proj1 (forallb_forall _ _) doc_procs _ (linked_in_table _ _ _ Hl)). cbn beta iota in Hp. rewrite String.eqb_refl in Hp. cbn [negb orb] in Hp. rewrite forallb_forall in Hp.
  assert (Hn : forall key, null_default "AsyncAPI3" key = VNone) by (intros key; apply plain_default; exact doc_plain).
  cbn [without_processors] in H. change (map _ fv) with (blank_procs fv) in H. rewrite wd_obj in *. f_equal. injection H as H. apply blank_fixed in H; [|exact Hn].
  assert (Hcf := fun fi t => canon_field _ _ _ _ _ _ _ fi t Hc' (names_NoDup _ _ _ Hw)). cbn [canon] in Hc'. destruct Hc' as (fv' & ex' & He & Hf & _). injection He as <- <-.
  assert (Hnm := canon_fields_names _ _ _ _ Hf). assert (Hnd := names_NoDup _ _ _ Hw). rewrite <- Hnm in Hnd.
  unfold refill. rewrite <- (map_id fv) at 2. apply map_ext_in. intros [key x] Hx. f_equal. rewrite Forall_forall in H. destruct (H _ Hx) as [Hm|Hm]; cbn [fst snd] in Hm.
  - assert (Hk : In key (map (fun ft => f_name (fst ft)) fs)) by (rewrite <- Hnm; apply (in_map fst) in Hx; exact Hx). apply in_map_iff in Hk as ([fi t] & <- & Hft). cbn [fst] in *.
    specialize (Hp _ Hft). cbn [fst snd] in Hp. fold proc_names in Hm. rewrite Hm in Hp. cbn [negb orb] in Hp. destruct (Hcf fi t Hft) as [Hcx _]. unfold attr in Hcx. rewrite (In_assoc _ _ _ Hnd Hx) in Hcx.
    destruct t as [| | | | | | | | | |[]| | | |]; try discriminate Hp. assert (Hw' := wd_procs _ _ _ Hcx). destruct x; try exact Hw'. apply Hn.
  - destruct x; try exact Hm. apply Hn.
Qed.
Theorem c17_reload_iff E t v o :
  url_idem E -> In t all_types -> python_dicts v -> parse E t v = Some o -> json_data t o ->
  no_shadowing o -> no_ambiguity o -> (reloads E t o <-> no_null_over_default o).
Proof.
  intros Hu Hi Hp Ho Hj Hs Ha. split; [|intros Hn; exact (c17_reload_partial E t v o Hu Hi Hp Ho Hj Hs Hn Ha)].
  unfold reloads. rewrite (c17_reload_exact E t v o Hu Hi Hp Ho Hj Hs Ha). intros H. injection H as H. assert (Hc := parsed_json _ _ _ _ Hi Ho Hj).
  assert (Hx := wd_without E t o Hi Hc H). intros c fv ex fi t0 d Hw Hf Hd Hne.
  assert (He : plain_extras o).
  { intros c' fv' ex' Hw'. destruct (obj_in _ _ _ _ _ _ (linked_all _ Hi) (wf_all _ Hi) Hc Hw') as (k & fs & _ & _ & Hc'). cbn [canon] in Hc'. destruct Hc' as (? & ? & Heq & _ & Hex & _). injection Heq as <- <-. exact Hex. }
  destruct (obj_in _ _ _ _ _ _ (linked_all _ Hi) (wf_all _ Hi) Hc Hw) as (k & fs & Hl & Hwf & Hc').
  exact (fixed_here _ _ _ _ _ _ _ Hl Hwf Hc' (fixed_within _ _ Hx He Hw) fi t0 d Hf Hd Hne).
Qed.
(** The same for text. *)
Theorem c93_save_load_exact E F n t text o s : url_idem E -> faithful F -> In t all_types -> load_json E F n t text = Some o ->
  no_shadowing o -> no_ambiguity o -> finite F o -> nesting o <= n ->
  write F o = Some s -> load_json E F n t s = Some (with_defaults (without_processors o)).
Proof.
  intros Hu HF Ht Hl Hs Ha Hf Hn Hw. unfold load_json in *. destruct (read F n text) as [v|] eqn:Hr; [|discriminate]. destruct (c91_plain_data _ _ _ _ Hr) as (Hj & Hd & _).
  assert (Hjd := loaded_json_data E t v o Ht Hj Hl).
  rewrite (c91_instance_roundtrip E F n t v o s HF Ht Hd Hl Hjd Hf Hn Hw). exact (c17_reload_exact E t v o Hu Ht Hd Hl Hjd Hs Ha).
Qed.
(** Only three fields of the library are affected. *)
Definition affected : list (string * pystr * pv) :=
  [("AnypointMQChannelBindings", u "destination_type", VStr (u "queue")); ("PulsarRetention", u "time", VInt 0); ("PulsarRetention", u "size", VInt 0)].
Definition affected_b (c : string) (k : pystr) (d : pv) : bool :=
  existsb (fun a => match a with (c', k', d') => String.eqb c c' && str_eqb k k' && match d, d' with VStr s, VStr s' => str_eqb s s' | VInt z, VInt z' => Z.eqb z z' | _, _ => false end end) affected.
Lemma affected_dec c k d : affected_b c k d = true -> In (c, k, d) affected.
Proof.
  unfold affected_b. intros H. apply existsb_exists in H as ([[c' k'] d'] & Hi & H). apply andb_prop in H as [H H3]. apply andb_prop in H as [H1 H2]. apply String.eqb_eq in H1. apply str_eqb_eq in H2. subst c' k'.
  destruct d, d'; try discriminate H3; [apply Z.eqb_eq in H3|apply str_eqb_eq in H3]; subst; exact Hi.
Qed.
Lemma affected_table : forallb (fun t => match t with TModel c _ fs => forallb (fun ft => is_none (null_of (fst ft)) || affected_b c (f_name (fst ft)) (null_of (fst ft))) fs | _ => true end) all_types = true.
Proof. vm_compute. reflexivity. Qed.
Theorem c17_affected c k : null_default c k <> VNone -> In (c, k, null_default c k) affected.
Proof.
  unfold null_default. destruct (find _ (class_fields c)) as [[fi t]|] eqn:Ef; [|intros H; destruct (H eq_refl)]. apply find_some in Ef as [Hi Hk]. cbn [fst] in Hk. apply str_eqb_eq in Hk. subst k.
  change (null_of fi <> VNone -> In (c, f_name fi, null_of fi) affected). intros Hn.
  apply ProofGraph.class_fields_find in Hi as (k & fs & Hc & Hi). assert (Ht := proj1 (forallb_forall _ _) affected_table _ (find_class_In _ _ _ _ Hc)). cbn beta iota in Ht. rewrite forallb_forall in Ht. specialize (Ht _ Hi). cbn [fst] in Ht.
  apply orb_prop in Ht as [Ht|Ht]; [apply is_none_iff in Ht; contradiction|]. apply affected_dec. exact Ht.
Qed.
Lemma null_default_atom c k : null_default c k = VNone \/ match null_default c k with VStr _ | VInt _ => True | _ => False end.
Proof.
  assert (H := c17_affected c k). destruct (null_default c k) as [| | | | | | | | | | |] eqn:Ed; try (left; reflexivity); try (right; exact I); exfalso;
  (assert (Hi : In (c, k, null_default c k) affected) by (rewrite Ed; apply H; discriminate); rewrite Ed in Hi; repeat (destruct Hi as [Hi|Hi]; [discriminate Hi|]); destruct Hi).
Qed.
(** One round settles: what was loaded from a saved document is saved and loaded without change. *)
Lemma refill_twice c fv : Forall (fun kv => with_defaults (with_defaults (snd kv)) = with_defaults (snd kv)) fv -> refill c (refill c fv) = refill c fv.
Proof.
  unfold refill. rewrite map_map. intros H. apply map_ext_in. intros [k x] Hx. f_equal. rewrite Forall_forall in H. specialize (H _ Hx). cbn [snd] in H.
  assert (Hd := null_default_atom c k). destruct x; try exact H. destruct Hd as [Hd|Hd]; [rewrite Hd; reflexivity|]. destruct (null_default c k); try contradiction; reflexivity.
Qed.
Lemma wd_twice v : with_defaults (with_defaults v) = with_defaults v.
Proof.
  induction v using pv_ind'; try reflexivity.
  - cbn [with_defaults]. rewrite map_map. f_equal. apply map_ext_in. rewrite Forall_forall in H. exact H.
  - rewrite !wd_dict. f_equal. unfold wd_entries. rewrite map_map. apply map_ext_in. intros [k x] Hx. f_equal. rewrite Forall_forall in H. exact (H _ Hx).
  - rewrite !wd_obj. f_equal. apply refill_twice. assumption.
  - rewrite !wd_root. f_equal. unfold wd_entries. rewrite map_map. apply map_ext_in. intros [k x] Hx. f_equal. rewrite Forall_forall in H. exact (H _ Hx).
Qed.
Lemma wp_settled v : without_processors (with_defaults (without_processors v)) = with_defaults (without_processors v).
Proof.
  destruct v as [| | | | | | | |c fv ex| | |]; try reflexivity. destruct (String.eqb_spec c "AsyncAPI3") as [->|Hd].
  - cbn [without_processors]. change (map _ fv) with (blank_procs fv). rewrite wd_obj. cbn [without_processors]. f_equal. change (map _ (refill "AsyncAPI3" (blank_procs fv))) with (blank_procs (refill "AsyncAPI3" (blank_procs fv))).
    assert (Hn : forall key, null_default "AsyncAPI3" key = VNone) by (intros key; apply plain_default; exact doc_plain). revert Hn. unfold refill. generalize (null_default "AsyncAPI3"). intros nd Hn.
    induction fv as [|[k x] fv IH]; [reflexivity|]. cbn [blank_procs map fst]. destruct (mem_str k [u "extra_converters"; u "extra_validators"]) eqn:Em; cbn [andb String.eqb Ascii.eqb Bool.eqb fst]; rewrite ?Em; cbn [andb].
    + f_equal; [rewrite Hn; reflexivity|exact IH].
    + f_equal. exact IH.
  - rewrite wp_other; [|rewrite wp_other; [rewrite wd_obj|]; intros fv' ex' He; injection He as He _ _; contradiction]. reflexivity.
Qed.
Definition atom (y : pv) : Prop := match y with VStr _ | VInt _ => True | _ => False end.
Lemma within_of_atom y z : within y z -> atom z -> y = z.
Proof. intros H. destruct H; try contradiction. reflexivity. Qed.
Lemma wd_within v : plain_extras v -> forall y, within y (with_defaults v) -> (exists x, within x v /\ y = with_defaults x) \/ atom y.
Proof.
  induction v using pv_ind'; intros He y Hy; try (left; eexists; split; [constructor|]; inversion Hy; subst; reflexivity).
  - cbn [with_defaults] in Hy. inversion Hy as [|? z Hin Hz| | | |]; subst; [left; exists (VList l); split; [constructor|reflexivity]|]. apply in_map_iff in Hin as (x & <- & Hx). rewrite Forall_forall in H.
    destruct (H x Hx ltac:(intros c fv ex Hw; apply (He c fv ex); eapply w_list; eauto) y Hz) as [(x' & H1 & ->)|Ha]; [left; exists x'; split; [eapply w_list; eauto|reflexivity]|right; exact Ha].
  - rewrite wd_dict in Hy. inversion Hy as [| |? k z Hin Hz| | |]; subst; [left; exists (VDict d); split; [constructor|reflexivity]|]. apply in_map_iff in Hin as ([k' x] & [= -> <-] & Hx). rewrite Forall_forall in H.
    destruct (H _ Hx ltac:(intros c fv ex Hw; apply (He c fv ex); eapply w_dict; eauto) y Hz) as [(x' & H1 & ->)|Ha]; [left; exists x'; split; [eapply w_dict; eauto|reflexivity]|right; exact Ha].
  - rewrite wd_obj in Hy. inversion Hy as [| | |? ? ? k z Hin Hz|? ? ? k z Hin Hz|]; subst; [left; eexists; split; [constructor|reflexivity]| |].
    + unfold refill in Hin. apply in_map_iff in Hin as ([k' x] & Heq & Hx). apply pair_equal_spec in Heq as [-> <-].
      assert (Hxx : (x <> VNone /\ within y (with_defaults x)) \/ (x = VNone /\ within y (null_default c k))) by (destruct x; (right; split; [reflexivity|exact Hz]) || (left; split; [discriminate|exact Hz])).
      destruct Hxx as [[_ Hxx]|[-> Hxx]].
      * rewrite Forall_forall in H. destruct (H _ Hx ltac:(intros c' fv' ex' Hw; apply (He c' fv' ex'); eapply w_field; eauto) y Hxx) as [(x' & H1 & ->)|Ha]; [left; exists x'; split; [eapply w_field; eauto|reflexivity]|right; exact Ha].
      * destruct (null_default_atom c k) as [Hn|Hn]; [left; exists VNone; split; [eapply w_field; [exact Hx|constructor]|]; rewrite Hn in Hxx; inversion Hxx; reflexivity|].
        right. rewrite (within_of_atom _ _ Hxx Hn). exact Hn.
    + left. exists y. split; [eapply w_extra; eauto|]. symmetry. apply wd_json. assert (Hj := He _ _ _ (w_self _)). rewrite Forall_forall in Hj. specialize (Hj _ Hin). intros a Ha. apply Hj. eapply within_trans; eauto.
  - rewrite wd_root in Hy. inversion Hy as [| | | | |? ? k z Hin Hz]; subst; [left; eexists; split; [constructor|reflexivity]|]. apply in_map_iff in Hin as ([k' x] & [= -> <-] & Hx). rewrite Forall_forall in H.
    destruct (H _ Hx ltac:(intros c' fv ex Hw; apply (He c' fv ex); eapply w_root; eauto) y Hz) as [(x' & H1 & ->)|Ha]; [left; exists x'; split; [eapply w_root; eauto|reflexivity]|right; exact Ha].
Qed.
Lemma wd_shape x c fv ex : VObj c fv ex = with_defaults x -> exists fv', x = VObj c fv' ex /\ fv = refill c fv'.
Proof. destruct x; try discriminate. rewrite wd_obj. intros [= -> -> ->]. eauto. Qed.
Lemma wd_shadowing v : plain_extras v -> no_shadowing v -> no_shadowing (with_defaults v).
Proof. intros He H c fv ex k Hw. destruct (wd_within v He _ Hw) as [(x & Hx & Heq)|[]]. apply wd_shape in Heq as (fv' & -> & _). exact (H c fv' ex k Hx). Qed.
Lemma wd_ambiguity v : plain_extras v -> no_ambiguity v -> no_ambiguity (with_defaults v).
Proof.
  intros He H y Hw Hy. destruct (wd_within v He _ Hw) as [(x & Hx & ->)|Ha]; [|destruct y; try contradiction]. apply (H x Hx). destruct x; try exact Hy. rewrite wd_obj in Hy. cbn [ambiguous] in *.
  destruct Hy as [[Hc [Hy|(k & s & Hk & Hs & Hy)]]|Hy]; [left; split; [exact Hc|left; exact Hy]| |right; exact Hy]. left. split; [exact Hc|]. right. exists k, s. split; [exact Hk|]. split; [exact Hs|].
  rewrite Forall_forall in *. intros [a b] Hab. cbn [snd]. assert (Hin := Hy (a, match b with VNone => null_default c a | _ => with_defaults b end)). cbn [snd] in Hin. destruct b; try reflexivity; (exfalso; discriminate Hin || idtac);
  (assert (Hd := Hin ltac:(unfold refill; apply in_map_iff; eexists; split; [|exact Hab]; reflexivity)); discriminate Hd).
Qed.
Lemma wp_extras v : plain_extras v -> plain_extras (without_processors v).
Proof.
  intros He c fv ex Hw. destruct v as [| | | | | | | |c0 fv0 ex0| | |]; try exact (He c fv ex Hw). cbn [without_processors] in Hw. inversion Hw as [| | |? ? ? k z Hin Hz|? ? ? k z Hin Hz|]; subst.
  - exact (He _ _ _ (w_self _)).
  - apply in_map_iff in Hin as ([k' x] & Heq & Hx). cbn [fst] in Heq. destruct (_ && _); injection Heq as -> <-; [inversion Hz|]. apply (He c fv ex). eapply w_field; eauto.
  - apply (He c fv ex). eapply w_extra; eauto.
Qed.
Lemma wp_within v y : within y (without_processors v) -> y = without_processors v \/ within y v \/ y = VNone.
Proof.
  destruct v as [| | | | | | | |c0 fv0 ex0| | |]; try (intros H; right; left; exact H). cbn [without_processors]. intros Hw. inversion Hw as [| | |? ? ? k z Hin Hz|? ? ? k z Hin Hz|]; subst; [left; reflexivity|right..].
  - apply in_map_iff in Hin as ([k' x] & Heq & Hx). cbn [fst] in Heq. destruct (_ && _); injection Heq as -> <-; [right; inversion Hz; reflexivity|]. left. eapply w_field; eauto.
  - left. eapply w_extra; eauto.
Qed.
Lemma wp_shadowing v : no_shadowing v -> no_shadowing (without_processors v).
Proof.
  intros H c fv ex k Hw. apply wp_within in Hw as [Hw|[Hw|Hw]]; [|exact (H c fv ex k Hw)|discriminate Hw]. destruct v as [| | | | | | | |c0 fv0 ex0| | |]; try discriminate Hw. cbn [without_processors] in Hw. injection Hw as -> _ ->. exact (H _ _ _ k (w_self _)).
Qed.
Lemma wp_ambiguity v : no_ambiguity v -> no_ambiguity (without_processors v).
Proof.
  intros H y Hw Hy. apply wp_within in Hw as [->|[Hw| ->]]; [|exact (H y Hw Hy)|exact Hy].
  destruct v as [| | | | | | | |c0 fv0 ex0| | |]; try exact (H _ (w_self _) Hy). cbn [without_processors] in Hy. apply (H _ (w_self _)). destruct (String.eqb_spec c0 "AsyncAPI3") as [->|Hd].
  - destruct Hy as [[Hc _]|[Hc _]]; discriminate Hc.
  - assert (Hm : map (fun kv : pystr * pv => if mem_str (fst kv) [u "extra_converters"; u "extra_validators"] && false then (fst kv, VNone) else kv) fv0 = fv0).
    { rewrite <- (map_id fv0) at 2. apply map_ext. intros [k x]. rewrite andb_false_r. reflexivity. }
    rewrite Hm in Hy. exact Hy.
Qed.
Theorem c17_settles E t v o o' :
  url_idem E -> In t all_types -> python_dicts v -> parse E t v = Some o -> json_data t o ->
  no_shadowing o -> no_ambiguity o -> parse E t (dump o) = Some o' -> parse E t (dump o') = Some o' /\ no_null_over_default o'.
Proof.
  intros Hu Hi Hp Ho Hj Hs Ha H. assert (Hc := parsed_json _ _ _ _ Hi Ho Hj).
  assert (He : plain_extras o).
  { intros c' fv' ex' Hw'. destruct (obj_in _ _ _ _ _ _ (linked_all _ Hi) (wf_all _ Hi) Hc Hw') as (k & fs & _ & _ & Hc'). cbn [canon] in Hc'. destruct Hc' as (? & ? & Heq & _ & Hex & _). injection Heq as <- <-. exact Hex. }
  assert (Hpd : python_dicts (dump o)).
  { apply dump_pd; [eapply parse_pd; [exact (wf_all _ Hi)|exact Hp|exact Ho]|exact (canon_once E t o (linked_all _ Hi) (wf_all _ Hi) Hc)]. }
  assert (Hj' : json_data t o') by (exact (loaded_json_data E t (dump o) o' Hi (any_json E t o Hi Hc) H)).
  assert (Hr := c17_reload_exact E t v o Hu Hi Hp Ho Hj Hs Ha). rewrite H in Hr. injection Hr as Hr. assert (He' := wp_extras _ He).
  assert (Hs' : no_shadowing o') by (rewrite Hr; apply (wd_shadowing _ He'), wp_shadowing, Hs). assert (Ha' : no_ambiguity o') by (rewrite Hr; apply (wd_ambiguity _ He'), wp_ambiguity, Ha).
  assert (Hx : parse E t (dump o') = Some o').
  { rewrite (c17_reload_exact E t (dump o) o' Hu Hi Hpd H Hj' Hs' Ha'). rewrite Hr, wp_settled, wd_twice. reflexivity. }
  split; [exact Hx|]. apply (proj1 (c17_reload_iff E t (dump o) o' Hu Hi Hpd H Hj' Hs' Ha')). unfold reloads. rewrite Hx. rewrite Hr, wp_settled. reflexivity.
Qed.
(** The document of the refutation of C17, with a null the file does not keep. *)
Example c17_exact_ex : exists o, is_json null_input /\ python_dicts null_input /\ parse E0 T_AnypointMQChannelBindings null_input = Some o /\ no_shadowing o /\ no_ambiguity o /\ ~ no_null_over_default o
  /\ parse E0 T_AnypointMQChannelBindings (dump o) = Some (VObj "AnypointMQChannelBindings" [(u "destination", str "q"); (u "destination_type", str "queue"); (u "binding_version", str "0.1.0")] []).
Proof.
  eexists. split; [apply json_dec; reflexivity|]. split; [apply python_dicts_dec; reflexivity|]. split; [vm_compute; reflexivity|]. split; [apply no_shadowing_dec; vm_compute; reflexivity|]. split; [apply ambiguity_dec; vm_compute; reflexivity|]. split.
  - intros H. assert (Hf : exists fi t, nth_error (class_fields "AnypointMQChannelBindings") 1 = Some (fi, t) /\ f_def fi = Some (str "queue") /\ f_name fi = u "destination_type").
    { eexists _, _. split; [vm_compute; reflexivity|]. split; vm_compute; reflexivity. }
    destruct Hf as (fi & t & Hf & Hd & Hn). apply nth_error_In in Hf. apply (H _ _ _ fi t (str "queue") (w_self _) Hf Hd); [discriminate|]. rewrite Hn. vm_compute. reflexivity.
  - vm_compute. reflexivity.
Qed.
Print Assumptions c17_reload_exact. Print Assumptions c17_reload_iff. Print Assumptions c17_settles. Print Assumptions c17_affected. Print Assumptions c93_save_load_exact.
