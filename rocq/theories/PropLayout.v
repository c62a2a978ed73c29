(** C85: the order in which a document is written. *)
From Verif Require Import PyStr Regex Value Types Rules Pydantic ClassTable Classes Canon Fix Linked SpecParse ProofRules ProofParse
  State SpecState ProofState PropState Resolve SpecResolve ProofResolve Dump SpecDump ProofDump PropDump Sample Unified SpecUnified ProofUnified ProofCheck ProofOrder PropUnified PropSame.
From Coq Require Import Permutation.
Local Open Scope string_scope.

(** [short] is [long] with some elements left out. *)
Inductive part_of {A} : list A -> list A -> Prop :=
| po_nil : part_of [] []
| po_take x short long : part_of short long -> part_of (x :: short) (x :: long)
| po_skip x short long : part_of short long -> part_of short (x :: long).
(** [a] stands somewhere before [b]. *)
Definition precedes {A} (a b : A) (l : list A) : Prop := exists l1 l2 l3, (l = l1 ++ a :: l2 ++ b :: l3)%list.

Lemma part_of_in {A} (s l : list A) : part_of s l -> forall x, In x s -> In x l.
Proof. induction 1; intros y Hy; [exact Hy| |right; auto]. destruct Hy as [->|Hy]; [left; reflexivity|right; auto]. Qed.
Lemma part_of_map {A B} (f : A -> B) s l : part_of s l -> part_of (map f s) (map f l).
Proof. induction 1; cbn [map]; constructor; assumption. Qed.
Lemma part_of_app {A} (x y l : list A) : part_of (x ++ y)%list l -> part_of y l.
Proof. revert l. induction x as [|a x IH]; intros l H; [exact H|]. cbn [app] in H. remember (a :: x ++ y)%list as s eqn:Es. induction H as [|b s l H IH'|b s l H IH']; [discriminate Es|injection Es as -> ->; apply po_skip, IH; exact H|apply po_skip, IH'; exact Es]. Qed.
Lemma part_of_head {A} (a : A) s l : part_of (a :: s) l -> exists p q, (l = p ++ a :: q)%list /\ part_of s q.
Proof.
  remember (a :: s) as s0 eqn:Es. intros H. induction H as [|b s0 l H IH|b s0 l H IH]; [discriminate Es| |].
  - injection Es as -> ->. exists [], l. auto.
  - destruct (IH Es) as (p & q & -> & Hq). exists (b :: p), q. auto.
Qed.
Lemma precedes_part {A} (a b : A) s l : part_of s l -> precedes a b s -> precedes a b l.
Proof.
  intros H (l1 & l2 & l3 & ->). apply part_of_app in H. apply part_of_head in H as (p & q & -> & H). apply part_of_app in H. apply part_of_head in H as (p' & q' & -> & _).
  exists p, p', q'. reflexivity.
Qed.
Lemma precedes_once {A} (a b : A) l : NoDup l -> precedes a b l -> precedes b a l -> False.
Proof.
  intros Hn (l1 & l2 & l3 & He). revert l1 He. induction l as [|x l IH]; intros l1 He (m1 & m2 & m3 & Hf); [destruct l1; discriminate He|].
  inversion Hn as [|? ? Hx Hn']; subst. destruct l1 as [|x1 l1], m1 as [|y1 m1]; cbn [app] in He, Hf; injection He as -> He; injection Hf as Hy Hf.
  - subst b. apply Hx. rewrite He. apply in_or_app. right. left. reflexivity.
  - subst y1. apply Hx. rewrite Hf. apply in_or_app. right. right. apply in_or_app. right. left. reflexivity.
  - subst x1. apply Hx. rewrite He. apply in_or_app. right. right. apply in_or_app. right. left. reflexivity.
  - apply (IH Hn' l1 He). exists m1, m2, m3. exact Hf.
Qed.
Lemma zdump_part fs : forall fv, exists shown, map fst (zdump fs fv) = map f_alias shown /\ part_of shown (map fst fs).
Proof.
  induction fs as [|[fi t] fs IH]; intros [|[k x] fv].
  - exists []. split; [reflexivity|constructor].
  - exists []. split; [reflexivity|constructor].
  - exists []. split; [reflexivity|]. cbn [map fst]. apply po_skip. clear IH. induction fs as [|ft fs IH]; [constructor|apply po_skip; exact IH].
  - destruct (IH fv) as (shown & H1 & H2). cbn [zdump map fst]. destruct (written fi x).
    + exists (fi :: shown). split; [cbn [map fst]; f_equal; exact H1|apply po_take; exact H2].
    + exists shown. split; [exact H1|apply po_skip; exact H2].
Qed.
(** No object carries an extra entry under the alias of one of its declared fields. *)
Definition own_aliases (v : pv) : Prop :=
  forall c fv ex key, within (VObj c fv ex) v -> In key (map fst ex) -> ~ In key (map (fun ft => f_alias (fst ft)) (class_fields c)).
Lemma oa_list l : Forall own_aliases l -> own_aliases (VList l).
Proof. rewrite Forall_forall. intros H c fv ex key Hw. inversion Hw; subst. eapply H; eauto. Qed.
Lemma oa_dict d : Forall (fun kv => own_aliases (snd kv)) d -> own_aliases (VDict d).
Proof. rewrite Forall_forall. intros H c fv ex key Hw. inversion Hw; subst. eapply (H (k, y)); eauto. Qed.
Lemma oa_root c d : Forall (fun kv => own_aliases (snd kv)) d -> own_aliases (VRoot c d).
Proof. rewrite Forall_forall. intros H c' fv ex key Hw. inversion Hw; subst. eapply (H (k, y)); eauto. Qed.
Lemma oa_obj c fv ex : (forall key, In key (map fst ex) -> ~ In key (map (fun ft => f_alias (fst ft)) (class_fields c))) ->
  Forall (fun kv => own_aliases (snd kv)) fv -> Forall (fun kv => own_aliases (snd kv)) ex -> own_aliases (VObj c fv ex).
Proof.
  rewrite !Forall_forall. intros H Hf He c' fv' ex' key Hw. inversion Hw as [E0 | | |c1 fv1 ex1 k1 y1 Hi1 Hy1 E1|c1 fv1 ex1 k1 y1 Hi1 Hy1 E1| ]; subst; [apply H|eapply (Hf (k1, y1)); eauto|eapply (He (k1, y1)); eauto].
Qed.
Lemma oa_closed : closed own_aliases.
Proof.
  constructor.
  - intros l H. apply Forall_forall. intros y Hy c fv ex key Hx. apply (H c fv ex key). econstructor; eauto.
  - intros d H. apply Forall_forall. intros [k y] Hy c fv ex key Hx. apply (H c fv ex key). eapply w_dict; eauto.
  - intros c0 fv0 ex0 H. split; apply Forall_forall; intros [k y] Hy c fv ex key Hx; apply (H c fv ex key); [eapply w_field|eapply w_extra]; eauto.
  - intros c0 d H. apply Forall_forall. intros [k y] Hy c fv ex key Hx. apply (H c fv ex key). eapply w_root; eauto.
Qed.
Lemma oa_json v : is_json v -> own_aliases v.
Proof. intros H c fv ex key Hx. destruct (H _ Hx). Qed.
Lemma extras_not_alias (fs : list (finfo * ty)) kvs key : In key (map fst (extras fs kvs)) -> ~ In key (map (fun ft => f_alias (fst ft)) fs).
Proof.
  intros Hk Ha. apply in_map_iff in Hk as ([k x] & <- & Hk). apply in_map_iff in Ha as ([fi t] & Ha & Hf). apply extras_unclaimed in Hk as [_ [_ Hc]]. cbn [fst] in *.
  exact (proj1 (Hc fi t Hf) (eq_sym Ha)).
Qed.
Lemma validate_oa E t : linked t = true -> wf_ty t = true -> forall v r n, own_aliases v -> validate E t v = Some (r, n) -> own_aliases r.
Proof.
  assert (Hat : forall v, match v with VList _ | VDict _ | VObj _ _ _ | VRoot _ _ => False | _ => True end -> own_aliases v).
  { intros v Hv c fv ex key Hx. destruct v; try contradiction; inversion Hx. }
  assert (Hdict : forall t, (forall v r n, own_aliases v -> validate E t v = Some (r, n) -> own_aliases r) ->
     forall d r n, Forall (fun kv => own_aliases (snd kv)) d -> vdict (validate E) t d = Some (r, n) -> Forall (fun kv => own_aliases (snd kv)) r).
  { intros t0 IH. induction d as [|[k x] d IHd]; intros r n HF H; [injection H as <- _; constructor|]. rewrite vdict_cons in H.
    inversion HF as [|? ? Hx HF']; subst. destruct (validate E t0 x) as [[x' p]|] eqn:Ex; [|discriminate].
    destruct (vdict (validate E) t0 d) as [[r' m]|] eqn:Ed; [|discriminate]. injection H as <- _. constructor; [eapply IH; eauto|eapply IHd; eauto]. }
  induction t using ty_ind'; intros Hl Hwf v r n Hv H1; cbn [validate] in *.
  - inversion H1; subst; exact Hv.
  - destruct v; try discriminate. destruct (len_ok m s); inversion H1; subst; apply Hat; exact I.
  - destruct v; try discriminate. destruct (email_ok s); inversion H1; subst; apply Hat; exact I.
  - destruct v; try discriminate; try (destruct (e_int E _)); inversion H1; subst; apply Hat; exact I.
  - destruct v; try discriminate; try (destruct (e_bool E _)); inversion H1; subst; apply Hat; exact I.
  - destruct v; try discriminate; (destruct (e_url E b s) eqn:Eu; inversion H1; subst; apply Hat; exact I).
  - destruct v; try discriminate. destruct (mem_str s l); inversion H1; subst; apply Hat; exact I.
  - destruct v; try discriminate. destruct (mem_Z z l); inversion H1; subst; apply Hat; exact I.
  - destruct v; try discriminate. apply (cl_list _ oa_closed) in Hv.
    destruct (vlist (validate E) t l) as [[l' m]|] eqn:El; inversion H1; subst. apply oa_list.
    clear H1. revert l' n El. induction l as [|x l IHl]; intros l' n El; [injection El as <- _; constructor|]. rewrite vlist_cons in El.
    inversion Hv as [|? ? Hx Hv']; subst. destruct (validate E t x) as [[x' p]|] eqn:Ex; [|discriminate].
    destruct (vlist (validate E) t l) as [[l2 q]|] eqn:El2; [|discriminate]. injection El as <- _. constructor; [eapply IHt; eauto|eapply IHl; eauto].
  - destruct v; try discriminate. destruct (vdict (validate E) t d) as [[d' m]|] eqn:El; inversion H1; subst. apply oa_dict.
    apply (cl_dict _ oa_closed) in Hv. eapply Hdict; eauto.
  - destruct v; try (eapply IHt; eauto; fail). inversion H1; subst; apply Hat; exact I.
  - rewrite Forall_forall in H. apply best_of_spec in H1 as (pre & post & Heq & _ & _).
    assert (Hin : In (Some (r, n)) (map (fun t' => validate E t' v) ts)) by (rewrite Heq; apply in_or_app; right; left; reflexivity).
    apply in_map_iff in Hin as (t' & Ht' & Hin). eapply (H t' Hin); [exact (linked_union _ _ Hl Hin)|exact (wf_union _ _ Hwf Hin)|exact Hv|exact Ht'].
  - destruct v; try discriminate. destruct (forallb is_proc l); inversion H1; subst. exact Hv.
  - assert (Hg : forall kvs, Forall (fun kv => own_aliases (snd kv)) kvs ->
       vmodel E (validate E) c k fs kvs = Some (r, n) -> own_aliases r).
    { intros kvs HF Hvm. apply vmodel_obj in Hvm as (fv & Hfv & -> & Ha). apply oa_obj.
      - intros key Hk. rewrite (proj1 (linked_fields c k fs Hl)). eapply extras_not_alias. exact Hk.
      - assert (Hdef : forall ft, In ft fs -> default_ok (fst ft) (snd ft) = true).
        { cbn [wf_ty] in Hwf. apply andb_prop in Hwf as [Hm _]. unfold model_ok in Hm. repeat (apply andb_prop in Hm as [Hm ?Hm]). intros ft Hft. exact (proj1 (forallb_forall _ _) Hm2 _ Hft). }
        assert (HIH : forall ft, In ft fs -> forall v r n, own_aliases v -> validate E (snd ft) v = Some (r, n) -> own_aliases r).
        { intros ft Hft. rewrite Forall_forall in H. apply (H ft Hft); [exact (linked_sub _ _ _ _ Hl Hft)|exact (wf_sub _ _ _ _ Hwf Hft)]. }
        clear H H1 Hl Hwf Ha. revert fv n Hfv Hdef HIH. induction fs as [|[fi t] fs IHfs]; intros fv n Hfv Hdef HIH; [injection Hfv as <- _; constructor|]. cbn [vfields] in Hfv.
        fold (vfields E (validate E) kvs fs) in Hfv. destruct (lookup_field fi kvs) as [x|] eqn:Elk.
        + destruct (validate E t x) as [[x' p]|] eqn:Ex; [|discriminate]. destruct (fv_check E (f_val fi) x'); [|discriminate].
          destruct (vfields E (validate E) kvs fs) as [[r' m]|] eqn:Er; [|discriminate]. injection Hfv as <- _.
          constructor; [|eapply IHfs; [reflexivity|intros ft Hft; apply Hdef; right; exact Hft|intros ft Hft; apply HIH; right; exact Hft]].
          apply (HIH (fi, t) (or_introl eq_refl) x x' p); [|exact Ex]. unfold lookup_field in Elk.
          destruct (assoc (f_alias fi) kvs) eqn:Ea; [injection Elk as <-|]; eapply (assoc_Forall own_aliases); eauto.
        + destruct (f_def fi) as [d|] eqn:Ed; [|discriminate].
          destruct (vfields E (validate E) kvs fs) as [[r' m]|] eqn:Er; [|discriminate]. injection Hfv as <- _.
          constructor; [|eapply IHfs; [reflexivity|intros ft Hft; apply Hdef; right; exact Hft|intros ft Hft; apply HIH; right; exact Hft]].
          assert (Hd := Hdef (fi, t) (or_introl eq_refl)). cbn [fst snd] in *. unfold default_ok in Hd. rewrite Ed in Hd. apply Hat. destruct d; try discriminate; exact I.
      - apply filter_Forall. exact HF. }
    destruct v; try discriminate.
    + eapply Hg; [apply (cl_dict _ oa_closed); exact Hv|exact H1].
    + destruct (String.eqb c c0); [|discriminate]. apply (cl_obj _ oa_closed) in Hv as [Hv1 Hv2].
      eapply Hg; [|exact H1]. apply dict_update_Forall; assumption.
  - assert (Hg : forall d, Forall (fun kv => own_aliases (snd kv)) d ->
              match vdict (validate E) t d with
              | Some (d', n) => if root_keys_ok d' then Some (VRoot c d', n) else None
              | None => None end = Some (r, n) -> own_aliases r).
    { intros d HF Hd. destruct (vdict (validate E) t d) as [[d' m]|] eqn:El; [|discriminate].
      destruct (root_keys_ok d'); [|discriminate]. injection Hd as <- _. apply oa_root. eapply Hdict; [|exact HF|exact El]. intros v0 r0 n0. apply IHt; [exact (linked_root_sub _ _ Hl)|exact Hwf]. }
    destruct v; try discriminate.
    + eapply Hg; [apply (cl_dict _ oa_closed); exact Hv|exact H1].
    + destruct (String.eqb c c0); [|discriminate]. eapply Hg; [eapply (cl_root _ oa_closed); exact Hv|exact H1].
Qed.
Lemma layout E c k fs fv ex d : linked (TModel c k fs) = true -> wf_ty (TModel c k fs) = true -> canon is_json E (TModel c k fs) (VObj c fv ex) ->
  NoDup (map fst ex) -> (forall key, In key (map fst ex) -> ~ In key (map (fun ft => f_alias (fst ft)) fs)) -> dump (VObj c fv ex) = VDict d ->
  exists shown, (map fst d = map f_alias shown ++ map fst ex)%list /\ part_of shown (map fst fs).
Proof.
  intros Hl Hw Hc Hnd Hs Hd. cbn [canon] in Hc. destruct Hc as (fv' & ex' & He & Hf & Hj & Ha). injection He as <- <-.
  rewrite (dump_zip c k fs fv ex Hl Hw (canon_fields_names _ _ _ _ Hf)) in Hd. injection Hd as <-. rewrite (dump_entries_json ex Hj).
  destruct (zdump_part fs fv) as (shown & H1 & H2). exists shown. split; [|exact H2]. rewrite dict_update_app; [rewrite map_app, H1; reflexivity|exact Hnd|].
  intros key Hk Hz. apply (Hs key Hk). rewrite H1 in Hz. apply in_map_iff in Hz as (fi & <- & Hz). apply (part_of_in _ _ H2) in Hz. apply in_map_iff in Hz as (ft & <- & Hz). apply in_map_iff. exists ft. auto.
Qed.

(** ** C85 *)
(** Every object of a document loaded from JSON is written with its declared fields first, in the order of the class, under their aliases; then its
    extra entries, in the order in which they were given. *)
Theorem c85_layout E t v o c fv ex d : In t all_types -> is_json v -> python_dicts v -> parse E t v = Some o ->
  within (VObj c fv ex) o -> dump (VObj c fv ex) = VDict d ->
  exists shown, (map fst d = map f_alias shown ++ map fst ex)%list /\ part_of shown (map fst (class_fields c)).
Proof.
  intros Hi Hj Hp Ho Hx Hd. destruct (obj_in E t o c fv ex (linked_all _ Hi) (wf_all _ Hi) (loaded_json _ _ _ _ Hi Ho Hj) Hx) as (k & fs & Hl & Hw & Hc).
  assert (Hpo := parse_pd E t v o (wf_all _ Hi) Hp Ho). apply parse_some in Ho as [n Ho]. assert (Hoa := validate_oa E t (linked_all _ Hi) (wf_all _ Hi) v o n (oa_json _ Hj) Ho c fv ex).
  rewrite (proj1 (linked_fields c k fs Hl)) in *. eapply layout; eauto. exact (proj2 (Hpo _ Hx)).
Qed.
(** Seen from the input: the extra entries are the entries of the input no field claims, in the order of the input, wherever the others stood. *)
Theorem c85_input E c k fs kvs o d : In (TModel c k fs) all_types -> python_dicts (VDict kvs) -> is_json (VDict kvs) ->
  parse E (TModel c k fs) (VDict kvs) = Some o -> dump o = VDict d ->
  exists shown rest, (map fst d = map f_alias shown ++ map fst rest)%list /\ part_of shown (map fst fs)
    /\ part_of rest kvs /\ forall key, In key (map fst rest) <-> unclaimed fs kvs key.
Proof.
  intros Hi Hp Hj Ho Hd. assert (Hl := linked_all _ Hi). assert (Hw := wf_all _ Hi). assert (Hc := loaded_json _ _ _ _ Hi Ho Hj). assert (Hpd := parse_pd _ _ _ _ Hw Hp Ho _ (w_self _)).
  apply parse_some in Ho as [n Ho]. cbn [validate] in Ho. apply vmodel_obj in Ho as (fv & _ & -> & _).
  destruct (layout E c k fs fv (extras fs kvs) d Hl Hw Hc (proj2 Hpd)) as (shown & H1 & H2); [intros key; apply extras_not_alias|exact Hd|].
  exists shown, (extras fs kvs). split; [exact H1|]. split; [exact H2|]. split.
  - unfold extras. generalize (fun kv : pystr * pv => negb (mem_str (fst kv) (map (fun ft => used_key kvs (fst ft)) fs))) as p. clear. intros p. induction kvs as [|kv l IH]; [constructor|]. cbn [filter]. destruct (p kv); [apply po_take|apply po_skip]; exact IH.
  - intros key. split.
    + intros Hk. apply in_map_iff in Hk as ([k0 x] & <- & Hk). apply extras_unclaimed in Hk as [_ Hk]. exact Hk.
    + intros Hk. apply unclaimed_extras in Hk as [x Hk]. apply in_map_iff. exists (key, x). auto.
Qed.
(** Two declared keys come in the same order in every object of the class, however these were built. *)
Theorem c85_same_order E t1 v1 o1 t2 v2 o2 c fv1 ex1 d1 fv2 ex2 d2 a b :
  In t1 all_types -> is_json v1 -> python_dicts v1 -> parse E t1 v1 = Some o1 -> within (VObj c fv1 ex1) o1 -> dump (VObj c fv1 ex1) = VDict d1 ->
  In t2 all_types -> is_json v2 -> python_dicts v2 -> parse E t2 v2 = Some o2 -> within (VObj c fv2 ex2) o2 -> dump (VObj c fv2 ex2) = VDict d2 ->
  In a (map (fun ft => f_alias (fst ft)) (class_fields c)) -> In b (map (fun ft => f_alias (fst ft)) (class_fields c)) ->
  precedes a b (map fst d1) -> ~ precedes b a (map fst d2).
Proof.
  intros Hi1 Hj1 Hp1 Ho1 Hx1 Hd1 Hi2 Hj2 Hp2 Ho2 Hx2 Hd2 Ha Hb.
  destruct (c85_layout E t1 v1 o1 c fv1 ex1 d1 Hi1 Hj1 Hp1 Ho1 Hx1 Hd1) as (sh1 & He1 & P1). destruct (c85_layout E t2 v2 o2 c fv2 ex2 d2 Hi2 Hj2 Hp2 Ho2 Hx2 Hd2) as (sh2 & He2 & P2).
  destruct (obj_in E t1 o1 c fv1 ex1 (linked_all _ Hi1) (wf_all _ Hi1) (loaded_json _ _ _ _ Hi1 Ho1 Hj1) Hx1) as (k & fs & Hl & Hw & _).
  apply parse_some in Ho1 as [n1 Ho1]. assert (X1 := fun key => validate_oa E t1 (linked_all _ Hi1) (wf_all _ Hi1) v1 o1 n1 (oa_json _ Hj1) Ho1 c fv1 ex1 key Hx1).
  apply parse_some in Ho2 as [n2 Ho2]. assert (X2 := fun key => validate_oa E t2 (linked_all _ Hi2) (wf_all _ Hi2) v2 o2 n2 (oa_json _ Hj2) Ho2 c fv2 ex2 key Hx2).
  rewrite (proj1 (linked_fields c k fs Hl)) in *.
  assert (Y : forall (s e : list pystr) x y, ~ In x e -> ~ In y e -> precedes x y (s ++ e)%list -> precedes x y s).
  { clear. intros s e x y Hx Hy (l1 & l2 & l3 & He). revert l1 He. induction s as [|z s IH]; intros l1 He; cbn [app] in He.
    - exfalso. apply Hx. rewrite He. apply in_or_app. right. left. reflexivity.
    - destruct l1 as [|z1 l1]; cbn [app] in He; injection He as -> He.
      + assert (Hin : In y s). { assert (H : In y (s ++ e)%list) by (rewrite He; apply in_or_app; right; left; reflexivity). apply in_app_or in H as [H|H]; [exact H|destruct (Hy H)]. }
        apply in_split in Hin as (p & q & ->). exists [], p, q. reflexivity.
      + destruct (IH _ He) as (m1 & m2 & m3 & ->). exists (z1 :: m1), m2, m3. reflexivity. }
  rewrite He1, He2. intros Q1 Q2. apply Y in Q1; [|intros H; exact (X1 _ H Ha)|intros H; exact (X1 _ H Hb)]. apply Y in Q2; [|intros H; exact (X2 _ H Hb)|intros H; exact (X2 _ H Ha)].
  apply (precedes_part _ _ _ _ (part_of_map f_alias _ _ P1)) in Q1. apply (precedes_part _ _ _ _ (part_of_map f_alias _ _ P2)) in Q2.
  revert Q1 Q2. apply precedes_once. apply alias_nodup. exact (wf_keys _ _ _ Hw).
Qed.
(** What the order of the declared keys in the input was leaves no trace: the same object, hence the same text. *)
Theorem c85_no_trace E c k fs kvs kvs' : In (TModel c k fs) all_types -> python_dicts (VDict kvs) -> Permutation kvs kvs' -> undeclared fs kvs = undeclared fs kvs' ->
  (forall fi t, In (fi, t) fs -> f_name fi <> f_alias fi -> ~ (In (f_name fi) (map fst kvs) /\ In (f_alias fi) (map fst kvs))) ->
  parse E (TModel c k fs) (VDict kvs) = parse E (TModel c k fs) (VDict kvs').
Proof.
  intros Hi Hp Hperm Hu Hone. assert (Hn : NoDup (map fst kvs)) by exact (Hp _ (w_self _)).
  assert (Hn' : NoDup (map fst kvs')) by (eapply Permutation_NoDup; [apply Permutation_map; exact Hperm|exact Hn]).
  assert (Ha : forall key, assoc key kvs = assoc key kvs').
  { intros key. destruct (assoc key kvs) as [x|] eqn:E1.
    - symmetry. apply In_assoc; [exact Hn'|]. eapply Permutation_in; [exact Hperm|]. apply assoc_In. exact E1.
    - destruct (assoc key kvs') as [x|] eqn:E2; [|reflexivity]. apply assoc_In in E2. apply Permutation_sym in Hperm. eapply Permutation_in in E2; [|exact Hperm]. apply In_assoc in E2; [congruence|exact Hn]. }
  assert (Hl : forall fi, lookup_field fi kvs = lookup_field fi kvs') by (intros fi; unfold lookup_field; rewrite !Ha; reflexivity).
  assert (Hx : forall d, (forall fi t, In (fi, t) fs -> f_name fi <> f_alias fi -> ~ (In (f_name fi) (map fst d) /\ In (f_alias fi) (map fst d))) -> extras fs d = undeclared fs d).
  { intros d Hd. rewrite <- undeclared_extras. unfold undeclared. symmetry. apply filter_all. intros [key x] Hk. apply undeclaredb_iff. intros (fi & t & Hf & Hkey).
    apply extras_unclaimed in Hk as [Hk [_ Hcl]]. cbn [fst] in *. destruct (Hcl fi t Hf) as [N1 N2]. destruct Hkey as [->| ->]; [|exact (N1 eq_refl)].
    apply (Hd fi t Hf N1). split; [apply in_map_iff; exists (f_name fi, x); auto|exact (N2 eq_refl)]. }
  unfold parse. cbn [validate]. unfold vmodel. rewrite (Hx kvs Hone), (Hx kvs'), Hu.
  - assert (Hv : forall l, vfields E (validate E) kvs l = vfields E (validate E) kvs' l).
    { induction l as [|[fi t] l IH]; [reflexivity|]. cbn [vfields]. rewrite Hl. destruct (lookup_field fi kvs') as [x|].
      - destruct (validate E t x) as [[x' n]|]; [|reflexivity]. destruct (fv_check E (f_val fi) x'); [|reflexivity]. fold (vfields E (validate E) kvs l). fold (vfields E (validate E) kvs' l). rewrite IH. reflexivity.
      - fold (vfields E (validate E) kvs l). fold (vfields E (validate E) kvs' l). rewrite IH. reflexivity. }
    rewrite Hv. reflexivity.
  - intros fi t Hf Hne [H1 H2]. apply (Hone fi t Hf Hne). assert (Q : forall key, In key (map fst kvs') -> In key (map fst kvs)) by (intros key; apply Permutation_in; apply Permutation_sym, Permutation_map; exact Hperm). auto.
Qed.
(** The entries of a patterned map, and the items of a list, keep their order. *)
Theorem c85_maps E c t d0 o d : parse E (TRoot c t) (VDict d0) = Some o -> dump o = VDict d -> map fst d = map fst d0.
Proof.
  intros Ho Hd. apply parse_some in Ho as [n Ho]. cbn [validate] in Ho. destruct (vdict (validate E) t d0) as [[r m]|] eqn:Ev; [|discriminate Ho]. destruct (root_keys_ok r); [|discriminate Ho]. injection Ho as <- _.
  apply ProofParse.vdict_ok in Ev as [Ev _]. cbn [dump] in Hd. injection Hd as <-. rewrite <- Ev. apply dump_entries_keys.
Qed.
Theorem c85_lists E t l o l' : parse E (TList t) (VList l) = Some o -> dump o = VList l' ->
  Forall2 (fun x y => exists z, parse E t x = Some z /\ y = dump z) l l'.
Proof.
  intros Ho Hd. apply parse_some in Ho as [n Ho]. cbn [validate] in Ho. destruct (vlist (validate E) t l) as [[r m]|] eqn:Ev; [|discriminate Ho]. injection Ho as <- _. cbn [dump] in Hd. injection Hd as <-.
  revert r m Ev. induction l as [|x l IH]; intros r m Ev; [injection Ev as <- _; constructor|]. rewrite vlist_cons in Ev. destruct (validate E t x) as [[z a]|] eqn:Ex; [|discriminate Ev].
  destruct (vlist (validate E) t l) as [[r' b]|]; [|discriminate Ev]. injection Ev as <- _. cbn [map]. constructor; [|eapply IH; reflexivity]. exists z. split; [unfold parse; rewrite Ex; reflexivity|reflexivity].
Qed.
(** Keys in any order; "title" and "version" are written first, the extensions last and as given. *)
Definition shuffled : pv := obj [("x-b", VInt 1); ("version", str "1"); ("x-a", VInt 2); ("title", str "t")].
Example c85_ex : exists o, python_dicts shuffled /\ is_json shuffled /\ parse E0 T_Info shuffled = Some o /\ no_shadowing o
  /\ dump o = obj [("title", str "t"); ("version", str "1"); ("x-b", VInt 1); ("x-a", VInt 2)].
Proof.
  eexists. split; [apply python_dicts_dec; vm_compute; reflexivity|]. split; [apply json_dec; vm_compute; reflexivity|]. split; [vm_compute; reflexivity|]. split; [apply no_shadowing_dec; vm_compute; reflexivity|vm_compute; reflexivity].
Qed.
Print Assumptions c85_layout. Print Assumptions c85_input. Print Assumptions c85_same_order. Print Assumptions c85_no_trace.
