(** C103: inlining a reference keeps the document accepted. *)
From Verif Require Import PyStr Value Types Rules Pydantic ClassTable Classes Canon Fix Linked SpecParse Sample ProofRules ProofParse
  State SpecState ProofState PropState Resolve SpecResolve ProofResolve PropResolve Unified SpecUnified ProofUnified ProofCheck PropUnified
  ProofDump Dump SpecDump PropDump SpecDeep PropDeep PropWithin PropValidators SpecDeref ProofDeref PropDeref.
Local Open Scope string_scope.

(** ** The Reference class *)
Definition ref_fields : list (finfo * ty) -> Prop := fun fs => exists fi m, fs = [(fi, TStr m)] /\ f_name fi = u "ref" /\ f_excl fi = false.
Lemma reference_fields_of k fs : linked (TModel "Reference" k fs) = true -> ref_fields fs.
Proof.
  intros Hl. apply linked_fields in Hl as [<- _]. assert (H : ref_fields (class_fields "Reference")); [|exact H].
  eexists _, _. vm_compute. split; [reflexivity|]. split; reflexivity.
Qed.
Lemma reference_field fi t : In (fi, t) (class_fields "Reference") -> f_name fi = u "ref".
Proof.
  assert (H : ref_fields (class_fields "Reference")) by (eexists _, _; vm_compute; split; [reflexivity|]; split; reflexivity).
  destruct H as (fi0 & m & -> & Hn & _). intros [Hx|[]]. injection Hx as -> _. exact Hn.
Qed.
Lemma canon_refs_ok E t v : linked t = true -> wf_ty t = true -> canon is_json E t v -> refs_ok v.
Proof.
  intros Hl Hw Hc fv ex Hx. destruct (obj_in _ _ _ _ _ _ Hl Hw Hc Hx) as (k & fs & Hlr & _ & Hcr). destruct (reference_fields_of _ _ Hlr) as (fi & m & -> & Hn & _).
  cbn [canon] in Hcr. destruct Hcr as (fv' & ex' & Heq & Hf & _ & _). injection Heq as <- <-. destruct fv as [|[k0 x] fv]; cbn [canon_fields] in Hf; [contradiction|].
  destruct Hf as [(Hk & (s & Hs & _) & _) _]. exists s, ((k0, x) :: fv), ex. split; [reflexivity|]. cbn [assoc]. subst k0 x. rewrite Hn. vm_compute. reflexivity.
Qed.

(** ** No class is called "str" *)
Lemma no_str E path tys : expected E path = Some tys -> ~ In "str" tys.
Proof.
  unfold expected, expected_in. assert (Hm : forall m, In m mappings -> ~ In "str" (snd m)).
  { assert (Hb : forallb (fun m => negb (existsb (String.eqb "str") (snd m))) mappings = true) by (vm_compute; reflexivity).
    intros m Hin Hs. assert (H1 := proj1 (forallb_forall _ _) Hb _ Hin). cbn beta in H1. apply negb_true_iff in H1.
    assert (existsb (String.eqb "str") (snd m) = true); [|congruence]. apply existsb_exists. exists "str". split; [exact Hs|reflexivity]. }
  revert Hm. generalize mappings as table. intros table Hm.
  assert (H : forall best, (forall m, best = Some m -> ~ In "str" (snd m)) -> forall m, best_match (normalize E path) best table = Some m -> ~ In "str" (snd m)).
  { revert Hm. induction table as [|[a tya] table IH]; intros Hm best Hb m; cbn [best_match]; [apply Hb|].
    assert (Hm' := fun m Hi => Hm m (or_intror Hi)). assert (Ha : forall m, Some (specificity a, tya) = Some m -> ~ In "str" (snd m)).
    { intros m0 Hx. injection Hx as <-. exact (Hm (a, tya) (or_introl eq_refl)). }
    destruct (path_matches a (normalize E path)); [|exact (IH Hm' best Hb m)]. destruct best as [[sc ty0]|]; [|exact (IH Hm' _ Ha m)].
    destruct (score_gtb (specificity a) sc); [exact (IH Hm' _ Ha m)|exact (IH Hm' _ Hb m)]. }
  destruct (best_match (normalize E path) None table) as [m|] eqn:Em; [|discriminate]. intros Hx. cbn [option_map] in Hx. injection Hx as <-. exact (H None (fun m Hx => ltac:(discriminate Hx)) m Em).
Qed.

(** ** Resolution after the replacement *)
Lemma walks_in v l x : walks v l x -> within x v.
Proof. induction 1 as [v|v p w l x Hg _ IH]; [constructor|]. eapply within_trans; [exact IH|]. eapply goes_within. exact Hg. Qed.
Section Transfer.
  Context (r o doc doc' : pv) (s : pystr) (lo : list pystr).
  Context (Hr : is_reference r s) (Ho : exists c fv ex, o = VObj c fv ex) (Hi : inl r o doc doc') (Hok : refs_ok doc) (He : ends_at doc s o lo).
  Let Hrs : exists s, is_reference r s := ex_intro _ s Hr.
  Lemma o_not_ref : forall x, ~ is_reference o x.
  Proof. destruct He as (n & s' & _ & _ & H). exact H. Qed.
  Lemma step_over s1 l v s' : designates doc s1 l v -> is_reference v s' ->
    (exists v', designates doc' s1 l v' /\ is_reference v' s') \/ (v = r /\ s' = s /\ designates doc' s1 l o).
  Proof.
    intros (rest & Hs1 & Hseg & Hne & Hw) Hv. destruct (inl_walks r o Hrs reference_field Ho o_not_ref _ _ _ Hw doc' Hi) as [(v' & Hw' & Hiv)|[s0 ->]].
    - destruct (inl_reference r o Hrs _ _ _ Hiv Hv) as [Hv'|[-> ->]].
      + left. exists v'. split; [|exact Hv']. exists rest. auto.
      + right. split; [reflexivity|]. split; [exact (is_reference_fun _ _ _ Hv Hr)|]. exists rest. auto.
    - destruct Hv as (? & ? & Hx & _). discriminate Hx.
  Qed.
  Lemma ends_over n : forall s1 s' e l1, hops doc n s1 s' -> designates doc s' l1 e -> (forall x, ~ is_reference e x) ->
    (exists e' l', ends_at doc' s1 e' l' /\ type_name e' = type_name e) \/ type_name e = "str".
  Proof.
    induction n as [|n IH]; intros s1 s' e l1 Hh Hd Hn.
    - inversion Hh; subst. destruct Hd as (rest & Hs1 & Hseg & Hne & Hw). destruct (inl_walks r o Hrs reference_field Ho o_not_ref _ _ _ Hw doc' Hi) as [(e' & Hw' & Hie)|[s0 ->]]; [left|right; reflexivity].
      exists e', l1. split.
      + exists 0, s'. split; [constructor|]. split; [exists rest; auto|]. refine (inl_not_reference r o o_not_ref _ _ Hie Hn _).
        intros fv ex ->. apply Hok. exact (walks_in _ _ _ Hw).
      + apply (inl_type r o _ _ Hie). intros ->. exact (Hn _ Hr).
    - inversion Hh as [|n0 s0 l v s2 s3 Hd0 Hv Hh']; subst. destruct (step_over _ _ _ _ Hd0 Hv) as [(v' & Hd' & Hv')|(-> & -> & Hd')].
      + destruct (IH _ _ _ _ Hh' Hd Hn) as [(e' & l' & (m & sm & Hm & Hdm & Hnm) & Ht)|Ht]; [left|right; exact Ht]. exists e', l'. split; [|exact Ht].
        exists (S m), sm. split; [eapply hopS; eassumption|]. auto.
      + left. exists o, l. assert (Hee : ends_at doc s e l1) by (exists n, s'; auto). destruct (c23_chain_functional _ _ _ _ _ _ He Hee) as [<- _]. split; [|reflexivity].
        exists 0, s1. split; [constructor|]. split; [exact Hd'|exact o_not_ref].
  Qed.
  Lemma external_over n : forall s1 s', hops doc n s1 s' -> external s' -> hops doc' n s1 s'.
  Proof.
    induction n as [|n IH]; intros s1 s' Hh Hx; inversion Hh as [|n0 s0 l v s2 s3 Hd0 Hv Hh']; subst; [constructor|].
    destruct (step_over _ _ _ _ Hd0 Hv) as [(v' & Hd' & Hv')|(-> & -> & Hd')]; [eapply hopS; eauto|]. exfalso.
    destruct He as (m & sm & Hm & Hdm & Hnm). destruct (stuck_unique _ _ _ _ _ _ Hh' (stuck_ext doc s' Hx) Hm (stuck_obj _ _ _ _ Hdm Hnm)) as [_ <-].
    exact (designates_not_external _ _ _ _ Hdm Hx).
  Qed.
  Lemma acceptable_over E path path' s1 : acceptable E doc path s1 ->
    (forall tys e, expected E path = Some tys -> In (type_name e) tys -> exists tys', expected E path' = Some tys' /\ In (type_name e) tys') -> acceptable E doc' path' s1.
  Proof.
    intros [(n & s' & Hh & Hx)|(e & l & tys & (n & s' & Hh & Hd & Hn) & Hex & Hin)] Ht; [left; exists n, s'; split; [exact (external_over _ _ _ Hh Hx)|exact Hx]|right].
    destruct (ends_over _ _ _ _ _ Hh Hd Hn) as [(e' & l' & He' & Hty)|Hs].
    - destruct (Ht tys e Hex Hin) as (tys' & Hex' & Hin'). exists e', l', tys'. rewrite Hty. auto.
    - exfalso. rewrite Hs in Hin. exact (no_str _ _ _ Hex Hin).
  Qed.
  Lemma F2_back (d d' : fields) (k : pystr) (y' : pv) : Forall2 (fun a b => fst a = fst b /\ inl r o (snd a) (snd b)) d d' -> In (k, y') d' -> exists y, In (k, y) d /\ inl r o y y'.
  Proof.
    induction 1 as [|[k1 x1] [k2 x2] d d' [Hk Hx] HF IH]; [intros []|]. cbn [fst snd] in *. subst k2. intros [Heq|Hin].
    - injection Heq as <- <-. exists x1. split; [left; reflexivity|exact Hx].
    - destruct (IH Hin) as (y & H1 & H2). exists y. split; [right; exact H1|exact H2].
  Qed.
  Lemma F2_back_list l l' (y' : pv) : Forall2 (inl r o) l l' -> In y' l' -> exists y, In y l /\ inl r o y y'.
  Proof.
    induction 1 as [|x1 x2 l l' Hx HF IH]; [intros []|]. intros [<-|Hin]; [exists x1; split; [left; reflexivity|exact Hx]|].
    destruct (IH Hin) as (y & H1 & H2). exists y. split; [right; exact H1|exact H2].
  Qed.
  Lemma within_over c fv ex v' : within (VObj c fv ex) v' -> forall v, inl r o v v' -> (exists fv', within (VObj c fv' ex) v) \/ within (VObj c fv ex) o.
  Proof.
    induction 1 as [|l y Hy Hx IH|d k y Hy Hx IH|c0 fv0 ex0 k y Hy Hx IH|c0 fv0 ex0 k y Hy Hx IH|c0 d k y Hy Hx IH]; intros v Hv.
    - inversion Hv as [x1 Hx1 Hx2| |l1 l1' HF1|d1 d1' HF1|c1 d1 d1' HF1|c1 d1 d1' e1 HF1]; subst; [left; exists fv; constructor|right; constructor|].
      left. exists d1. constructor.
    - inversion Hv as [x1 Hx1 Hx2| |l1 l1' HF1|d1 d1' HF1|c1 d1 d1' HF1|c1 d1 d1' e1 HF1]; subst; [left; exists fv; eapply w_list; eassumption|right; eapply w_list; eassumption|].
      destruct (F2_back_list _ _ _ HF1 Hy) as (y0 & Hy0 & Hi0). destruct (IH _ Hi0) as [[fv' Hw]|Hw]; [left; exists fv'; eapply w_list; eassumption|right; exact Hw].
    - inversion Hv as [x1 Hx1 Hx2| |l1 l1' HF1|d1 d1' HF1|c1 d1 d1' HF1|c1 d1 d1' e1 HF1]; subst; [left; exists fv; eapply w_dict; eassumption|right; eapply w_dict; eassumption|].
      destruct (F2_back _ _ _ _ HF1 Hy) as (y0 & Hy0 & Hi0). destruct (IH _ Hi0) as [[fv' Hw]|Hw]; [left; exists fv'; eapply w_dict; eassumption|right; exact Hw].
    - inversion Hv as [x1 Hx1 Hx2| |l1 l1' HF1|d1 d1' HF1|c1 d1 d1' HF1|c1 d1 d1' e1 HF1]; subst; [left; exists fv; eapply w_field; eassumption|right; eapply w_field; eassumption|].
      destruct (F2_back _ _ _ _ HF1 Hy) as (y0 & Hy0 & Hi0). destruct (IH _ Hi0) as [[fv' Hw]|Hw]; [left; exists fv'; eapply w_field; eassumption|right; exact Hw].
    - inversion Hv as [x1 Hx1 Hx2| |l1 l1' HF1|d1 d1' HF1|c1 d1 d1' HF1|c1 d1 d1' e1 HF1]; subst; [left; exists fv; eapply w_extra; eassumption|right; eapply w_extra; eassumption|].
      left. exists fv. eapply w_extra; eassumption.
    - inversion Hv as [x1 Hx1 Hx2| |l1 l1' HF1|d1 d1' HF1|c1 d1 d1' HF1|c1 d1 d1' e1 HF1]; subst; [left; exists fv; eapply w_root; eassumption|right; eapply w_root; eassumption|].
      destruct (F2_back _ _ _ _ HF1 Hy) as (y0 & Hy0 & Hi0). destruct (IH _ Hi0) as [[fv' Hw]|Hw]; [left; exists fv'; eapply w_root; eassumption|right; exact Hw].
  Qed.
End Transfer.

(** ** C103 *)
(** No Reference of the document stands directly inside a trait given in place. *)
Definition no_trait_references (v : pv) : Prop := forall pos p D x s,
  location T_AsyncAPI3 p D -> reached v pos (flat_map step_text p) x -> is_reference x s -> ~ in_inline_trait p.
(** The keys of the mappings the validator goes through are ordinary (see C32). *)
Definition ordinary_keys (E : env) (v : pv) : Prop := forall pos path d k x,
  reached v pos path (VDict d) \/ (exists c, reached v pos path (VRoot c d)) -> In (k, x) d -> ordinary E k.
Lemma keys_of_app p q : keys_of (p ++ q) = (keys_of p ++ keys_of q)%list.
Proof. unfold keys_of. apply flat_map_app. Qed.
Lemma stands_keys t v pos p D r : stands t v pos p D r -> solid r -> linked t = true -> wf_ty t = true -> forall k, In k (keys_of p) -> key_in v k.
Proof.
  intros Hs Hr.
  induction Hs as [ts k0 fs0 r Hi|t v pos p D r Hs IH|t l i x pos p D r Hn Hs IH|t d i k0 x pos p D r Hn Hs IH|c0 t d i k0 x pos p D r Hn Hs IH|ts t v pos p D r Hi Hs IH|c0 k0 fs0 fv ex i fi t x pos p D r Hf He Hn Hs IH];
    intros Hl Hw; cbn [keys_of flat_map step_keys app]; intros kk Hk.
  - destruct Hk.
  - exact (IH Hr Hl Hw kk Hk).
  - apply (key_in_sub _ x); [eapply visited_child; constructor; exact Hn|exact (IH Hr Hl Hw kk Hk)].
  - destruct Hk as [<-|Hk]; [exists d, x; split; [left; apply visited_self|exact (nth_error_In _ _ Hn)]|]. apply (key_in_sub _ x); [eapply visited_child; constructor; exact Hn|exact (IH Hr Hl Hw kk Hk)].
  - destruct Hk as [<-|Hk]; [exists d, x; split; [right; exists c0; apply visited_self|exact (nth_error_In _ _ Hn)]|]. apply (key_in_sub _ x); [eapply visited_child; constructor; exact Hn|exact (IH Hr (linked_root_sub _ _ Hl) Hw kk Hk)].
  - exact (IH Hr (linked_union _ _ Hl Hi) (wf_union _ _ Hw Hi) kk Hk).
  - assert (Hin := nth_error_In _ _ Hf). apply (key_in_sub _ x); [|exact (IH Hr (linked_sub _ _ _ _ Hl Hin) (wf_sub _ _ _ _ Hw Hin) kk Hk)].
    assert (Hre := stands_reached _ _ _ _ _ _ (sd_field _ _ _ _ _ _ _ _ _ _ _ _ _ Hf He Hn Hs : stands (TModel c0 k0 fs0) (VObj c0 fv ex) _ _ _ _) Hr Hl Hw).
    inversion Hre as [|i1 text1 w1 pos1 path1 x1 Hch Hr1]; subst. inversion Hch as [| | |c2 fv2 ex2 i2 k2 x2 Hn2]; subst. rewrite Hn in Hn2. injection Hn2 as _ <-. exact (visited_child _ _ _ _ Hch).
Qed.
Lemma table_placed : forallb (fun t => refs_placed t && no_ref_dicts t) all_types = true.
Proof. vm_compute. reflexivity. Qed.
Lemma type_placed t : In t all_types -> refs_placed t = true /\ no_ref_dicts t = true.
Proof. intros Hi. assert (Hb := proj1 (forallb_forall _ _) table_placed _ Hi). cbn beta in Hb. apply andb_prop in Hb. exact Hb. Qed.
Lemma inline_ok E doc pos p D r s o l : canon is_json E T_AsyncAPI3 doc -> no_root_keyword doc -> unified E doc = None ->
  ordinary_keys E doc -> stands T_AsyncAPI3 doc pos p D r -> is_reference r s -> ends_at doc s o l ->
  no_trait_references doc -> no_trait_references (put pos o doc) ->
  canon is_json E T_AsyncAPI3 (put pos o doc) /\ no_root_keyword (put pos o doc) /\ unified E (put pos o doc) = None.
Proof.
  intros Hc Hn Hu Hkeys Hs Hr He Hnt Hnt'. assert (Hl := linked_all _ in_root). assert (Hw := wf_all _ in_root).
  assert (Hcn : canon no_objects E T_AsyncAPI3 doc) by exact (canon_mono _ _ E _ json_no_objects _ Hc).
  assert (Hsr : solid r) by (destruct Hr as (? & ? & -> & _); exact I). assert (Hok := canon_refs_ok _ _ _ Hl Hw Hc).
  assert (Hre := stands_reached _ _ _ _ _ _ Hs Hsr Hl Hw). assert (Hlp := stands_location _ _ _ _ _ _ Hs).
  assert (Hkd : forall k, key_in doc k -> ordinary E k) by (intros k (d & x & [(q & pq & H1)|(c & q & pq & H1)] & H2); [exact (Hkeys q pq d k x (or_introl H1) H2)|exact (Hkeys q pq d k x (or_intror (ex_intro _ c H1)) H2)]).
  assert (Hkp : forall k, In k (keys_of p) -> ordinary E k) by (intros k Hk; exact (Hkd k (stands_keys _ _ _ _ _ _ Hs Hsr Hl Hw k Hk))).
  assert (Ht : ~ in_inline_trait p) by exact (Hnt _ _ _ _ _ Hlp Hre Hr).
  assert (HoD : In (type_name o) D).
  { destruct (c34_sound_partial E doc pos p D r s Hn Hu Hlp Hkp Ht Hre Hr) as [(n & s' & Hh & Hx)|(o' & l' & He' & Ho')].
    - exfalso. destruct He as (m & sm & Hm & Hdm & Hnm). destruct (stuck_unique _ _ _ _ _ _ Hh (stuck_ext doc s' Hx) Hm (stuck_obj _ _ _ _ Hdm Hnm)) as [_ <-].
      exact (designates_not_external _ _ _ _ Hdm Hx).
    - destruct (c23_chain_functional _ _ _ _ _ _ He He') as [-> _]. exact Ho'. }
  destruct (target E doc s o l _ _ _ _ _ _ Hl Hw Hl Hw Hn Hc He Hs HoD) as (c & k & fs & fv & ex & Heq & Hin & Hwi & Hlo & Hwo & Hco).
  assert (Hoc : exists c fv ex, o = VObj c fv ex) by eauto. assert (Hi := put_inl r o doc pos _ Hre).
  assert (Hcr : c <> "Reference").
  { intros ->. assert (Hr0 : refs_ok o) by exact (canon_refs_ok _ _ _ Hlo Hwo Hco). destruct (Hr0 fv ex) as [s0 Hs0]; [rewrite Heq; apply w_self|].
    rewrite <- Heq in Hs0. exact (o_not_ref _ _ _ _ He s0 Hs0). }
  assert (Hn' : no_root_keyword (put pos o doc)).
  { intros c0 fv0 ex0 d0 Hx0 Ha0. assert (HW : (exists fv', within (VObj c0 fv' ex0) doc) \/ within (VObj c0 fv0 ex0) o) by (eapply within_over; eassumption). destruct HW as [[fv' Hx]|Hx]; [exact (Hn _ _ _ _ Hx Ha0)|].
    exact (Hn _ _ _ _ (within_trans _ _ _ Hx Hwi) Ha0). }
  split; [exact (canon_put E o c k fs fv ex Heq Hlo Hco _ _ _ _ _ _ _ Hs Hr Hin Hl Hw Hc)|]. split; [exact Hn'|].
  apply (c28_accepts_iff E _ Hn'). intros pos' path' x sx Hx Hsx.
  destruct (reached_split _ _ _ _ o Hre Hok _ _ _ _ Hx Hsx) as [(q & pq & -> & Hq)|Hold].
  2: { apply (acceptable_over r o doc _ s l Hr Hoc Hi Hok He E _ _ _ (proj1 (c28_accepts_iff E doc Hn) Hu _ _ _ _ Hold Hsx)). intros tys e H1 H2. eauto. }
  assert (Hcon := canon_mono _ _ E _ json_no_objects _ Hco). destruct (type_placed _ (linked_in_table _ _ _ Hlo)) as [Hpl Hnd].
  destruct (reached_located E _ Hlo Hwo Hpl Hnd _ Hcon _ _ _ _ Hq Hsx) as (q' & -> & Hlq & Hkq).
  destruct Hlq as [Hlq|[D' Hlq]]; [inversion Hlq; subst; contradiction|].
  assert (Hlpq := stands_below _ _ _ _ _ _ _ _ _ _ _ Hs Hin Hl Hlo Hlq). rewrite Heq in Hwi.
  destruct (object_placed E _ Hl Hw root_clear_ways _ Hcn c fv ex k fs Hwi Hlo) as (pos1 & pl & Hrl & Hbl & Hkl). rewrite <- Heq in Hrl, Hwi.
  assert (Hvo : visited o doc) by (eexists; eexists; exact Hrl). assert (Hll := Hbl _ _ Hlq). destruct (reached_app _ _ _ _ Hrl _ _ _ Hq) as [pos2 Hr2].
  assert (Hk1 : forall k0, In k0 (keys_of (p ++ q')) -> ordinary E k0).
  { intros k0. rewrite keys_of_app. intros Hk0. apply in_app_or in Hk0 as [Hk0|Hk0]; [exact (Hkp k0 Hk0)|]. apply Hkd. exact (key_in_sub _ _ _ Hvo (Hkq k0 Hk0)). }
  assert (Hk2 : forall k0, In k0 (keys_of (pl ++ q')) -> ordinary E k0).
  { intros k0. rewrite keys_of_app. intros Hk0. apply in_app_or in Hk0 as [Hk0|Hk0]; apply Hkd; [exact (Hkl k0 Hk0)|]. exact (key_in_sub _ _ _ Hvo (Hkq k0 Hk0)). }
  rewrite <- flat_map_app in Hx, Hr2. rewrite <- flat_map_app.
  destruct (location_agrees E _ _ Hlpq Hk1 (Hnt' _ _ _ _ _ Hlpq Hx Hsx)) as (tys1 & Hex1 & Ht1).
  destruct (location_agrees E _ _ Hll Hk2 (Hnt _ _ _ _ _ Hll Hr2 Hsx)) as (tys2 & Hex2 & Ht2).
  apply (acceptable_over r o doc _ s l Hr Hoc Hi Hok He E _ _ _ (proj1 (c28_accepts_iff E doc Hn) Hu _ _ _ _ Hr2 Hsx)).
  intros tys e H1 H2. exists tys1. split; [exact Hex1|]. apply Ht1, Ht2. unfold location_path in Hex2. rewrite H1 in Hex2. injection Hex2 as <-. exact H2.
Qed.
Theorem c103_inlining_partial E v doc pos p D r s o l : is_json v -> parse E T_AsyncAPI3 v = Some doc -> no_root_keyword doc -> unified E doc = None ->
  ordinary_keys E doc -> stands T_AsyncAPI3 doc pos p D r -> is_reference r s -> ends_at doc s o l ->
  no_trait_references doc -> no_trait_references (put pos o doc) -> unified E (put pos o doc) = None.
Proof.
  intros Hj Hp Hn Hu Hkeys Hs Hr He Hnt Hnt'. assert (Hc : canon is_json E T_AsyncAPI3 doc) by exact (loaded_json E _ v doc in_root Hp Hj).
  exact (proj2 (proj2 (inline_ok E doc pos p D r s o l Hc Hn Hu Hkeys Hs Hr He Hnt Hnt'))).
Qed.
(** Any number of inlinings, in any order. *)
Inductive inlined (E : env) (doc : pv) : pv -> Prop :=
| inlined_none : inlined E doc doc
| inlined_more d pos p D r s o l : inlined E doc d -> ordinary_keys E d -> no_trait_references d ->
    stands T_AsyncAPI3 d pos p D r -> is_reference r s -> ends_at d s o l -> no_trait_references (put pos o d) -> inlined E doc (put pos o d).
Theorem c103_repeated_partial E v doc d : is_json v -> parse E T_AsyncAPI3 v = Some doc -> no_root_keyword doc -> unified E doc = None -> inlined E doc d ->
  unified E d = None /\ well_typed E T_AsyncAPI3 d /\ valid_throughout E d.
Proof.
  intros Hj Hp Hn Hu Hi. assert (Hl := linked_all _ in_root). assert (Hw := wf_all _ in_root).
  assert (Hc : canon is_json E T_AsyncAPI3 doc) by exact (loaded_json E _ v doc in_root Hp Hj).
  assert (H : canon is_json E T_AsyncAPI3 d /\ no_root_keyword d /\ unified E d = None).
  { induction Hi as [|d pos p D r s o l Hi IH Hk Ht Hs Hr He Ht']; [auto|]. destruct IH as (H1 & H2 & H3). exact (inline_ok E d pos p D r s o l H1 H2 H3 Hk Hs Hr He Ht Ht'). }
  destruct H as (H1 & _ & H3). split; [exact H3|]. split; [exact (canon_wt _ _ _ Hw _ H1)|exact (canon_deep E _ _ Hl Hw H1)].
Qed.
(** *** Deciding the side conditions on concrete documents *)
Fixpoint paths_b (n : nat) (P : pystr -> bool) (v : pv) (path : pystr) : bool :=
  match n with
  | 0 => false
  | S n => match as_reference v with Some _ => P path | None => forallb (fun k => paths_b n P (snd (snd k)) (path ++ fst (snd k))%list) (kids v) end
  end.
Lemma paths_sound P : forall n v path, paths_b n P v path = true -> forall pos rel x s, reached v pos rel x -> is_reference x s -> P (path ++ rel)%list = true.
Proof.
  induction n as [|n IH]; intros v path Hb pos rel x s Hr Hs; cbn [paths_b] in Hb; [discriminate Hb|].
  destruct (ref_cases v) as [(s0 & Hs0 & Ha)|[Hn Ha]]; rewrite Ha in Hb.
  - inversion Hr as [p0 Hp0|i text w pos' path' x0 Hc Hr']; subst; [rewrite app_nil_r; exact Hb|].
    exfalso. inversion Hc as [| | |c fv ex i0 k x1 Hx Hnr]; subst; try (destruct Hs0 as (? & ? & Hy & _); discriminate Hy). exact (Hnr _ Hs0).
  - inversion Hr as [p0 Hp0|i text w pos' path' x0 Hc Hr']; subst; [exfalso; exact (Hn _ Hs)|]. apply (kids_child _ _ _ _ Hn) in Hc.
    assert (H1 := proj1 (forallb_forall _ _) Hb _ Hc). cbn [fst snd] in H1. rewrite app_assoc. exact (IH _ _ H1 _ _ _ _ Hr' Hs).
Qed.
Fixpoint trait_in (s : pystr) : bool := (starts_with (u ".traits[") s && contains (u "].") s) || match s with [] => false | _ :: r => trait_in r end.
Lemma trait_in_app a s : trait_in s = true -> trait_in (a ++ s)%list = true.
Proof. intros Hs. induction a as [|c a IH]; [exact Hs|]. cbn [app trait_in]. rewrite IH. apply orb_true_r. Qed.
Lemma trait_text p : in_inline_trait p -> trait_in (flat_map step_text p) = true.
Proof.
  intros (a & i & f & c & -> & _ & _). rewrite flat_map_app. apply trait_in_app. cbn [flat_map step_text]. rewrite <- !app_assoc.
  set (rest := (f ++ _)%list). assert (H1 : starts_with (u ".traits[") (u "." ++ u "traits" ++ u "[" ++ str_of_nat i ++ u "]" ++ u "." ++ rest)%list = true) by (apply starts_with_iff; eexists; reflexivity).
  assert (H2 : contains (u "].") (u "." ++ u "traits" ++ u "[" ++ str_of_nat i ++ u "]" ++ u "." ++ rest)%list = true).
  { apply contains_iff. exists (u "." ++ u "traits" ++ u "[" ++ str_of_nat i)%list, rest. rewrite <- !app_assoc. reflexivity. }
  revert H1 H2. generalize (u "." ++ u "traits" ++ u "[" ++ str_of_nat i ++ u "]" ++ u "." ++ rest)%list. intros z H1 H2. destruct z; cbn [trait_in]; rewrite H1, H2; reflexivity.
Qed.
Lemma no_trait_dec v : paths_b 100 (fun s => negb (trait_in s)) v [] = true -> no_trait_references v.
Proof.
  intros Hb pos p D x s _ Hr Hs Ht. assert (H1 := paths_sound _ _ _ _ Hb _ _ _ _ Hr Hs). cbn [app] in H1. rewrite (trait_text p Ht) in H1. discriminate H1.
Qed.
Fixpoint keys_b (n : nat) (v : pv) : bool :=
  match n with
  | 0 => false
  | S n => match as_reference v with Some _ => true | None => match v with VDict d | VRoot _ d => forallb (fun kx => ordinary_b (fst kx)) d | _ => true end && forallb (fun k => keys_b n (snd (snd k))) (kids v) end
  end.
Lemma ordinary_keys_dec E : forall n v, keys_b n v = true -> ordinary_keys E v.
Proof.
  induction n as [|n IH]; intros v Hb pos path d k x Hr Hin; cbn [keys_b] in Hb; [discriminate Hb|].
  destruct (ref_cases v) as [(s0 & Hs0 & Ha)|[Hn Ha]]; rewrite Ha in Hb.
  - exfalso. destruct Hs0 as (fv0 & ex0 & -> & Hs0). destruct Hr as [Hr|[c Hr]]; inversion Hr as [|i text w pos' path' x0 Hc Hr']; subst;
      inversion Hc as [| | |c1 fv1 ex1 i0 k0 x1 Hx Hnr]; subst; apply (Hnr s0); exists fv0, ex0; auto.
  - apply andb_prop in Hb as [Hb1 Hb2]. assert (Hsub : forall i text w, child v i text w -> ordinary_keys E w).
    { intros i text w Hc. apply (kids_child _ _ _ _ Hn) in Hc. apply IH. exact (proj1 (forallb_forall _ _) Hb2 _ Hc). }
    destruct Hr as [Hr|[c Hr]]; inversion Hr as [p0 Hp0 Hv|i text w pos' path' x0 Hc Hr']; subst.
    + apply ordinary_dec. exact (proj1 (forallb_forall _ _) Hb1 _ Hin).
    + exact (Hsub _ _ _ Hc _ _ _ _ _ (or_introl Hr') Hin).
    + apply ordinary_dec. exact (proj1 (forallb_forall _ _) Hb1 _ Hin).
    + exact (Hsub _ _ _ Hc _ _ _ _ _ (or_intror (ex_intro _ c Hr')) Hin).
Qed.
Definition doc_nested : pv :=
  spec [("channels", obj [("c", obj [("messages", obj [("m", ref "#/components/messages/n")])])]);
        ("components", obj [("messages", obj [("n", obj [("correlationId", ref "#/components/correlationIds/i")])]);
                            ("correlationIds", obj [("i", obj [("location", str "$message.header#/id")])])])].
Definition loc_nested : list lstep := [LField (u "channels"); LMapKey (u "c"); LField (u "messages"); LMapKey (u "m")].
Ltac found doc pos p D s := 
  destruct (stand_at T_AsyncAPI3 (load_doc doc) pos) as [|[[p0 D0] r] [|]] eqn:Es; [vm_compute in Es; discriminate Es| |vm_compute in Es; discriminate Es];
  assert (Hx : p0 = p /\ D0 = D /\ as_reference r = Some s) by (vm_compute in Es; injection Es as <- <- <-; repeat split; vm_compute; reflexivity);
  destruct Hx as (-> & -> & Hr); apply is_ref_dec in Hr;
  assert (Hs : stands T_AsyncAPI3 (load_doc doc) pos p D r) by (apply stand_at_sound; rewrite Es; left; reflexivity);
  assert (Hn : no_root_keyword (load_doc doc)) by (apply no_root_dec; vm_compute; reflexivity);
  destruct (resolve (load_doc doc) s) as [o q| |] eqn:Er; [|vm_compute in Er; discriminate Er|vm_compute in Er; discriminate Er].
(** the reference to a message is replaced by the message, which has a reference of its own *)
Example c103_ex : exists r o l, is_json doc_nested /\ parse E0 T_AsyncAPI3 doc_nested = Some (load_doc doc_nested) /\ no_root_keyword (load_doc doc_nested)
  /\ unified E0 (load_doc doc_nested) = None /\ ordinary_keys E0 (load_doc doc_nested)
  /\ stands T_AsyncAPI3 (load_doc doc_nested) [5; 0; 1; 0] loc_nested ["Message"] r /\ is_reference r (u "#/components/messages/n")
  /\ ends_at (load_doc doc_nested) (u "#/components/messages/n") o l
  /\ no_trait_references (load_doc doc_nested) /\ no_trait_references (put [5; 0; 1; 0] o (load_doc doc_nested))
  /\ option_map (fun a => (fst a, as_reference (snd a))) (at_position (put [5; 0; 1; 0] o (load_doc doc_nested)) [5; 0; 1; 0; 2])
       = Some (flat_map step_text (loc_nested ++ [LField (u "correlation_id")]), Some (u "#/components/correlationIds/i")).
Proof.
  found doc_nested [5; 0; 1; 0] loc_nested ["Message"] (u "#/components/messages/n").
  assert (He := proj1 (c23_resolves_iff _ _ _ _ Hn) Er). destruct He as (l & He & _).
  exists r, o, l. split; [apply json_dec; vm_compute; reflexivity|]. split; [apply load_doc_ok; vm_compute; reflexivity|]. split; [exact Hn|].
  split; [vm_compute; reflexivity|]. split; [apply (ordinary_keys_dec E0 100); vm_compute; reflexivity|]. split; [exact Hs|]. split; [exact Hr|]. split; [exact He|].
  split; [apply no_trait_dec; vm_compute; reflexivity|]. vm_compute in Er. injection Er as <- _. split; [apply no_trait_dec; vm_compute; reflexivity|vm_compute; reflexivity].
Qed.
(** Refuted without the condition on the result: a trait put in place of a reference makes its own references be judged as traits (C32). *)
Definition doc_spoiled : pv :=
  spec [("components", obj [("messages", obj [("m", obj [("traits", VList [ref "#/components/messageTraits/t"])])]);
                            ("messageTraits", obj [("t", obj [("correlationId", ref "#/components/correlationIds/i")])]);
                            ("correlationIds", obj [("i", obj [("location", str "$message.header#/id")])])])].
Definition loc_spoiled : list lstep := [LField (u "components"); LField (u "messages"); LMapKey (u "m"); LField (u "traits"); LIdx 0].
Theorem c103_inlining_refuted : ~ (forall E v doc pos p D r s o l, is_json v -> parse E T_AsyncAPI3 v = Some doc -> no_root_keyword doc -> unified E doc = None ->
  ordinary_keys E doc -> stands T_AsyncAPI3 doc pos p D r -> is_reference r s -> ends_at doc s o l ->
  no_trait_references doc -> unified E (put pos o doc) = None).
Proof.
  intros H. found doc_spoiled [7; 4; 0; 12; 0] loc_spoiled ["MessageTrait"] (u "#/components/messageTraits/t").
  assert (He := proj1 (c23_resolves_iff _ _ _ _ Hn) Er). destruct He as (l & He & _).
  assert (Hp : parse E0 T_AsyncAPI3 doc_spoiled = Some (load_doc doc_spoiled)) by (apply load_doc_ok; vm_compute; reflexivity).
  assert (Hu : unified E0 (load_doc doc_spoiled) = None) by (vm_compute; reflexivity).
  assert (Hk : ordinary_keys E0 (load_doc doc_spoiled)) by (apply (ordinary_keys_dec E0 100); vm_compute; reflexivity).
  assert (Ht : no_trait_references (load_doc doc_spoiled)) by (apply no_trait_dec; vm_compute; reflexivity).
  specialize (H E0 doc_spoiled _ _ _ _ _ _ _ _ (json_dec doc_spoiled eq_refl) Hp Hn Hu Hk Hs Hr He Ht).
  vm_compute in Er. injection Er as <- _. vm_compute in H. discriminate H.
Qed.
Print Assumptions c103_inlining_partial.
Print Assumptions c103_repeated_partial.
Print Assumptions c103_inlining_refuted.
