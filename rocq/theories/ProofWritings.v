(** Proofs about the ways of writing a document. *)
From Verif Require Import PyStr Regex Value Types Rules Pydantic ClassTable Classes Canon Fix Linked SpecParse ProofRules ProofParse
  State SpecState ProofState Resolve SpecResolve ProofResolve Dump SpecDump ProofDump SpecWritings.

Notation entries_written := (Forall2 (fun a b : pystr * pv => fst a = fst b /\ writes (snd a) (snd b))).
Lemma writes_obj c fv ex w : writes (VObj c fv ex) w -> exists own ex', own_fields writes (class_fields c) fv own /\ entries_written ex ex' /\ w = VDict (dict_update own ex').
Proof. intros H. inversion H; subst; [contradiction|eauto 6]. Qed.
Lemma writes_json v : is_json v -> forall w, writes v w -> w = v.
Proof.
  induction v using pv_ind'; intros Hj w Hw; inversion Hw; subst; try reflexivity; try (destruct (Hj _ (w_self _)); fail).
  - f_equal. apply json_list in Hj. revert H l' H1 Hw. induction l as [|x l IH]; intros H l' H1 Hw; inversion H1; subst; [reflexivity|]. inversion H; subst. inversion Hj; subst.
    f_equal; [auto|]. apply IH; auto. constructor. assumption.
  - f_equal. apply json_dict in Hj. revert H d' H1 Hw. induction d as [|[k x] d IH]; intros H d' H1 Hw; inversion H1 as [|? [k' x'] ? ? [Hk Hx]]; subst; [reflexivity|]. inversion H; subst. inversion Hj; subst. cbn [fst snd] in *. subst k'.
    f_equal; [f_equal; auto|]. apply IH; auto. constructor. assumption.
Qed.
Lemma entries_json ex ex' : Forall (fun kv => is_json (snd kv)) ex -> entries_written ex ex' -> ex' = ex.
Proof.
  intros Hj H. induction H as [|[k x] [k' x'] ex ex' [Hk Hx] H IH]; [reflexivity|]. inversion Hj; subst. cbn [fst snd] in *. subst k'. f_equal; [f_equal; apply writes_json; assumption|auto].
Qed.
Lemma writes_none v : writes v VNone -> v = VNone.
Proof. inversion 1; reflexivity. Qed.

(** ** Fields *)
Section Own.
  Context (wr : pv -> pv -> Prop).
  Lemma own_in fs fv own : own_fields wr fs fv own -> map fst fv = map (fun ft => f_name (fst ft)) fs -> forall a y, In (a, y) own ->
    exists fi t x, In (fi, t) fs /\ In (f_name fi, x) fv /\ f_excl fi = false /\ In a (field_keys fi) /\ wr x y.
  Proof.
    induction 1 as [|fi t fs k x fv own Hd H IH|fi t fs k x fv own a0 y0 He Ha Hw H IH]; intros Hn a y Hi; [contradiction| |]; cbn [map fst] in Hn; injection Hn as -> Hn.
    - destruct (IH Hn a y Hi) as (g & t' & z & H1 & H2 & H3). exists g, t', z. split; [right; exact H1|]. split; [right; exact H2|exact H3].
    - destruct Hi as [Hi|Hi].
      + injection Hi as <- <-. exists fi, t, x. split; [left; reflexivity|]. split; [left; reflexivity|]. split; [exact He|]. split; [|exact Hw]. destruct Ha as [-> | ->]; [apply field_keys_alias|apply field_keys_name].
      + destruct (IH Hn a y Hi) as (g & t' & z & H1 & H2 & H3). exists g, t', z. split; [right; exact H1|]. split; [right; exact H2|exact H3].
  Qed.
  Lemma own_keys fs fv own : own_fields wr fs fv own -> map fst fv = map (fun ft => f_name (fst ft)) fs -> forall a, In a (map fst own) -> In a (all_keys (map fst fs)).
  Proof.
    intros H Hn a Hi. apply in_map_iff in Hi as ([a0 y] & <- & Hi). destruct (own_in _ _ _ H Hn _ _ Hi) as (fi & t & x & H1 & _ & _ & Ha & _). eapply all_keys_in; [|exact Ha].
    change fi with (fst (fi, t)). apply in_map. exact H1.
  Qed.
  Lemma own_nodup fs fv own : own_fields wr fs fv own -> map fst fv = map (fun ft => f_name (fst ft)) fs -> NoDup (all_keys (map fst fs)) -> NoDup (map fst own).
  Proof.
    induction 1 as [|fi t fs k x fv own Hd H IH|fi t fs k x fv own a0 y0 He Ha Hw H IH]; intros Hn Hk; [constructor| |]; cbn [map fst all_keys flat_map] in *; injection Hn as -> Hn; apply NoDup_app_inv in Hk as (_ & Hk & Hx).
    - apply IH; assumption.
    - constructor; [|apply IH; assumption]. intros Hi. apply (own_keys _ _ _ H Hn) in Hi. apply (Hx a0); [|exact Hi]. destruct Ha as [-> | ->]; [apply field_keys_alias|apply field_keys_name].
  Qed.
End Own.
Definition blank (fi : finfo) (x : pv) : pv := if f_excl fi then match f_def fi with Some d => d | None => x end else x.
Fixpoint blanked (fs : list (finfo * ty)) (fv : fields) : fields :=
  match fs, fv with
  | (fi, _) :: fs', (k, x) :: fv' => (k, blank fi x) :: blanked fs' fv'
  | _, _ => []
  end.
Section Read.
  Context (E : env) (ex : fields).
  (** keys before and after those of the fields at hand are not theirs *)
  Lemma own_lookup fi t fs x own pre a y fv : own_fields writes fs fv own -> map fst fv = map (fun ft => f_name (fst ft)) fs -> NoDup (all_keys (map fst ((fi, t) :: fs))) ->
    (forall k, In k (map fst pre) \/ In k (map fst ex) -> ~ In k (all_keys (map fst ((fi, t) :: fs)))) -> a = f_alias fi \/ a = f_name fi -> x = (a, y) ->
    lookup_field fi (pre ++ x :: own ++ ex) = Some y /\ used_key (pre ++ x :: own ++ ex) fi = a.
  Proof.
    intros H Hn Hd Hp Ha ->. cbn [map fst all_keys flat_map] in Hd, Hp. apply NoDup_app_inv in Hd as (_ & Hd & Hx).
    assert (Hpre : forall k, In k (field_keys fi) -> assoc k pre = None) by (intros k Hk; apply assoc_None; intros Hi; apply (Hp k (or_introl Hi)), in_or_app; left; exact Hk).
    assert (Hrest : forall k, In k (field_keys fi) -> assoc k (own ++ ex) = None).
    { intros k Hk. apply assoc_None. rewrite map_app. intros Hi. apply in_app_or in Hi as [Hi|Hi]; [exact (Hx k Hk (own_keys _ _ _ _ H Hn k Hi))|]. apply (Hp k (or_intror Hi)), in_or_app. left. exact Hk. }
    assert (Hl : forall k, In k (field_keys fi) -> assoc k (pre ++ (a, y) :: own ++ ex) = if str_eqb k a then Some y else None).
    { intros k Hk. rewrite assoc_app, (Hpre k Hk). cbn [assoc]. destruct (str_eqb k a); [reflexivity|apply Hrest; exact Hk]. }
    unfold lookup_field, used_key. rewrite (Hl _ (field_keys_alias fi)), (Hl _ (field_keys_name fi)).
    assert (Hh : has_key (f_alias fi) (pre ++ (a, y) :: own ++ ex) = str_eqb (f_alias fi) a).
    { destruct (has_key _ _) eqn:Eh.
      - apply has_key_iff in Eh. destruct (str_eqb (f_alias fi) a) eqn:Ee; [reflexivity|]. exfalso. assert (G := Hl _ (field_keys_alias fi)). rewrite Ee in G. apply assoc_None in G. exact (G Eh).
      - destruct (str_eqb (f_alias fi) a) eqn:Ee; [|reflexivity]. apply str_eqb_eq in Ee. exfalso. assert (G : has_key (f_alias fi) (pre ++ (a, y) :: own ++ ex) = true); [|rewrite G in Eh; discriminate Eh].
        apply has_key_iff. rewrite map_app. apply in_or_app. right. left. symmetry. exact Ee. }
    rewrite Hh. destruct (str_eqb (f_alias fi) a) eqn:Ee; [apply str_eqb_eq in Ee; auto|]. destruct Ha as [-> | ->]; [rewrite str_eqb_refl in Ee; discriminate Ee|]. rewrite str_eqb_refl. auto.
  Qed.
  Lemma own_missing fi t fs own pre fv : own_fields writes fs fv own -> map fst fv = map (fun ft => f_name (fst ft)) fs -> NoDup (all_keys (map fst ((fi, t) :: fs))) ->
    (forall k, In k (map fst pre) \/ In k (map fst ex) -> ~ In k (all_keys (map fst ((fi, t) :: fs)))) -> lookup_field fi (pre ++ own ++ ex) = None.
  Proof.
    intros H Hn Hd Hp. cbn [map fst all_keys flat_map] in Hd, Hp. apply NoDup_app_inv in Hd as (_ & Hd & Hx).
    assert (Hl : forall k, In k (field_keys fi) -> assoc k (pre ++ own ++ ex) = None).
    { intros k Hk. apply assoc_None. rewrite !map_app. intros Hi. apply in_app_or in Hi as [Hi|Hi]; [apply (Hp k (or_introl Hi)), in_or_app; left; exact Hk|].
      apply in_app_or in Hi as [Hi|Hi]; [exact (Hx k Hk (own_keys _ _ _ _ H Hn k Hi))|]. apply (Hp k (or_intror Hi)), in_or_app. left. exact Hk. }
    unfold lookup_field. rewrite (Hl _ (field_keys_alias fi)), (Hl _ (field_keys_name fi)). reflexivity.
  Qed.
  Lemma own_skip (fi : finfo) (t : ty) (fs : list (finfo * ty)) (pre z : fields) : NoDup (all_keys (map fst ((fi, t) :: fs))) -> (forall k, In k (map fst pre) \/ In k (map fst ex) -> ~ In k (all_keys (map fst ((fi, t) :: fs)))) ->
    (forall k, In k (map fst z) -> In k (field_keys fi)) -> forall k, In k (map fst (pre ++ z)) \/ In k (map fst ex) -> ~ In k (all_keys (map fst fs)).
  Proof.
    intros Hd Hp Hz k Hk Hi. cbn [map fst all_keys flat_map] in Hd, Hp. apply NoDup_app_inv in Hd as (_ & Hd & Hx). rewrite map_app, in_app_iff in Hk.
    destruct Hk as [[Hk|Hk]|Hk]; [apply (Hp k (or_introl Hk)), in_or_app; right; exact Hi|exact (Hx k (Hz k Hk) Hi)|apply (Hp k (or_intror Hk)), in_or_app; right; exact Hi].
  Qed.
  Lemma vfields_own fs fv own : own_fields writes fs fv own -> canon_fields E (canon is_json E) fs fv -> NoDup (all_keys (map fst fs)) ->
    (forall fi t, In (fi, t) fs -> f_excl fi = true -> f_def fi <> None) ->
    (forall fi t x y, In (fi, t) fs -> In (f_name fi, x) fv -> f_excl fi = false -> canon is_json E t x -> writes x y -> exists n, validate E t y = Some (x, n)) ->
    forall pre, (forall k, In k (map fst pre) \/ In k (map fst ex) -> ~ In k (all_keys (map fst fs))) ->
    exists n, vfields E (validate E) (pre ++ own ++ ex) fs = Some (blanked fs fv, n).
  Proof.
    induction 1 as [|fi t fs k x fv own Hdef H IH|fi t fs k x fv own a y He Ha Hw H IH]; intros Hc Hd Hs Hv pre Hp; [exists 0; reflexivity| |]; cbn [canon_fields] in Hc; destruct Hc as [(-> & Hcan & Hf) Hc];
      assert (Hn := canon_fields_names _ _ _ _ Hc); rewrite vfields_cons; cbn [blanked].
    - rewrite (own_missing fi t fs own pre fv H Hn Hd Hp).
      destruct (IH Hc) with (pre := pre) as [m Hm].
      + cbn [map fst all_keys flat_map] in Hd. apply NoDup_app_inv in Hd as (_ & Hd & _). exact Hd.
      + intros gi t' Hi. apply (Hs gi t'). right. exact Hi.
      + intros gi t' z y Hi Hz. apply Hv; right; assumption.
      + intros k0 Hk0. apply (own_skip fi t fs pre [] Hd Hp); [intros ? []|rewrite app_nil_r; exact Hk0].
      + unfold blank. destruct (f_excl fi) eqn:Ee; destruct (f_def fi) as [d|] eqn:Ed.
        * rewrite Hm. eauto.
        * exfalso. exact (Hs fi t (or_introl eq_refl) Ee Ed).
        * destruct Hdef as [Hdef|Hdef]; [discriminate Hdef|]. injection Hdef as ->. rewrite Hm. eauto.
        * destruct Hdef as [Hdef|Hdef]; discriminate Hdef.
    - cbn [app]. destruct (own_lookup fi t fs (a, y) own pre a y fv H Hn Hd Hp Ha eq_refl) as [Hl _]. rewrite Hl.
      destruct (Hv fi t x y (or_introl eq_refl) (or_introl eq_refl) He Hcan Hw) as [n Hn']. rewrite Hn', Hf.
      destruct (IH Hc) with (pre := pre ++ [(a, y)]) as [m Hm].
      + cbn [map fst all_keys flat_map] in Hd. apply NoDup_app_inv in Hd as (_ & Hd & _). exact Hd.
      + intros gi t' Hi. apply (Hs gi t'). right. exact Hi.
      + intros gi t' z y' Hi Hz. apply Hv; right; assumption.
      + apply (own_skip fi t fs pre [(a, y)] Hd Hp). intros k0 [<-|[]]. cbn [fst]. destruct Ha as [-> | ->]; [apply field_keys_alias|apply field_keys_name].
      + rewrite <- app_assoc in Hm. cbn [app] in Hm. rewrite Hm. unfold blank. rewrite He. eauto.
  Qed.
  Lemma own_used fs fv own : own_fields writes fs fv own -> map fst fv = map (fun ft => f_name (fst ft)) fs -> NoDup (all_keys (map fst fs)) ->
    forall pre, (forall k, In k (map fst pre) \/ In k (map fst ex) -> ~ In k (all_keys (map fst fs))) -> forall a, In a (map fst own) -> In a (map (fun ft => used_key (pre ++ own ++ ex) (fst ft)) fs).
  Proof.
    induction 1 as [|fi t fs k x fv own Hdef H IH|fi t fs k x fv own a y He Ha Hw H IH]; intros Hn Hd pre Hp b Hb; [contradiction| |]; cbn [map fst] in Hn; injection Hn as -> Hn.
    - right. apply IH; [exact Hn| | |exact Hb].
      + cbn [map fst all_keys flat_map] in Hd. apply NoDup_app_inv in Hd as (_ & Hd & _). exact Hd.
      + intros k0 Hk0. apply (own_skip fi t fs pre [] Hd Hp); [intros ? []|rewrite app_nil_r; exact Hk0].
    - cbn [app]. destruct Hb as [<-|Hb]; cbn [map fst].
      + left. exact (proj2 (own_lookup fi t fs (a, y) own pre a y fv H Hn Hd Hp Ha eq_refl)).
      + right. assert (G := IH Hn). specialize (G (proj1 (proj2 (NoDup_app_inv _ _ Hd))) (pre ++ [(a, y)])). rewrite <- app_assoc in G. cbn [app] in G. apply G; [|exact Hb].
        apply (own_skip fi t fs pre [(a, y)] Hd Hp). intros k0 [<-|[]]. cbn [fst]. destruct Ha as [-> | ->]; [apply field_keys_alias|apply field_keys_name].
  Qed.
  Lemma extras_own fs fv own : own_fields writes fs fv own -> map fst fv = map (fun ft => f_name (fst ft)) fs -> NoDup (all_keys (map fst fs)) ->
    (forall k, In k (map fst ex) -> ~ In k (all_keys (map fst fs))) -> extras fs (own ++ ex) = ex.
  Proof.
    intros H Hn Hd Hx. unfold extras. assert (Hu := own_used fs fv own H Hn Hd []). cbn [app] in Hu. specialize (Hu ltac:(intros k [[]|Hk]; exact (Hx k Hk))).
    assert (Hin : forall b, In b (map (fun ft => used_key (own ++ ex) (fst ft)) fs) -> In b (all_keys (map fst fs))).
    { intros b Hb. apply in_map_iff in Hb as ([fi t] & <- & Hi). assert (Hfi : In fi (map fst fs)) by (change fi with (fst (fi, t)); apply in_map; exact Hi).
      cbn [fst]. unfold used_key. destruct (has_key _ _); eapply all_keys_in; [exact Hfi|apply field_keys_alias|exact Hfi|apply field_keys_name]. }
    revert Hu Hin. generalize (map (fun ft => used_key (own ++ ex) (fst ft)) fs). intros used Hu Hin. rewrite filter_app.
    assert (H1 : forall l : fields, (forall b, In b (map fst l) -> In b used) -> filter (fun kv => negb (mem_str (fst kv) used)) l = []).
    { induction l as [|[b y] l IH]; intros Hl; [reflexivity|]. cbn [filter fst]. rewrite (proj2 (mem_str_In b used) (Hl b (or_introl eq_refl))). cbn [negb]. apply IH. intros b' Hb'. apply Hl. right. exact Hb'. }
    assert (H2 : forall l : fields, (forall b, In b (map fst l) -> ~ In b used) -> filter (fun kv => negb (mem_str (fst kv) used)) l = l).
    { induction l as [|[b y] l IH]; intros Hl; [reflexivity|]. cbn [filter fst]. rewrite (proj2 (mem_str_not_In b used) (Hl b (or_introl eq_refl))). cbn [negb]. f_equal. apply IH. intros b' Hb'. apply Hl. right. exact Hb'. }
    rewrite (H1 own Hu), (H2 ex); [reflexivity|]. intros b Hb Hb'. exact (Hx b Hb (Hin b Hb')).
  Qed.
End Read.
(** One object. *)
Lemma write_flat c k fs fv ex w : linked (TModel c k fs) = true -> wf_ty (TModel c k fs) = true -> map fst fv = map (fun ft => f_name (fst ft)) fs ->
  NoDup (map fst ex) -> (forall key, In key (map fst ex) -> ~ In key (all_keys (map fst fs))) -> Forall (fun kv => is_json (snd kv)) ex -> writes (VObj c fv ex) w ->
  exists own, own_fields writes fs fv own /\ w = VDict (own ++ ex).
Proof.
  intros Hl Hw Hn Hnd Hx Hj H. apply writes_obj in H as (own & ex' & Ho & He & ->). apply (entries_json _ _ Hj) in He as ->. rewrite (proj1 (linked_fields _ _ _ Hl)) in Ho. exists own. split; [exact Ho|].
  rewrite dict_update_app; [reflexivity|exact Hnd|]. intros key Hi Ho'. exact (Hx key Hi (own_keys _ _ _ _ Ho Hn key Ho')).
Qed.
Lemma model_read E c k fs fv ex w : linked (TModel c k fs) = true -> wf_ty (TModel c k fs) = true ->
  python_dicts (VObj c fv ex) -> no_shadowing (VObj c fv ex) -> canon is_json E (TModel c k fs) (VObj c fv ex) ->
  (forall fi t, In (fi, t) fs -> f_excl fi = true -> f_def fi <> None) ->
  (forall fi t x y, In (fi, t) fs -> In (f_name fi, x) fv -> f_excl fi = false -> canon is_json E t x -> writes x y -> exists n, validate E t y = Some (x, n)) ->
  hook c (blanked fs fv) = hook c fv -> writes (VObj c fv ex) w ->
  exists n, validate E (TModel c k fs) w = Some (VObj c (blanked fs fv) ex, n).
Proof.
  intros Hl Hw Hp Hs Hc Hd Hv Hh H. cbn [canon] in Hc. destruct Hc as (fv' & ex' & Heq & Hf & Hj & Ha). injection Heq as <- <-.
  assert (Hn := canon_fields_names _ _ _ _ Hf). assert (Hnd := proj2 (pd_here _ Hp)).
  assert (Hx := fun key => extras_apart E c k fs fv ex key Hl Hw Hs Ha). assert (Hk := wf_keys c k fs Hw).
  destruct (write_flat c k fs fv ex w Hl Hw Hn Hnd Hx Hj H) as (own & Ho & ->). cbn [validate]. unfold vmodel.
  destruct (vfields_own E ex fs fv own Ho Hf Hk Hd Hv []) as [n Hr]; [intros key [[]|Hi]; exact (Hx key Hi)|]. cbn [app] in Hr.
  rewrite Hr, (extras_own ex fs fv own Ho Hn Hk Hx). unfold after_ok in *. rewrite Hh, Ha. eauto.
Qed.

(** ** Unions *)
Lemma writes_shape A E t v w s : canon A E t v -> writes v w -> dshape t = Some s -> vshape w = s.
Proof.
  intros Hc Hw. destruct t; cbn [dshape canon] in *; intros Hs; try discriminate Hs; injection Hs as <-.
  - destruct Hc as (x & -> & _). inversion Hw; subst. reflexivity.
  - destruct Hc as (x & ->). inversion Hw; subst. reflexivity.
  - destruct Hc as (x & -> & _). inversion Hw; subst; [contradiction|reflexivity].
  - destruct Hc as (x & -> & _). inversion Hw; subst; [contradiction|reflexivity].
  - destruct Hc as (fv & ex & -> & _). apply writes_obj in Hw as (own & ex' & _ & _ & ->). reflexivity.
Qed.
Lemma apart_none E A ti tj v w : shape_apart ti tj = true -> canon A E ti v -> writes v w -> validate E tj w = None.
Proof.
  unfold shape_apart. destruct (dshape ti) as [s|] eqn:Ed; [|discriminate]. intros H Hc Hw. assert (Hs := writes_shape A E ti v w s Hc Hw Ed).
  destruct (validate E tj w) eqn:Ev; [|reflexivity]. apply validate_in_ok in Ev. rewrite Hs in Ev. rewrite Ev in H. discriminate H.
Qed.
Lemma entries_keys ex ex' : entries_written ex ex' -> map fst ex' = map fst ex.
Proof. induction 1 as [|[k x] [k' x'] ex ex' [Hk _] H IH]; [reflexivity|]. cbn [map fst] in *. congruence. Qed.
Lemma write_reference s w : writes (ref_value s) w -> exists a, In a ref_keys /\ w = VDict [(a, VStr s)].
Proof.
  intros H. apply writes_obj in H as (own & ex' & Ho & He & ->). inversion He; subst. rewrite (proj1 (linked_fields _ _ _ reference_linked)) in Ho.
  inversion Ho as [|? ? ? ? ? ? ? Hd H|? ? ? ? ? ? own' a y Hx Ha Hy H]; subst; clear Ho.
  - destruct Hd as [Hd|Hd]; discriminate Hd.
  - inversion H; subst. inversion Hy; subst. exists a. split; [|reflexivity]. destruct Ha as [-> | ->]; [left|right; left]; reflexivity.
Qed.
Lemma written_reference_reads E s a : In a ref_keys -> validate E T_Reference (VDict [(a, VStr s)]) = Some (ref_value s, 1).
Proof. intros [<-|[<-|[]]]; reflexivity. Qed.
Lemma written_ref_weak E s a c k fs : In a ref_keys -> no_keys ref_keys fs = true -> weak (validate E (TModel c k fs) (VDict [(a, VStr s)])).
Proof.
  intros Ha Hn. destruct (validate E _ _) as [[w n]|] eqn:Ev; [|left; reflexivity]. right. exists w. repeat f_equal.
  cbn [validate] in Ev. apply vmodel_obj in Ev as (fv & Hf & _). eapply nothing_set; [|exact Hf]. intros key [<-|[]]. eapply no_keys_in; [exact Hn|exact Ha].
Qed.
Lemma write_mfs a b ex w : writes (VObj "MultiFormatSchema" (mfs_fields a b) ex) w -> exists own ex', w = VDict (dict_update own ex') /\ map fst ex' = map fst ex /\ In (u "schema") (map fst own)
  /\ forall k, In k (map fst own) -> In k [u "schemaFormat"; u "schema_format"; u "schema"].
Proof.
  intros H. apply writes_obj in H as (own & ex' & Ho & He & ->). rewrite (proj1 (linked_fields _ _ _ mfs_linked)) in Ho. exists own, ex'. split; [reflexivity|]. split; [exact (entries_keys _ _ He)|].
  assert (Hk := own_keys _ _ _ _ Ho eq_refl). split; [|intros k Hi; specialize (Hk k Hi); vm_compute in Hk; vm_compute; tauto]. unfold mfs_fields in Ho.
  assert (G : forall o, own_fields writes [(fld "schema" "schema" None false false FvNone, TAny)] [(u "schema", b)] o -> In (u "schema") (map fst o)).
  { intros o H. inversion H as [|? ? ? ? ? ? ? Hd H'|? ? ? ? ? ? own2 k2 y2 Hx2 Ha2 Hy2 H']; subst; [destruct Hd as [Hd|Hd]; discriminate Hd|]. left. destruct Ha2 as [-> | ->]; reflexivity. }
  inversion Ho as [|? ? ? ? ? ? ? Hd H|? ? ? ? ? ? own' k1 y1 Hx1 Ha1 Hy1 H]; subst; clear Ho; [exact (G _ H)|right; exact (G _ H)].
Qed.
Definition schema_keys : list pystr := [u "discriminator"; u "externalDocs"; u "external_docs"; u "deprecated"].
Lemma write_schema a b c ex w : writes (VObj "Schema" (schema_fields a b c) ex) w -> exists own ex', w = VDict (dict_update own ex') /\ entries_written ex ex'
  /\ (forall k, In k (map fst own) -> In k schema_keys) /\ (own = [] -> a = VNone /\ b = VNone /\ c = VNone).
Proof.
  intros H. apply writes_obj in H as (own & ex' & Ho & He & ->). rewrite (proj1 (linked_fields _ _ _ schema_linked)) in Ho. exists own, ex'. split; [reflexivity|]. split; [exact He|].
  assert (Hk := own_keys _ _ _ _ Ho eq_refl).
  split; [intros k Hi; specialize (Hk k Hi); vm_compute in Hk; vm_compute; tauto|]. intros ->. unfold schema_fields in Ho.
  inversion Ho as [|? ? ? ? ? ? ? Hd1 H1|]; subst; clear Ho. inversion H1 as [|? ? ? ? ? ? ? Hd2 H2|]; subst; clear H1. inversion H2 as [|? ? ? ? ? ? ? Hd3 H3|]; subst; clear H2.
  destruct Hd1 as [Hd1|Hd1]; [discriminate Hd1|]. destruct Hd2 as [Hd2|Hd2]; [discriminate Hd2|]. destruct Hd3 as [Hd3|Hd3]; [discriminate Hd3|].
  injection Hd1 as <-. injection Hd2 as <-. injection Hd3 as <-. auto.
Qed.
Lemma written_schema_not_reference E a b c ex w r : NoDup (map fst ex) -> Forall (fun kv => is_json (snd kv)) ex -> writes (VObj "Schema" (schema_fields a b c) ex) w ->
  validate E T_Reference w = Some r -> ambiguous (VObj "Schema" (schema_fields a b c) ex).
Proof.
  intros Hnd Hj Hw. apply write_schema in Hw as (own & ex' & -> & He & Hkeys & Hnil). apply (entries_json _ _ Hj) in He as ->. intros H.
  assert (Ho := reference_only E _ r H).
  assert (Hown : own = []).
  { destruct own as [|[k x] l]; [reflexivity|]. exfalso. assert (Hk : In k ref_keys) by (apply Ho, dict_update_key; left; left; reflexivity).
    specialize (Hkeys k (or_introl eq_refl)). destruct Hk as [<-|[<-|[]]]; vm_compute in Hkeys; intuition discriminate. }
  destruct (Hnil Hown) as (-> & -> & ->). subst own. rewrite dict_update_app in H by (try exact Hnd; intros ? ? []). cbn [app] in H.
  refine (schema_not_reference E VNone VNone VNone ex r Hnd Hj _). rewrite dump_schema, (dump_entries_json ex Hj). cbn [sometimes is_none app]. rewrite dict_update_app by (try exact Hnd; intros ? ? []). exact H.
Qed.
Lemma written_model_not_reference E c k fs v w : k <> KFree -> linked (TModel c k fs) = true -> wf_ty (TModel c k fs) = true -> no_keys ref_keys fs = true ->
  canon is_json E (TModel c k fs) v -> writes v w -> validate E T_Reference w = None.
Proof.
  intros Hk Hl Hw Hn (fv & ex & -> & Hf & Hj & Ha) H. apply writes_obj in H as (own & ex' & Ho & He & ->). rewrite (proj1 (linked_fields _ _ _ Hl)) in Ho.
  destruct (validate E T_Reference _) as [r|] eqn:Ev; [|reflexivity]. exfalso.
  apply reference_needs in Ev as (key & Hr & Hi). apply dict_update_key in Hi as [Hi|Hi].
  - apply (no_keys_in _ _ _ Hn Hr). exact (own_keys _ _ _ _ Ho (canon_fields_names _ _ _ _ Hf) key Hi).
  - rewrite (entries_keys _ _ He) in Hi. unfold after_ok in Ha. apply andb_prop in Ha as [Ha _]. destruct k.
    + cbn [extras_ok] in Ha. rewrite forallb_forall in Ha. apply in_map_iff in Hi as (kv & <- & Hi). apply Ha in Hi. apply ext_key_starts in Hi.
      destruct Hr as [Hr|[Hr|[]]]; rewrite <- Hr in Hi; discriminate Hi.
    + cbn [extras_ok] in Ha. destruct ex; [contradiction|discriminate Ha].
    + congruence.
Qed.
Lemma any_weak E w : weak (validate E (TDict TAny) w).
Proof. cbn [validate]. destruct w; try (left; reflexivity). rewrite vdict_any. right. eauto. Qed.
Lemma written_later E ti tj v w : apart_later ti tj = true -> linked ti = true -> wf_ty ti = true -> canon is_json E ti v -> python_dicts v -> ~ ambiguous v -> writes v w ->
  weak (validate E tj w).
Proof.
  unfold apart_later. intros H Hl Hw Hc Hp Hna Hwr. apply orb_prop in H as [H|H]; [apply orb_prop in H as [H|H]; [apply orb_prop in H as [H|H]|]|].
  - left. eapply apart_none; eauto.
  - destruct tj; try discriminate H. destruct tj; try discriminate H. apply any_weak.
  - apply andb_prop in H as [H1 H2]. apply ty_eqb_eq in H1. subst tj. left. destruct ti as [| | | | | | | | | | | | |c k fs|]; try discriminate H2. destruct k.
    + eapply written_model_not_reference; eauto. discriminate.
    + eapply written_model_not_reference; eauto. discriminate.
    + apply orb_prop in H2 as [H2|H2]; apply ty_eqb_eq in H2; rewrite H2 in *.
      * apply canon_mfs in Hc as (a & b & ex & -> & _). apply write_mfs in Hwr as (own & ex' & -> & _ & Hi & _). destruct (validate E T_Reference _) as [r|] eqn:Ev; [|reflexivity]. exfalso.
        assert (G := reference_only E _ r Ev (u "schema")). destruct G as [G|[G|[]]]; [|discriminate G|discriminate G]. apply dict_update_key. left. exact Hi.
      * apply canon_schema in Hc as (a & b & d & ex & -> & Hj). destruct (validate E T_Reference w) as [r|] eqn:Ev; [|reflexivity].
        destruct Hna. eapply written_schema_not_reference; [|exact Hj|exact Hwr|exact Ev]. exact (proj2 (pd_here _ Hp)).
  - apply andb_prop in H as [H1 H2]. apply ty_eqb_eq in H1, H2. subst ti tj. apply canon_mfs in Hc as (a & b & ex & -> & _). apply write_mfs in Hwr as (own & ex' & -> & Hke & _ & Hko).
    destruct (validate E T_Schema _) as [[x n]|] eqn:Ev; [|left; reflexivity]. right. exists x. repeat f_equal.
    unfold T_Schema in Ev. cbn [validate] in Ev. apply vmodel_obj in Ev as (fv & Hf & _). eapply nothing_set; [|exact Hf]. intros k Hk Hs.
    apply dict_update_key in Hk as [Hk|Hk].
    + apply Hko in Hk. destruct Hk as [<-|[<-|[<-|[]]]]; vm_compute in Hs; repeat (destruct Hs as [Hs|Hs]; [discriminate Hs|]); exact Hs.
    + rewrite Hke in Hk. apply Hna. cbn [ambiguous]. right. split; [reflexivity|]. exists k. split; [exact Hk|]. apply declared_keys. rewrite (proj1 (linked_fields _ _ _ schema_linked)). exact Hs.
Qed.
Lemma written_earlier E ti tj v w n : apart_earlier ti tj = true -> canon is_json E ti v -> ~ ambiguous v -> validate E tj v = None -> writes v w ->
  validate E ti w = Some (v, n) -> validate E tj w = None \/ (1 <= n /\ exists x, validate E tj w = Some (x, 0)).
Proof.
  unfold apart_earlier. intros H Hc Hna Hr Hwr Hv. apply orb_prop in H as [H|H]; [apply orb_prop in H as [H|H]; [apply orb_prop in H as [H|H]|]|].
  - left. eapply apart_none; eauto.
  - left. destruct ti as [| | | | | | | | |ti| | | | |]; try discriminate H. destruct ti; try discriminate H.
    cbn [canon] in Hc. destruct Hc as (d & -> & Hd). assert (Hj : is_json (VDict d)).
    { intros x Hx. inversion Hx as [|? y|? k y H1 H2| | |]; subst; [exact I|]. rewrite Forall_forall in Hd. exact (Hd _ H1 x H2). }
    rewrite (writes_json _ Hj _ Hwr). exact Hr.
  - apply andb_prop in H as [H1 H2]. apply ty_eqb_eq in H1. subst ti. apply canon_reference in Hc as [s ->]. apply write_reference in Hwr as (a & Ha & ->).
    rewrite (written_reference_reads E s a Ha) in Hv. injection Hv as <-.
    destruct tj as [| | | | | | | | | | | | |c k fs|]; try discriminate H2. destruct (written_ref_weak E s a c k fs Ha H2) as [->|[x ->]]; [left; reflexivity|right; eauto].
  - apply andb_prop in H as [H1 H2]. apply ty_eqb_eq in H1, H2. subst ti tj. left. apply canon_schema in Hc as (a & b & d & ex & -> & Hj). apply write_schema in Hwr as (own & ex' & -> & He & Hk & _).
    assert (Hs : ~ In (u "schema") (map fst (dict_update own ex'))).
    { intros Hi. apply dict_update_key in Hi as [Hi|Hi].
      - apply Hk in Hi. vm_compute in Hi. intuition discriminate.
      - rewrite (entries_keys _ _ He) in Hi. apply Hna. cbn [ambiguous]. left. split; [reflexivity|]. left. exact Hi. }
    unfold T_MultiFormatSchema. cbn [validate]. unfold vmodel. erewrite missing_required; [reflexivity|right; left; reflexivity|reflexivity|exact Hs|exact Hs].
Qed.

(** ** Reading back *)
Definition sound (v : pv) : Prop := python_dicts v /\ no_shadowing v /\ no_ambiguity v.
Lemma sound_closed : closed sound.
Proof. unfold sound. repeat apply closed_and; [apply pd_closed|apply ns_closed|apply na_closed]. Qed.
Lemma blanked_id fs : forall fv, map fst fv = map (fun ft => f_name (fst ft)) fs -> (forall fi t, In (fi, t) fs -> f_excl fi = false) -> blanked fs fv = fv.
Proof.
  induction fs as [|[fi t] fs IH]; intros [|[k x] fv] Hn H; try discriminate Hn; [reflexivity|]. cbn [map fst] in Hn. injection Hn as -> Hn. cbn [blanked]. unfold blank. rewrite (H fi t (or_introl eq_refl)).
  f_equal. apply IH; [exact Hn|]. intros gi t' Hi. exact (H gi t' (or_intror Hi)).
Qed.
Lemma faithful_written (fs : list (finfo * ty)) : forallb (fun ft : finfo * ty => faithful_field (fst ft)) fs = true -> forall fi t, In (fi, t) fs -> f_excl fi = false.
Proof. intros H fi t Hi. rewrite forallb_forall in H. specialize (H _ Hi). cbn [fst] in H. unfold faithful_field in H. apply andb_prop in H as [H _]. apply negb_true_iff. exact H. Qed.
Lemma vlist_written E t : forall l l', Forall2 writes l l' -> Forall (fun x => forall w, writes x w -> exists n, validate E t w = Some (x, n)) l -> exists n, vlist (validate E) t l' = Some (l, n).
Proof.
  induction 1 as [|x y l l' Hx H IH]; intros Hf; [exists 0; reflexivity|]. inversion Hf as [|? ? H1 H2]; subst. destruct (H1 _ Hx) as [n Hn]. destruct (IH H2) as [m Hm]. rewrite vlist_cons, Hn, Hm. eauto.
Qed.
Lemma vdict_written E t : forall d d', entries_written d d' -> Forall (fun kv => forall w, writes (snd kv) w -> exists n, validate E t w = Some (snd kv, n)) d -> exists n, vdict (validate E) t d' = Some (d, n).
Proof.
  induction 1 as [|[k x] [k' y] d d' [Hk Hx] H IH]; intros Hf; [exists 0; reflexivity|]. cbn [fst snd] in *. subst k'. inversion Hf as [|? ? H1 H2]; subst. cbn [snd] in H1. destruct (H1 _ Hx) as [n Hn]. destruct (IH H2) as [m Hm].
  rewrite vdict_cons, Hn, Hm. eauto.
Qed.
Theorem written_back E t : url_idem E -> linked t = true -> wf_ty t = true -> rt_ty t = true -> forall v, canon is_json E t v -> sound v ->
  forall w, writes v w -> exists n, validate E t w = Some (v, n).
Proof.
  intros Hu. induction t using ty_ind'; intros Hl Hw Hr v Hc Hq w Hwr.
  - cbn [canon] in Hc. rewrite (writes_json v Hc w Hwr). cbn [validate]. eauto.
  - cbn [canon] in Hc. destruct Hc as (s & -> & Hs). inversion Hwr; subst. cbn [validate]. rewrite Hs. eauto.
  - cbn [canon] in Hc. destruct Hc as (s & -> & Hs). inversion Hwr; subst. cbn [validate]. rewrite Hs. eauto.
  - cbn [canon] in Hc. destruct Hc as (z & ->). inversion Hwr; subst. cbn [validate]. eauto.
  - cbn [canon] in Hc. destruct Hc as (z & ->). inversion Hwr; subst. cbn [validate]. eauto.
  - cbn [canon] in Hc. destruct Hc as (s & -> & s0 & Hs). inversion Hwr; subst; cbn [validate]; rewrite (Hu _ _ _ Hs); eauto.
  - cbn [canon] in Hc. destruct Hc as (s & -> & Hs). inversion Hwr; subst. cbn [validate]. rewrite Hs. eauto.
  - cbn [canon] in Hc. destruct Hc as (s & -> & Hs). inversion Hwr; subst. cbn [validate]. rewrite Hs. eauto.
  - cbn [canon] in Hc. destruct Hc as (l & -> & Hcl). apply (cl_list _ sound_closed) in Hq. inversion Hwr as [|?|? l' HF| | |]; subst; [contradiction|]. cbn [validate].
    destruct (vlist_written E t l l' HF) as [n ->]; [|eauto]. rewrite Forall_forall in *. intros x Hx y Hy. exact (IHt Hl Hw Hr x (Hcl x Hx) (Hq x Hx) y Hy).
  - cbn [canon] in Hc. destruct Hc as (l & -> & Hcl). apply (cl_dict _ sound_closed) in Hq. inversion Hwr as [|?| |? l' HF| |]; subst; [contradiction|]. cbn [validate].
    destruct (vdict_written E t l l' HF) as [n ->]; [|eauto]. rewrite Forall_forall in *. intros x Hx y Hy. exact (IHt Hl Hw Hr (snd x) (Hcl x Hx) (Hq x Hx) y Hy).
  - cbn [canon] in Hc. destruct Hc as [->|Hc]; [inversion Hwr; subst; cbn [validate]; eauto|]. destruct (IHt Hl Hw Hr v Hc Hq w Hwr) as [n Hn]. cbn [validate].
    destruct w; try (exists n; exact Hn). apply writes_none in Hwr as ->. exists 0. reflexivity.
  - cbn [canon] in Hc. apply canon_union_split in Hc as (pre & t & post & -> & Hc & Hrp & Hrq). cbn [rt_ty] in Hr. apply andb_prop in Hr as [Hsep Hr].
    apply sep_split in Hsep as [Hse Hsl].
    assert (Hin : In t (pre ++ t :: post)) by (apply in_or_app; right; left; reflexivity).
    assert (Hlt := linked_union _ t Hl Hin). assert (Hwt := wf_union _ t Hw Hin). rewrite forallb_forall in Hr. rewrite Forall_forall in H.
    destruct (H t Hin Hlt Hwt (Hr t Hin) v Hc Hq w Hwr) as [n Hn]. exists n. cbn [validate]. rewrite map_app. cbn [map]. rewrite Hn.
    assert (Hna : ~ ambiguous v) by (apply (proj2 (proj2 Hq)); constructor).
    apply best_of_mid.
    + apply Forall_forall. intros r Hir. apply in_map_iff in Hir as (t' & <- & Hit). rewrite Forall_forall in Hse, Hrp.
      exact (written_earlier E t t' v w n (Hse t' Hit) Hc Hna (Hrp t' Hit) Hwr Hn).
    + apply Forall_forall. intros r Hir. apply in_map_iff in Hir as (t' & <- & Hit). rewrite Forall_forall in Hsl.
      exact (written_later E t t' v w (Hsl t' Hit) Hlt Hwt Hc (proj1 Hq) Hna Hwr).
  - discriminate Hr.
  - assert (Hc' := Hc). cbn [canon] in Hc'. destruct Hc' as (fv & ex & -> & Hf & _). cbn [rt_ty] in Hr. apply andb_prop in Hr as [Hff Hr].
    assert (Hn := canon_fields_names _ _ _ _ Hf). assert (Hx := faithful_written fs Hff). assert (Hre := blanked_id fs fv Hn Hx).
    destruct (model_read E c k fs fv ex w Hl Hw (proj1 Hq) (proj1 (proj2 Hq)) Hc) as [n Hb].
    { intros fi t Hi He. rewrite (Hx fi t Hi) in He. discriminate He. }
    { intros fi t x y Hi Hix _ Hcx Hxy. rewrite Forall_forall in H. rewrite forallb_forall in Hr.
      apply (H (fi, t) Hi) with (v := x); [apply (linked_sub c k fs (fi, t) Hl Hi)|apply (wf_sub c k fs (fi, t) Hw Hi)|exact (Hr _ Hi)|exact Hcx| |exact Hxy].
      apply (cl_obj _ sound_closed) in Hq as [Hq _]. rewrite Forall_forall in Hq. exact (Hq _ Hix). }
    { rewrite Hre. reflexivity. }
    { exact Hwr. }
    rewrite Hre in Hb. eauto.
  - cbn [canon] in Hc. destruct Hc as (l & -> & Hcl & Hk). apply (cl_root _ sound_closed) in Hq. inversion Hwr as [|?| | |? ? l' HF|]; subst; [contradiction|]. cbn [validate].
    apply linked_root_sub in Hl. destruct (vdict_written E t l l' HF) as [n ->]; [|rewrite Hk; eauto]. rewrite Forall_forall in *. intros x Hx y Hy. exact (IHt Hl Hw Hr (snd x) (Hcl x Hx) (Hq x Hx) y Hy).
Qed.
Lemma blanked_doc fs : forallb doc_field_ok fs = true -> forall fv, map fst fv = map (fun ft => f_name (fst ft)) fs ->
  blanked fs fv = map (fun kv => if mem_str (fst kv) [u "extra_converters"; u "extra_validators"] && String.eqb "AsyncAPI3" "AsyncAPI3" then (fst kv, VNone) else kv) fv.
Proof.
  induction fs as [|[fi t] fs IH]; intros Hok [|[k x] fv] Hn; try discriminate Hn; [reflexivity|]. cbn [map fst] in Hn. injection Hn as -> Hn. cbn [forallb] in Hok. apply andb_prop in Hok as [Hx Hok].
  cbn [blanked map fst]. f_equal; [|exact (IH Hok fv Hn)]. unfold doc_field_ok in Hx. cbn [fst snd] in Hx. unfold blank. destruct (mem_str (f_name fi) _).
  - apply andb_prop in Hx as [H1 H2]. rewrite H1. destruct (f_def fi) as [[]|]; try discriminate H2. reflexivity.
  - apply andb_prop in Hx as [H1 _]. unfold faithful_field in H1. apply andb_prop in H1 as [H1 _]. apply negb_true_iff in H1. rewrite H1. reflexivity.
Qed.
Lemma document_written E k fs v w : url_idem E -> linked (TModel "AsyncAPI3" k fs) = true -> wf_ty (TModel "AsyncAPI3" k fs) = true -> forallb doc_field_ok fs = true ->
  canon is_json E (TModel "AsyncAPI3" k fs) v -> sound v -> writes v w -> exists n, validate E (TModel "AsyncAPI3" k fs) w = Some (without_processors v, n).
Proof.
  intros Hu Hl Hw Hok Hc Hq Hwr. assert (Hc' := Hc). cbn [canon] in Hc'. destruct Hc' as (fv & ex & -> & Hf & _). assert (Hn := canon_fields_names _ _ _ _ Hf). assert (Hre := blanked_doc fs Hok fv Hn).
  assert (Ho := proj1 (forallb_forall _ _) Hok).
  destruct (model_read E "AsyncAPI3" k fs fv ex w Hl Hw (proj1 Hq) (proj1 (proj2 Hq)) Hc) as [n Hb].
  { intros fi t Hi He. specialize (Ho _ Hi). unfold doc_field_ok in Ho. cbn [fst snd] in Ho. destruct (mem_str _ _).
    - apply andb_prop in Ho as [_ Ho]. destruct (f_def fi); [discriminate|discriminate Ho].
    - apply andb_prop in Ho as [Ho _]. unfold faithful_field in Ho. rewrite He in Ho. discriminate Ho. }
  { intros fi t x y Hi Hx He Hcx Hxy. assert (Hrt : rt_ty t = true).
    { specialize (Ho _ Hi). unfold doc_field_ok in Ho. cbn [fst snd] in Ho. rewrite He in Ho. destruct (mem_str _ _); [discriminate Ho|]. apply andb_prop in Ho as [_ Ho]. exact Ho. }
    apply written_back with (v := x); [exact Hu|apply (linked_sub _ k fs (fi, t) Hl Hi)|apply (wf_sub _ k fs (fi, t) Hw Hi)|exact Hrt|exact Hcx| |exact Hxy].
    apply (cl_obj _ sound_closed) in Hq as [Hq _]. rewrite Forall_forall in Hq. exact (Hq _ Hx). }
  { reflexivity. }
  { exact Hwr. }
  rewrite Hre in Hb. cbn [without_processors]. eauto.
Qed.
Lemma any_written E t v w : url_idem E -> In t all_types -> canon is_json E t v -> sound v -> writes v w -> exists n, validate E t w = Some (without_processors v, n).
Proof.
  intros Hu Hi Hc Hq Hwr. assert (Hl := linked_all _ Hi). assert (Hw := wf_all _ Hi).
  assert (Hd := proj1 (forallb_forall _ _) all_types_dec t Hi). cbv beta in Hd. clear Hi.
  destruct t as [| | | | | | | | | | | | |c k fs|c t]; try discriminate Hd.
  - destruct (String.eqb_spec c "AsyncAPI3") as [->|Hne].
    + eapply document_written; eauto.
    + destruct (written_back E (TModel c k fs) Hu Hl Hw Hd v Hc Hq w Hwr) as [n Hn]. exists n. rewrite wp_other; [exact Hn|].
      intros fv ex ->. cbn [canon] in Hc. destruct Hc as (fv' & ex' & He & _). injection He as He _ _. congruence.
  - destruct (written_back E (TRoot c t) Hu Hl Hw Hd v Hc Hq w Hwr) as [n Hn]. exists n. rewrite wp_other; [exact Hn|].
    intros fv ex ->. cbn [canon] in Hc. destruct Hc as (d & He & _). discriminate He.
Qed.

(** ** The options of model_dump *)
Definition with_fields (o : options) : list (finfo * ty) -> fields -> fields :=
  fix go (fs : list (finfo * ty)) (fv : fields) {struct fv} : fields :=
    match fs, fv with
    | (fi, _) :: fs', (_, x) :: fv' => if left_out o fi x then go fs' fv' else (if o_names o then f_name fi else f_alias fi, dump_with o x) :: go fs' fv'
    | _, _ => []
    end.
Definition with_extras (o : options) : fields -> fields :=
  fix go (ex : fields) : fields :=
    match ex with
    | [] => []
    | (k, x) :: r => if o_none o && is_none x then go r else (k, dump_with o x) :: go r
    end.
Lemma dump_with_obj o c fv ex : dump_with o (VObj c fv ex) = VDict (dict_update (with_fields o (class_fields c) fv) (with_extras o ex)). Proof. reflexivity. Qed.
Lemma eq_default_eq d x : eq_default d x = true -> d = x.
Proof.
  destruct d, x; cbn [eq_default]; try discriminate; intros H; [reflexivity|apply Bool.eqb_prop in H|apply Z.eqb_eq in H|apply str_eqb_eq in H]; congruence.
Qed.
Definition dumpable (o : options) (v : pv) : Prop := no_null_over_default v /\ (o_none o = true -> nulls_omissible v).
Lemma no_closed : closed nulls_omissible.
Proof.
  constructor.
  - intros l H. apply Forall_forall. intros y Hy c' fv' ex' Hx. apply (H c' fv' ex'). eapply w_list; eauto.
  - intros d0 H. apply Forall_forall. intros [k y] Hy c' fv' ex' Hx. apply (H c' fv' ex'). eapply w_dict; eauto.
  - intros c fv ex H. split; apply Forall_forall; intros [k y] Hy c' fv' ex' Hx; apply (H c' fv' ex'); [eapply w_field|eapply w_extra]; eauto.
  - intros c d0 H. apply Forall_forall. intros [k y] Hy c' fv' ex' Hx. apply (H c' fv' ex'). eapply w_root; eauto.
Qed.
Lemma dumpable_closed o : closed (dumpable o).
Proof.
  unfold dumpable. apply closed_and; [exact nn_closed|]. destruct (o_none o).
  - assert (G := no_closed). destruct G as [G1 G2 G3 G4]. constructor.
    + intros l H. eapply Forall_impl; [|exact (G1 l (H eq_refl))]. auto.
    + intros l H. eapply Forall_impl; [|exact (G2 l (H eq_refl))]. auto.
    + intros c fv ex H. destruct (G3 c fv ex (H eq_refl)) as [G5 G6]. split; (eapply Forall_impl; [|eassumption]; auto).
    + intros c l H. eapply Forall_impl; [|exact (G4 c l (H eq_refl))]. auto.
  - constructor; [intros l H|intros l H|intros c fv ex H; split|intros c l H]; apply Forall_forall; intros ? _ Hd; discriminate Hd.
Qed.
Lemma json_writes o v : is_json v -> dump_with o v = v /\ writes v v.
Proof.
  induction v using pv_ind'; intros Hj; try (split; [reflexivity|apply wr_plain; exact I]); try (destruct (Hj _ (w_self _)); fail).
  - apply json_list in Hj. assert (G : map (dump_with o) l = l /\ Forall2 writes l l).
    { induction l as [|x l IH]; [split; [reflexivity|constructor]|]. inversion H; subst. inversion Hj; subst. destruct IH as [G1 G2]; [assumption|assumption|]. destruct (H2 ltac:(assumption)) as [G3 G4]. cbn [map]. rewrite G1, G3. split; [reflexivity|constructor; assumption]. }
    destruct G as [G1 G2]. cbn [dump_with]. rewrite G1. split; [reflexivity|apply wr_list; exact G2].
  - apply json_dict in Hj. assert (G : map (fun kv => match kv with (k, x) => (k, dump_with o x) end) d = d /\ entries_written d d).
    { induction d as [|[k x] d IH]; [split; [reflexivity|constructor]|]. inversion H; subst. inversion Hj; subst. destruct IH as [G1 G2]; [assumption|assumption|]. cbn [snd] in *. destruct (H2 ltac:(assumption)) as [G3 G4]. cbn [map]. rewrite G1, G3. split; [reflexivity|constructor; [split; [reflexivity|exact G4]|exact G2]]. }
    destruct G as [G1 G2]. cbn [dump_with]. rewrite G1. split; [reflexivity|apply wr_dict; exact G2].
Qed.
Lemma with_extras_writes o ex : Forall (fun kv => is_json (snd kv)) ex -> (o_none o = true -> forall k, ~ In (k, VNone) ex) -> entries_written ex (with_extras o ex).
Proof.
  induction ex as [|[k x] ex IH]; intros Hj Hn; [constructor|]. inversion Hj as [|? ? H1 H2]; subst. cbn [snd] in H1. destruct (json_writes o x H1) as [G1 G2]. cbn [with_extras].
  assert (Hr : entries_written ex (with_extras o ex)) by (apply IH; [exact H2|intros Ho k0 Hi; exact (Hn Ho k0 (or_intror Hi))]).
  destruct (o_none o && is_none x) eqn:Ez.
  - apply andb_prop in Ez as [Eo Ez]. apply is_none_iff in Ez. subst x. destruct (Hn Eo k (or_introl eq_refl)).
  - constructor; [|exact Hr]. split; [reflexivity|]. cbn [snd]. rewrite G1. exact G2.
Qed.
Lemma with_fields_writes o E fs : forall fv, canon_fields E (canon is_json E) fs fv ->
  (forall fi t x, In (fi, t) fs -> In (f_name fi, x) fv -> f_excl fi = false -> canon is_json E t x -> writes x (dump_with o x)) ->
  (forall fi t x, In (fi, t) fs -> In (f_name fi, x) fv -> left_out o fi x = true -> f_excl fi = true \/ f_def fi = Some x) ->
  own_fields writes fs fv (with_fields o fs fv).
Proof.
  induction fs as [|[fi t] fs IH]; intros [|[k x] fv] Hc Hw Hd; cbn [canon_fields] in Hc; try tauto; [constructor|]. destruct Hc as [(-> & Hcx & _) Hc]. cbn [with_fields].
  assert (Hr : own_fields writes fs fv (with_fields o fs fv)) by (apply IH; [exact Hc|intros gi t' z Hi Hz; apply (Hw gi t'); right; assumption|intros gi t' z Hi Hz; apply (Hd gi t'); right; assumption]).
  destruct (left_out o fi x) eqn:El.
  - apply of_left_out; [exact (Hd fi t x (or_introl eq_refl) (or_introl eq_refl) El)|exact Hr].
  - assert (He : f_excl fi = false) by (unfold left_out in El; destruct (f_excl fi); [discriminate El|reflexivity]).
    apply of_written; [exact He|destruct (o_names o); auto|exact (Hw fi t x (or_introl eq_refl) (or_introl eq_refl) He Hcx)|exact Hr].
Qed.
(** What is left out is the default. *)
Lemma left_out_default o c k fs fv ex fi t x : linked (TModel c k fs) = true -> wf_ty (TModel c k fs) = true -> map fst fv = map (fun ft => f_name (fst ft)) fs ->
  dumpable o (VObj c fv ex) -> In (fi, t) fs -> In (f_name fi, x) fv -> f_excl fi = true \/ (f_exnull fi = true -> f_def fi <> None) -> left_out o fi x = true -> f_excl fi = true \/ f_def fi = Some x.
Proof.
  intros Hl Hw Hn [Hnn Hno] Hi Hx Hreq Ho. destruct (f_excl fi) eqn:Ee; [left; reflexivity|]. right. destruct Hreq as [Hreq|Hreq]; [discriminate Hreq|]. unfold left_out in Ho. rewrite Ee in Ho. cbn [orb] in Ho.
  assert (Hcf := proj1 (linked_fields _ _ _ Hl)). assert (Has : assoc (f_name fi) fv = Some x) by (apply In_assoc; [rewrite Hn; eapply names_NoDup; exact Hw|exact Hx]).
  apply orb_prop in Ho as [Ho|Ho]; apply andb_prop in Ho as [H1 H2].
  - apply is_none_iff in H2. subst x. destruct (f_def fi) as [d|] eqn:Ed.
    + assert (Hdn : {d = VNone} + {d <> VNone}) by (destruct d; (left; reflexivity) || (right; discriminate)). destruct Hdn as [->|Hdn]; [reflexivity|]. exfalso.
      refine (Hnn c fv ex fi t d (w_self _) _ Ed Hdn Has). rewrite Hcf. exact Hi.
    + exfalso. apply orb_prop in H1 as [H1|H1]; [exact (Hreq H1 eq_refl)|]. destruct (Hno H1 c fv ex (w_self _)) as [_ G]. refine (G fi t _ Ed Has). rewrite Hcf. exact Hi.
  - destruct (f_def fi) as [d|]; [|discriminate H2]. apply eq_default_eq in H2. congruence.
Qed.
Lemma options_write o E t : linked t = true -> wf_ty t = true -> rt_ty t = true -> forall v, canon is_json E t v -> dumpable o v -> writes v (dump_with o v).
Proof.
  induction t using ty_ind'; intros Hl Hw Hr v Hc Hq.
  - cbn [canon] in Hc. destruct (json_writes o v Hc) as [-> G]. exact G.
  - destruct Hc as (s & -> & _). apply wr_plain. exact I.
  - destruct Hc as (s & -> & _). apply wr_plain. exact I.
  - destruct Hc as (s & ->). apply wr_plain. exact I.
  - destruct Hc as (s & ->). apply wr_plain. exact I.
  - destruct Hc as (s & -> & _). cbn [dump_with]. destruct (o_python o); [apply wr_plain; exact I|apply wr_url].
  - destruct Hc as (s & -> & _). apply wr_plain. exact I.
  - destruct Hc as (s & -> & _). apply wr_plain. exact I.
  - cbn [canon] in Hc. destruct Hc as (l & -> & Hcl). apply (cl_list _ (dumpable_closed o)) in Hq. cbn [dump_with]. apply wr_list.
    induction l as [|x l IHl]; [constructor|]. inversion Hcl; subst. inversion Hq; subst. constructor; [apply IHt; assumption|apply IHl; assumption].
  - cbn [canon] in Hc. destruct Hc as (l & -> & Hcl). apply (cl_dict _ (dumpable_closed o)) in Hq. cbn [dump_with]. apply wr_dict.
    induction l as [|[k x] l IHl]; [constructor|]. inversion Hcl; subst. inversion Hq; subst. constructor; [split; [reflexivity|apply IHt; assumption]|apply IHl; assumption].
  - cbn [canon] in Hc. destruct Hc as [->|Hc]; [apply wr_plain; exact I|exact (IHt Hl Hw Hr v Hc Hq)].
  - cbn [canon] in Hc. apply canon_union_split in Hc as (pre & t & post & -> & Hc & _). cbn [rt_ty] in Hr. apply andb_prop in Hr as [_ Hr].
    assert (Hin : In t (pre ++ t :: post)) by (apply in_or_app; right; left; reflexivity). rewrite forallb_forall in Hr. rewrite Forall_forall in H.
    exact (H t Hin (linked_union _ t Hl Hin) (wf_union _ t Hw Hin) (Hr t Hin) v Hc Hq).
  - discriminate Hr.
  - assert (Hc' := Hc). cbn [canon] in Hc'. destruct Hc' as (fv & ex & -> & Hf & Hj & _). cbn [rt_ty] in Hr. apply andb_prop in Hr as [Hff Hr]. assert (Hn := canon_fields_names _ _ _ _ Hf).
    rewrite dump_with_obj. apply wr_object; [|apply with_extras_writes; [exact Hj|intros Ho; exact (proj1 (proj2 Hq Ho c fv ex (w_self _)))]].
    rewrite (proj1 (linked_fields _ _ _ Hl)). apply (with_fields_writes o E); [exact Hf| |].
    + intros fi t x Hi Hx _ Hcx. rewrite Forall_forall in H. rewrite forallb_forall in Hr. apply (H (fi, t) Hi); [apply (linked_sub c k fs (fi, t) Hl Hi)|apply (wf_sub c k fs (fi, t) Hw Hi)|exact (Hr _ Hi)|exact Hcx|].
      apply (cl_obj _ (dumpable_closed o)) in Hq as [Hq _]. rewrite Forall_forall in Hq. exact (Hq _ Hx).
    + intros fi t x Hi Hx. eapply left_out_default; eauto. right. intros He. apply (rt_needs fs Hff fi t Hi). rewrite He. apply orb_true_r.
  - cbn [canon] in Hc. destruct Hc as (l & -> & Hcl & _). apply (cl_root _ (dumpable_closed o)) in Hq. cbn [dump_with]. apply wr_map. apply linked_root_sub in Hl.
    induction l as [|[k x] l IHl]; [constructor|]. inversion Hcl; subst. inversion Hq; subst. constructor; [split; [reflexivity|apply IHt; assumption]|apply IHl; assumption].
Qed.
Lemma document_options o E k fs v : linked (TModel "AsyncAPI3" k fs) = true -> wf_ty (TModel "AsyncAPI3" k fs) = true -> forallb doc_field_ok fs = true ->
  canon is_json E (TModel "AsyncAPI3" k fs) v -> dumpable o v -> writes v (dump_with o v).
Proof.
  intros Hl Hw Hok Hc Hq. assert (Hc' := Hc). cbn [canon] in Hc'. destruct Hc' as (fv & ex & -> & Hf & Hj & _). assert (Hn := canon_fields_names _ _ _ _ Hf). assert (Ho := proj1 (forallb_forall _ _) Hok).
  rewrite dump_with_obj. apply wr_object; [|apply with_extras_writes; [exact Hj|intros He; exact (proj1 (proj2 Hq He _ fv ex (w_self _)))]].
  rewrite (proj1 (linked_fields _ _ _ Hl)). apply (with_fields_writes o E); [exact Hf| |].
  - intros fi t x Hi Hx He Hcx. specialize (Ho _ Hi). unfold doc_field_ok in Ho. cbn [fst snd] in Ho. rewrite He in Ho. destruct (mem_str _ _); [discriminate Ho|]. apply andb_prop in Ho as [_ Ho].
    apply (options_write o E t); [apply (linked_sub _ k fs (fi, t) Hl Hi)|apply (wf_sub _ k fs (fi, t) Hw Hi)|exact Ho|exact Hcx|].
    apply (cl_obj _ (dumpable_closed o)) in Hq as [Hq _]. rewrite Forall_forall in Hq. exact (Hq _ Hx).
  - intros fi t x Hi Hx. eapply left_out_default; eauto. specialize (Ho _ Hi). unfold doc_field_ok in Ho. cbn [fst snd] in Ho. destruct (mem_str _ _).
    + apply andb_prop in Ho as [Ho _]. left. exact Ho.
    + apply andb_prop in Ho as [Ho _]. right. intros He. refine (rt_needs [(fi, t)] _ fi t (or_introl eq_refl) _); [cbn [forallb fst]; rewrite Ho; reflexivity|rewrite He; apply orb_true_r].
Qed.
Lemma any_options o E t v : In t all_types -> canon is_json E t v -> dumpable o v -> writes v (dump_with o v).
Proof.
  intros Hi Hc Hq. assert (Hl := linked_all _ Hi). assert (Hw := wf_all _ Hi).
  assert (Hd := proj1 (forallb_forall _ _) all_types_dec t Hi). cbv beta in Hd. clear Hi.
  destruct t as [| | | | | | | | | | | | |c k fs|c t]; try discriminate Hd.
  - destruct (String.eqb_spec c "AsyncAPI3") as [->|Hne].
    + eapply document_options; eauto.
    + exact (options_write o E (TModel c k fs) Hl Hw Hd v Hc Hq).
  - exact (options_write o E (TRoot c t) Hl Hw Hd v Hc Hq).
Qed.
