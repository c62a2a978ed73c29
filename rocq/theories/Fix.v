(** Canonical values are fixed points of validation (revalidate_instances="always"). *)
From Verif Require Import PyStr Regex Value Types Rules Pydantic ClassTable Classes Canon SpecParse ProofRules.

(** What [canon_fix] asks of an object: distinct extra keys and, in a class without a rule on extra
    keys, none spelled like a declared field. *)
Definition extras_fit (v : pv) : Prop :=
  forall c fv ex, v = VObj c fv ex -> NoDup (map fst ex)
    /\ (class_kind c = KFree -> forall k, In k (map fst ex) -> ~ In k (all_keys (class_infos c))).

Lemma dict_set_new k v d : ~ In k (map fst d) -> dict_set k v d = d ++ [(k, v)].
Proof.
  induction d as [|[k' v'] d IH]; simpl; intros H; [reflexivity|].
  destruct (str_eqb k k') eqn:E.
  - apply str_eqb_eq in E; subst. exfalso; apply H; left; reflexivity.
  - rewrite IH; [reflexivity|]. intros Hin; apply H; right; exact Hin.
Qed.
Lemma dict_update_app e : forall d, NoDup (map fst e) -> (forall k, In k (map fst e) -> ~ In k (map fst d)) ->
  dict_update d e = d ++ e.
Proof.
  unfold dict_update. induction e as [|[k v] e IH]; simpl; intros d Hnd Hdis; [rewrite app_nil_r; reflexivity|].
  inversion Hnd; subst. rewrite dict_set_new by (apply Hdis; left; reflexivity).
  rewrite IH; [rewrite <- app_assoc; reflexivity|assumption|].
  intros k' Hin. rewrite map_app, in_app_iff. intros [H|[H|[]]].
  - eapply Hdis; [right; exact Hin|exact H].
  - simpl in H; subst. contradiction.
Qed.

Lemma canon_fields_names E can fs : forall fv, canon_fields E can fs fv -> map fst fv = map (fun ft => f_name (fst ft)) fs.
Proof.
  induction fs as [|[fi t] fs IH]; intros [|[k v] fv]; cbn [canon_fields]; try tauto; intros H.
  destruct H as [(-> & _) H]. simpl. rewrite (IH _ H). reflexivity.
Qed.

Lemma infos_match_keys a : forall b, infos_match a b = true -> all_keys a = all_keys b.
Proof.
  induction a as [|x a IH]; intros [|y b]; simpl; intros H; try discriminate; [reflexivity|].
  repeat (apply andb_prop in H as [H ?H]). apply str_eqb_eq in H, H3.
  rewrite (IH _ H0). unfold field_keys. rewrite H, H3. reflexivity.
Qed.

Lemma field_keys_name fi : In (f_name fi) (field_keys fi).
Proof. unfold field_keys. destruct (str_eqb _ _); simpl; auto. Qed.
Lemma field_keys_alias fi : In (f_alias fi) (field_keys fi).
Proof.
  unfold field_keys. destruct (str_eqb (f_name fi) (f_alias fi)) eqn:E; simpl; auto.
  apply str_eqb_eq in E. auto.
Qed.
Lemma all_keys_in fi k fs : In fi fs -> In k (field_keys fi) -> In k (all_keys fs).
Proof. intros H1 H2. apply in_flat_map. exists fi; auto. Qed.

Lemma NoDup_app_inv {X} (a b : list X) : NoDup (a ++ b) -> NoDup a /\ NoDup b /\ (forall x, In x a -> ~ In x b).
Proof.
  induction a as [|x a IH]; simpl; intros H; [repeat split; [constructor|exact H|intros ? []]|].
  inversion H as [|? ? Hni Hnd]; subst. destruct (IH Hnd) as (Ha & Hb & Hd). repeat split.
  - constructor; [|exact Ha]. intros Hin; apply Hni, in_or_app; left; exact Hin.
  - exact Hb.
  - intros y [->|Hy]; [intros Hin; apply Hni, in_or_app; right; exact Hin|apply Hd; exact Hy].
Qed.

(** a key of one field is not a key of another *)
Lemma all_keys_names fs : NoDup (all_keys fs) -> NoDup (map f_name fs).
Proof.
  induction fs as [|fi fs IH]; simpl; intros H; [constructor|].
  apply NoDup_app_inv in H as (Ha & Hb & Hd). constructor; [|apply IH; exact Hb].
  intros Hin. apply (Hd (f_name fi) (field_keys_name fi)). apply in_map_iff in Hin as (g & Hg & Hin).
  apply (all_keys_in g); [exact Hin|]. rewrite <- Hg. apply field_keys_name.
Qed.
Lemma alias_not_name fs fi : NoDup (all_keys fs) -> In fi fs -> In (f_alias fi) (map f_name fs) ->
  f_alias fi = f_name fi.
Proof.
  induction fs as [|g fs IH]; simpl; intros H Hin Ha; [contradiction|].
  apply NoDup_app_inv in H as (H1 & H2 & Hd).
  destruct Hin as [->|Hin].
  - destruct Ha as [Ha|Ha]; [symmetry; exact Ha|].
    exfalso. apply (Hd (f_alias fi) (field_keys_alias fi)).
    apply in_map_iff in Ha as (g & Hg & Hin). apply (all_keys_in g); [exact Hin|]. rewrite <- Hg. apply field_keys_name.
  - destruct Ha as [Ha|Ha].
    + exfalso. apply (Hd (f_name g) (field_keys_name g)). rewrite Ha.
      apply (all_keys_in fi); [exact Hin|apply field_keys_alias].
    + apply IH; assumption.
Qed.

Section ModelFix.
  Context (E : env) (fs : list (finfo * ty)) (fv ex : fields).
  Hypothesis Hkeys : NoDup (all_keys (map fst fs)).
  Hypothesis Hnames : map fst fv = map (fun ft => f_name (fst ft)) fs.
  Hypothesis Hex : forall k, In k (map fst ex) -> ~ In k (all_keys (map fst fs)).

  Lemma names_eq : map fst fv = map f_name (map fst fs).
  Proof. rewrite Hnames, map_map. reflexivity. Qed.

  Lemma alias_lookup fi : In fi (map fst fs) ->
    has_key (f_alias fi) (fv ++ ex) = true -> f_alias fi = f_name fi.
  Proof.
    intros Hin H. apply has_key_iff in H. rewrite map_app in H. apply in_app_or in H as [H|H].
    - rewrite names_eq in H. eapply alias_not_name; eauto.
    - exfalso. apply (Hex _ H). apply (all_keys_in fi); [exact Hin|apply field_keys_alias].
  Qed.
  Lemma used_key_name fi : In fi (map fst fs) -> used_key (fv ++ ex) fi = f_name fi.
  Proof.
    intros Hin. unfold used_key. destruct (has_key (f_alias fi) (fv ++ ex)) eqn:E1; [|reflexivity].
    apply alias_lookup; assumption.
  Qed.
  Lemma lookup_self fi v : In fi (map fst fs) -> In (f_name fi, v) fv -> lookup_field fi (fv ++ ex) = Some v.
  Proof.
    intros Hin Hv. unfold lookup_field.
    assert (Hn : assoc (f_name fi) (fv ++ ex) = Some v).
    { rewrite assoc_app. rewrite (In_assoc (f_name fi) fv v); [reflexivity| |exact Hv].
      rewrite names_eq. apply all_keys_names. exact Hkeys. }
    destruct (assoc (f_alias fi) (fv ++ ex)) as [w|] eqn:Ea; [|exact Hn].
    assert (f_alias fi = f_name fi) as Hal.
    { apply alias_lookup; [exact Hin|]. apply has_key_iff. eapply assoc_Some_key; exact Ea. }
    rewrite Hal in Ea. congruence.
  Qed.
  Lemma extras_self : extras fs (fv ++ ex) = ex.
  Proof.
    unfold extras. assert (Hu : map (fun ft => used_key (fv ++ ex) (fst ft)) fs = map f_name (map fst fs)).
    { rewrite map_map. apply map_ext_in. intros ft Hin. apply used_key_name. apply in_map. exact Hin. }
    rewrite Hu, filter_app.
    assert (H1 : forall (l : fields), (forall kv, In kv l -> In (fst kv) (map f_name (map fst fs))) ->
       filter (fun kv => negb (mem_str (fst kv) (map f_name (map fst fs)))) l = []).
    { induction l as [|kv l IH]; intros Hl; simpl; [reflexivity|].
      assert (mem_str (fst kv) (map f_name (map fst fs)) = true) as -> by (apply mem_str_In, Hl; left; reflexivity).
      apply IH. intros kv' Hin. apply Hl; right; exact Hin. }
    rewrite H1.
    2:{ intros kv Hin. rewrite <- names_eq. apply in_map. exact Hin. }
    simpl. clear -Hex. induction ex as [|kv l IH]; simpl; [reflexivity|].
    assert (mem_str (fst kv) (map f_name (map fst fs)) = false) as ->.
    { apply mem_str_not_In. intros Hin. apply (Hex (fst kv)); [left; reflexivity|].
      apply in_map_iff in Hin as (fi & <- & Hfi). apply (all_keys_in fi); [exact Hfi|apply field_keys_name]. }
    simpl. f_equal. apply IH. intros k Hk. apply Hex. right; exact Hk.
  Qed.
End ModelFix.

Lemma vfields_fix E can (val : ty -> pv -> option (pv * nat)) kvs fs : forall fv,
  canon_fields E can fs fv ->
  (forall fi t v, In (fi, t) fs -> In (f_name fi, v) fv -> can t v -> exists n, val t v = Some (v, n)) ->
  (forall fi t v, In (fi, t) fs -> In (f_name fi, v) fv -> lookup_field fi kvs = Some v) ->
  exists n, vfields E val kvs fs = Some (fv, n).
Proof.
  induction fs as [|[fi t] fs IH]; intros [|[k v] fv] Hc Hval Hlk; cbn [canon_fields] in Hc; try tauto.
  - exists 0. reflexivity.
  - destruct Hc as [(-> & Hcan & Hf) Hc]. simpl.
    rewrite (Hlk fi t v) by (left; reflexivity).
    destruct (Hval fi t v) as [n ->]; [left; reflexivity|left; reflexivity|exact Hcan|].
    rewrite Hf.
    change ((fix go (l0 : list (finfo * ty)) : option (fields * nat) := _) fs) with (vfields E val kvs fs).
    destruct (IH fv Hc) as [m ->]; [| |eauto].
    + intros. eapply Hval; eauto; right; eassumption.
    + intros. eapply Hlk; eauto; right; eassumption.
Qed.

Lemma canon_union_best E v ts can : canon_union can (fun t' => validate E t' v = None) ts ->
  (forall t, In t ts -> can t -> exists n, validate E t v = Some (v, n)) ->
  exists n, best_of (map (fun t' => validate E t' v) ts) = Some (v, n).
Proof.
  induction ts as [|t ts IH]; simpl; [contradiction|]. intros [[Hc Hr]|[Hr Hc]] Hval.
  - destruct (Hval t (or_introl eq_refl) Hc) as [n ->]. exists n.
    rewrite best_of_none; [reflexivity|]. intros x Hin. apply in_map_iff in Hin as (t' & <- & Hin).
    rewrite Forall_forall in Hr. apply Hr; exact Hin.
  - rewrite Hr. apply IH; [exact Hc|]. intros t' Hin. apply Hval. right; exact Hin.
Qed.

Lemma ext_key_starts E k : ext_key_ok E k = true -> starts_with (u "x-") k = true.
Proof.
  intros H. apply ext_key_iff in H as (w & (w' & -> & _) & [->| ->]); apply starts_with_iff; [eauto|].
  exists (w' ++ nl). rewrite <- app_assoc. reflexivity.
Qed.
Lemma kind_eqb_eq a b : kind_eqb a b = true -> a = b.
Proof. destruct a, b; simpl; congruence. Qed.
Theorem canon_fix A (Q : pv -> Prop) E t : url_idem E -> closed Q -> (forall v, Q v -> extras_fit v) ->
  wf_ty t = true -> forall v, canon A E t v -> Q v -> exists n, validate E t v = Some (v, n).
Proof.
  intros Hurl HQ HQx. induction t using ty_ind'; intros Hwf v Hc Hu; cbn [validate canon] in *.
  - eauto.
  - destruct Hc as (s & -> & ->). eauto.
  - destruct Hc as (s & -> & ->). eauto.
  - destruct Hc as (z & ->). eauto.
  - destruct Hc as (z & ->). eauto.
  - destruct Hc as (s & -> & s0 & Hs0). rewrite (Hurl _ _ _ Hs0). eauto.
  - destruct Hc as (s & -> & ->). eauto.
  - destruct Hc as (s & -> & ->). eauto.
  - destruct Hc as (l & -> & Hl). apply (cl_list Q HQ) in Hu.
    assert (exists n, vlist (validate E) t l = Some (l, n)) as [n ->]; [|eauto].
    induction l as [|x l IHl]; simpl; [eauto|]. inversion Hl; subst. inversion Hu as [|? ? Hx Hu']; subst; clear Hu; rename Hu' into Hu.
    destruct (IHt Hwf x) as [n ->]; [assumption|exact Hx|].
    change ((fix go (l0 : list pv) : option (list pv * nat) := _) l) with (vlist (validate E) t l).
    destruct IHl as [m ->]; eauto.
  - destruct Hc as (l & -> & Hl). apply (cl_dict Q HQ) in Hu.
    assert (exists n, vdict (validate E) t l = Some (l, n)) as [n ->]; [|eauto].
    induction l as [|[k x] l IHl]; simpl; [eauto|]. inversion Hl; subst. inversion Hu as [|? ? Hx Hu']; subst; clear Hu; rename Hu' into Hu.
    destruct (IHt Hwf x) as [n ->]; [assumption|exact Hx|].
    change ((fix go (l0 : fields) : option (fields * nat) := _) l) with (vdict (validate E) t l).
    destruct IHl as [m ->]; eauto.
  - destruct Hc as [->|Hc]; [eauto|]. destruct (IHt Hwf v Hc Hu) as [n Hn].
    destruct v; try (exists n; exact Hn). eauto.
  - simpl in Hwf. apply andb_prop in Hwf as [Hok Hall]. rewrite forallb_forall in Hall. rewrite Forall_forall in H.
    eapply canon_union_best; [exact Hc|]. intros t Hin Ht. apply H; auto.
  - destruct Hc as (l & -> & ->). eauto.
  - destruct Hc as (fv & ex & -> & Hc & _ & Ha).
    cbn [wf_ty] in Hwf. apply andb_prop in Hwf as [Hm Hall]. unfold model_ok in Hm.
    apply andb_prop in Hm as [Hm Hkind]. apply andb_prop in Hm as [Hm Hinf].
    apply andb_prop in Hm as [Hm _]. apply andb_prop in Hm as [Hkeys Hxk]. apply nodupb_NoDup in Hkeys.
    destruct (HQx _ Hu c fv ex eq_refl) as [Hnd Hsh]. apply (cl_obj Q HQ) in Hu as [Huf _].
    assert (Hex : forall k, In k (map fst ex) -> ~ In k (all_keys (map fst fs))).
    { intros k0 Hin. apply kind_eqb_eq in Hkind. destruct k.
      - (* x- keys *) unfold after_ok in Ha. apply andb_prop in Ha as [Ha _]. simpl in Ha. rewrite forallb_forall in Ha, Hxk.
        apply in_map_iff in Hin as (kv & <- & Hin). apply Ha in Hin. intros Hd. apply Hxk in Hd.
        rewrite (ext_key_starts E (fst kv) Hin) in Hd. discriminate.
      - unfold after_ok in Ha. apply andb_prop in Ha as [Ha _]. simpl in Ha. destruct ex; [contradiction|discriminate].
      - rewrite (infos_match_keys _ _ Hinf). apply Hsh; auto. }
    assert (Hnames := canon_fields_names _ _ _ _ Hc).
    rewrite String.eqb_refl. unfold vmodel. rewrite dict_update_app.
    2: exact Hnd.
    2:{ intros k0 Hin Hin2. rewrite Hnames in Hin2. apply (Hex _ Hin).
        rewrite <- (map_map fst f_name) in Hin2. apply in_map_iff in Hin2 as (fi & <- & Hfi).
        apply (all_keys_in fi); [exact Hfi|apply field_keys_name]. }
    destruct (vfields_fix E (canon A E) (validate E) (fv ++ ex) fs fv Hc) as [n Hn].
    { intros fi t v Hin Hv Hcan. rewrite Forall_forall in H. rewrite forallb_forall in Hall. rewrite Forall_forall in Huf.
      apply (H (fi, t) Hin); [apply (Hall (fi, t) Hin)|exact Hcan|]. exact (Huf _ Hv). }
    { intros fi t v Hin Hv. eapply lookup_self; eauto. change fi with (fst (fi, t)). apply in_map. exact Hin. }
    rewrite Hn. rewrite (extras_self fs fv ex Hkeys Hnames Hex). rewrite Ha. eauto.
  - destruct Hc as (l & -> & Hl & Hk). apply (cl_root Q HQ) in Hu. rewrite String.eqb_refl.
    assert (exists n, vdict (validate E) t l = Some (l, n)) as [n ->].
    { clear Hk. induction l as [|[k x] l IHl]; simpl; [eauto|]. inversion Hl; subst. inversion Hu as [|? ? Hx Hu']; subst; clear Hu; rename Hu' into Hu.
      destruct (IHt Hwf x) as [n ->]; [assumption|exact Hx|].
      change ((fix go (l0 : fields) : option (fields * nat) := _) l) with (vdict (validate E) t l).
      destruct IHl as [m ->]; eauto. }
    rewrite Hk. eauto.
Qed.
