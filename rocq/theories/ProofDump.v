(** Proofs about serialisation. *)
From Verif Require Import PyStr Regex Value Types Rules Pydantic ClassTable Classes Canon Fix Linked SpecParse ProofRules ProofParse
  State SpecState ProofState Resolve SpecResolve ProofResolve Dump SpecDump.

Definition dump_fields (infos : list finfo) : fields -> fields :=
  fix go fv := match fv with
    | [] => []
    | (k, x) :: r => match out_key infos k x with Some a => (a, dump x) :: go r | None => go r end
    end.
Definition dump_entries (d : fields) : fields := map (fun kv => match kv with (k, x) => (k, dump x) end) d.
Lemma dump_obj c fv ex : dump (VObj c fv ex) = VDict (dict_update (dump_fields (class_infos c) fv) (dump_entries ex)).
Proof. reflexivity. Qed.
Lemma dump_entries_keys d : map fst (dump_entries d) = map fst d.
Proof. unfold dump_entries. rewrite map_map. apply map_ext. intros [k x]. reflexivity. Qed.

(** ** Plain data *)
Lemma json_list l : is_json (VList l) -> Forall is_json l.
Proof. intros H. apply Forall_forall. intros x Hx y Hy. apply H. eapply w_list; eauto. Qed.
Lemma json_dict d : is_json (VDict d) -> Forall (fun kv => is_json (snd kv)) d.
Proof. intros H. apply Forall_forall. intros [k x] Hx y Hy. apply H. eapply w_dict; eauto. Qed.
Lemma json_not_obj c fv ex : ~ is_json (VObj c fv ex).
Proof. intros H. exact (H _ (w_self _)). Qed.
Lemma json_not_root c d : ~ is_json (VRoot c d).
Proof. intros H. exact (H _ (w_self _)). Qed.
Lemma json_closed : closed is_json.
Proof.
  constructor; intros.
  - apply json_list; assumption.
  - apply json_dict; assumption.
  - destruct (json_not_obj _ _ _ H).
  - destruct (json_not_root _ _ H).
Qed.
Lemma dump_json v : is_json v -> dump v = v.
Proof.
  induction v using pv_ind'; intros Hj; try reflexivity.
  - destruct (Hj _ (w_self _)).
  - apply json_list in Hj. cbn [dump]. f_equal. induction H as [|x l Hx H IH]; [reflexivity|]. inversion Hj; subst. cbn [map]. f_equal; auto.
  - apply json_dict in Hj. cbn [dump]. f_equal. induction H as [|[k x] l Hx H IH]; [reflexivity|]. inversion Hj; subst. cbn [map snd] in *. f_equal; [|auto]. f_equal; auto.
  - destruct (json_not_obj _ _ _ Hj).
  - destruct (json_not_root _ _ Hj).
Qed.
Lemma dump_not_none v : v <> VNone -> dump v <> VNone.
Proof. destruct v; intros H1 H2; cbn [dump] in H2; try discriminate H2. apply H1. reflexivity. Qed.
Lemma dump_entries_json d : Forall (fun kv => is_json (snd kv)) d -> dump_entries d = d.
Proof.
  induction 1 as [|[k x] d Hx H IH]; [reflexivity|]. cbn [dump_entries map snd] in *. rewrite (dump_json x Hx). f_equal. exact IH.
Qed.

(** ** Fields *)
Definition written (fi : finfo) (x : pv) : bool := negb (f_excl fi || (f_exnull fi && is_none x)).
Fixpoint zdump (fs : list (finfo * ty)) (fv : fields) : fields :=
  match fs, fv with
  | (fi, _) :: fs', (_, x) :: fv' => if written fi x then (f_alias fi, dump x) :: zdump fs' fv' else zdump fs' fv'
  | _, _ => []
  end.
Lemma find_info_in fi infos : NoDup (map f_name infos) -> In fi infos -> find_info (f_name fi) infos = Some fi.
Proof.
  unfold find_info. induction infos as [|g infos IH]; intros Hd Hi; [contradiction|]. cbn [map] in Hd. inversion Hd as [|? ? Hn Hd']; subst.
  cbn [find]. destruct Hi as [->|Hi]; [rewrite str_eqb_refl; reflexivity|].
  destruct (str_eqb (f_name g) (f_name fi)) eqn:Ee; [|apply IH; assumption].
  apply str_eqb_eq in Ee. exfalso. apply Hn. rewrite Ee. apply in_map. exact Hi.
Qed.
Lemma dump_fields_cons infos k x r : dump_fields infos ((k, x) :: r) = match out_key infos k x with Some a => (a, dump x) :: dump_fields infos r | None => dump_fields infos r end.
Proof. reflexivity. Qed.
Lemma dump_fields_zip infos fs : NoDup (map f_name infos) -> (forall ft, In ft fs -> In (fst ft) infos) ->
  forall fv, map fst fv = map (fun ft => f_name (fst ft)) fs -> dump_fields infos fv = zdump fs fv.
Proof.
  intros Hd. induction fs as [|[fi t] fs IH]; intros Hi [|[k x] fv] Hn; try discriminate Hn; [reflexivity|].
  cbn [map fst] in Hn. injection Hn as -> Hn. rewrite dump_fields_cons. cbn [zdump].
  unfold out_key at 1. rewrite (find_info_in fi infos Hd (Hi _ (or_introl eq_refl))). unfold written.
  rewrite (IH (fun ft H => Hi ft (or_intror H)) fv Hn).
  destruct (f_excl fi || f_exnull fi && is_none x); reflexivity.
Qed.
Lemma zdump_in fs : forall fv a y, map fst fv = map (fun ft => f_name (fst ft)) fs -> In (a, y) (zdump fs fv) ->
  exists fi t x, In (fi, t) fs /\ In (f_name fi, x) fv /\ written fi x = true /\ a = f_alias fi /\ y = dump x.
Proof.
  induction fs as [|[fi t] fs IH]; intros [|[k x] fv] a y Hn Hi; try discriminate Hn; [contradiction|].
  cbn [map fst] in Hn. injection Hn as -> Hn. cbn [zdump] in Hi.
  assert (Hr : In (a, y) (zdump fs fv) -> exists fi0 t0 x0, In (fi0, t0) ((fi, t) :: fs) /\ In (f_name fi0, x0) ((f_name fi, x) :: fv) /\ written fi0 x0 = true /\ a = f_alias fi0 /\ y = dump x0).
  { intros H. destruct (IH _ _ _ Hn H) as (g & t' & z & H1 & H2 & H3). exists g, t', z. split; [right; exact H1|]. split; [right; exact H2|exact H3]. }
  destruct (written fi x) eqn:Ew; [|auto]. destruct Hi as [Hi|Hi]; [|auto]. injection Hi as <- <-.
  exists fi, t, x. split; [left; reflexivity|]. split; [left; reflexivity|]. auto.
Qed.
Lemma zdump_has fs : forall fv fi t x, map fst fv = map (fun ft => f_name (fst ft)) fs -> NoDup (map (fun ft => f_name (fst ft)) fs) ->
  In (fi, t) fs -> In (f_name fi, x) fv -> written fi x = true -> In (f_alias fi, dump x) (zdump fs fv).
Proof.
  induction fs as [|[g t'] fs IH]; intros [|[k y] fv] fi t x Hn Hd Hi Hx Hw; try discriminate Hn; [contradiction|].
  cbn [map fst] in Hn, Hd. injection Hn as -> Hn. inversion Hd as [|? ? Hni Hd']; subst. cbn [zdump].
  destruct Hi as [Hi|Hi].
  - injection Hi as -> ->. destruct Hx as [Hx|Hx].
    + injection Hx as ->. rewrite Hw. left. reflexivity.
    + exfalso. apply Hni. rewrite <- Hn. apply in_map with (f := fst) in Hx. exact Hx.
  - destruct Hx as [Hx|Hx].
    + exfalso. injection Hx as Hx _. apply Hni. rewrite Hx. apply in_map_iff. exists (fi, t). split; [reflexivity|exact Hi].
    + assert (Hr := IH fv fi t x Hn Hd' Hi Hx Hw). destruct (written g y); [right; exact Hr|exact Hr].
Qed.
Lemma key_owner infos fi fj k : NoDup (all_keys infos) -> In fi infos -> In fj infos -> In k (field_keys fi) -> In k (field_keys fj) -> fi = fj.
Proof.
  induction infos as [|g infos IH]; intros Hd Hi Hj Hk Hl; [contradiction|]. cbn [all_keys flat_map] in Hd.
  apply NoDup_app_inv in Hd as (_ & Hd & Hx). destruct Hi as [->|Hi], Hj as [->|Hj]; auto.
  - exfalso. apply (Hx k Hk). eapply all_keys_in; eauto.
  - exfalso. apply (Hx k Hl). eapply all_keys_in; eauto.
Qed.
Section Model.
  Context (fs : list (finfo * ty)) (fv dex : fields).
  Hypothesis Hkeys : NoDup (all_keys (map fst fs)).
  Hypothesis Hnames : map fst fv = map (fun ft => f_name (fst ft)) fs.
  Hypothesis Hex : forall k, In k (map fst dex) -> ~ In k (all_keys (map fst fs)).
  Lemma fs_names : NoDup (map (fun ft => f_name (fst ft)) fs).
  Proof. rewrite <- map_map. apply all_keys_names. exact Hkeys. Qed.
  Lemma value_unique k x y : In (k, x) fv -> In (k, y) fv -> x = y.
  Proof.
    intros H1 H2. assert (Hd : NoDup (map fst fv)) by (rewrite Hnames; exact fs_names).
    apply In_assoc in H1; [|exact Hd]. apply In_assoc in H2; [|exact Hd]. congruence.
  Qed.
  Lemma zdump_keys_in k : In k (map fst (zdump fs fv)) -> exists fi t x, In (fi, t) fs /\ In (f_name fi, x) fv /\ written fi x = true /\ k = f_alias fi.
  Proof.
    intros H. apply in_map_iff in H as ([a y] & <- & H). apply zdump_in in H as (fi & t & x & H1 & H2 & H3 & -> & _); [|exact Hnames].
    exists fi, t, x. auto.
  Qed.
  Lemma zdump_key_of fi t x k : In (fi, t) fs -> In (f_name fi, x) fv -> In k (field_keys fi) -> In k (map fst (zdump fs fv)) -> written fi x = true /\ k = f_alias fi.
  Proof.
    intros Hi Hx Hk H. apply zdump_keys_in in H as (fj & t' & y & H1 & H2 & H3 & ->).
    assert (fi = fj).
    { eapply key_owner; [exact Hkeys| | |exact Hk|apply field_keys_alias]; [change fi with (fst (fi, t))|change fj with (fst (fj, t'))]; apply in_map; assumption. }
    subst fj. rewrite (value_unique _ _ _ Hx H2). auto.
  Qed.
  Lemma zdump_nodup : NoDup (map fst (zdump fs fv)).
  Proof.
    clear Hex. revert fv Hnames Hkeys. induction fs as [|[fi t] l IH]; intros w Hn Hd; destruct w as [|[k x] w]; try discriminate Hn; [constructor|].
    cbn [map fst all_keys flat_map] in *. injection Hn as -> Hn. apply NoDup_app_inv in Hd as (_ & Hd & Hx). cbn [zdump].
    destruct (written fi x); [|apply IH; assumption]. cbn [map fst]. constructor; [|apply IH; assumption].
    intros Hi. apply in_map_iff in Hi as ([a y] & Ha & Hi). cbn [fst] in Ha. subst a.
    apply zdump_in in Hi as (fj & t' & z & H1 & _ & _ & He & _); [|exact Hn].
    apply (Hx (f_alias fi) (field_keys_alias fi)). eapply all_keys_in; [|rewrite He; apply field_keys_alias].
    change fj with (fst (fj, t')). apply in_map. exact H1.
  Qed.
  Lemma lookup_dump fi t x : In (fi, t) fs -> In (f_name fi, x) fv ->
    lookup_field fi (zdump fs fv ++ dex) = if written fi x then Some (dump x) else None.
  Proof.
    intros Hi Hx. assert (Hfi : In fi (map fst fs)) by (change fi with (fst (fi, t)); apply in_map; exact Hi).
    assert (Hdex : forall k, In k (field_keys fi) -> assoc k dex = None).
    { intros k Hk. apply assoc_None. intros H. apply (Hex k H). eapply all_keys_in; eauto. }
    unfold lookup_field. rewrite !assoc_app. destruct (written fi x) eqn:Ew.
    - rewrite (In_assoc (f_alias fi) (zdump fs fv) (dump x) zdump_nodup); [reflexivity|].
      eapply zdump_has; eauto. exact fs_names.
    - assert (Hz : forall k, In k (field_keys fi) -> assoc k (zdump fs fv) = None).
      { intros k Hk. apply assoc_None. intros H. destruct (zdump_key_of fi t x k Hi Hx Hk H) as [H1 _]. rewrite Ew in H1. discriminate H1. }
      rewrite (Hz _ (field_keys_alias fi)), (Hz _ (field_keys_name fi)), (Hdex _ (field_keys_alias fi)), (Hdex _ (field_keys_name fi)). reflexivity.
  Qed.
  Lemma extras_dump : extras fs (zdump fs fv ++ dex) = dex.
  Proof.
    unfold extras. set (used := map (fun ft => used_key (zdump fs fv ++ dex) (fst ft)) fs). rewrite filter_app.
    assert (H1 : filter (fun kv => negb (mem_str (fst kv) used)) (zdump fs fv) = []).
    { assert (Hl : forall kv, In kv (zdump fs fv) -> In (fst kv) used).
      { intros [a y] H. cbn [fst]. assert (Ha : In a (map fst (zdump fs fv))) by (change a with (fst (a, y)); apply in_map; exact H).
        destruct (zdump_keys_in a Ha) as (fi & t & x & H1 & _ & _ & ->). unfold used. apply in_map_iff. exists (fi, t). split; [|exact H1].
        unfold used_key. cbn [fst].
        assert (Hh : has_key (f_alias fi) (zdump fs fv ++ dex) = true) by (apply has_key_iff; rewrite map_app; apply in_or_app; left; exact Ha).
        rewrite Hh. reflexivity. }
      revert Hl. generalize used (zdump fs fv). clear. intros used l Hl. induction l as [|kv l IH]; [reflexivity|]. cbn [filter].
      assert (Hm : mem_str (fst kv) used = true) by (apply mem_str_In, Hl; left; reflexivity). rewrite Hm. cbn [negb].
      apply IH. intros kv' Hk. apply Hl. right. exact Hk. }
    rewrite H1. cbn [app].
    assert (Hl : forall kv, In kv dex -> mem_str (fst kv) used = false).
    { intros [a y] H. cbn [fst]. apply mem_str_not_In. intros Hu. unfold used in Hu. apply in_map_iff in Hu as ([fi t] & Hu & Hi).
      apply (Hex a); [change a with (fst (a, y)); apply in_map; exact H|]. cbn [fst] in Hu. unfold used_key in Hu.
      assert (Hfi : In fi (map fst fs)) by (change fi with (fst (fi, t)); apply in_map; exact Hi).
      destruct (has_key _ _); subst a; eapply all_keys_in; [exact Hfi|apply field_keys_alias|exact Hfi|apply field_keys_name]. }
    clear H1. revert Hl. generalize used. clear. intros used Hl. induction dex as [|kv l IH]; [reflexivity|]. cbn [filter].
    rewrite (Hl kv (or_introl eq_refl)). cbn [negb]. f_equal. apply IH. intros kv' H. apply Hl. right. exact H.
  Qed.
End Model.

(** Fields that are not written come back as their default. *)
Definition restored (fi : finfo) (x : pv) : pv :=
  if written fi x then x else match f_def fi with Some d => d | None => x end.
Fixpoint restore (fs : list (finfo * ty)) (fv : fields) : fields :=
  match fs, fv with
  | (fi, _) :: fs', (k, x) :: fv' => (k, restored fi x) :: restore fs' fv'
  | _, _ => []
  end.
Lemma vfields_dump E A kvs fs : forall fv, canon_fields E (canon A E) fs fv ->
  (forall fi t, In (fi, t) fs -> f_excl fi || f_exnull fi = true -> f_def fi <> None) ->
  (forall fi t x, In (fi, t) fs -> In (f_name fi, x) fv -> f_excl fi = false -> canon A E t x -> exists n, validate E t (dump x) = Some (x, n)) ->
  (forall fi t x, In (fi, t) fs -> In (f_name fi, x) fv -> lookup_field fi kvs = if written fi x then Some (dump x) else None) ->
  exists n, vfields E (validate E) kvs fs = Some (restore fs fv, n).
Proof.
  induction fs as [|[fi t] fs IH]; intros [|[k x] fv] Hc Hs Hv Hl; cbn [canon_fields] in Hc; try tauto; [exists 0; reflexivity|].
  destruct Hc as [(-> & Hcan & Hf) Hc]. rewrite vfields_cons. cbn [restore].
  destruct (IH fv Hc) as [m Hm].
  { intros gi t' Hi. apply (Hs gi t'). right. exact Hi. }
  { intros gi t' y Hi Hy. apply Hv; right; assumption. }
  { intros gi t' y Hi Hy. apply (Hl gi t'); right; assumption. }
  rewrite Hm.
  rewrite (Hl fi t x (or_introl eq_refl) (or_introl eq_refl)). unfold restored. destruct (written fi x) eqn:Ew.
  - assert (Hx : f_excl fi = false) by (unfold written in Ew; destruct (f_excl fi); [discriminate Ew|reflexivity]).
    destruct (Hv fi t x (or_introl eq_refl) (or_introl eq_refl) Hx Hcan) as [n Hn]. rewrite Hn, Hf. eauto.
  - destruct (f_def fi) as [d|] eqn:Ed; [eauto|]. exfalso. apply (Hs fi t (or_introl eq_refl)); [|exact Ed].
    unfold written in Ew. apply Bool.negb_false_iff in Ew. destruct (f_excl fi); [reflexivity|]. cbn [orb] in *. apply andb_prop in Ew as [Ew _]. exact Ew.
Qed.

(** ** Unions *)
Definition dshape (t : ty) : option shape :=
  match t with
  | TStr _ => Some SStr | TInt => Some SInt | TList _ => Some SList | TDict _ => Some SDict
  | TModel _ _ _ => Some SDict | _ => None
  end.
Definition shape_apart (ti tj : ty) : bool := match dshape ti with Some s => negb (in_ok tj s) | None => false end.
(** The dump of a [ti] is not taken for a [tj]. *)
Definition no_keys (l : list pystr) (fs : list (finfo * ty)) : bool := forallb (fun k => negb (mem_str k (all_keys (map fst fs)))) l.
Definition ref_keys : list pystr := [u "$ref"; u "ref"].
Definition apart_earlier (ti tj : ty) : bool :=
  shape_apart ti tj || is_dict_any ti
  || (ty_eqb ti T_Reference && match tj with TModel _ _ fs => no_keys ref_keys fs | _ => false end)
  || (ty_eqb ti T_Schema && ty_eqb tj T_MultiFormatSchema).
Definition apart_later (ti tj : ty) : bool :=
  shape_apart ti tj || is_dict_any tj
  || (ty_eqb tj T_Reference && match ti with TModel _ KExt fs | TModel _ KForbid fs => no_keys ref_keys fs | _ => ty_eqb ti T_MultiFormatSchema || ty_eqb ti T_Schema end)
  || (ty_eqb ti T_MultiFormatSchema && ty_eqb tj T_Schema).
Fixpoint sep_union (ts : list ty) : bool :=
  match ts with [] => true | t :: r => forallb (fun t' => apart_later t t' && apart_earlier t' t) r && sep_union r end.
Lemma sep_split pre t post : sep_union (pre ++ t :: post) = true ->
  Forall (fun t' => apart_earlier t t' = true) pre /\ Forall (fun t' => apart_later t t' = true) post.
Proof.
  induction pre as [|x pre IH]; cbn [app sep_union]; intros H; apply andb_prop in H as [H1 H2].
  - split; [constructor|]. apply Forall_forall. intros y Hy. rewrite forallb_forall in H1. specialize (H1 y Hy). apply andb_prop in H1 as [H1 _]. exact H1.
  - destruct (IH H2) as [H3 H4]. split; [|exact H4]. constructor; [|exact H3]. rewrite forallb_forall in H1.
    specialize (H1 t (in_or_app pre (t :: post) t (or_intror (or_introl eq_refl)))). apply andb_prop in H1 as [_ H1]. exact H1.
Qed.
Lemma canon_union_split can rej ts : canon_union can rej ts ->
  exists pre t post, ts = pre ++ t :: post /\ can t /\ Forall rej pre /\ Forall rej post.
Proof.
  induction ts as [|t ts IH]; cbn [canon_union]; [contradiction|]. intros [[H1 H2]|[H1 H2]].
  - exists [], t, ts. auto.
  - destruct (IH H2) as (pre & t' & post & -> & H3 & H4 & H5). exists (t :: pre), t', post. auto.
Qed.
Definition weak (r : option (pv * nat)) : Prop := r = None \/ exists w, r = Some (w, 0).
Lemma best_of_weak post : Forall weak post -> weak (best_of post).
Proof.
  induction 1 as [|x post [->|[w ->]] H IH]; cbn [best_of]; [left; reflexivity|exact IH|].
  right. exists w. destruct IH as [->|[w' ->]]; reflexivity.
Qed.
Lemma best_of_mid pre v n post : Forall (fun r => r = None \/ (1 <= n /\ exists w, r = Some (w, 0))) pre -> Forall weak post ->
  best_of (pre ++ Some (v, n) :: post) = Some (v, n).
Proof.
  intros Hp Hq. induction Hp as [|x pre Hx Hp IH]; cbn [app best_of].
  - destruct (best_of_weak post Hq) as [->|[w ->]]; [reflexivity|]. destruct n; reflexivity.
  - rewrite IH. destruct Hx as [->|[Hn [w ->]]]; [reflexivity|]. destruct n; [lia|reflexivity].
Qed.

(** Facts about reading a mapping with a model. *)
Lemma missing_required E val kvs fs fi t : In (fi, t) fs -> f_def fi = None ->
  ~ In (f_alias fi) (map fst kvs) -> ~ In (f_name fi) (map fst kvs) -> vfields E val kvs fs = None.
Proof.
  intros Hi Hd Ha Hn. induction fs as [|[g t'] fs IH]; [contradiction|]. rewrite vfields_cons. destruct Hi as [Hi|Hi].
  - injection Hi as -> ->. unfold lookup_field. rewrite (proj2 (assoc_None _ _) Ha), (proj2 (assoc_None _ _) Hn), Hd. reflexivity.
  - rewrite (IH Hi). destruct (lookup_field g kvs) as [x|]; [|destruct (f_def g); reflexivity].
    destruct (val t' x) as [[x' n]|]; [|reflexivity]. destruct (fv_check E (f_val g) x'); reflexivity.
Qed.
Lemma nothing_set E val kvs fs : (forall k, In k (map fst kvs) -> ~ In k (all_keys (map fst fs))) ->
  forall fv n, vfields E val kvs fs = Some (fv, n) -> n = 0.
Proof.
  induction fs as [|[fi t] fs IH]; intros Hk fv n H; [inversion H; reflexivity|]. rewrite vfields_cons in H.
  assert (Hl : forall k, In k (field_keys fi) -> assoc k kvs = None).
  { intros k Hi. apply assoc_None. intros Hn. apply (Hk k Hn). cbn [map all_keys flat_map fst]. apply in_or_app. left. exact Hi. }
  unfold lookup_field in H. rewrite (Hl _ (field_keys_alias fi)), (Hl _ (field_keys_name fi)) in H.
  destruct (f_def fi); [|discriminate]. destruct (vfields E val kvs fs) as [[r m]|]; [|discriminate]. inversion H; subst.
  eapply IH; [|reflexivity]. intros k Hi Hn. apply (Hk k Hi). cbn [map all_keys flat_map fst]. apply in_or_app. right. exact Hn.
Qed.
Lemma extra_key (fs : list (finfo * ty)) kvs k : In k (map fst kvs) -> ~ In k (all_keys (map fst fs)) -> In k (map fst (extras fs kvs)).
Proof.
  intros H Hn. apply in_map_iff in H as (kv & <- & H). apply in_map. unfold extras. apply filter_In. split; [exact H|].
  apply negb_true_iff, mem_str_not_In. intros Hu. apply in_map_iff in Hu as ([fi t] & Hu & Hi). apply Hn.
  assert (Hfi : In fi (map fst fs)) by (change fi with (fst (fi, t)); apply in_map; exact Hi).
  cbn [fst] in Hu. unfold used_key in Hu. destruct (has_key _ _); rewrite <- Hu; eapply all_keys_in; eauto; [apply field_keys_alias|apply field_keys_name].
Qed.
Lemma closed_extra E val c fs kvs k : In k (map fst kvs) -> ~ In k (all_keys (map fst fs)) -> vmodel E val c KForbid fs kvs = None.
Proof.
  intros H Hn. unfold vmodel. destruct (vfields E val kvs fs) as [[fv n]|]; [|reflexivity]. unfold after_ok, extras_ok.
  assert (Hx := extra_key fs kvs k H Hn). destruct (extras fs kvs); [contradiction|reflexivity].
Qed.
Lemma shape_apart_none E ti tj v : shape_apart ti tj = true -> (forall s, dshape ti = Some s -> vshape (dump v) = s) -> validate E tj (dump v) = None.
Proof.
  unfold shape_apart. destruct (dshape ti) as [s|]; [|discriminate]. intros H Hs. specialize (Hs s eq_refl).
  destruct (validate E tj (dump v)) eqn:Ev; [|reflexivity]. apply validate_in_ok in Ev. rewrite Hs in Ev. rewrite Ev in H. discriminate H.
Qed.
Lemma canon_dshape A E t v s : canon A E t v -> dshape t = Some s -> vshape (dump v) = s.
Proof.
  destruct t; cbn [dshape canon]; intros Hc Hs; try discriminate Hs; injection Hs as <-.
  - destruct Hc as (x & -> & _). reflexivity.
  - destruct Hc as (x & ->). reflexivity.
  - destruct Hc as (x & -> & _). reflexivity.
  - destruct Hc as (x & -> & _). reflexivity.
  - destruct Hc as (fv & ex & -> & _). rewrite dump_obj. reflexivity.
Qed.
(** Where a dumped object's keys come from. *)
Lemma dict_update_key e : forall d k, In k (map fst (dict_update d e)) <-> In k (map fst d) \/ In k (map fst e).
Proof.
  unfold dict_update. induction e as [|[a x] e IH]; intros d k; cbn [fold_left map fst In]; [tauto|]. rewrite IH. cbn [fst snd].
  rewrite dict_set_keys. destruct (has_key a d) eqn:Eh.
  - apply has_key_iff in Eh. split; [tauto|]. intros [H|[<-|H]]; auto.
  - rewrite in_app_iff. cbn [In]. tauto.
Qed.
Lemma linked_infos c k fs : linked (TModel c k fs) = true -> class_infos c = map fst fs.
Proof. intros H. exact (f_equal (map fst) (proj1 (linked_fields c k fs H))). Qed.
Lemma zip_keys_of (fs : list (finfo * ty)) fv ex key : NoDup (map (fun ft => f_name (fst ft)) fs) -> map fst fv = map (fun ft => f_name (fst ft)) fs ->
  In key (map fst (dict_update (dump_fields (map fst fs) fv) (dump_entries ex))) ->
  (exists fi t x, In (fi, t) fs /\ In (f_name fi, x) fv /\ written fi x = true /\ key = f_alias fi) \/ In key (map fst ex).
Proof.
  intros Hd Hn Hi. apply dict_update_key in Hi as [Hi|Hi]; [left|right; rewrite dump_entries_keys in Hi; exact Hi].
  rewrite (dump_fields_zip (map fst fs) fs) in Hi; [|rewrite map_map; exact Hd|intros ft H; apply in_map; exact H|exact Hn].
  apply in_map_iff in Hi as ([a y] & <- & Hi). apply zdump_in in Hi as (fi & t & x & H1 & H2 & H3 & -> & _); [|exact Hn].
  exists fi, t, x. auto.
Qed.
Lemma dump_linked c k fs fv ex : linked (TModel c k fs) = true -> dump (VObj c fv ex) = VDict (dict_update (dump_fields (map fst fs) fv) (dump_entries ex)).
Proof. intros H. exact (eq_trans (dump_obj c fv ex) (f_equal (fun i => VDict (dict_update (dump_fields i fv) (dump_entries ex))) (linked_infos c k fs H))). Qed.

Lemma no_keys_in l fs k : no_keys l fs = true -> In k l -> ~ In k (all_keys (map fst fs)).
Proof. unfold no_keys. rewrite forallb_forall. intros H Hi. apply mem_str_not_In, negb_true_iff, H, Hi. Qed.
Lemma reference_linked : linked T_Reference = true.
Proof. vm_compute. reflexivity. Qed.
Lemma schema_linked : linked T_Schema = true.
Proof. vm_compute. reflexivity. Qed.
Lemma mfs_linked : linked T_MultiFormatSchema = true.
Proof. vm_compute. reflexivity. Qed.
Lemma canon_reference A E v : canon A E T_Reference v -> exists s, v = ref_value s.
Proof.
  unfold T_Reference. cbn [canon]. intros (fv & ex & -> & Hf & _ & Ha). destruct fv as [|[k x] [|? ?]]; cbn [canon_fields] in Hf; try tauto.
  destruct Hf as [(-> & (s & -> & _) & _) _]. unfold after_ok, extras_ok in Ha. destruct ex; [|discriminate Ha]. exists s. reflexivity.
Qed.
Lemma dump_reference s : dump (ref_value s) = ref_input s.
Proof. unfold ref_value. rewrite (dump_linked _ _ _ _ _ reference_linked). reflexivity. Qed.
Definition mfs_fields (a b : pv) : fields := [(u "schema_format", a); (u "schema", b)].
Lemma canon_mfs A E v : canon A E T_MultiFormatSchema v -> exists a b ex, v = VObj "MultiFormatSchema" (mfs_fields a b) ex /\ A b.
Proof.
  unfold T_MultiFormatSchema. cbn [canon]. intros (fv & ex & -> & Hf & _ & Ha). destruct fv as [|[k x] [|[k' y] [|? ?]]]; cbn [canon_fields] in Hf; try tauto.
  destruct Hf as [(-> & (s & -> & _) & _) [(-> & Hy & _) _]]. exists (VStr s), y, ex. split; [reflexivity|exact Hy].
Qed.
Lemma dump_mfs a b ex : dump (VObj "MultiFormatSchema" (mfs_fields a b) ex)
  = VDict (dict_update [(u "schemaFormat", dump a); (u "schema", dump b)] (dump_entries ex)).
Proof. rewrite (dump_linked _ _ _ _ _ mfs_linked). reflexivity. Qed.
Definition schema_fields (a b c : pv) : fields := [(u "discriminator", a); (u "external_docs", b); (u "deprecated", c)].
Lemma canon_schema A E v : canon A E T_Schema v -> exists a b c ex, v = VObj "Schema" (schema_fields a b c) ex /\ Forall (fun kv => A (snd kv)) ex.
Proof.
  unfold T_Schema. cbn [canon]. intros (fv & ex & -> & Hf & Hex & Ha).
  destruct fv as [|[k x] [|[k' y] [|[k'' z] [|? ?]]]]; cbn [canon_fields] in Hf; try tauto.
  destruct Hf as [(-> & _) [(-> & _) [(-> & _) _]]]. exists x, y, z, ex. split; [reflexivity|exact Hex].
Qed.
Definition sometimes (k : pystr) (x : pv) : fields := if is_none x then [] else [(k, dump x)].
Lemma dump_schema a b c ex : dump (VObj "Schema" (schema_fields a b c) ex)
  = VDict (dict_update (sometimes (u "discriminator") a ++ sometimes (u "externalDocs") b ++ sometimes (u "deprecated") c) (dump_entries ex)).
Proof.
  rewrite (dump_linked _ _ _ _ _ schema_linked). unfold sometimes.
  destruct a, b, c; reflexivity.
Qed.
Lemma reference_only E kvs r : validate E T_Reference (VDict kvs) = Some r -> forall k, In k (map fst kvs) -> In k ref_keys.
Proof.
  intros H k Hk. destruct (mem_str k ref_keys) eqn:Em; [apply mem_str_In; exact Em|]. exfalso. apply mem_str_not_In in Em.
  unfold T_Reference in H. cbn [validate] in H. rewrite (closed_extra E (validate E) "Reference" _ kvs k Hk) in H; [discriminate H|].
  intros Hn. apply Em. vm_compute in Hn. destruct Hn as [<-|[<-|[]]]; [right; left|left]; reflexivity.
Qed.
Lemma reference_needs E kvs r : validate E T_Reference (VDict kvs) = Some r -> exists k, In k ref_keys /\ In k (map fst kvs).
Proof.
  intros H. destruct (mem_str (u "$ref") (map fst kvs)) eqn:E1; [exists (u "$ref"); split; [left; reflexivity|apply mem_str_In; exact E1]|].
  destruct (mem_str (u "ref") (map fst kvs)) eqn:E2; [exists (u "ref"); split; [right; left; reflexivity|apply mem_str_In; exact E2]|].
  apply mem_str_not_In in E1, E2. exfalso. unfold T_Reference in H. cbn [validate] in H. unfold vmodel in H.
  erewrite missing_required in H; [discriminate H|left; reflexivity|reflexivity|exact E1|exact E2].
Qed.
Lemma schema_not_reference E a b c ex r : NoDup (map fst ex) -> Forall (fun kv => is_json (snd kv)) ex ->
  validate E T_Reference (dump (VObj "Schema" (schema_fields a b c) ex)) = Some r -> ambiguous (VObj "Schema" (schema_fields a b c) ex).
Proof.
  intros Hnd Hj. rewrite dump_schema, (dump_entries_json ex Hj). intros H.
  set (own := sometimes (u "discriminator") a ++ sometimes (u "externalDocs") b ++ sometimes (u "deprecated") c) in H.
  assert (Ho := reference_only E _ r H).
  assert (Hown : own = []).
  { destruct own as [|[k x] l] eqn:Eo; [reflexivity|]. exfalso.
    assert (Hk : In k ref_keys) by (apply Ho, dict_update_key; left; left; reflexivity).
    assert (Hi : In (k, x) own) by (rewrite Eo; left; reflexivity). unfold own, sometimes in Hi.
    rewrite !in_app_iff in Hi.
    destruct Hi as [Hi|[Hi|Hi]].
    - destruct (is_none a); [contradiction|]. destruct Hi as [Hi|[]]. injection Hi as <- _. vm_compute in Hk. destruct Hk as [Hk|[Hk|[]]]; discriminate Hk.
    - destruct (is_none b); [contradiction|]. destruct Hi as [Hi|[]]. injection Hi as <- _. vm_compute in Hk. destruct Hk as [Hk|[Hk|[]]]; discriminate Hk.
    - destruct (is_none c); [contradiction|]. destruct Hi as [Hi|[]]. injection Hi as <- _. vm_compute in Hk. destruct Hk as [Hk|[Hk|[]]]; discriminate Hk. }
  assert (Hn : a = VNone /\ b = VNone /\ c = VNone).
  { unfold own, sometimes in Hown. destruct (is_none a) eqn:Ea; [|discriminate Hown]. destruct (is_none b) eqn:Eb; [|discriminate Hown].
    destruct (is_none c) eqn:Ec; [|discriminate Hown]. apply is_none_iff in Ea, Eb, Ec. auto. }
  rewrite Hown in H, Ho. clear own Hown. rewrite dict_update_app in H, Ho by (try exact Hnd; intros ? ? []). cbn [app] in H, Ho.
  destruct Hn as (-> & -> & ->). left. split; [reflexivity|]. right.
  assert (Hv : Forall (fun kv : pystr * pv => snd kv = VNone) (schema_fields VNone VNone VNone)) by (repeat constructor).
  destruct ex as [|[k x] [|[k' x'] ex]].
  - discriminate H.
  - exists k. assert (Hk := Ho k (or_introl eq_refl)). destruct Hk as [<-|[<-|[]]].
    + unfold T_Reference in H. cbn [validate] in H. destruct x; try discriminate H. eexists. split; [left; reflexivity|]. split; [reflexivity|exact Hv].
    + unfold T_Reference in H. cbn [validate] in H. destruct x; try discriminate H. eexists. split; [right; reflexivity|]. split; [reflexivity|exact Hv].
  - exfalso. assert (Hk := Ho k (or_introl eq_refl)). assert (Hk' := Ho k' (or_intror (or_introl eq_refl))).
    unfold T_Reference in H. cbn [validate] in H. apply (f_equal (fun r => match r with Some _ => true | None => false end)) in H. unfold vmodel in H.
    destruct (vfields E (validate E) _ _) as [[fv n]|]; [|discriminate H]. unfold after_ok, extras_ok in H.
    assert (Hx : forall l : fields, (l <> []) -> match l with [] => true | _ => false end = false) by (intros [|? ?] Hl; [destruct (Hl eq_refl)|reflexivity]).
    rewrite Hx in H; [discriminate H|].
    inversion Hnd as [|? ? Hni _]; subst. cbn [map fst] in Hni.
    destruct Hk as [<-|[<-|[]]], Hk' as [<-|[<-|[]]]; try (destruct Hni; left; reflexivity); discriminate.
Qed.
Lemma mfs_not_reference E a b ex : validate E T_Reference (dump (VObj "MultiFormatSchema" (mfs_fields a b) ex)) = None.
Proof.
  rewrite dump_mfs. destruct (validate E T_Reference _) as [r|] eqn:Ev; [|reflexivity]. exfalso.
  assert (H := reference_only E _ r Ev (u "schema")). destruct H as [H|[H|[]]]; [|discriminate H|discriminate H].
  apply dict_update_key. left. right. left. reflexivity.
Qed.
Lemma schema_not_mfs E a b c ex : ~ In (u "schema") (map fst ex) -> validate E T_MultiFormatSchema (dump (VObj "Schema" (schema_fields a b c) ex)) = None.
Proof.
  intros Hn. rewrite dump_schema. unfold T_MultiFormatSchema. cbn [validate]. unfold vmodel.
  assert (Hs : ~ In (u "schema") (map fst (dict_update (sometimes (u "discriminator") a ++ sometimes (u "externalDocs") b ++ sometimes (u "deprecated") c) (dump_entries ex)))).
  { intros H. apply dict_update_key in H as [H|H]; [|rewrite dump_entries_keys in H; exact (Hn H)].
    rewrite !map_app, !in_app_iff in H. unfold sometimes in H.
    destruct H as [H|[H|H]].
    - destruct (is_none a); [contradiction|]. destruct H as [H|[]]. discriminate H.
    - destruct (is_none b); [contradiction|]. destruct H as [H|[]]. discriminate H.
    - destruct (is_none c); [contradiction|]. destruct H as [H|[]]. discriminate H. }
  erewrite missing_required; [reflexivity|right; left; reflexivity|reflexivity|exact Hs|exact Hs].
Qed.
Lemma mfs_weak_schema E a b ex : (forall k, In k (map fst ex) -> ~ In k (all_keys (map fst (class_fields "Schema")))) ->
  weak (validate E T_Schema (dump (VObj "MultiFormatSchema" (mfs_fields a b) ex))).
Proof.
  rewrite (proj1 (linked_fields _ _ _ schema_linked)). intros Hn. rewrite dump_mfs.
  destruct (validate E T_Schema _) as [[w n]|] eqn:Ev; [|left; reflexivity]. right. exists w. repeat f_equal.
  unfold T_Schema in Ev. cbn [validate] in Ev. apply vmodel_obj in Ev as (fv & Hf & _). eapply nothing_set; [|exact Hf].
  intros k Hk. apply dict_update_key in Hk as [Hk|Hk]; [|rewrite dump_entries_keys in Hk; exact (Hn k Hk)].
  intros Hs. destruct Hk as [<-|[<-|[]]]; vm_compute in Hs; repeat (destruct Hs as [Hs|Hs]; [discriminate Hs|]); exact Hs.
Qed.
Lemma ref_weak E s c k fs : no_keys ref_keys fs = true -> weak (validate E (TModel c k fs) (ref_input s)).
Proof.
  intros Hn. destruct (validate E _ _) as [[w n]|] eqn:Ev; [|left; reflexivity]. right. exists w. repeat f_equal.
  cbn [validate ref_input] in Ev. apply vmodel_obj in Ev as (fv & Hf & _). eapply nothing_set; [|exact Hf].
  intros key [<-|[]]. eapply no_keys_in; [exact Hn|left; reflexivity].
Qed.
Lemma dict_any_weak E v : weak (validate E (TDict TAny) (dump v)).
Proof. cbn [validate]. destruct (dump v); try (left; reflexivity). rewrite vdict_any. right. eauto. Qed.
Lemma model_not_reference E c k fs v : k <> KFree -> linked (TModel c k fs) = true -> wf_ty (TModel c k fs) = true -> no_keys ref_keys fs = true ->
  canon is_json E (TModel c k fs) v -> validate E T_Reference (dump v) = None.
Proof.
  intros Hk Hl Hw Hn (fv & ex & -> & Hf & Hj & Ha). rewrite (dump_linked _ _ _ _ _ Hl).
  destruct (validate E T_Reference _) as [r|] eqn:Ev; [|reflexivity]. exfalso.
  apply reference_needs in Ev as (key & Hr & Hi). apply zip_keys_of in Hi as [(fi & t & x & H1 & _ & _ & ->)|Hi].
  - apply (no_keys_in _ _ _ Hn Hr). eapply all_keys_in; [|apply field_keys_alias]. change fi with (fst (fi, t)). apply in_map. exact H1.
  - unfold after_ok in Ha. apply andb_prop in Ha as [Ha _]. destruct k.
    + cbn [extras_ok] in Ha. rewrite forallb_forall in Ha. apply in_map_iff in Hi as (kv & <- & Hi). apply Ha in Hi. apply ext_key_starts in Hi.
      destruct Hr as [Hr|[Hr|[]]]; rewrite <- Hr in Hi; discriminate Hi.
    + cbn [extras_ok] in Ha. destruct ex; [contradiction|discriminate Ha].
    + congruence.
  - eapply names_NoDup; exact Hw.
  - eapply canon_fields_names; exact Hf.
Qed.
Lemma later_weak E ti tj v : apart_later ti tj = true -> linked ti = true -> wf_ty ti = true -> canon is_json E ti v -> python_dicts v -> ~ ambiguous v ->
  weak (validate E tj (dump v)).
Proof.
  unfold apart_later. intros H Hl Hw Hc Hp Hna. apply orb_prop in H as [H|H]; [apply orb_prop in H as [H|H]; [apply orb_prop in H as [H|H]|]|].
  - left. eapply shape_apart_none; [exact H|]. intros s. eapply canon_dshape. exact Hc.
  - destruct tj; try discriminate H. destruct tj; try discriminate H. apply dict_any_weak.
  - apply andb_prop in H as [H1 H2]. apply ty_eqb_eq in H1. subst tj. left. destruct ti as [| | | | | | | | | | | | |c k fs|]; try discriminate H2. destruct k.
    + eapply model_not_reference; eauto. discriminate.
    + eapply model_not_reference; eauto. discriminate.
    + apply orb_prop in H2 as [H2|H2]; apply ty_eqb_eq in H2; rewrite H2 in *.
      * apply canon_mfs in Hc as (a & b & ex & -> & _). apply mfs_not_reference.
      * apply canon_schema in Hc as (a & b & d & ex & -> & Hj). destruct (validate E T_Reference _) as [r|] eqn:Ev; [|reflexivity].
        destruct Hna. eapply schema_not_reference; [|exact Hj|exact Ev]. exact (proj2 (pd_here _ Hp)).
  - apply andb_prop in H as [H1 H2]. apply ty_eqb_eq in H1, H2. subst ti tj. apply canon_mfs in Hc as (a & b & ex & -> & _).
    apply mfs_weak_schema. intros k Hk Hd. apply Hna. cbn [ambiguous]. right. split; [reflexivity|]. exists k. split; [exact Hk|]. apply declared_keys. exact Hd.
Qed.
Lemma earlier_weak E ti tj v n : apart_earlier ti tj = true -> canon is_json E ti v -> ~ ambiguous v -> validate E tj v = None ->
  validate E ti (dump v) = Some (v, n) -> validate E tj (dump v) = None \/ (1 <= n /\ exists w, validate E tj (dump v) = Some (w, 0)).
Proof.
  unfold apart_earlier. intros H Hc Hna Hr Hv. apply orb_prop in H as [H|H]; [apply orb_prop in H as [H|H]; [apply orb_prop in H as [H|H]|]|].
  - left. eapply shape_apart_none; [exact H|]. intros s. eapply canon_dshape. exact Hc.
  - left. destruct ti as [| | | | | | | | |ti| | | | |]; try discriminate H. destruct ti; try discriminate H.
    cbn [canon] in Hc. destruct Hc as (d & -> & Hd). assert (Hj : is_json (VDict d)).
    { intros x Hx. inversion Hx as [|? y|? k y H1 H2| | |]; subst; [exact I|]. rewrite Forall_forall in Hd. exact (Hd _ H1 x H2). }
    rewrite (dump_json _ Hj). exact Hr.
  - apply andb_prop in H as [H1 H2]. apply ty_eqb_eq in H1. subst ti. apply canon_reference in Hc as [s ->].
    rewrite dump_reference in *. rewrite (reference_reads E s T_Reference eq_refl) in Hv. injection Hv as <-.
    destruct tj as [| | | | | | | | | | | | |c k fs|]; try discriminate H2. destruct (ref_weak E s c k fs H2) as [->|[w ->]]; [left; reflexivity|right; eauto].
  - apply andb_prop in H as [H1 H2]. apply ty_eqb_eq in H1, H2. subst ti tj. left. apply canon_schema in Hc as (a & b & d & ex & -> & Hj).
    apply schema_not_mfs. intros Hi. apply Hna. cbn [ambiguous]. left. split; [reflexivity|]. left. exact Hi.
Qed.

(** ** Reading back *)
Definition faithful_field (fi : finfo) : bool := negb (f_excl fi) && (negb (f_exnull fi) || match f_def fi with Some _ => true | None => false end).
Fixpoint rt_ty (t : ty) : bool :=
  match t with
  | TList t' | TDict t' | TOpt t' | TRoot _ t' => rt_ty t'
  | TUnion ts => sep_union ts && forallb rt_ty ts
  | TModel c k fs => forallb (fun ft => faithful_field (fst ft)) fs && forallb (fun ft => rt_ty (snd ft)) fs
  | TProcs => false
  | _ => true
  end.
Lemma all_rt : forallb (fun t => rt_ty t || match t with TModel c _ _ => String.eqb c "AsyncAPI3" | _ => false end) all_types = true.
Proof. vm_compute. reflexivity. Qed.
Definition restorable (v : pv) : Prop := python_dicts v /\ no_shadowing v /\ no_null_over_default v /\ no_ambiguity v.
Lemma within_closed (P : pv -> pv -> Prop) : closed (fun v => forall x, within x v -> P x x).
Proof.
  constructor.
  - intros l H. apply Forall_forall. intros y Hy x Hx. apply H. eapply w_list; eauto.
  - intros d H. apply Forall_forall. intros [k y] Hy x Hx. apply H. eapply w_dict; eauto.
  - intros c fv ex H. split; apply Forall_forall; intros [k y] Hy x Hx; apply H; [eapply w_field|eapply w_extra]; eauto.
  - intros c d H. apply Forall_forall. intros [k y] Hy x Hx. apply H. eapply w_root; eauto.
Qed.
Lemma nn_closed : closed no_null_over_default.
Proof.
  constructor.
  - intros l H. apply Forall_forall. intros y Hy c' fv' ex' fi t d Hx. apply (H c' fv' ex' fi t d). eapply w_list; eauto.
  - intros d0 H. apply Forall_forall. intros [k y] Hy c' fv' ex' fi t d Hx. apply (H c' fv' ex' fi t d). eapply w_dict; eauto.
  - intros c fv ex H. split; apply Forall_forall; intros [k y] Hy c' fv' ex' fi t d Hx; apply (H c' fv' ex' fi t d); [eapply w_field|eapply w_extra]; eauto.
  - intros c d0 H. apply Forall_forall. intros [k y] Hy c' fv' ex' fi t d Hx. apply (H c' fv' ex' fi t d). eapply w_root; eauto.
Qed.
Lemma na_closed : closed no_ambiguity.
Proof. exact (within_closed (fun x _ => ~ ambiguous x)). Qed.
Lemma closed_and P Q : closed P -> closed Q -> closed (fun v => P v /\ Q v).
Proof.
  intros HP HQ. constructor.
  - intros l [H1 H2]. apply (cl_list P HP) in H1. apply (cl_list Q HQ) in H2. rewrite Forall_forall in *. auto.
  - intros l [H1 H2]. apply (cl_dict P HP) in H1. apply (cl_dict Q HQ) in H2. rewrite Forall_forall in *. auto.
  - intros c fv ex [H1 H2]. apply (cl_obj P HP) in H1 as [H1 H1']. apply (cl_obj Q HQ) in H2 as [H2 H2']. rewrite !Forall_forall in *. auto.
  - intros c l [H1 H2]. apply (cl_root P HP) in H1. apply (cl_root Q HQ) in H2. rewrite Forall_forall in *. auto.
Qed.
Lemma restorable_closed : closed restorable.
Proof. unfold restorable. repeat apply closed_and; [apply pd_closed|apply ns_closed|apply nn_closed|apply na_closed]. Qed.
Lemma restore_id fs : forall fv, map fst fv = map (fun ft => f_name (fst ft)) fs ->
  (forall fi t x, In (fi, t) fs -> In (f_name fi, x) fv -> restored fi x = x) -> restore fs fv = fv.
Proof.
  induction fs as [|[fi t] fs IH]; intros [|[k x] fv] Hn H; try discriminate Hn; [reflexivity|]. cbn [map fst] in Hn. injection Hn as -> Hn.
  cbn [restore]. rewrite (H fi t x (or_introl eq_refl) (or_introl eq_refl)). f_equal. apply IH; [exact Hn|].
  intros gi t' y Hi Hy. apply (H gi t'); right; assumption.
Qed.
Lemma extras_apart E c k fs fv ex key : linked (TModel c k fs) = true -> wf_ty (TModel c k fs) = true -> no_shadowing (VObj c fv ex) -> after_ok E c k fv ex = true ->
  In key (map fst ex) -> ~ In key (all_keys (map fst fs)).
Proof.
  intros Hl Hw Hs Ha Hi. unfold after_ok in Ha. apply andb_prop in Ha as [Ha _].
  cbn [wf_ty] in Hw. apply andb_prop in Hw as [Hm _]. unfold model_ok in Hm.
  apply andb_prop in Hm as [Hm _]. apply andb_prop in Hm as [Hm _]. apply andb_prop in Hm as [Hm _]. apply andb_prop in Hm as [_ Hxk].
  destruct k.
  - cbn [extras_ok] in Ha. rewrite forallb_forall in Ha, Hxk. apply in_map_iff in Hi as (kv & <- & Hi). apply Ha in Hi. intros Hd. apply Hxk in Hd.
    rewrite (ext_key_starts E (fst kv) Hi) in Hd. discriminate Hd.
  - cbn [extras_ok] in Ha. destruct ex; [contradiction|discriminate Ha].
  - apply linked_fields in Hl as [Hf Hk]. intros Hd. refine (Hs c fv ex key (w_self _) Hk Hi _).
    rewrite Hf. apply declared_keys. exact Hd.
Qed.
Lemma wf_keys c k fs : wf_ty (TModel c k fs) = true -> NoDup (all_keys (map fst fs)).
Proof.
  intros Hw. cbn [wf_ty] in Hw. apply andb_prop in Hw as [Hm _]. unfold model_ok in Hm.
  apply andb_prop in Hm as [Hm _]. apply andb_prop in Hm as [Hm _]. apply andb_prop in Hm as [Hm _]. apply andb_prop in Hm as [Hm _].
  apply nodupb_NoDup. exact Hm.
Qed.
(** One object: everything written comes back, everything else is its default. *)
Lemma dump_flat c k fs fv ex : linked (TModel c k fs) = true -> wf_ty (TModel c k fs) = true -> map fst fv = map (fun ft => f_name (fst ft)) fs ->
  NoDup (map fst ex) -> (forall key, In key (map fst ex) -> ~ In key (all_keys (map fst fs))) ->
  Forall (fun kv => is_json (snd kv)) ex -> dump (VObj c fv ex) = VDict (zdump fs fv ++ ex).
Proof.
  intros Hl Hw Hn Hnd Hx Hj. rewrite (dump_linked _ _ _ _ _ Hl), (dump_entries_json ex Hj).
  rewrite (dump_fields_zip (map fst fs) fs); [|rewrite map_map; eapply names_NoDup; exact Hw|intros ft H; apply in_map; exact H|exact Hn].
  rewrite dict_update_app; [reflexivity|exact Hnd|].
  intros key Hi Hz. apply (Hx key Hi). apply in_map_iff in Hz as ([a y] & <- & Hz).
  apply zdump_in in Hz as (fi & t & x & H1 & _ & _ & -> & _); [|exact Hn]. eapply all_keys_in; [|apply field_keys_alias].
  change fi with (fst (fi, t)). apply in_map. exact H1.
Qed.
Lemma model_back E c k fs fv ex : linked (TModel c k fs) = true -> wf_ty (TModel c k fs) = true ->
  python_dicts (VObj c fv ex) -> no_shadowing (VObj c fv ex) -> canon is_json E (TModel c k fs) (VObj c fv ex) ->
  (forall fi t, In (fi, t) fs -> f_excl fi || f_exnull fi = true -> f_def fi <> None) ->
  (forall fi t x, In (fi, t) fs -> In (f_name fi, x) fv -> f_excl fi = false -> canon is_json E t x -> exists n, validate E t (dump x) = Some (x, n)) ->
  hook c (restore fs fv) = hook c fv ->
  exists n, validate E (TModel c k fs) (dump (VObj c fv ex)) = Some (VObj c (restore fs fv) ex, n).
Proof.
  intros Hl Hw Hp Hs Hc Hd Hv Hh. cbn [canon] in Hc. destruct Hc as (fv' & ex' & Heq & Hf & Hj & Ha). injection Heq as <- <-.
  assert (Hn := canon_fields_names _ _ _ _ Hf). assert (Hnd := proj2 (pd_here _ Hp)).
  assert (Hx := fun key => extras_apart E c k fs fv ex key Hl Hw Hs Ha). assert (Hk := wf_keys c k fs Hw).
  rewrite (dump_flat c k fs fv ex Hl Hw Hn Hnd Hx Hj). cbn [validate]. unfold vmodel.
  destruct (vfields_dump E is_json (zdump fs fv ++ ex) fs fv Hf Hd Hv) as [n Hr].
  { intros fi t x Hi Hix. eapply lookup_dump; eauto. }
  rewrite Hr, (extras_dump fs fv ex Hn Hx). unfold after_ok in *. rewrite Hh, Ha. eauto.
Qed.
Lemma rt_restored c k fs fv ex fi t x : linked (TModel c k fs) = true -> wf_ty (TModel c k fs) = true -> map fst fv = map (fun ft => f_name (fst ft)) fs ->
  no_null_over_default (VObj c fv ex) -> In (fi, t) fs -> In (f_name fi, x) fv -> faithful_field fi = true -> restored fi x = x.
Proof.
  intros Hl Hw Hn Hnn Hi Hx Hf. unfold restored. destruct (written fi x) eqn:Ew; [reflexivity|]. destruct (f_def fi) as [d|] eqn:Ed; [|reflexivity].
  unfold faithful_field in Hf. apply andb_prop in Hf as [Hf _]. apply negb_true_iff in Hf. unfold written in Ew. rewrite Hf in Ew. cbn [orb] in Ew.
  apply negb_false_iff in Ew. apply andb_prop in Ew as [_ Ew]. apply is_none_iff in Ew. subst x.
  assert (Hnm : {d = VNone} + {d <> VNone}) by (destruct d; (left; reflexivity) || (right; discriminate)).
  destruct Hnm as [Hnm|Hnm]; [exact Hnm|]. exfalso.
  apply linked_fields in Hl as [Hcf _]. apply (Hnn c fv ex fi t d (w_self _)); [rewrite Hcf; exact Hi|exact Ed|exact Hnm|].
  apply In_assoc; [|exact Hx]. rewrite Hn. eapply names_NoDup. exact Hw.
Qed.
Lemma rt_needs fs : forallb (fun ft : finfo * ty => faithful_field (fst ft)) fs = true ->
  forall fi t, In (fi, t) fs -> f_excl fi || f_exnull fi = true -> f_def fi <> None.
Proof.
  intros H fi t Hi Hx. rewrite forallb_forall in H. specialize (H _ Hi). cbn [fst] in H. unfold faithful_field in H.
  apply andb_prop in H as [H1 H2]. apply negb_true_iff in H1. rewrite H1 in Hx. cbn [orb] in Hx. rewrite Hx in H2. cbn [negb orb] in H2.
  destruct (f_def fi); [discriminate|discriminate H2].
Qed.
Lemma vlist_cons val t x l : vlist val t (x :: l) = match val t x with None => None
  | Some (x', n) => match vlist val t l with None => None | Some (r', m) => Some (x' :: r', n + m) end end.
Proof. reflexivity. Qed.
Lemma vdict_cons val t k x l : vdict val t ((k, x) :: l) = match val t x with None => None
  | Some (x', n) => match vdict val t l with None => None | Some (r', m) => Some ((k, x') :: r', n + m) end end.
Proof. reflexivity. Qed.
Lemma dump_entries_cons k x l : dump_entries ((k, x) :: l) = (k, dump x) :: dump_entries l.
Proof. reflexivity. Qed.
Theorem dump_back E t : url_idem E -> linked t = true -> wf_ty t = true -> rt_ty t = true -> forall v, canon is_json E t v -> restorable v ->
  exists n, validate E t (dump v) = Some (v, n).
Proof.
  intros Hu. induction t using ty_ind'; intros Hl Hw Hr v Hc Hq.
  - cbn [canon] in Hc. rewrite (dump_json v Hc). cbn [validate]. eauto.
  - cbn [canon] in Hc. destruct Hc as (s & -> & Hs). cbn [validate dump]. rewrite Hs. eauto.
  - cbn [canon] in Hc. destruct Hc as (s & -> & Hs). cbn [validate dump]. rewrite Hs. eauto.
  - cbn [canon] in Hc. destruct Hc as (z & ->). cbn [validate dump]. eauto.
  - cbn [canon] in Hc. destruct Hc as (z & ->). cbn [validate dump]. eauto.
  - cbn [canon] in Hc. destruct Hc as (s & -> & s0 & Hs). cbn [validate dump]. rewrite (Hu _ _ _ Hs). eauto.
  - cbn [canon] in Hc. destruct Hc as (s & -> & Hs). cbn [validate dump]. rewrite Hs. eauto.
  - cbn [canon] in Hc. destruct Hc as (s & -> & Hs). cbn [validate dump]. rewrite Hs. eauto.
  - cbn [canon] in Hc. destruct Hc as (l & -> & Hcl). apply (cl_list _ restorable_closed) in Hq. cbn [validate dump].
    assert (exists n, vlist (validate E) t (map dump l) = Some (l, n)) as [n ->]; [|eauto].
    induction l as [|x l IHl]; [exists 0; reflexivity|]. inversion Hcl; subst. inversion Hq as [|? ? Hx Hq']; subst.
    destruct (IHt Hl Hw Hr x) as [n Hn]; [assumption|exact Hx|]. destruct IHl as [m Hm]; [assumption|assumption|].
    cbn [map]. rewrite vlist_cons, Hn, Hm. eauto.
  - cbn [canon] in Hc. destruct Hc as (l & -> & Hcl). apply (cl_dict _ restorable_closed) in Hq. cbn [validate dump].
    change (map (fun kv => match kv with (k, x) => (k, dump x) end) l) with (dump_entries l).
    assert (exists n, vdict (validate E) t (dump_entries l) = Some (l, n)) as [n ->]; [|eauto].
    induction l as [|[k x] l IHl]; [exists 0; reflexivity|]. inversion Hcl; subst. inversion Hq as [|? ? Hx Hq']; subst. cbn [snd] in *.
    destruct (IHt Hl Hw Hr x) as [n Hn]; [assumption|exact Hx|]. destruct IHl as [m Hm]; [assumption|assumption|].
    rewrite dump_entries_cons, vdict_cons, Hn, Hm. eauto.
  - cbn [canon] in Hc. destruct Hc as [->|Hc]; [cbn [validate dump]; eauto|]. destruct (IHt Hl Hw Hr v Hc Hq) as [n Hn]. cbn [validate].
    destruct (dump v) eqn:Ed; try (exists n; exact Hn). exists 0.
    assert (v = VNone) as -> by (destruct v; cbn [dump] in Ed; try discriminate Ed; reflexivity). reflexivity.
  - cbn [canon] in Hc. apply canon_union_split in Hc as (pre & t & post & -> & Hc & Hrp & Hrq). cbn [rt_ty] in Hr. apply andb_prop in Hr as [Hsep Hr].
    apply sep_split in Hsep as [Hse Hsl].
    assert (Hin : In t (pre ++ t :: post)) by (apply in_or_app; right; left; reflexivity).
    assert (Hlt := linked_union _ t Hl Hin). assert (Hwt := wf_union _ t Hw Hin). rewrite forallb_forall in Hr. rewrite Forall_forall in H.
    destruct (H t Hin Hlt Hwt (Hr t Hin) v Hc Hq) as [n Hn]. exists n. cbn [validate]. rewrite map_app. cbn [map]. rewrite Hn.
    assert (Hna : ~ ambiguous v) by (apply (proj2 (proj2 (proj2 Hq))); constructor).
    apply best_of_mid.
    + apply Forall_forall. intros r Hir. apply in_map_iff in Hir as (t' & <- & Hit). rewrite Forall_forall in Hse, Hrp.
      eapply earlier_weak; [exact (Hse t' Hit)|exact Hc|exact Hna|exact (Hrp t' Hit)|exact Hn].
    + apply Forall_forall. intros r Hir. apply in_map_iff in Hir as (t' & <- & Hit). rewrite Forall_forall in Hsl.
      eapply later_weak; [exact (Hsl t' Hit)|exact Hlt|exact Hwt|exact Hc|exact (proj1 Hq)|exact Hna].
  - discriminate Hr.
  - assert (Hc' := Hc). cbn [canon] in Hc'. destruct Hc' as (fv & ex & -> & Hf & _). cbn [rt_ty] in Hr. apply andb_prop in Hr as [Hff Hr].
    assert (Hn := canon_fields_names _ _ _ _ Hf).
    assert (Hre : restore fs fv = fv).
    { apply restore_id; [exact Hn|]. intros fi t x Hi Hx. eapply rt_restored; eauto; [exact (proj1 (proj2 (proj2 Hq)))|].
      rewrite forallb_forall in Hff. exact (Hff _ Hi). }
    destruct (model_back E c k fs fv ex Hl Hw (proj1 Hq) (proj1 (proj2 Hq)) Hc (rt_needs fs Hff)) as [n Hb].
    { intros fi t x Hi Hx _ Hcx. rewrite Forall_forall in H. rewrite forallb_forall in Hr. apply (H (fi, t) Hi); [apply (linked_sub c k fs (fi, t) Hl Hi)|apply (wf_sub c k fs (fi, t) Hw Hi)|exact (Hr _ Hi)|exact Hcx|].
      apply (cl_obj _ restorable_closed) in Hq as [Hq _]. rewrite Forall_forall in Hq. exact (Hq _ Hx). }
    { rewrite Hre. reflexivity. }
    rewrite Hre in Hb. eauto.
  - cbn [canon] in Hc. destruct Hc as (l & -> & Hcl & Hk). apply (cl_root _ restorable_closed) in Hq. cbn [validate dump].
    change (map (fun kv => match kv with (k, x) => (k, dump x) end) l) with (dump_entries l).
    assert (exists n, vdict (validate E) t (dump_entries l) = Some (l, n)) as [n ->]; [|rewrite Hk; eauto].
    clear Hk. apply linked_root_sub in Hl.
    induction l as [|[k x] l IHl]; [exists 0; reflexivity|]. inversion Hcl; subst. inversion Hq as [|? ? Hx Hq']; subst. cbn [snd] in *.
    destruct (IHt Hl Hw Hr x) as [n Hn]; [assumption|exact Hx|]. destruct IHl as [m Hm]; [assumption|assumption|].
    rewrite dump_entries_cons, vdict_cons, Hn, Hm. eauto.
Qed.
Lemma each_Forall P ts : each P ts -> Forall P ts.
Proof. induction ts as [|t ts IH]; cbn [each]; intros H; [constructor|]. destruct H. constructor; auto. Qed.
Lemma json_data_canon E t : forall v, canon (fun _ => True) E t v -> json_data t v -> canon is_json E t v.
Proof.
  induction t using ty_ind'; intros v Hc Hj; cbn [canon json_data] in *; try exact Hc; try exact Hj.
  - destruct Hc as (l & -> & Hc). exists l. split; [reflexivity|]. rewrite Forall_forall in *. auto.
  - destruct Hc as (l & -> & Hc). exists l. split; [reflexivity|]. rewrite Forall_forall in *. auto.
  - destruct Hc as [->|Hc]; [left; reflexivity|]. destruct Hj as [->|Hj]; [left; reflexivity|]. right. auto.
  - apply each_Forall in Hj. revert Hc. induction ts as [|t ts IH]; cbn [canon_union]; [tauto|].
    inversion H; subst. inversion Hj; subst. intros [[H1 H2']|[H1 H2']]; [left|right]; auto.
  - destruct Hc as (fv & ex & -> & Hf & _ & Ha). destruct (Hj eq_refl) as [Hjf Hjx]. exists fv, ex. split; [reflexivity|]. split; [|auto].
    clear Ha Hj Hjx. revert fv Hf Hjf. induction fs as [|[fi t] fs IH]; intros [|[k' x] fv] Hf Hj; cbn [canon_fields json_fields] in *; try tauto.
    inversion H; subst. destruct Hf as [(-> & H1 & H4) H5]. destruct Hj as [Hj1 Hj2]. cbn [snd] in *. split; [|apply IH; assumption]. auto.
  - destruct Hc as (d & -> & Hc & Hk). exists d. split; [reflexivity|]. split; [|exact Hk]. specialize (Hj eq_refl). rewrite Forall_forall in *. auto.
Qed.

(** ** The document *)
Lemma wp_restore fs : Forall (fun ft : finfo * ty => mem_str (f_name (fst ft)) [u "extra_converters"; u "extra_validators"] = false -> f_excl (fst ft) = false) fs ->
  Forall (fun ft : finfo * ty => mem_str (f_name (fst ft)) [u "extra_converters"; u "extra_validators"] = true -> f_excl (fst ft) = true /\ f_def (fst ft) = Some VNone) fs ->
  forall fv, map fst fv = map (fun ft => f_name (fst ft)) fs ->
  (forall fi t x, In (fi, t) fs -> In (f_name fi, x) fv -> f_excl fi = false -> restored fi x = x) ->
  restore fs fv = map (fun kv => if mem_str (fst kv) [u "extra_converters"; u "extra_validators"] && String.eqb "AsyncAPI3" "AsyncAPI3" then (fst kv, VNone) else kv) fv.
Proof.
  intros H1 H2. induction fs as [|[fi t] fs IH]; intros [|[k x] fv] Hn H; try discriminate Hn; [reflexivity|]. cbn [map fst] in Hn. injection Hn as -> Hn.
  cbn [restore map]. inversion H1 as [|? ? Ha H1']; subst. inversion H2 as [|? ? Hb H2']; subst. cbn [fst] in *. f_equal.
  - destruct (mem_str (f_name fi) _) eqn:Em.
    + destruct (Hb eq_refl) as [Hx Hd]. unfold restored, written. rewrite Hx, Hd. reflexivity.
    + rewrite (H fi t x (or_introl eq_refl) (or_introl eq_refl) (Ha eq_refl)). reflexivity.
  - apply IH; try assumption. intros gi t' y Hi Hy. apply (H gi t'); right; assumption.
Qed.
Definition doc_field_ok (ft : finfo * ty) : bool :=
  if mem_str (f_name (fst ft)) [u "extra_converters"; u "extra_validators"]
  then f_excl (fst ft) && match f_def (fst ft) with Some VNone => true | _ => false end
  else faithful_field (fst ft) && rt_ty (snd ft).
Lemma doc_fields_ok : match T_AsyncAPI3 with TModel _ _ fs => forallb doc_field_ok fs | _ => false end = true.
Proof. vm_compute. reflexivity. Qed.
Lemma document_back_gen E k fs v : url_idem E -> linked (TModel "AsyncAPI3" k fs) = true -> wf_ty (TModel "AsyncAPI3" k fs) = true -> forallb doc_field_ok fs = true ->
  canon is_json E (TModel "AsyncAPI3" k fs) v -> restorable v -> exists n, validate E (TModel "AsyncAPI3" k fs) (dump v) = Some (without_processors v, n).
Proof.
  intros Hu Hl Hw Hok Hc Hq. assert (Hc' := Hc). cbn [canon] in Hc'. destruct Hc' as (fv & ex & -> & Hf & _). rewrite forallb_forall in Hok.
  assert (Hn := canon_fields_names _ _ _ _ Hf).
  assert (Hplain : forall fi t, In (fi, t) fs -> f_excl fi = false -> faithful_field fi = true /\ rt_ty t = true).
  { intros fi t Hi Hx. specialize (Hok _ Hi). unfold doc_field_ok in Hok. cbn [fst snd] in Hok. rewrite Hx in Hok. destruct (mem_str _ _); [discriminate Hok|].
    apply andb_prop in Hok. exact Hok. }
  assert (Hre : restore fs fv = map (fun kv => if mem_str (fst kv) [u "extra_converters"; u "extra_validators"] && String.eqb "AsyncAPI3" "AsyncAPI3" then (fst kv, VNone) else kv) fv).
  { apply wp_restore.
    - apply Forall_forall. intros [fi t] Hi Hm. specialize (Hok _ Hi). unfold doc_field_ok in Hok. rewrite Hm in Hok. cbn [fst snd] in *. apply andb_prop in Hok as [Hok _].
      unfold faithful_field in Hok. apply andb_prop in Hok as [Hok _]. apply negb_true_iff. exact Hok.
    - apply Forall_forall. intros [fi t] Hi Hm. specialize (Hok _ Hi). unfold doc_field_ok in Hok. rewrite Hm in Hok. cbn [fst snd] in *. apply andb_prop in Hok as [H1 H2].
      split; [exact H1|]. destruct (f_def fi) as [d|]; [|discriminate H2]. destruct d; try discriminate H2. reflexivity.
    - exact Hn.
    - intros fi t x Hi Hx He. eapply rt_restored; eauto; [exact (proj1 (proj2 (proj2 Hq)))|]. exact (proj1 (Hplain fi t Hi He)). }
  destruct (model_back E "AsyncAPI3" k fs fv ex Hl Hw (proj1 Hq) (proj1 (proj2 Hq)) Hc) as [n Hb].
  { intros fi t Hi Hx. specialize (Hok _ Hi). unfold doc_field_ok in Hok. cbn [fst snd] in Hok. destruct (mem_str _ _).
    - apply andb_prop in Hok as [_ Hok]. destruct (f_def fi); [discriminate|discriminate Hok].
    - apply andb_prop in Hok as [Hok _]. refine (rt_needs [(fi, t)] _ fi t (or_introl eq_refl) Hx). cbn [forallb fst]. rewrite Hok. reflexivity. }
  { intros fi t x Hi Hx He Hcx. apply dump_back; [exact Hu|apply (linked_sub _ k fs (fi, t) Hl Hi)|apply (wf_sub _ k fs (fi, t) Hw Hi)|exact (proj2 (Hplain fi t Hi He))|exact Hcx|].
    apply (cl_obj _ restorable_closed) in Hq as [Hq _]. rewrite Forall_forall in Hq. exact (Hq _ Hx). }
  { reflexivity. }
  rewrite Hre in Hb. cbn [without_processors]. eauto.
Qed.
Lemma wp_other v : (forall fv ex, v <> VObj "AsyncAPI3" fv ex) -> without_processors v = v.
Proof.
  destruct v; try reflexivity. intros H. cbn [without_processors]. f_equal. destruct (String.eqb_spec c "AsyncAPI3") as [->|Hc]; [destruct (H fs ex eq_refl)|].
  rewrite <- (map_id fs) at 2. apply map_ext. intros [k x]. rewrite andb_false_r. reflexivity.
Qed.
Lemma all_types_dec : forallb (fun t => match t with
    | TModel c _ fs => if String.eqb c "AsyncAPI3" then forallb doc_field_ok fs else rt_ty t
    | TRoot _ _ => rt_ty t
    | _ => false end) all_types = true.
Proof. vm_compute. reflexivity. Qed.
Lemma any_back E t v : url_idem E -> In t all_types -> canon is_json E t v -> restorable v -> exists n, validate E t (dump v) = Some (without_processors v, n).
Proof.
  intros Hu Hi Hc Hq. assert (Hl := linked_all _ Hi). assert (Hw := wf_all _ Hi).
  assert (Hd := proj1 (forallb_forall _ _) all_types_dec t Hi). cbv beta in Hd. clear Hi.
  destruct t as [| | | | | | | | | | | | |c k fs|c t]; try discriminate Hd.
  - destruct (String.eqb_spec c "AsyncAPI3") as [->|Hne].
    + eapply document_back_gen; eauto.
    + rename Hd into Hr.
      destruct (dump_back E (TModel c k fs) Hu Hl Hw Hr v Hc Hq) as [n Hn]. exists n. rewrite wp_other; [exact Hn|].
      intros fv ex ->. cbn [canon] in Hc. destruct Hc as (fv' & ex' & He & _). injection He as He _ _. congruence.
  - destruct (dump_back E (TRoot c t) Hu Hl Hw Hd v Hc Hq) as [n Hn]. exists n. rewrite wp_other; [exact Hn|].
    intros fv ex ->. cbn [canon] in Hc. destruct Hc as (d & He & _). discriminate He.
Qed.

(** ** Keys *)
Fixpoint nonnull (t : ty) : bool :=
  match t with TAny | TOpt _ => false | TUnion ts => forallb nonnull ts | _ => true end.
Lemma nonnull_canon A E t : nonnull t = true -> forall v, canon A E t v -> v <> VNone.
Proof.
  induction t using ty_ind'; intros Hn v Hc; cbn [canon nonnull] in *; try discriminate Hn;
    try (intros ->; repeat match type of Hc with ex _ => destruct Hc as [? Hc] end; (discriminate Hc || (apply proj1 in Hc; discriminate Hc))).
  apply canon_union_each in Hc as (t & Hi & Hc). rewrite forallb_forall in Hn. rewrite Forall_forall in H. exact (H t Hi (Hn t Hi) v Hc).
Qed.
Definition null_ok (c : string) (ft : finfo * ty) : bool :=
  f_excl (fst ft) || f_exnull (fst ft) || nonnull (snd ft)
  || existsb (fun p => String.eqb c (fst p) && str_eqb (f_alias (fst ft)) (snd p)) nullable_keys.
Lemma nulls_ok : forallb (fun t => match t with TModel c _ fs => forallb (null_ok c) fs | _ => true end) all_types = true.
Proof. vm_compute. reflexivity. Qed.
Lemma linked_in_table c k fs : linked (TModel c k fs) = true -> In (TModel c k fs) all_types.
Proof. intros H. apply find_class_In. exact (linked_class c k fs H). Qed.
Lemma obj_in E t o c fv ex : linked t = true -> wf_ty t = true -> canon is_json E t o -> within (VObj c fv ex) o ->
  exists k fs, linked (TModel c k fs) = true /\ wf_ty (TModel c k fs) = true /\ canon is_json E (TModel c k fs) (VObj c fv ex).
Proof.
  intros Hl Hw Hc Hi. destruct (canon_within _ _ _ Hl Hw _ Hc _ Hi I) as [(t' & Hm & Hl' & Hw' & Hx)|(a & Ha & Hx)].
  - destruct t' as [| | | | | | | | | | | | |c' k' fs'|c' t']; try contradiction.
    + assert (Hx' := Hx). cbn [canon] in Hx'. destruct Hx' as (fv' & ex' & He & _). injection He as -> _ _. exists k', fs'. auto.
    + cbn [canon] in Hx. destruct Hx as (d & He & _). discriminate He.
  - exfalso. exact (Ha _ Hx).
Qed.
Lemma dict_update_In e : forall d kv, In kv (dict_update d e) -> In kv d \/ In kv e.
Proof.
  unfold dict_update. induction e as [|[a x] e IH]; intros d kv H; cbn [fold_left] in H; [left; exact H|].
  apply IH in H as [H|H]; [|right; right; exact H]. cbn [fst snd] in H. apply dict_set_In in H as [H|[H1 H2]]; [left; exact H|]. right. left. destruct kv; cbn [fst snd] in *; congruence.
Qed.
Lemma assoc_dict_update_in e : forall d k x, NoDup (map fst e) -> In (k, x) e -> assoc k (dict_update d e) = Some x.
Proof.
  unfold dict_update. induction e as [|[a y] e IH]; intros d k x Hn Hi; [contradiction|]. cbn [map fst] in Hn. inversion Hn as [|? ? Hna Hn']; subst. cbn [fold_left fst snd].
  destruct Hi as [Hi|Hi]; [|apply IH; assumption]. injection Hi as -> ->.
  change (assoc k (dict_update (dict_set k x d) e) = Some x). rewrite assoc_dict_update by exact Hna. rewrite assoc_dict_set, str_eqb_refl. reflexivity.
Qed.
Lemma fields_nodup c k (fs : list (finfo * ty)) (fv : fields) : wf_ty (TModel c k fs) = true -> map fst fv = map (fun ft => f_name (fst ft)) fs -> NoDup (map fst fv).
Proof. intros Hw ->. eapply names_NoDup. exact Hw. Qed.
Lemma dump_zip c k fs fv ex : linked (TModel c k fs) = true -> wf_ty (TModel c k fs) = true -> map fst fv = map (fun ft => f_name (fst ft)) fs ->
  dump (VObj c fv ex) = VDict (dict_update (zdump fs fv) (dump_entries ex)).
Proof.
  intros Hl Hw Hn. rewrite (dump_linked _ _ _ _ _ Hl).
  rewrite (dump_fields_zip (map fst fs) fs); [reflexivity|rewrite map_map; eapply names_NoDup; exact Hw|intros ft H; apply in_map; exact H|exact Hn].
Qed.
Lemma keys_spec E c k fs fv ex d : linked (TModel c k fs) = true -> wf_ty (TModel c k fs) = true -> canon is_json E (TModel c k fs) (VObj c fv ex) ->
  dump (VObj c fv ex) = VDict d -> forall key y, assoc key d = Some y ->
  In (key, y) (dump_entries ex) \/ exists fi t x, In (fi, t) fs /\ f_excl fi = false /\ key = f_alias fi /\ assoc (f_name fi) fv = Some x /\ y = dump x
    /\ (y = VNone -> In (c, key) nullable_keys).
Proof.
  intros Hl Hw Hc Hd key y Hi. assert (Hc' := Hc). cbn [canon] in Hc'. destruct Hc' as (fv' & ex' & He & Hf & _). injection He as <- <-.
  assert (Hn := canon_fields_names _ _ _ _ Hf). rewrite (dump_zip c k fs fv ex Hl Hw Hn) in Hd. injection Hd as <-. apply assoc_In in Hi.
  apply dict_update_In in Hi as [Hi|Hi]; [right|left; exact Hi].
  apply zdump_in in Hi as (fi & t & x & H1 & H2 & H3 & -> & ->); [|exact Hn]. exists fi, t, x.
  assert (Hx : f_excl fi = false) by (unfold written in H3; destruct (f_excl fi); [discriminate H3|reflexivity]).
  repeat split; [exact H1|exact Hx|apply In_assoc; [eapply fields_nodup; eauto|exact H2]|].
  intros Hnone. assert (x = VNone) by (destruct x; cbn [dump] in Hnone; try discriminate Hnone; reflexivity). subst x.
  unfold written in H3. rewrite Hx in H3. cbn [is_none orb] in H3. rewrite andb_true_r in H3. apply negb_true_iff in H3.
  assert (Hok := proj1 (forallb_forall _ _) nulls_ok _ (linked_in_table _ _ _ Hl)). cbv beta iota in Hok.
  rewrite forallb_forall in Hok. specialize (Hok _ H1). unfold null_ok in Hok. cbn [fst snd] in Hok. rewrite Hx, H3 in Hok. cbn [orb] in Hok.
  apply orb_prop in Hok as [Hok|Hok].
  - exfalso. destruct (canon_field _ _ _ _ _ _ _ fi t Hc (names_NoDup _ _ _ Hw) H1) as [Hct _]. unfold attr in Hct.
    rewrite (In_assoc _ _ _ (fields_nodup _ _ _ _ Hw Hn) H2) in Hct. exact (nonnull_canon _ _ _ Hok _ Hct eq_refl).
  - apply existsb_exists in Hok as ([c' k'] & Hp & Heq). cbn [fst snd] in Heq. apply andb_prop in Heq as [Hq1 Hq2].
    apply String.eqb_eq in Hq1. apply str_eqb_eq in Hq2. rewrite Hq1, Hq2. exact Hp.
Qed.
Lemma present_spec E c k fs fv ex d fi t x : linked (TModel c k fs) = true -> wf_ty (TModel c k fs) = true -> canon is_json E (TModel c k fs) (VObj c fv ex) ->
  dump (VObj c fv ex) = VDict d -> In (fi, t) fs -> assoc (f_name fi) fv = Some x -> written fi x = true -> ~ In (f_alias fi) (map fst ex) ->
  assoc (f_alias fi) d = Some (dump x).
Proof.
  intros Hl Hw Hc Hd Hi Hx Hwr Hne. cbn [canon] in Hc. destruct Hc as (fv' & ex' & He & Hf & _). injection He as <- <-.
  assert (Hn := canon_fields_names _ _ _ _ Hf). rewrite (dump_zip c k fs fv ex Hl Hw Hn) in Hd. injection Hd as <-.
  rewrite assoc_dict_update by (rewrite dump_entries_keys; exact Hne). apply In_assoc.
  - apply zdump_nodup; [apply wf_keys in Hw; exact Hw|exact Hn].
  - eapply zdump_has; eauto; [eapply names_NoDup; exact Hw|apply assoc_In; exact Hx].
Qed.

(** ** Everything in the output is the output of something *)
Lemma dump_fields_In infos : forall fv kv, In kv (dump_fields infos fv) -> exists k x, In (k, x) fv /\ snd kv = dump x.
Proof.
  induction fv as [|[k x] fv IH]; intros kv H; [contradiction|]. rewrite dump_fields_cons in H.
  assert (Hr : In kv (dump_fields infos fv) -> exists k0 x0, In (k0, x0) ((k, x) :: fv) /\ snd kv = dump x0).
  { intros Hi. destruct (IH _ Hi) as (k' & y & H1 & H2). exists k', y. split; [right; exact H1|exact H2]. }
  destruct (out_key infos k x) as [a|]; [|auto]. destruct H as [<-|H]; [|auto]. exists k, x. split; [left; reflexivity|reflexivity].
Qed.
Lemma dump_entries_In d kv : In kv (dump_entries d) -> exists x, In (fst kv, x) d /\ snd kv = dump x.
Proof. unfold dump_entries. intros H. apply in_map_iff in H as ([k x] & <- & H). exists x. auto. Qed.
Lemma dump_within v : forall w, within w (dump v) -> exists x, within x v /\ w = dump x.
Proof.
  induction v using pv_ind'; intros w Hw;
    try (cbn [dump] in Hw; apply within_atom in Hw; exists w; subst w; split; [constructor|reflexivity]).
  - cbn [dump] in Hw. apply within_atom in Hw. subst w. exists (VUrl s). split; [constructor|reflexivity].
  - cbn [dump] in Hw. inversion Hw as [|? y Hy Hwy| | | |]; subst; [exists (VList l); split; [constructor|reflexivity]|].
    apply in_map_iff in Hy as (z & <- & Hz). rewrite Forall_forall in H. destruct (H z Hz w Hwy) as (x & H1 & ->). exists x. split; [eapply w_list; eauto|reflexivity].
  - cbn [dump] in Hw. fold (dump_entries d) in Hw. inversion Hw as [| |? k y Hy Hwy| | |]; subst; [exists (VDict d); split; [constructor|reflexivity]|].
    apply dump_entries_In in Hy as (z & Hz & Hy). cbn [fst snd] in *. subst y. rewrite Forall_forall in H. destruct (H _ Hz w Hwy) as (x & H1 & ->). exists x. split; [eapply w_dict; eauto|reflexivity].
  - rewrite dump_obj in Hw. inversion Hw as [| |? k y Hy Hwy| | |]; subst; [exists (VObj c fs ex); split; [constructor|rewrite dump_obj; reflexivity]|].
    apply dict_update_In in Hy as [Hy|Hy].
    + apply dump_fields_In in Hy as (k' & z & Hz & Hy). cbn [snd] in Hy. subst y. rewrite Forall_forall in H. destruct (H _ Hz w Hwy) as (x & H1 & ->). exists x. split; [eapply w_field; eauto|reflexivity].
    + apply dump_entries_In in Hy as (z & Hz & Hy). cbn [fst snd] in *. subst y. rewrite Forall_forall in H0. destruct (H0 _ Hz w Hwy) as (x & H1 & ->). exists x. split; [eapply w_extra; eauto|reflexivity].
  - cbn [dump] in Hw. fold (dump_entries d) in Hw. inversion Hw as [| |? k y Hy Hwy| | |]; subst; [exists (VRoot c d); split; [constructor|reflexivity]|].
    apply dump_entries_In in Hy as (z & Hz & Hy). cbn [fst snd] in *. subst y. rewrite Forall_forall in H. destruct (H _ Hz w Hwy) as (x & H1 & ->). exists x. split; [eapply w_root; eauto|reflexivity].
Qed.
(** ** The output is JSON *)
Lemma json_of_list l : Forall is_json l -> is_json (VList l).
Proof. intros H x Hx. inversion Hx as [|? y Hy Hw| | | |]; subst; [exact I|]. rewrite Forall_forall in H. exact (H y Hy x Hw). Qed.
Lemma json_of_dict d : (forall kv, In kv d -> is_json (snd kv)) -> is_json (VDict d).
Proof. intros H x Hx. inversion Hx as [| |? k y Hy Hw| | |]; subst; [exact I|]. exact (H _ Hy x Hw). Qed.
Lemma dump_model_json E c k fs fv ex : linked (TModel c k fs) = true -> wf_ty (TModel c k fs) = true -> canon is_json E (TModel c k fs) (VObj c fv ex) ->
  (forall fi t x, In (fi, t) fs -> f_excl fi = false -> canon is_json E t x -> is_json (dump x)) -> is_json (dump (VObj c fv ex)).
Proof.
  intros Hl Hw Hc Hx. assert (Hc' := Hc). cbn [canon] in Hc'. destruct Hc' as (fv' & ex' & He & Hf & Hj & _). injection He as <- <-.
  assert (Hn := canon_fields_names _ _ _ _ Hf). rewrite (dump_zip c k fs fv ex Hl Hw Hn). apply json_of_dict. intros [a y] Hi. cbn [snd].
  apply dict_update_In in Hi as [Hi|Hi].
  - apply zdump_in in Hi as (fi & t & x & H1 & H2 & H3 & -> & ->); [|exact Hn]. eapply Hx; [exact H1| |].
    + unfold written in H3. destruct (f_excl fi); [discriminate H3|reflexivity].
    + destruct (canon_field _ _ _ _ _ _ _ fi t Hc (names_NoDup _ _ _ Hw) H1) as [Hct _]. unfold attr in Hct.
      rewrite (In_assoc _ _ _ (fields_nodup _ _ _ _ Hw Hn) H2) in Hct. exact Hct.
  - rewrite (dump_entries_json ex Hj) in Hi. rewrite Forall_forall in Hj. exact (Hj _ Hi).
Qed.
Lemma atom_json v : match v with VNone | VBool _ | VInt _ | VFloat _ | VStr _ => True | _ => False end -> is_json v.
Proof. intros H x Hx. apply within_atom in Hx. destruct v; try contradiction; subst x; exact I. Qed.
Lemma dump_is_json E t : linked t = true -> wf_ty t = true -> rt_ty t = true -> forall v, canon is_json E t v -> is_json (dump v).
Proof.
  induction t using ty_ind'; intros Hl Hw Hr v Hc; cbn [rt_ty] in Hr.
  - cbn [canon] in Hc. rewrite (dump_json v Hc). exact Hc.
  - destruct Hc as (s & -> & _). apply atom_json. exact I.
  - destruct Hc as (s & -> & _). apply atom_json. exact I.
  - destruct Hc as (s & ->). apply atom_json. exact I.
  - destruct Hc as (s & ->). apply atom_json. exact I.
  - destruct Hc as (s & -> & _). apply atom_json. exact I.
  - destruct Hc as (s & -> & _). apply atom_json. exact I.
  - destruct Hc as (s & -> & _). apply atom_json. exact I.
  - destruct Hc as (l & -> & Hc). cbn [dump]. apply json_of_list, Forall_forall. intros y Hy. apply in_map_iff in Hy as (x & <- & Hx). rewrite Forall_forall in Hc. auto.
  - destruct Hc as (d & -> & Hc). cbn [dump]. fold (dump_entries d). apply json_of_dict. intros kv Hy. apply dump_entries_In in Hy as (x & Hx & ->). rewrite Forall_forall in Hc. exact (IHt Hl Hw Hr x (Hc _ Hx)).
  - destruct Hc as [->|Hc]; [apply atom_json; exact I|auto].
  - apply andb_prop in Hr as [_ Hr]. cbn [canon] in Hc. apply canon_union_each in Hc as (t & Ht & Hc). rewrite Forall_forall in H. rewrite forallb_forall in Hr.
    apply (H t Ht); [exact (linked_union _ _ Hl Ht)|exact (wf_union _ _ Hw Ht)|exact (Hr _ Ht)|exact Hc].
  - discriminate Hr.
  - apply andb_prop in Hr as [_ Hr]. assert (Hc' := Hc). cbn [canon] in Hc'. destruct Hc' as (fv & ex & -> & _). eapply dump_model_json; [exact Hl|exact Hw|exact Hc|].
    intros fi t x Hi _ Hcx. rewrite Forall_forall in H. rewrite forallb_forall in Hr.
    apply (H (fi, t) Hi); [exact (linked_sub _ _ _ _ Hl Hi)|exact (wf_sub _ _ _ _ Hw Hi)|exact (Hr _ Hi)|exact Hcx].
  - destruct Hc as (d & -> & Hc & _). cbn [dump]. fold (dump_entries d). apply json_of_dict. intros kv Hy. apply dump_entries_In in Hy as (x & Hx & ->). rewrite Forall_forall in Hc. exact (IHt (linked_root_sub _ _ Hl) Hw Hr x (Hc _ Hx)).
Qed.
Lemma any_json E t v : In t all_types -> canon is_json E t v -> is_json (dump v).
Proof.
  intros Hi Hc. assert (Hl := linked_all _ Hi). assert (Hw := wf_all _ Hi).
  assert (Hd := proj1 (forallb_forall _ _) all_types_dec t Hi). cbv beta in Hd. clear Hi.
  destruct t as [| | | | | | | | | | | | |c k fs|c t]; try discriminate Hd; [|eapply dump_is_json; eauto].
  destruct (String.eqb c "AsyncAPI3"); [|eapply dump_is_json; eauto].
  assert (Hc' := Hc). cbn [canon] in Hc'. destruct Hc' as (fv & ex & -> & _). eapply dump_model_json; [exact Hl|exact Hw|exact Hc|].
  intros fi t x Hi Hx Hcx. rewrite forallb_forall in Hd. specialize (Hd _ Hi). unfold doc_field_ok in Hd. cbn [fst snd] in Hd. rewrite Hx in Hd. destruct (mem_str _ _); [discriminate Hd|].
  apply andb_prop in Hd as [_ Hd]. eapply dump_is_json; [exact (linked_sub _ _ _ _ Hl Hi)|exact (wf_sub _ _ _ _ Hw Hi)|exact Hd|exact Hcx].
Qed.

(** ** Undeclared entries *)
Definition undeclaredb (fs : list (finfo * ty)) (k : pystr) : bool := negb (existsb (fun ft => str_eqb k (f_name (fst ft)) || str_eqb k (f_alias (fst ft))) fs).
Lemma undeclared_set fs k v d : undeclared fs (dict_set k v d) = if undeclaredb fs k then dict_set k v (undeclared fs d) else undeclared fs d.
Proof.
  unfold undeclared. induction d as [|[k' v'] d IH]; cbn [dict_set].
  - cbn [filter fst]. fold (undeclaredb fs k). destruct (undeclaredb fs k); reflexivity.
  - destruct (str_eqb k k') eqn:Ek.
    + apply str_eqb_eq in Ek. subst k'. cbn [filter fst]. fold (undeclaredb fs k). destruct (undeclaredb fs k); [|reflexivity]. cbn [dict_set]. rewrite str_eqb_refl. reflexivity.
    + cbn [filter fst]. fold (undeclaredb fs k'). rewrite IH. fold (undeclaredb fs k). destruct (undeclaredb fs k'), (undeclaredb fs k); try reflexivity. cbn [dict_set]. rewrite Ek. reflexivity.
Qed.
Lemma undeclared_cons fs k v d : undeclared fs ((k, v) :: d) = if undeclaredb fs k then (k, v) :: undeclared fs d else undeclared fs d.
Proof. reflexivity. Qed.
Lemma undeclared_update fs e : forall d, undeclared fs (dict_update d e) = dict_update (undeclared fs d) (undeclared fs e).
Proof.
  unfold dict_update. induction e as [|[k v] e IH]; intros d; cbn [fold_left fst snd]; [reflexivity|]. rewrite IH, undeclared_set, undeclared_cons.
  destruct (undeclaredb fs k); reflexivity.
Qed.
Lemma undeclaredb_iff fs k : undeclaredb fs k = true <-> ~ declared fs k.
Proof.
  unfold undeclaredb. rewrite negb_true_iff. split.
  - intros H (fi & t & Hi & Hk). assert (He : existsb (fun ft => str_eqb k (f_name (fst ft)) || str_eqb k (f_alias (fst ft))) fs = true); [|congruence].
    apply existsb_exists. exists (fi, t). split; [exact Hi|]. cbn [fst]. destruct Hk as [->| ->]; rewrite str_eqb_refl; [reflexivity|apply orb_true_r].
  - intros H. destruct (existsb _ fs) eqn:Ee; [|reflexivity]. exfalso. apply H. apply existsb_exists in Ee as ([fi t] & Hi & Ek). cbn [fst] in Ek. exists fi, t. split; [exact Hi|].
    apply orb_prop in Ek as [Ek|Ek]; apply str_eqb_eq in Ek; auto.
Qed.
Lemma undeclared_zdump fs fv : map fst fv = map (fun ft => f_name (fst ft)) fs -> undeclared fs (zdump fs fv) = [].
Proof.
  intros Hn. unfold undeclared. apply filter_none. intros [a y] Hi. apply zdump_in in Hi as (fi & t & x & H1 & _ & _ & -> & _); [|exact Hn]. cbn [fst].
  fold (undeclaredb fs (f_alias fi)). destruct (undeclaredb fs (f_alias fi)) eqn:Eu; [|reflexivity]. apply undeclaredb_iff in Eu. destruct Eu. exists fi, t. auto.
Qed.
Lemma filter_filter_imp {X} (p q : X -> bool) l : (forall x, In x l -> p x = true -> q x = true) -> filter p (filter q l) = filter p l.
Proof.
  induction l as [|x l IH]; intros H; [reflexivity|]. cbn [filter]. assert (Hr := IH (fun y Hy => H y (or_intror Hy))).
  destruct (q x) eqn:Eq; cbn [filter]; [rewrite Hr; reflexivity|]. destruct (p x) eqn:Ep; [|exact Hr].
  rewrite (H x (or_introl eq_refl) Ep) in Eq. discriminate Eq.
Qed.
Lemma undeclared_extras fs kvs : undeclared fs (extras fs kvs) = undeclared fs kvs.
Proof.
  unfold undeclared, extras. apply filter_filter_imp. intros [k v] _ Hu. cbn [fst] in *. fold (undeclaredb fs k) in Hu. apply undeclaredb_iff in Hu.
  apply negb_true_iff, mem_str_not_In. intros Hi. apply in_map_iff in Hi as ([fi t] & Hk & Hi). apply Hu. exists fi, t. split; [exact Hi|]. cbn [fst] in Hk.
  unfold used_key in Hk. destruct (has_key _ _); auto.
Qed.
Lemma extras_kept E c k fs kvs o d : linked (TModel c k fs) = true -> wf_ty (TModel c k fs) = true -> python_dicts (VDict kvs) -> is_json (VDict kvs) ->
  parse E (TModel c k fs) (VDict kvs) = Some o -> dump o = VDict d -> undeclared fs d = undeclared fs kvs.
Proof.
  intros Hl Hw Hp Hj Ho Hd. apply parse_some in Ho as [n Hv]. assert (Hc := validate_canon is_json is_json E _ json_closed (fun _ h => h) Hw _ _ _ Hj Hv).
  cbn [validate] in Hv. apply vmodel_obj in Hv as (fv & Hf & -> & Ha).
  cbn [canon] in Hc. destruct Hc as (fv' & ex' & He & Hcf & Hje & _). injection He as <- <-. apply canon_fields_names in Hcf.
  rewrite (dump_zip c k fs fv (extras fs kvs) Hl Hw Hcf) in Hd. injection Hd as <-. rewrite undeclared_update, (undeclared_zdump fs fv Hcf), (dump_entries_json _ Hje).
  rewrite undeclared_extras, dict_update_app; [reflexivity| |intros ? _ []].
  unfold undeclared. apply NoDup_filter_keys. exact (pd_here _ Hp).
Qed.

(** ** bindingVersion *)
Definition bv_ok (t : ty) : bool :=
  match t with
  | TModel c k fs => forallb (fun ft => negb (str_eqb (f_name (fst ft)) (u "binding_version"))
      || (str_eqb (f_alias (fst ft)) (u "bindingVersion") && negb (f_excl (fst ft)) && negb (f_exnull (fst ft)) && negb (kind_eqb k KFree)
          && match snd ft with TStr None => true | _ => false end && match f_def (fst ft) with Some (VStr _) => true | _ => false end)) fs
  | _ => true end.
Lemma bv_table : forallb bv_ok all_types = true.
Proof. vm_compute. reflexivity. Qed.
Lemma bv_field c k fs fi t : linked (TModel c k fs) = true -> In (fi, t) fs -> f_name fi = u "binding_version" ->
  f_alias fi = u "bindingVersion" /\ f_excl fi = false /\ f_exnull fi = false /\ k <> KFree /\ t = TStr None /\ exists s, f_def fi = Some (VStr s).
Proof.
  intros Hl Hi Hn. assert (H := proj1 (forallb_forall _ _) bv_table _ (linked_in_table _ _ _ Hl)). cbn [bv_ok] in H. rewrite forallb_forall in H.
  specialize (H _ Hi). cbn [fst snd] in H. rewrite Hn, str_eqb_refl in H. cbn [negb orb] in H.
  repeat (apply andb_prop in H as [H ?H]). apply str_eqb_eq in H. apply negb_true_iff in H2, H3, H4. repeat split; auto.
  - intros ->. discriminate H2.
  - destruct t as [|[?|]| | | | | | | | | | | | |]; try discriminate H1. reflexivity.
  - destruct (f_def fi) as [[]|]; try discriminate H0. eauto.
Qed.
Lemma bv_present E c k fs fv ex d fi t : linked (TModel c k fs) = true -> wf_ty (TModel c k fs) = true -> canon is_json E (TModel c k fs) (VObj c fv ex) ->
  In (fi, t) fs -> f_name fi = u "binding_version" -> dump (VObj c fv ex) = VDict d ->
  exists s, assoc (u "bindingVersion") d = Some (VStr s) /\ assoc (u "binding_version") fv = Some (VStr s).
Proof.
  intros Hl Hw Hc Hi Hn Hd. destruct (bv_field c k fs fi t Hl Hi Hn) as (Ha & Hx & He & Hk & -> & _).
  destruct (canon_field _ _ _ _ _ _ _ fi (TStr None) Hc (names_NoDup _ _ _ Hw) Hi) as [(s & Hs & _) _]. exists s. unfold attr in Hs.
  destruct (assoc (f_name fi) fv) as [x|] eqn:Ex; [|discriminate Hs]. subst x. split; [|rewrite <- Hn; exact Ex]. rewrite <- Ha.
  apply (present_spec E c k fs fv ex d fi (TStr None) (VStr s) Hl Hw Hc Hd Hi Ex).
  - unfold written. rewrite Hx, He. reflexivity.
  - intros Hin. cbn [canon] in Hc. destruct Hc as (fv' & ex' & Heq & _ & _ & Hok). injection Heq as <- <-. unfold after_ok in Hok. apply andb_prop in Hok as [Hok _].
    destruct k; cbn [extras_ok] in Hok.
    + rewrite forallb_forall in Hok. apply in_map_iff in Hin as (kv & Hkv & Hin). apply Hok in Hin. apply ext_key_starts in Hin. rewrite Hkv, Ha in Hin. discriminate Hin.
    + destruct ex; [contradiction|discriminate Hok].
    + congruence.
Qed.

(** ** What is parsed from JSON has JSON data *)
Lemma in_ok_json t : forall v, in_ok t (vshape v) = false -> json_data t v.
Proof.
  induction t using ty_ind'; intros v Hi; cbn [in_ok json_data] in *; try exact I; try discriminate Hi; try (destruct v; exact I || discriminate Hi).
  - right. apply IHt. destruct v; try exact Hi. discriminate Hi.
  - induction ts as [|t ts IH]; cbn [each]; [exact I|]. inversion H; subst. cbn [existsb] in Hi. apply orb_false_elim in Hi as [Ha Hb]. auto.
  - destruct v; try exact I. cbn [vshape] in Hi. intros ->. rewrite String.eqb_refl in Hi. discriminate Hi.
  - destruct v; try exact I. cbn [vshape] in Hi. intros ->. rewrite String.eqb_refl in Hi. discriminate Hi.
Qed.
Lemma canon_out_shape A E t v s : canon A E t v -> out_shape t = Some s -> vshape v = s.
Proof.
  destruct t; cbn [out_shape canon]; intros Hc Hs; try discriminate Hs; injection Hs as <-.
  - destruct Hc as (x & -> & _). reflexivity.
  - destruct Hc as (x & ->). reflexivity.
  - destruct Hc as (x & -> & _). reflexivity.
  - destruct Hc as (x & -> & _). reflexivity.
  - destruct Hc as (fv & ex & -> & _). reflexivity.
Qed.
Lemma rejects_json A E tj ti v : rejects tj ti = true -> canon A E ti v -> json_data tj v.
Proof.
  unfold rejects. destruct (out_shape ti) as [s|] eqn:Es; [|discriminate]. intros H Hc. apply in_ok_json. rewrite (canon_out_shape _ _ _ _ _ Hc Es). apply negb_true_iff. exact H.
Qed.
Lemma canon_json_data E t : wf_ty t = true -> forall v, canon is_json E t v -> json_data t v.
Proof.
  induction t using ty_ind'; intros Hw v Hc; cbn [canon json_data] in *; try exact I; try exact Hc.
  - destruct Hc as (l & -> & Hc). rewrite Forall_forall in *. auto.
  - destruct Hc as (l & -> & Hc). rewrite Forall_forall in *. auto.
  - destruct Hc as [->|Hc]; auto.
  - cbn [wf_ty] in Hw. apply andb_prop in Hw as [Hu Hw].
    revert Hc. induction ts as [|t ts IH]; cbn [canon_union each]; [tauto|]. cbn [union_ok forallb] in Hu, Hw. apply andb_prop in Hu as [Hr Hu]. apply andb_prop in Hw as [Hwt Hw].
    inversion H as [|? ? Ht Hts]; subst. rewrite forallb_forall in Hr. intros [[Hc _]|[_ Hc]].
    + split; [apply Ht; assumption|]. clear IH. revert Hr. clear -Hc. induction ts as [|t' ts IH]; intros Hr; cbn [each]; [exact I|]. split.
      * specialize (Hr t' (or_introl eq_refl)). apply andb_prop in Hr as [Hr _]. eapply rejects_json; eauto.
      * apply IH. intros x Hx. apply Hr. right. exact Hx.
    + split; [|apply IH; assumption]. apply canon_union_each in Hc as (t' & Hi & Hc). specialize (Hr t' Hi). apply andb_prop in Hr as [Hr1 Hr2].
      apply orb_prop in Hr2 as [Hr2|Hr2]; [eapply rejects_json; eauto|].
      destruct t' as [| | | | | | | | |t'| | | | |]; try discriminate Hr2. destruct t'; try discriminate Hr2. destruct Hc as (d & -> & _).
      destruct t; try discriminate Hr1; cbn [json_data]; exact I.
  - destruct Hc as (fv & ex & -> & Hf & Hj & _). intros _. split; [|exact Hj]. cbn [wf_ty] in Hw. apply andb_prop in Hw as [_ Hw]. clear Hj.
    revert fv Hf. induction fs as [|[fi t] fs IH]; intros [|[k' x] fv] Hf; cbn [canon_fields json_fields] in *; try tauto.
    cbn [forallb snd] in Hw. apply andb_prop in Hw as [Hwt Hw]. inversion H; subst. cbn [snd] in *. destruct Hf as [(_ & H1 & _) H4]. split; [auto|apply IH; assumption].
  - destruct Hc as (d & -> & Hc & _). intros _. rewrite Forall_forall in *. auto.
Qed.
