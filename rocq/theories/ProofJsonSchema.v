(** Proofs for C95, C96. *)
From Verif Require Import PyStr Value Types Rules Pydantic ClassTable Classes Canon Linked Fix Dump SpecDump ProofDump SpecParse ProofParse SpecState ProofState PropLayout JsonSchema SpecJsonSchema.
Local Open Scope string_scope.

(** ** The definitions *)
Definition class_name (t : ty) : list pystr := match t with TModel c _ _ | TRoot c _ => [u c] | _ => [] end.
Lemma definitions_names l : map fst (definitions l) = flat_map class_name l.
Proof. unfold definitions. induction l as [|t l IH]; [reflexivity|]. cbn [flat_map]. rewrite map_app, IH. destruct t; reflexivity. Qed.
Lemma names_distinct : NoDup (flat_map class_name all_types).
Proof. apply nodupb_NoDup. vm_compute. reflexivity. Qed.
Lemma assoc_in_nodup (d : fields) k x : NoDup (map fst d) -> In (k, x) d -> assoc k d = Some x.
Proof.
  induction d as [|[a y] d IH]; intros Hd Hi; [contradiction|]. cbn [map fst] in Hd. inversion Hd as [|? ? Hn Hd']; subst. cbn [assoc].
  destruct Hi as [Hi|Hi]; [injection Hi as -> ->; rewrite str_eqb_refl; reflexivity|]. destruct (str_eqb k a) eqn:Ee; [|auto].
  apply str_eqb_eq in Ee. subst a. exfalso. apply Hn. apply in_map with (f := fst) in Hi. exact Hi.
Qed.
Lemma definition_of l t c : NoDup (flat_map class_name l) -> In t l -> class_name t = [u c] -> assoc (u c) (definitions l) = Some (VDict (definition t)).
Proof.
  intros Hd Hi Hc. apply assoc_in_nodup; [rewrite definitions_names; exact Hd|]. unfold definitions. apply in_flat_map. exists t. split; [exact Hi|].
  destruct t; try discriminate Hc; injection Hc as Hc; rewrite Hc; left; reflexivity.
Qed.

(** ** Building [meets] *)
Lemma meets_typed root name more v : has_type (u name) v ->
  (forall a, assoc (u "const") more = Some a -> v = a) ->
  (forall l, assoc (u "enum") more = Some (VList l) -> In v l) ->
  (forall n s, assoc (u "maxLength") more = Some (VInt n) -> v = VStr s -> (Z.of_nat (List.length s) <= n)%Z) ->
  (forall n s, assoc (u "minLength") more = Some (VInt n) -> v = VStr s -> (n <= Z.of_nat (List.length s))%Z) ->
  (forall ks k d, assoc (u "required") more = Some (VList ks) -> In (VStr k) ks -> v = VDict d -> In k (map fst d)) ->
  (forall s k x d, v = VDict d -> In (k, x) d -> mentioned more k s -> meets root s x) ->
  (forall s k x d, v = VDict d -> In (k, x) d -> (forall s', ~ mentioned more k s') -> assoc (u "additionalProperties") more = Some s -> meets root s x) ->
  (forall s x l, v = VList l -> In x l -> assoc (u "items") more = Some s -> meets root s x) ->
  assoc (u "anyOf") more = None -> assoc (u "$ref") more = None -> meets root (typed name more) v.
Proof.
  intros Ht. intros. unfold typed. apply meets_keywords; try assumption.
  - intros a Ha. cbn in Ha. injection Ha as <-. exact Ht.
  - intros l Hl. change (assoc (u "anyOf") more = Some (VList l)) in Hl. congruence.
  - intros r Hr. change (assoc (u "$ref") more = Some (VStr r)) in Hr. congruence.
Qed.
Notation sized := url_size (only parsing).
Ltac plain_typed := apply meets_typed; try reflexivity; try (intros; discriminate); try (intros; subst; discriminate); try (intros ? ? ? ? ? ? [? [? ?]]; discriminate).
Lemma meets_any root v : meets root (VDict []) v.
Proof. apply meets_keywords; intros; try discriminate. destruct H1 as (? & ? & _). discriminate. Qed.
Lemma meets_string root more s : (forall n, assoc (u "maxLength") more = Some (VInt n) -> (Z.of_nat (List.length s) <= n)%Z) ->
  (forall n, assoc (u "minLength") more = Some (VInt n) -> (n <= Z.of_nat (List.length s))%Z) ->
  assoc (u "const") more = None -> assoc (u "enum") more = None -> assoc (u "anyOf") more = None -> assoc (u "$ref") more = None ->
  meets root (typed "string" more) (VStr s).
Proof.
  intros H1 H2 H3 H4 H5 H6. apply meets_typed; try assumption; try (intros; congruence); try (intros; discriminate).
  - left. eauto.
  - intros n s' Hn Hs. injection Hs as <-. auto.
  - intros n s' Hn Hs. injection Hs as <-. auto.
Qed.
Lemma meets_str root m s : len_ok m s = true -> exists x, In x (alternatives (TStr m)) /\ meets root x (VStr s).
Proof.
  destruct m as [n|]; cbn [len_ok alternatives]; intros Hl; (eexists; split; [left; reflexivity|]); apply meets_string; try reflexivity; try (intros; discriminate).
  intros k Hk. cbn in Hk. injection Hk as <-. apply N.leb_le in Hl. lia.
Qed.
Lemma meets_url root h s : sized h s -> exists x, In x (alternatives (TUrl h)) /\ meets root x (VStr s).
Proof.
  intros [Hn Hm]. destruct h; cbn [alternatives]; (eexists; split; [left; reflexivity|]); apply meets_string; try reflexivity; try (intros; discriminate).
  - intros n Hk. cbn in Hk. injection Hk as <-. specialize (Hm eq_refl). lia.
  - intros n Hk. cbn in Hk. injection Hk as <-. destruct s; [congruence|cbn [List.length]; lia].
  - intros n Hk. cbn in Hk. injection Hk as <-. destruct s; [congruence|cbn [List.length]; lia].
Qed.
Lemma meets_literals root name l v : has_type (u name) v -> In v l -> (forall d, v <> VDict d) -> (forall s, v <> VList s) -> (name = "string" \/ name = "integer") ->
  meets root (typed name (literals l)) v.
Proof.
  intros Ht Hi Hd Hl Hn. destruct l as [|a [|b r]]; cbn [literals]; [contradiction| |];
    (apply meets_typed; try reflexivity; try exact Ht; try (intros; discriminate); try (intros; exfalso; eapply Hd; eassumption); try (intros; exfalso; eapply Hl; eassumption)).
  - intros x Hx. cbn in Hx. injection Hx as <-. destruct Hi as [->|[]]. reflexivity.
  - intros x Hx. cbn in Hx. injection Hx as <-. exact Hi.
Qed.
Lemma one_of_them_meets root l v : (exists s, In s l /\ meets root s v) -> meets root (one_of_them l) v.
Proof.
  intros (s & Hi & Hm). unfold one_of_them. destruct l as [|a [|b r]]; [contradiction|destruct Hi as [->|[]]; exact Hm|].
  apply meets_keywords; intros; try discriminate.
  - destruct H1 as (? & ? & _). discriminate.
  - match goal with H : assoc _ _ = Some (VList ?l) |- _ => cbn in H; injection H as <- end. eauto.
Qed.
(** a map: every value meets the schema *)
Lemma meets_map root a d : (forall k x, In (k, x) d -> meets root a x) -> meets root (typed "object" [kw "additionalProperties" a]) (VDict d).
Proof.
  intros Hd. apply meets_typed; try reflexivity; try (intros; discriminate).
  - right. right. right. right. right. eauto.
  - intros s k x d' _ _ (ps & Hp & _). discriminate Hp.
  - intros s k x d' He Hi _ Ha. cbn in Ha. injection Ha as <-. injection He as <-. eapply Hd; eauto.
Qed.
Lemma meets_array root a l : (forall x, In x l -> meets root a x) -> meets root (typed "array" [kw "items" a]) (VList l).
Proof.
  intros Hd. apply meets_typed; try reflexivity; try (intros; discriminate).
  - right. right. right. right. left. eauto.
  - intros s x l' He Hi Ha. cbn in Ha. injection Ha as <-. injection He as <-. eapply Hd; eauto.
Qed.
Lemma any_or_meets root t s v : meets root s v -> meets root (any_or t s) v.
Proof. intros H. destruct t; try exact H. apply meets_true. Qed.
Lemma meets_null root : meets root null_schema VNone.
Proof. apply meets_typed; try reflexivity; try (intros; discriminate). right. right. right. left. auto. Qed.
(** a class under "$defs" *)
Lemma meets_class root t c v : assoc (u "$defs") root = Some (VDict (definitions all_types)) -> In t all_types -> class_name t = [u c] ->
  meets root (VDict (definition t)) v -> meets root (VDict [kw "$ref" (VStr (defs_prefix ++ u c)%list)]) v.
Proof.
  intros Hr Hi Hc Hm. apply meets_keywords; intros; try discriminate.
  - match goal with H : mentioned _ _ _ |- _ => destruct H as (? & ? & _); discriminate end.
  - match goal with H : assoc _ _ = Some (VStr _) |- _ => cbn in H; injection H as <- end. exists (VDict (definition t)). split; [|exact Hm].
    exists (u c), (definitions all_types). split; [reflexivity|]. split; [exact Hr|]. apply (definition_of all_types t c names_distinct Hi Hc).
Qed.
(** an object of a class *)
Lemma meets_object root c k fs d :
  NoDup (map (fun ft => f_alias (fst ft)) (shown fs)) ->
  (forall fi t, In (fi, t) (needed fs) -> In (f_alias fi) (map fst d)) ->
  (forall a x, In (a, x) d -> (exists fi t, In (fi, t) (shown fs) /\ a = f_alias fi /\ meets root (schema_at t) x) \/ (open_kind k = true /\ ~ In a (map (fun ft => f_alias (fst ft)) (shown fs)))) ->
  meets root (VDict (definition (TModel c k fs))) (VDict d).
Proof.
  intros Hn Hq Hd. cbn [definition].
  apply meets_keywords; intros; try discriminate.
  - match goal with H : assoc _ _ = Some (VStr _) |- _ => cbn in H; injection H as <- end. right. right. right. right. right. eauto.
  - match goal with H : assoc _ _ = Some (VList _) |- _ => cbn in H; injection H as <- end. match goal with H : VDict _ = VDict _ |- _ => injection H as <- end.
    apply in_map_iff in H0 as ([fi t] & He & Hi). injection He as <-. exact (Hq fi t Hi).
  - injection H as <-. destruct H1 as (ps & Hp & Ha). injection Hp as <-. destruct (Hd _ _ H0) as [(fi & t & Hi & -> & Hx)|[_ Hno]].
    + rewrite (assoc_in_nodup _ (f_alias fi) (schema_at t)) in Ha; [injection Ha as <-; exact Hx|rewrite map_map; exact Hn|].
      apply in_map_iff. exists (fi, t). auto.
    + exfalso. apply Hno. apply assoc_In in Ha. apply in_map with (f := fst) in Ha. rewrite map_map in Ha. exact Ha.
  - injection H as <-. match goal with H : assoc _ _ = Some ?s |- meets _ ?s _ => change (Some (VBool (open_kind k)) = Some s) in H; injection H as <- end.
    destruct (Hd _ _ H0) as [(fi & t & Hi & -> & Hx)|[-> _]]; [|apply meets_true].
    exfalso. apply (H1 (schema_at t)). eexists. split; [reflexivity|]. apply assoc_in_nodup; [rewrite map_map; exact Hn|]. apply in_map_iff. exists (fi, t). auto.
Qed.

(** ** The table *)
Fixpoint has_procs (t : ty) : bool :=
  match t with
  | TProcs => true
  | TList t' | TDict t' | TOpt t' => has_procs t'
  | TUnion ts => existsb has_procs ts
  | _ => false
  end.
Definition row_ok (t : ty) : bool :=
  match t with
  | TModel _ k fs => (open_kind k || negb (existsb (fun ft => skipped (snd ft)) fs)) && forallb (fun ft => if skipped (snd ft) then f_excl (fst ft) && match f_def (fst ft) with None => false | _ => true end
                       else negb (has_procs (snd ft)) && match f_def (fst ft) with None => negb (f_excl (fst ft) || f_exnull (fst ft)) | _ => true end) fs
  | TRoot _ t' => negb (has_procs t')
  | _ => true
  end.
Lemma rows_ok t : In t all_types -> row_ok t = true.
Proof. intros H. assert (Ha : forallb row_ok all_types = true) by (vm_compute; reflexivity). exact (proj1 (forallb_forall _ _) Ha t H). Qed.
Lemma linked_In c k fs : linked (TModel c k fs) = true -> In (TModel c k fs) all_types.
Proof. intros H. apply Linked.find_class_In. apply linked_class. exact H. Qed.
Lemma linked_root_In c t : linked (TRoot c t) = true -> In (TRoot c t) all_types.
Proof. intros H. apply find_root_In. apply linked_root. exact H. Qed.
Lemma all_keys_aliases fs : NoDup (all_keys fs) -> NoDup (map f_alias fs).
Proof.
  unfold all_keys. induction fs as [|fi fs IH]; intros H; [constructor|]. cbn [flat_map map] in *. apply NoDup_app_inv in H as (_ & Hd & Hx). constructor; [|auto].
  intros Hi. apply in_map_iff in Hi as (g & He & Hg). apply (Hx (f_alias fi)).
  - unfold field_keys. destruct (str_eqb (f_name fi) (f_alias fi)) eqn:Ee; [apply str_eqb_eq in Ee; left; exact Ee|right; left; reflexivity].
  - apply in_flat_map. exists g. split; [exact Hg|]. rewrite <- He. unfold field_keys. destruct (str_eqb (f_name g) (f_alias g)) eqn:Ee; [apply str_eqb_eq in Ee; left; exact Ee|right; left; reflexivity].
Qed.
Lemma aliases_distinct c k fs : wf_ty (TModel c k fs) = true -> NoDup (map (fun ft => f_alias (fst ft)) fs).
Proof.
  intros H. cbn [wf_ty] in H. apply andb_prop in H as [H _]. unfold model_ok in H. rewrite !andb_true_iff in H. destruct H as [[[[H _] _] _] _].
  apply nodupb_NoDup in H. rewrite <- map_map. apply all_keys_aliases. exact H.
Qed.
Lemma shown_distinct fs : NoDup (map (fun ft => f_alias (fst ft)) fs) -> NoDup (map (fun ft : finfo * ty => f_alias (fst ft)) (shown fs)).
Proof.
  unfold shown. induction fs as [|ft fs IH]; intros H; [constructor|]. cbn [map] in H. inversion H as [|? ? Hn Hd]; subst. cbn [filter].
  destruct (negb (skipped (snd ft))); [|auto]. cbn [map]. constructor; [|auto]. intros Hi. apply Hn. apply in_map_iff in Hi as (x & He & Hx). apply filter_In in Hx as [Hx _]. apply in_map_iff. eauto.
Qed.
Lemma dict_set_in k v : forall (d : fields) a x, In (a, x) (dict_set k v d) -> In (a, x) d \/ (a = k /\ x = v).
Proof.
  induction d as [|[b y] d IH]; intros a x Hi; cbn [dict_set] in Hi; [destruct Hi as [Hi|[]]; injection Hi as <- <-; auto|].
  destruct (str_eqb k b) eqn:Ee.
  - apply str_eqb_eq in Ee. subst b. destruct Hi as [Hi|Hi]; [injection Hi as <- <-; auto|left; right; exact Hi].
  - destruct Hi as [Hi|Hi]; [left; left; exact Hi|]. destruct (IH _ _ Hi); [left; right; assumption|auto].
Qed.
Lemma dict_update_in : forall e d a x, In (a, x) (dict_update d e) -> In (a, x) d \/ In (a, x) e.
Proof.
  unfold dict_update. induction e as [|[b y] e IH]; intros d a x Hi; [left; exact Hi|]. cbn [fold_left fst snd] in Hi. destruct (IH _ _ _ Hi) as [Hi'|Hi']; [|right; right; exact Hi'].
  apply dict_set_in in Hi' as [Hi'|[-> ->]]; [left; exact Hi'|right; left; reflexivity].
Qed.

(** ** What is written *)
(** What is known of a value held under an annotation. *)
Record held (E : env) (J : ty -> pv -> Prop) : Prop := {
  h_str m v : J (TStr m) v -> exists s, v = VStr s /\ len_ok m s = true;
  h_email v : J TEmail v -> exists s, v = VStr s;
  h_int v : J TInt v -> exists z, v = VInt z;
  h_bool v : J TBool v -> exists b, v = VBool b;
  h_url h v : J (TUrl h) v -> exists s s0, v = VUrl s /\ e_url E h s0 = Some s;
  h_lits l v : J (TLitS l) v -> exists s, v = VStr s /\ In s l;
  h_liti l v : J (TLitI l) v -> exists z, v = VInt z /\ In z l;
  h_list t v : J (TList t) v -> exists l, v = VList l /\ forall x, In x l -> J t x;
  h_dict t v : J (TDict t) v -> exists d, v = VDict d /\ forall k x, In (k, x) d -> J t x;
  h_opt t v : J (TOpt t) v -> v = VNone \/ J t v;
  h_union ts v : J (TUnion ts) v -> exists t, In t ts /\ J t v;
  h_model c k fs v : linked (TModel c k fs) = true -> J (TModel c k fs) v -> exists fv ex, v = VObj c fv ex /\ Forall2 (fun ft kv => fst kv = f_name (fst ft) /\ J (snd ft) (snd kv)) fs fv
      /\ (k = KForbid -> ex = []) /\ (forall ft, In ft fs -> ~ In (f_alias (fst ft)) (map fst ex));
  h_root c t v : J (TRoot c t) v -> exists d, v = VRoot c d /\ forall k x, In (k, x) d -> J t x
}.
Lemma fields_names {J : ty -> pv -> Prop} fs fv : Forall2 (fun ft kv => fst kv = f_name (fst ft) /\ J (snd ft) (snd kv)) fs fv -> map fst fv = map (fun ft : finfo * ty => f_name (fst ft)) fs.
Proof. induction 1 as [|ft kv fs fv [H1 _] _ IH]; [reflexivity|]. cbn [map]. congruence. Qed.
Lemma zdump_held {J : ty -> pv -> Prop} fs fv : Forall2 (fun ft kv => fst kv = f_name (fst ft) /\ J (snd ft) (snd kv)) fs fv ->
  forall a y, In (a, y) (zdump fs fv) -> exists fi t x, In (fi, t) fs /\ J t x /\ written fi x = true /\ a = f_alias fi /\ y = dump x.
Proof.
  induction 1 as [|[fi t] [k x] fs fv [H1 H2] _ IH]; intros a y Hi; [contradiction|]. cbn [zdump fst snd] in *.
  assert (Hr : In (a, y) (zdump fs fv) -> exists fi0 t0 x0, In (fi0, t0) ((fi, t) :: fs) /\ J t0 x0 /\ written fi0 x0 = true /\ a = f_alias fi0 /\ y = dump x0).
  { intros H. destruct (IH _ _ H) as (g & t' & z & G1 & G2). exists g, t', z. split; [right; exact G1|exact G2]. }
  destruct (written fi x) eqn:Ew; [|auto]. destruct Hi as [Hi|Hi]; [|auto]. injection Hi as <- <-. exists fi, t, x. split; [left; reflexivity|]. auto.
Qed.
Lemma in_field {J : ty -> pv -> Prop} fs fv : Forall2 (fun ft kv => fst kv = f_name (fst ft) /\ J (snd ft) (snd kv)) fs fv ->
  forall fi t, In (fi, t) fs -> exists x, In (f_name fi, x) fv.
Proof.
  induction 1 as [|ft [k x] fs fv [H1 H2] _ IH]; intros fi t Hi; [contradiction|]. destruct Hi as [->|Hi]; [cbn [fst] in H1; subst k; eexists; left; reflexivity|].
  destruct (IH _ _ Hi) as [y Hy]. exists y. right. exact Hy.
Qed.
Theorem held_meets E root J : held E J -> (forall h s s', e_url E h s = Some s' -> sized h s') -> assoc (u "$defs") root = Some (VDict (definitions all_types)) ->
  forall t, linked t = true -> wf_ty t = true -> has_procs t = false -> forall o, J t o -> exists s, In s (alternatives t) /\ meets root s (dump o).
Proof.
  intros HJ Hu Hr t. induction t using ty_ind'; intros Hl Hw Hp o Ho.
  - eexists. split; [left; reflexivity|apply meets_any].
  - apply (h_str _ _ HJ) in Ho as (s & -> & Hs). apply meets_str. exact Hs.
  - apply (h_email _ _ HJ) in Ho as (s & ->). eexists. split; [left; reflexivity|]. cbn [dump]. apply meets_string; try reflexivity; intros; discriminate.
  - apply (h_int _ _ HJ) in Ho as (z & ->). eexists. split; [left; reflexivity|]. cbn [dump]. apply meets_typed; try reflexivity; try (intros; discriminate). right. left. eauto.
  - apply (h_bool _ _ HJ) in Ho as (z & ->). eexists. split; [left; reflexivity|]. cbn [dump]. apply meets_typed; try reflexivity; try (intros; discriminate). right. right. left. eauto.
  - apply (h_url _ _ HJ) in Ho as (s & s0 & -> & Hs). cbn [dump]. apply meets_url. eapply Hu; eauto.
  - apply (h_lits _ _ HJ) in Ho as (s & -> & Hs). eexists. split; [left; reflexivity|]. cbn [dump]. apply meets_literals; try (intros; discriminate); [left; eauto|apply in_map; exact Hs|auto].
  - apply (h_liti _ _ HJ) in Ho as (s & -> & Hs). eexists. split; [left; reflexivity|]. cbn [dump]. apply meets_literals; try (intros; discriminate); [right; left; eauto|apply in_map; exact Hs|auto].
  - apply (h_list _ _ HJ) in Ho as (l & -> & Hx). eexists. split; [left; reflexivity|]. cbn [dump]. apply meets_array. intros x Hi. apply in_map_iff in Hi as (y & <- & Hi).
    apply one_of_them_meets. exact (IHt Hl Hw Hp y (Hx y Hi)).
  - apply (h_dict _ _ HJ) in Ho as (d & -> & Hx). eexists. split; [left; reflexivity|]. cbn [dump]. apply meets_map. intros a x Hi. apply in_map_iff in Hi as ([b y] & He & Hi). injection He as <- <-.
    apply any_or_meets. apply one_of_them_meets. exact (IHt Hl Hw Hp y (Hx b y Hi)).
  - cbn [linked wf_ty has_procs alternatives] in *. apply (h_opt _ _ HJ) in Ho as [->|Ho].
    + exists null_schema. split; [apply in_or_app; right; left; reflexivity|apply meets_null].
    + destruct (IHt Hl Hw Hp _ Ho) as (s & Hi & Hm). exists s. split; [apply in_or_app; left; exact Hi|exact Hm].
  - apply (h_union _ _ HJ) in Ho as (t & Hi & Ho). rewrite Forall_forall in H. assert (Hpt : has_procs t = false).
    { cbn [has_procs] in Hp. destruct (has_procs t) eqn:Et; [|reflexivity]. rewrite <- Hp. symmetry. apply existsb_exists. eauto. }
    destruct (H t Hi (linked_union _ _ Hl Hi) (wf_union _ _ Hw Hi) Hpt o Ho) as (s & Hs & Hm). exists s. split; [|exact Hm]. cbn [alternatives]. apply in_flat_map. eauto.
  - discriminate Hp.
  - assert (Hin := linked_In _ _ _ Hl). assert (Hrow := rows_ok _ Hin). cbn [row_ok] in Hrow. apply andb_prop in Hrow as [_ Hrow]. rewrite forallb_forall in Hrow. rewrite Forall_forall in H.
    apply (h_model _ _ HJ) in Ho as (fv & ex & -> & Hf & Hk & Hx); [|exact Hl]. eexists. split; [left; reflexivity|]. eapply (meets_class root (TModel c k fs)); [exact Hr|exact Hin|reflexivity|].
    assert (Ha := aliases_distinct _ _ _ Hw). assert (Hnm := fields_names _ _ Hf).
    assert (Hnd : NoDup (map (fun ft => f_name (fst ft)) fs)) by exact (names_NoDup _ _ _ Hw).
    rewrite (dump_linked _ _ _ _ _ Hl). rewrite (dump_fields_zip (map fst fs) fs); [|rewrite map_map; exact Hnd|intros ft Hi; apply in_map; exact Hi|exact Hnm].
    apply meets_object; [apply shown_distinct; exact Ha| |].
    + intros fi t Hi. apply filter_In in Hi as [Hi Hd]. apply filter_In in Hi as [Hi Hs]. specialize (Hrow _ Hi). cbn [fst snd] in *. destruct (skipped t); [discriminate Hs|].
      destruct (f_def fi) eqn:Ed; [discriminate Hd|]. apply andb_prop in Hrow as [_ Hrow]. apply negb_true_iff, orb_false_iff in Hrow as [Hx1 Hx2].
      destruct (in_field _ _ Hf _ _ Hi) as [x Hxv]. apply dict_update_key. left.
      apply in_map_iff. exists (f_alias fi, dump x). split; [reflexivity|]. eapply zdump_has; eauto. unfold written. rewrite Hx1, Hx2. reflexivity.
    + intros a y Hi. apply dict_update_in in Hi as [Hi|Hi].
      * destruct (zdump_held _ _ Hf _ _ Hi) as (fi & t & x & Hft & Hj & Hwr & -> & ->). left. exists fi, t. specialize (Hrow _ Hft). cbn [fst snd] in Hrow. destruct (skipped t) eqn:Es.
        -- exfalso. apply andb_prop in Hrow as [Hrow _]. unfold written in Hwr. rewrite Hrow in Hwr. discriminate Hwr.
        -- apply andb_prop in Hrow as [Hrow _]. apply negb_true_iff in Hrow. split; [apply filter_In; split; [exact Hft|cbn [snd]; rewrite Es; reflexivity]|]. split; [reflexivity|].
           apply one_of_them_meets. exact (H _ Hft (linked_sub _ _ _ _ Hl Hft) (wf_sub _ _ _ _ Hw Hft) Hrow _ Hj).
      * assert (Hne : In a (map fst ex)) by (apply in_map with (f := fst) in Hi; rewrite dump_entries_keys in Hi; exact Hi). right. split.
        -- destruct k; try reflexivity. rewrite (Hk eq_refl) in Hne. contradiction.
        -- intros Hc. apply in_map_iff in Hc as (ft & <- & Hft). apply filter_In in Hft as [Hft _]. exact (Hx _ Hft Hne).
  - assert (Hin := linked_root_In _ _ Hl). assert (Hrow := rows_ok _ Hin). cbn [row_ok] in Hrow. apply negb_true_iff in Hrow.
    apply (h_root _ _ HJ) in Ho as (d & -> & Hx). eexists. split; [left; reflexivity|]. eapply (meets_class root (TRoot c t)); [exact Hr|exact Hin|reflexivity|].
    cbn [dump definition]. apply meets_map. intros a x Hi. apply in_map_iff in Hi as ([b y] & He & Hi). injection He as <- <-.
    apply any_or_meets. apply one_of_them_meets. apply (IHt (linked_root_sub _ _ Hl) Hw Hrow). eauto.
Qed.
(** ** Objects read *)
Lemma in_root_type t0 c k fs : t0 = TModel c k fs -> linked t0 = true -> wf_ty t0 = true.
Proof. intros -> H. apply wf_all. apply linked_In. exact H. Qed.
Lemma vlist_in E t l l' n : vlist (validate E) t l = Some (l', n) -> forall x, In x l' -> exists v0 m, validate E t v0 = Some (x, m).
Proof.
  revert l' n. induction l as [|y l IH]; intros l' n Hv x Hx; cbn [vlist] in Hv; [injection Hv as <- _; contradiction|].
  destruct (validate E t y) as [[y' a]|] eqn:Ey; [|discriminate]. destruct (vlist (validate E) t l) as [[r b]|] eqn:El; [|discriminate]. injection Hv as <- _.
  destruct Hx as [<-|Hx]; eauto.
Qed.
Lemma vdict_in E t d d' n : vdict (validate E) t d = Some (d', n) -> forall k x, In (k, x) d' -> exists v0 m, validate E t v0 = Some (x, m).
Proof.
  revert d' n. induction d as [|[a y] d IH]; intros d' n Hv k x Hx; cbn [vdict] in Hv; [injection Hv as <- _; contradiction|].
  destruct (validate E t y) as [[y' i]|] eqn:Ey; [|discriminate]. destruct (vdict (validate E) t d) as [[r b]|] eqn:El; [|discriminate]. injection Hv as <- _.
  destruct Hx as [Hx|Hx]; [injection Hx as <- <-; eauto|eauto].
Qed.
Lemma default_validates E fi t d : default_ok fi t = true -> f_def fi = Some d -> exists v0 n, validate E t v0 = Some (d, n).
Proof.
  unfold default_ok. intros H Hd. rewrite Hd in H. exists d. destruct d; try discriminate H.
  - destruct t; try discriminate H. eexists. reflexivity.
  - destruct t; try discriminate H. eexists. reflexivity.
  - destruct t; try discriminate H; [eexists; reflexivity|]. destruct t; try discriminate H. eexists. reflexivity.
  - destruct t as [|[m|]| | | | | | | | |t| | | |]; try discriminate H; try (eexists; reflexivity).
    + apply andb_prop in H as [H _]. exists 0. cbn [validate]. rewrite H. reflexivity.
    + destruct t; try discriminate H. apply andb_prop in H as [H _]. exists 0. cbn [validate]. rewrite H. reflexivity.
Qed.
Lemma vfields_held E kvs fs : forallb (fun ft => default_ok (fst ft) (snd ft)) fs = true -> forall fv n, vfields E (validate E) kvs fs = Some (fv, n) ->
  Forall2 (fun ft kv => fst kv = f_name (fst ft) /\ exists v0 m, validate E (snd ft) v0 = Some (snd kv, m)) fs fv.
Proof.
  induction fs as [|[fi t] fs IH]; intros Hd fv n Hv; cbn [vfields forallb] in *; [injection Hv as <- _; constructor|]. apply andb_prop in Hd as [Hd1 Hd].
  destruct (lookup_field fi kvs) as [x|].
  - destruct (validate E t x) as [[x' a]|] eqn:Ex; [|discriminate]. destruct (fv_check E (f_val fi) x'); [|discriminate].
    destruct (vfields E (validate E) kvs fs) as [[r b]|] eqn:Er; [|discriminate]. injection Hv as <- _. constructor; [|eapply IH; eauto]. cbn [fst snd]. eauto.
  - destruct (f_def fi) as [d|] eqn:Ed; [|discriminate]. destruct (vfields E (validate E) kvs fs) as [[r b]|] eqn:Er; [|discriminate]. injection Hv as <- _.
    constructor; [|eapply IH; eauto]. cbn [fst snd]. split; [reflexivity|]. exact (default_validates E _ _ _ Hd1 Ed).
Qed.
Lemma vmodel_held E c k fs kvs v n : linked (TModel c k fs) = true -> vmodel E (validate E) c k fs kvs = Some (v, n) ->
  exists fv ex, v = VObj c fv ex /\ Forall2 (fun ft kv => fst kv = f_name (fst ft) /\ exists v0 m, validate E (snd ft) v0 = Some (snd kv, m)) fs fv
    /\ (k = KForbid -> ex = []) /\ (forall ft, In ft fs -> ~ In (f_alias (fst ft)) (map fst ex)).
Proof.
  intros Hl Hv. assert (Hw := in_root_type _ c k fs eq_refl Hl). cbn [wf_ty] in Hw. apply andb_prop in Hw as [Hw _]. unfold model_ok in Hw. rewrite !andb_true_iff in Hw. destruct Hw as [[[_ Hd] _] _].
  unfold vmodel in Hv. destruct (vfields E (validate E) kvs fs) as [[fv m]|] eqn:Ef; [|discriminate]. destruct (after_ok E c k fv (extras fs kvs)) eqn:Ea; [|discriminate]. injection Hv as <- <-.
  exists fv, (extras fs kvs). split; [reflexivity|]. split; [eapply vfields_held; eauto|]. split.
  - intros ->. unfold after_ok in Ea. apply andb_prop in Ea as [Ea _]. cbn [extras_ok] in Ea. destruct (extras fs kvs); [reflexivity|discriminate].
  - intros ft Hi Hk. apply (extras_not_alias _ _ _ Hk). apply in_map_iff. eauto.
Qed.
Lemma best_of_some l v n : best_of l = Some (v, n) -> In (Some (v, n)) l.
Proof. intros H. apply best_of_spec in H as (a & b & -> & _). apply in_or_app. right. left. reflexivity. Qed.
Lemma read_held E : held E (fun t v => exists v0 n, validate E t v0 = Some (v, n)).
Proof.
  constructor.
  - intros m v (v0 & n & H). cbn [validate] in H. destruct v0; try discriminate. destruct (len_ok m s) eqn:El; [|discriminate]. injection H as <- _. eauto.
  - intros v (v0 & n & H). cbn [validate] in H. destruct v0; try discriminate. destruct (email_ok s); [|discriminate]. injection H as <- _. eauto.
  - intros v (v0 & n & H). cbn [validate] in H. destruct v0; try discriminate; try (injection H as <- _; eauto); destruct (e_int E _); try discriminate; injection H as <- _; eauto.
  - intros v (v0 & n & H). cbn [validate] in H. destruct v0; try discriminate; try (injection H as <- _; eauto); destruct (e_bool E _); try discriminate; injection H as <- _; eauto.
  - intros h v (v0 & n & H). cbn [validate] in H. destruct v0; try discriminate; destruct (e_url E h s) eqn:Eu; try discriminate; injection H as <- _; eauto.
  - intros l v (v0 & n & H). cbn [validate] in H. destruct v0; try discriminate. destruct (mem_str s l) eqn:El; [|discriminate]. injection H as <- _. apply mem_str_In in El. eauto.
  - intros l v (v0 & n & H). cbn [validate] in H. destruct v0; try discriminate. destruct (mem_Z z l) eqn:El; [|discriminate]. injection H as <- _. unfold mem_Z in El. apply existsb_exists in El as (x & Hx & Ee). apply Z.eqb_eq in Ee. subst x. eauto.
  - intros t v (v0 & n & H). cbn [validate] in H. destruct v0; try discriminate. destruct (vlist (validate E) t l) as [[l' m]|] eqn:El; [|discriminate]. injection H as <- _. exists l'. split; [reflexivity|]. eapply vlist_in; eauto.
  - intros t v (v0 & n & H). cbn [validate] in H. destruct v0; try discriminate. destruct (vdict (validate E) t d) as [[l' m]|] eqn:El; [|discriminate]. injection H as <- _. exists l'. split; [reflexivity|]. eapply vdict_in; eauto.
  - intros t v (v0 & n & H). cbn [validate] in H. destruct v0; try (injection H as <- _; left; reflexivity); right; eauto.
  - intros ts v (v0 & n & H). cbn [validate] in H. apply best_of_some in H. apply in_map_iff in H as (t & Ht & Hi). exists t. eauto.
  - intros c k fs v Hl (v0 & n & H). cbn [validate] in H. destruct v0; try discriminate; [eapply vmodel_held; eauto|]. destruct (String.eqb c c0); [|discriminate]. eapply vmodel_held; eauto.
  - intros c t v (v0 & n & H). cbn [validate] in H. destruct v0; try discriminate.
    + destruct (vdict (validate E) t d) as [[d' m]|] eqn:Ed; [|discriminate]. destruct (root_keys_ok d'); [|discriminate]. injection H as <- _. exists d'. split; [reflexivity|]. eapply vdict_in; eauto.
    + destruct (String.eqb c c0); [|discriminate]. destruct (vdict (validate E) t d) as [[d' m]|] eqn:Ed; [|discriminate]. destruct (root_keys_ok d'); [|discriminate]. injection H as <- _. exists d'. split; [reflexivity|]. eapply vdict_in; eauto.
Qed.
(** ** Objects changed since *)
Lemma wt_fields_held E (wt : ty -> pv -> Prop) fs : forall fv, wt_fields E wt fs fv -> Forall2 (fun ft kv => fst kv = f_name (fst ft) /\ wt (snd ft) (snd kv)) fs fv.
Proof. induction fs as [|[fi t] fs IH]; intros [|[k v] fv] H; cbn [wt_fields] in H; try contradiction; constructor; [cbn [fst snd]; tauto|apply IH; tauto]. Qed.
Lemma wt_held E : held E (fun t v => well_typed E t v /\ own_aliases v).
Proof.
  constructor.
  - intros m v ((s & -> & Hm) & _). exists s. split; [reflexivity|]. destruct m as [n|]; [|reflexivity]. apply N.leb_le. apply Hm. reflexivity.
  - intros v ((s & -> & _) & _). eauto.
  - intros v ((s & ->) & _). eauto.
  - intros v ((s & ->) & _). eauto.
  - intros h v ((s & s0 & -> & Hs) & _). eauto.
  - intros l v ((s & -> & Hi) & _). eauto.
  - intros l v ((s & -> & Hi) & _). eauto.
  - intros t v ((l & -> & Hf) & Ha). exists l. split; [reflexivity|]. intros x Hx. rewrite Forall_forall in Hf. split; [auto|]. intros c fv ex key Hw. apply (Ha c fv ex key). econstructor; eauto.
  - intros t v ((l & -> & Hf) & Ha). exists l. split; [reflexivity|]. intros k x Hx. rewrite Forall_forall in Hf. split; [apply (Hf _ Hx)|]. intros c fv ex key Hw. apply (Ha c fv ex key). eapply w_dict; eauto.
  - intros t v ([->|Hf] & Ha); auto.
  - intros ts v (Hf & Ha). cbn [well_typed] in Hf. induction ts as [|t ts IH]; cbn [wt_one] in Hf; [contradiction|]. destruct Hf as [Hf|Hf]; [exists t; split; [left; reflexivity|auto]|].
    destruct (IH Hf) as (t' & Hi & Hx). exists t'. split; [right; exact Hi|exact Hx].
  - intros c k fs v Hl ((fv & ex & -> & Hf & Hk & _) & Ha). exists fv, ex. split; [reflexivity|]. split; [|split; [exact Hk|]].
    + apply wt_fields_held in Hf. assert (Hs : forall kv, In kv fv -> own_aliases (snd kv)) by (intros [a x] Hx c' fv' ex' key Hw; apply (Ha c' fv' ex' key); eapply w_field; eauto). clear Ha Hk Hl.
      induction Hf as [|ft kv fs fv [H1 H2] _ IH]; constructor; [split; [exact H1|split; [exact H2|apply Hs; left; reflexivity]]|]. apply IH. intros kv' Hi. apply Hs. right. exact Hi.
    + intros ft Hi Hx. apply (Ha c fv ex (f_alias (fst ft)) (w_self _) Hx). rewrite (proj1 (linked_fields _ _ _ Hl)). apply in_map_iff. eauto.
  - intros c t v ((d & -> & Hf) & Ha). exists d. split; [reflexivity|]. intros k x Hx. rewrite Forall_forall in Hf. split; [apply (Hf _ Hx)|]. intros c' fv ex key Hw. apply (Ha c' fv ex key). eapply w_root; eauto.
Qed.
(** ** Values accepted *)
Lemma vlist_each (val : ty -> pv -> option (pv * nat)) t l r : vlist val t l = Some r -> forall x, In x l -> exists y, val t x = Some y.
Proof.
  revert r. induction l as [|y l IH]; intros r Hv x Hx; [contradiction|]. cbn [vlist] in Hv. destruct (val t y) as [[y' a]|] eqn:Ey; [|discriminate].
  destruct (vlist val t l) as [[q b]|] eqn:El; [|discriminate]. destruct Hx as [<-|Hx]; eauto.
Qed.
Lemma vdict_each (val : ty -> pv -> option (pv * nat)) t d r : vdict val t d = Some r -> forall k x, In (k, x) d -> exists y, val t x = Some y.
Proof.
  revert r. induction d as [|[a y] d IH]; intros r Hv k x Hx; [contradiction|]. cbn [vdict] in Hv. destruct (val t y) as [[y' i]|] eqn:Ey; [|discriminate].
  destruct (vdict val t d) as [[q b]|] eqn:El; [|discriminate]. destruct Hx as [Hx|Hx]; [injection Hx as <- <-; eauto|eauto].
Qed.
Lemma spelling_fields fs d : spec_spelling (TModel "" KFree fs) (VDict d) -> forall fi t, In (fi, t) fs ->
  (f_name fi <> f_alias fi -> ~ In (f_name fi) (map fst d)) /\ (forall x, In (f_alias fi, x) d -> spec_spelling t x).
Proof. cbn [spec_spelling]. induction fs as [|[g t'] fs IH]; intros H fi t Hi; [contradiction|]. destruct H as (H1 & H2 & H3). destruct Hi as [Hi|Hi]; [injection Hi as <- <-; auto|exact (IH H3 fi t Hi)]. Qed.
Lemma field_given E kvs fs fv : typed_fields E kvs fs fv -> forall fi t, In (fi, t) fs -> exists v, field_value E kvs fi t v.
Proof. induction 1 as [|ft kv fs fv [_ H1] _ IH]; intros fi t Hi; [contradiction|]. destruct Hi as [->|Hi]; [eauto|eauto]. Qed.
Theorem accepted_meets E root : (forall h s s', e_url E h s = Some s' -> sized h s) -> assoc (u "$defs") root = Some (VDict (definitions all_types)) ->
  forall t, linked t = true -> wf_ty t = true -> has_procs t = false -> forall v, is_json v -> python_dicts v -> spec_spelling t v ->
  (exists r, validate (strictly E) t v = Some r) -> exists s, In s (alternatives t) /\ meets root s v.
Proof.
  intros Hu Hr t. induction t using ty_ind'; intros Hl Hw Hp v Hj Hpd Hs [r Hv].
  - eexists. split; [left; reflexivity|apply meets_any].
  - cbn [validate] in Hv. destruct v; try discriminate. destruct (len_ok m s) eqn:El; [|discriminate]. apply meets_str. exact El.
  - cbn [validate] in Hv. destruct v; try discriminate. eexists. split; [left; reflexivity|]. apply meets_string; try reflexivity; intros; discriminate.
  - cbn [validate strictly e_int] in Hv. destruct v; try discriminate. eexists. split; [left; reflexivity|]. apply meets_typed; try reflexivity; try (intros; discriminate). right. left. eauto.
  - cbn [validate strictly e_bool] in Hv. destruct v; try discriminate. eexists. split; [left; reflexivity|]. apply meets_typed; try reflexivity; try (intros; discriminate). right. right. left. eauto.
  - cbn [validate strictly e_url] in Hv. destruct v; try discriminate; [|destruct (Hj _ (w_self _))]. destruct (e_url E b s) eqn:Eu; [|discriminate]. apply meets_url. eapply Hu; eauto.
  - cbn [validate] in Hv. destruct v; try discriminate. destruct (mem_str s l) eqn:El; [|discriminate]. apply mem_str_In in El.
    eexists. split; [left; reflexivity|]. apply meets_literals; try (intros; discriminate); [left; eauto|apply in_map; exact El|auto].
  - cbn [validate] in Hv. destruct v; try discriminate. destruct (mem_Z z l) eqn:El; [|discriminate]. unfold mem_Z in El. apply existsb_exists in El as (x & Hx & Ee). apply Z.eqb_eq in Ee. subst x.
    eexists. split; [left; reflexivity|]. apply meets_literals; try (intros; discriminate); [right; left; eauto|apply in_map; exact Hx|auto].
  - cbn [validate] in Hv. destruct v; try discriminate. destruct (vlist (validate (strictly E)) t l) as [q|] eqn:El; [|discriminate]. cbn [spec_spelling] in Hs. rewrite Forall_forall in Hs.
    eexists. split; [left; reflexivity|]. apply meets_array. intros x Hx. apply one_of_them_meets. apply (IHt Hl Hw Hp).
    + intros y Hy. apply Hj. econstructor; eauto.
    + intros y Hy. apply Hpd. econstructor; eauto.
    + auto.
    + eapply vlist_each; eauto.
  - cbn [validate] in Hv. destruct v; try discriminate. destruct (vdict (validate (strictly E)) t d) as [q|] eqn:El; [|discriminate]. cbn [spec_spelling] in Hs. rewrite Forall_forall in Hs.
    eexists. split; [left; reflexivity|]. apply meets_map. intros k x Hx. apply any_or_meets. apply one_of_them_meets. apply (IHt Hl Hw Hp).
    + intros y Hy. apply Hj. eapply w_dict; eauto.
    + intros y Hy. apply Hpd. eapply w_dict; eauto.
    + apply (Hs _ Hx).
    + eapply vdict_each; eauto.
  - cbn [linked wf_ty has_procs alternatives] in *. assert (Hc : v = VNone \/ exists r', validate (strictly E) t v = Some r') by (destruct v; eauto). destruct Hc as [->|Hc].
    + exists null_schema. split; [apply in_or_app; right; left; reflexivity|apply meets_null].
    + destruct (IHt Hl Hw Hp v Hj Hpd Hs Hc) as (s & Hi & Hm). exists s. split; [apply in_or_app; left; exact Hi|exact Hm].
  - cbn [validate] in Hv. destruct r as [o n]. apply best_of_some in Hv. apply in_map_iff in Hv as (t & Ht & Hi). rewrite Forall_forall in H. assert (Hpt : has_procs t = false).
    { cbn [has_procs] in Hp. destruct (has_procs t) eqn:Et; [|reflexivity]. rewrite <- Hp. symmetry. apply existsb_exists. eauto. }
    assert (Hst : spec_spelling t v). { cbn [spec_spelling] in Hs. clear -Hs Hi. induction ts as [|a ts IH]; [contradiction|]. destruct Hi as [->|Hi]; [exact (proj1 Hs)|exact (IH (proj2 Hs) Hi)]. }
    destruct (H t Hi (linked_union _ _ Hl Hi) (wf_union _ _ Hw Hi) Hpt v Hj Hpd Hst (ex_intro _ _ Ht)) as (s & Hs' & Hm). exists s. split; [|exact Hm]. cbn [alternatives]. apply in_flat_map. eauto.
  - discriminate Hp.
  - assert (Hin := linked_In _ _ _ Hl). assert (Hrow := rows_ok _ Hin). cbn [row_ok] in Hrow. apply andb_prop in Hrow as [Hopen Hrow]. rewrite forallb_forall in Hrow. rewrite Forall_forall in H.
    destruct v as [| | | | | | |d|? ? ?| | |]; cbn [validate] in Hv; try discriminate; [|destruct (Hj _ (w_self _))].
    assert (Hpar : parse (strictly E) (TModel c k fs) (VDict d) = Some (fst r)) by (unfold parse; cbn [validate]; rewrite Hv; reflexivity).
    apply model_parse_iff in Hpar as (fv & _ & Hf & Hx & _). assert (Hd : NoDup (map fst d)) by exact (Hpd _ (w_self _)).
    assert (Hsf := spelling_fields fs d Hs). assert (Ha := aliases_distinct _ _ _ Hw).
    assert (Hfield : forall fi t x, In (fi, t) fs -> In (f_alias fi, x) d -> exists y, validate (strictly E) t x = Some y).
    { intros fi t x Hi Hix. destruct (field_given _ _ _ _ Hf _ _ Hi) as [y Hy]. assert (Hg := assoc_in_nodup _ _ _ Hd Hix). destruct Hy as [(x' & Hg' & Hy & _)|(Hn & _)]; [|congruence].
      destruct Hg' as [Hg'|[Hg' _]]; [|congruence]. assert (x' = x) by congruence. subst x'. apply parse_some in Hy as [m Hy]. eauto. }
    eexists. split; [left; reflexivity|]. eapply (meets_class root (TModel c k fs)); [exact Hr|exact Hin|reflexivity|]. apply meets_object; [apply shown_distinct; exact Ha| |].
    + intros fi t Hi. apply filter_In in Hi as [Hi Hdf]. apply filter_In in Hi as [Hi _]. cbn [fst] in Hdf. destruct (f_def fi) eqn:Ed; [discriminate Hdf|].
      destruct (field_given _ _ _ _ Hf _ _ Hi) as [y [(x & Hg & _)|(_ & _ & Hy)]]; [|congruence]. destruct Hg as [Hg|[Hg1 Hg2]]; [apply assoc_In in Hg; apply in_map with (f := fst) in Hg; exact Hg|].
      apply assoc_In in Hg2. apply in_map with (f := fst) in Hg2. cbn [fst] in Hg2. destruct (str_eqb (f_name fi) (f_alias fi)) eqn:Ee; [apply str_eqb_eq in Ee; rewrite <- Ee; exact Hg2|].
      exfalso. apply (proj1 (Hsf _ _ Hi)); [|exact Hg2]. intros Heq. rewrite Heq, str_eqb_refl in Ee. discriminate.
    + intros a x Hi. destruct (mem_str a (map (fun ft => f_alias (fst ft)) fs)) eqn:Em.
      * apply mem_str_In in Em. apply in_map_iff in Em as ([fi t] & <- & Hft). cbn [fst] in *. specialize (Hrow _ Hft). cbn [fst snd] in Hrow. destruct (skipped t) eqn:Es.
        -- right. split.
           ++ destruct (open_kind k); [reflexivity|]. apply negb_true_iff in Hopen. exfalso. assert (existsb (fun ft => skipped (snd ft)) fs = true) by (apply existsb_exists; exists (fi, t); auto). congruence.
           ++ intros Hc. apply in_map_iff in Hc as ([g t'] & He & Hc). apply filter_In in Hc as [Hc Hsk]. cbn [fst snd] in *. assert ((g, t') = (fi, t)).
              { clear -Ha Hc Hft He. induction fs as [|ft fs IH]; [contradiction|]. cbn [map] in Ha. inversion Ha as [|? ? Hn Ha']; subst. destruct Hc as [->|Hc], Hft as [Hft|Hft]; auto.
                - exfalso. apply Hn. cbn [fst]. rewrite He. apply in_map_iff. exists (fi, t). auto.
                - exfalso. subst ft. apply Hn. cbn [fst]. rewrite <- He. apply in_map_iff. exists (g, t'). auto. }
              assert (t' = t) by congruence. subst t'. rewrite Es in Hsk. discriminate Hsk.
        -- left. exists fi, t. apply andb_prop in Hrow as [Hrow _]. apply negb_true_iff in Hrow. split; [apply filter_In; split; [exact Hft|cbn [snd]; rewrite Es; reflexivity]|]. split; [reflexivity|].
           apply one_of_them_meets. apply (H _ Hft (linked_sub _ _ _ _ Hl Hft) (wf_sub _ _ _ _ Hw Hft) Hrow).
           ++ intros y Hy. apply Hj. eapply w_dict; eauto.
           ++ intros y Hy. apply Hpd. eapply w_dict; eauto.
           ++ exact (proj2 (Hsf _ _ Hft) x Hi).
           ++ exact (Hfield fi t x Hft Hi).
      * apply mem_str_not_In in Em. right. split; [|intros Hc; apply Em; apply in_map_iff in Hc as (ft & <- & Hc); apply filter_In in Hc as [Hc _]; apply in_map_iff; eauto].
        destruct k; try reflexivity. exfalso. apply (Hx a). split; [apply in_map with (f := fst) in Hi; exact Hi|]. intros fi t Hft. split.
        -- intros ->. apply Em. apply in_map_iff. exists (fi, t). auto.
        -- intros ->. exfalso. apply (proj1 (Hsf _ _ Hft)); [|apply in_map with (f := fst) in Hi; exact Hi]. intros Heq. apply Em. rewrite Heq. apply in_map_iff. exists (fi, t). auto.
  - assert (Hin := linked_root_In _ _ Hl). assert (Hrow := rows_ok _ Hin). cbn [row_ok] in Hrow. apply negb_true_iff in Hrow.
    destruct v as [| | | | | | |d| |? ?| |]; cbn [validate] in Hv; try discriminate; [|destruct (Hj _ (w_self _))].
    destruct (vdict (validate (strictly E)) t d) as [q|] eqn:El; [|discriminate]. cbn [spec_spelling] in Hs. rewrite Forall_forall in Hs.
    eexists. split; [left; reflexivity|]. eapply (meets_class root (TRoot c t)); [exact Hr|exact Hin|reflexivity|]. cbn [definition]. apply meets_map. intros a x Hi.
    apply any_or_meets. apply one_of_them_meets. apply (IHt (linked_root_sub _ _ Hl) Hw Hrow).
    + intros y Hy. apply Hj. eapply w_dict; eauto.
    + intros y Hy. apply Hpd. eapply w_dict; eauto.
    + apply (Hs _ Hi).
    + eapply vdict_each; eauto.
Qed.
