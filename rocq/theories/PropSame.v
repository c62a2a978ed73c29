(** Property C53: the order of keys in the input does not matter. *)
From Verif Require Import PyStr Regex Value Types Rules Pydantic ClassTable Classes Canon Fix Linked SpecParse Sample ProofRules ProofParse
  State SpecState ProofState PropState Resolve SpecResolve ProofResolve Dump SpecDump ProofDump PropDump Unified SpecUnified ProofUnified ProofCheck ProofOrder PropUnified.
From Coq Require Import Permutation.
Local Open Scope string_scope.

(** ** A relation through lookups, equivalent to [same_upto_order] on Python values *)
(** Dictionaries with the same keys and, under the same key, the same values (up to [R]). *)
Definition same_entries (R : pv -> pv -> Prop) (d d' : fields) : Prop :=
  NoDup (map fst d) /\ NoDup (map fst d') /\ (forall k, In k (map fst d) <-> In k (map fst d'))
  /\ (forall k x x', In (k, x) d -> In (k, x') d' -> R x x').
(** Lists and the declared fields of instances in the same order; dictionaries, maps and extra data in any order. *)
Inductive same : pv -> pv -> Prop :=
| same_atom v : atomic v -> same v v
| same_list l l' : Forall2 same l l' -> same (VList l) (VList l')
| same_dict d d' : same_entries same d d' -> same (VDict d) (VDict d')
| same_root c d d' : same_entries same d d' -> same (VRoot c d) (VRoot c d')
| same_obj c fv fv' ex ex' : NoDup (map fst fv) -> Forall2 (fun a b => fst a = fst b /\ same (snd a) (snd b)) fv fv' -> same_entries same ex ex' ->
    same (VObj c fv ex) (VObj c fv' ex').

(** ** Lookups *)
Definition orel (R : pv -> pv -> Prop) (o o' : option pv) : Prop :=
  match o, o' with Some x, Some x' => R x x' | None, None => True | _, _ => False end.
Lemma entries_lookup R d d' : same_entries R d d' -> forall k, orel R (assoc k d) (assoc k d').
Proof.
  intros (N1 & N2 & Hk & Hv) k. destruct (assoc k d) as [x|] eqn:E1, (assoc k d') as [x'|] eqn:E2; cbn [orel]; try exact I.
  - apply assoc_In in E1, E2. exact (Hv _ _ _ E1 E2).
  - apply assoc_In in E1. apply assoc_None in E2. apply E2, Hk. exact (in_map fst _ _ E1).
  - apply assoc_In in E2. apply assoc_None in E1. apply E1, Hk. exact (in_map fst _ _ E2).
Qed.
Lemma lookup_entries R d d' : NoDup (map fst d) -> NoDup (map fst d') -> (forall k, orel R (assoc k d) (assoc k d')) -> same_entries R d d'.
Proof.
  intros N1 N2 H. split; [exact N1|]. split; [exact N2|]. split.
  - intros k. specialize (H k). destruct (assoc k d) eqn:E1, (assoc k d') eqn:E2; cbn [orel] in H; try contradiction.
    + apply assoc_In in E1, E2. apply (in_map fst) in E1, E2. tauto.
    + apply assoc_None in E1, E2. tauto.
  - intros k x x' H1 H2. apply In_assoc in H1; [|exact N1]. apply In_assoc in H2; [|exact N2]. specialize (H k). rewrite H1, H2 in H. exact H.
Qed.
Lemma assoc_filter_key (p : pystr -> bool) (d : fields) k : assoc k (filter (fun kv => p (fst kv)) d) = if p k then assoc k d else None.
Proof.
  induction d as [|[k' x] d IH]; [destruct (p k); reflexivity|]. cbn [filter fst assoc]. destruct (p k') eqn:Ep; cbn [assoc].
  - destruct (str_eqb k k') eqn:Ek; [|exact IH]. apply str_eqb_eq in Ek. subst. rewrite Ep. reflexivity.
  - rewrite IH. destruct (str_eqb k k') eqn:Ek; [|reflexivity]. apply str_eqb_eq in Ek. subst. rewrite Ep. reflexivity.
Qed.
Lemma merged' d e k : NoDup (map fst e) -> assoc k (dict_update d e) = match assoc k e with Some x => Some x | None => assoc k d end.
Proof.
  intros Hn. destruct (assoc k e) as [x|] eqn:Ea.
  - apply assoc_dict_update_in; [exact Hn|apply assoc_In; exact Ea].
  - apply assoc_dict_update. apply assoc_None. exact Ea.
Qed.
Lemma fields_lookup R (d d' : fields) : Forall2 (fun a b => fst a = fst b /\ R (snd a) (snd b)) d d' -> forall k, orel R (assoc k d) (assoc k d').
Proof.
  induction 1 as [|[a x] [b y] d d' [Hk Hv] H IH]; intros k; [exact I|]. cbn [fst snd] in *. subst. cbn [assoc]. destruct (str_eqb k b); [exact Hv|apply IH].
Qed.
Lemma fields_keys R (d d' : fields) : Forall2 (fun a b => fst a = fst b /\ R (snd a) (snd b)) d d' -> map fst d = map fst d'.
Proof. induction 1 as [|? ? ? ? [H _] _ IH]; [reflexivity|]. cbn [map]. congruence. Qed.
Lemma has_key_rel R d d' k : orel R (assoc k d) (assoc k d') -> has_key k d = has_key k d'.
Proof.
  intros H. apply eq_true_iff_eq. rewrite !has_key_iff. destruct (assoc k d) eqn:E1, (assoc k d') eqn:E2; cbn [orel] in H; try contradiction.
  - apply assoc_In in E1, E2. apply (in_map fst) in E1, E2. tauto.
  - apply assoc_None in E1, E2. tauto.
Qed.

(** ** same is reflexive on Python values *)
Lemma same_refl v : python_dicts v -> same v v.
Proof.
  induction v using pv_ind'; intros Hp; try (apply same_atom; exact I).
  - apply same_list. assert (Hl := cl_list _ pd_closed _ Hp). induction l as [|x l IH]; [constructor|]. inversion H; inversion Hl; subst.
    constructor; [auto|]. apply IH; auto. apply pd_list. assumption.
  - apply same_dict. assert (Hn := pd_here _ Hp). apply lookup_entries; [exact Hn|exact Hn|]. intros k. destruct (assoc k d) as [x|] eqn:Ea; [|exact I].
    apply assoc_In in Ea. rewrite Forall_forall in H. apply (H _ Ea). assert (Hd := cl_dict _ pd_closed _ Hp). rewrite Forall_forall in Hd. exact (Hd _ Ea).
  - assert (Hn := pd_here _ Hp). destruct Hn as [N1 N2]. destruct (cl_obj _ pd_closed _ _ _ Hp) as [Hf Hx]. rewrite Forall_forall in *. apply same_obj; [exact N1| |].
    + clear N1 Hp. induction fs as [|[k x] fs IH]; constructor; [cbn [fst snd]; split; [reflexivity|]; apply (H (k, x)); [left; reflexivity|apply (Hf (k, x)); left; reflexivity]|].
      apply IH; intros kv Hi; [apply H; right; exact Hi|apply Hf; right; exact Hi].
    + apply lookup_entries; [exact N2|exact N2|]. intros k. destruct (assoc k ex) as [x|] eqn:Ea; [|exact I]. apply assoc_In in Ea. exact (H0 _ Ea (Hx _ Ea)).
  - apply same_root. assert (Hn := pd_here _ Hp). apply lookup_entries; [exact Hn|exact Hn|]. intros k. destruct (assoc k d) as [x|] eqn:Ea; [|exact I].
    apply assoc_In in Ea. rewrite Forall_forall in H. apply (H _ Ea). assert (Hd := cl_root _ pd_closed _ _ Hp). rewrite Forall_forall in Hd. exact (Hd _ Ea).
Qed.

(** ** Rules *)
Lemma same_is_none v v' : same v v' -> is_none v = is_none v'.
Proof. destruct 1; reflexivity. Qed.
Lemma same_is_str s v v' : same v v' -> is_str s v = is_str s v'.
Proof. destruct 1; reflexivity. Qed.
Lemma same_one_of l v v' : same v v' -> one_of l v = one_of l v'.
Proof. intros H. unfold one_of. induction l as [|s l IH]; [reflexivity|]. cbn [existsb]. rewrite (same_is_str _ _ _ H), IH. reflexivity. Qed.
Lemma same_none : same VNone VNone.
Proof. apply same_atom. exact I. Qed.
Lemma same_attr fv fv' k : Forall2 (fun a b => fst a = fst b /\ same (snd a) (snd b)) fv fv' -> same (attr k fv) (attr k fv').
Proof. intros H. assert (Hl := fields_lookup _ _ _ H k). unfold attr. destruct (assoc k fv), (assoc k fv'); cbn [orel] in Hl; try contradiction; [exact Hl|exact same_none]. Qed.
Lemma same_sub_attr f v v' : same v v' -> same (sub_attr f v) (sub_attr f v').
Proof. destruct 1; cbn [sub_attr]; try exact same_none; [destruct v; try exact same_none; destruct H|]. apply same_attr. assumption. Qed.
Lemma same_fv_check E f v v' : same v v' -> fv_check E f v = fv_check E f v'.
Proof. destruct 1; destruct f; reflexivity. Qed.
Lemma same_hook c fv fv' : Forall2 (fun a b => fst a = fst b /\ same (snd a) (snd b)) fv fv' -> hook c fv = hook c fv'.
Proof.
  intros H. assert (Ha := fun f => same_attr _ _ (u f) H).
  assert (H1 : forall f, is_none (at_ f fv) = is_none (at_ f fv')) by (intros f; apply same_is_none, Ha).
  assert (H2 : forall s f, is_str s (at_ f fv) = is_str s (at_ f fv')) by (intros s f; apply same_is_str, Ha).
  assert (H3 : forall l f, one_of l (at_ f fv) = one_of l (at_ f fv')) by (intros s f; apply same_one_of, Ha).
  assert (H4 : forall g f, is_none (sub_attr g (at_ f fv)) = is_none (sub_attr g (at_ f fv'))) by (intros g f; apply same_is_none, same_sub_attr, Ha).
  unfold hook, hooks. cbn [hook_of].
  repeat match goal with |- context [String.eqb ?a ?b] => destruct (String.eqb a b); [|] end; try reflexivity.
  - unfold channel_rule. rewrite H1. destruct (is_none (at_ "parameters" fv')); [reflexivity|]. assert (Hx := Ha "address"). unfold at_. destruct Hx; reflexivity.
  - unfold message_example_rule. rewrite !H1. reflexivity.
  - unfold oauth_flows_rule, implicit_rule, password_rule, client_credentials_rule, authorization_code_rule, notnone. rewrite !H1, !H4. reflexivity.
  - unfold security_scheme_rule, api_key_rule, bearer_rule, http_api_key_rule, http_rule, oauth2_rule, openid_rule, scopes_rule, notnone. rewrite !H1, !H2, !H3. reflexivity.
  - unfold amqp_channel_rule. rewrite !H1, !H2. reflexivity.
  - unfold ibmmq_channel_rule, notnone. rewrite !H1, !H2. reflexivity.
  - unfold ibmmq_message_rule, notnone. rewrite !H1, !H3. reflexivity.
  - unfold kafka_server_rule, notnone. rewrite !H1. reflexivity.
  - unfold solace_destination_rule. rewrite !H1, !H2. reflexivity.
Qed.

(** ** Validation *)
Definition vrel (o o' : option (pv * nat)) : Prop :=
  match o, o' with Some (r, n), Some (r', n') => same r r' /\ n = n' | None, None => True | _, _ => False end.
Definition drel (o o' : option (fields * nat)) : Prop :=
  match o, o' with Some (r, n), Some (r', n') => same_entries same r r' /\ n = n' | None, None => True | _, _ => False end.
Definition frel (o o' : option (fields * nat)) : Prop :=
  match o, o' with Some (r, n), Some (r', n') => Forall2 (fun a b => fst a = fst b /\ same (snd a) (snd b)) r r' /\ n = n' | None, None => True | _, _ => False end.

Section Dicts.
  Context (val : ty -> pv -> option (pv * nat)) (t : ty).
  Context (IH : forall v v', same v v' -> vrel (val t v) (val t v')).
  Definition size (o : option pv) : nat := match o with Some x => match val t x with Some (_, n) => n | None => 0 end | None => 0 end.
  Definition image (o : option pv) : option pv := match o with Some x => option_map fst (val t x) | None => None end.
  Lemma vdict_ok d : NoDup (map fst d) -> (forall k x, assoc k d = Some x -> val t x <> None) ->
    exists r, vdict val t d = Some (r, list_sum (map (fun k => size (assoc k d)) (map fst d))) /\ map fst r = map fst d /\ forall k, assoc k r = image (assoc k d).
  Proof.
    intros Hn Hv. induction d as [|[k x] d IHd]; [exists []; auto|]. cbn [map fst] in Hn. inversion Hn as [|? ? Hni Hn']; subst.
    destruct IHd as (r & Hr & Hk & Ha); [exact Hn'| |].
    { intros k0 y Hy. apply (Hv k0 y). cbn [assoc]. destruct (str_eqb k0 k) eqn:Ek; [|exact Hy]. apply str_eqb_eq in Ek. subst. apply assoc_In in Hy. exfalso. apply Hni. exact (in_map fst _ _ Hy). }
    assert (Hx : val t x <> None) by (apply (Hv k x); cbn [assoc]; rewrite str_eqb_refl; reflexivity).
    rewrite vdict_cons, Hr. destruct (val t x) as [[x' n]|] eqn:Ex; [|congruence]. exists ((k, x') :: r). split.
    - f_equal. f_equal. cbn [map fst list_sum fold_right assoc]. rewrite str_eqb_refl. cbn [size]. rewrite Ex. unfold list_sum. f_equal. f_equal. apply map_ext_in. intros k0 Hi.
      destruct (str_eqb k0 k) eqn:Ek; [|reflexivity]. apply str_eqb_eq in Ek. subst. contradiction.
    - split; [cbn [map fst]; congruence|]. intros k0. cbn [assoc]. destruct (str_eqb k0 k) eqn:Ek; [cbn [image]; rewrite Ex; reflexivity|apply Ha].
  Qed.
  Lemma vdict_bad d k x : In (k, x) d -> val t x = None -> vdict val t d = None.
  Proof.
    induction d as [|[k' y] d IHd]; intros Hi Hx; [destruct Hi|]. rewrite vdict_cons. destruct Hi as [Heq|Hi]; [injection Heq as -> ->; rewrite Hx; reflexivity|].
    rewrite (IHd Hi Hx). destruct (val t y) as [[? ?]|]; reflexivity.
  Qed.
  Lemma vdict_dec (d : fields) : (exists k x, In (k, x) d /\ val t x = None) \/ (forall k x, In (k, x) d -> val t x <> None).
  Proof.
    induction d as [|[k x] d IHd]; [right; intros k x []|]. destruct (val t x) eqn:Ex; [|left; exists k, x; split; [left; reflexivity|exact Ex]].
    destruct IHd as [(k' & y & Hi & Hy)|H]; [left; exists k', y; split; [right; exact Hi|exact Hy]|]. right. intros k' y [Heq|Hi]; [injection Heq as <- <-; congruence|exact (H _ _ Hi)].
  Qed.
  Lemma sum_perm l l' (f : pystr -> nat) : Permutation l l' -> list_sum (map f l) = list_sum (map f l').
  Proof. unfold list_sum. induction 1; cbn [map fold_right]; lia. Qed.
  Lemma vdict_rel d d' : same_entries same d d' -> drel (vdict val t d) (vdict val t d').
  Proof.
    intros Hs. assert (Hl := entries_lookup _ _ _ Hs). destruct Hs as (N1 & N2 & Hk & Hv).
    assert (Himg : forall k, match assoc k d, assoc k d' with Some x, Some x' => vrel (val t x) (val t x') | None, None => True | _, _ => False end).
    { intros k. specialize (Hl k). destruct (assoc k d), (assoc k d'); cbn [orel] in Hl; try contradiction; [apply IH; exact Hl|exact I]. }
    destruct (vdict_dec d) as [(k & x & Hi & Hx)|Hok].
    - rewrite (vdict_bad d k x Hi Hx). apply In_assoc in Hi; [|exact N1]. specialize (Himg k). rewrite Hi, Hx in Himg. destruct (assoc k d') as [x'|] eqn:E'; [|contradiction].
      cbn [vrel] in Himg. destruct (val t x') eqn:Ev; [contradiction|]. apply assoc_In in E'. rewrite (vdict_bad d' k x' E' Ev). exact I.
    - assert (Hok1 : forall k x, assoc k d = Some x -> val t x <> None) by (intros k x Hx; apply (Hok k); apply assoc_In; exact Hx).
      assert (Hok2 : forall k x, assoc k d' = Some x -> val t x <> None).
      { intros k x' Hx'. specialize (Himg k). rewrite Hx' in Himg. destruct (assoc k d) as [x|] eqn:Ea; [|contradiction]. specialize (Hok1 k x Ea).
        destruct (val t x) as [[? ?]|]; [|congruence]. cbn [vrel] in Himg. destruct (val t x'); [discriminate|contradiction]. }
      destruct (vdict_ok d N1 Hok1) as (r & -> & K1 & A1). destruct (vdict_ok d' N2 Hok2) as (r' & -> & K2 & A2). cbn [drel]. split.
      + apply lookup_entries; [rewrite K1; exact N1|rewrite K2; exact N2|]. intros k. rewrite A1, A2. specialize (Himg k). unfold image.
        destruct (assoc k d) as [x|] eqn:Ea, (assoc k d') as [x'|]; try contradiction; [|exact I].
        destruct (val t x) as [[r1 n1]|], (val t x') as [[r2 n2]|]; cbn [vrel] in Himg; try contradiction; cbn [option_map orel fst]; [apply Himg|exact I].
      + assert (Hp : Permutation (map fst d) (map fst d')) by (apply NoDup_Permutation; assumption).
        rewrite <- (sum_perm _ _ (fun k => size (assoc k d')) Hp). f_equal. apply map_ext. intros k. specialize (Himg k). unfold size.
        destruct (assoc k d) as [x|] eqn:Ea, (assoc k d') as [x'|]; try contradiction; [|reflexivity].
        destruct (val t x) as [[r1 n1]|], (val t x') as [[r2 n2]|]; cbn [vrel] in Himg; try contradiction; [apply Himg|reflexivity].
  Qed.
  Lemma vlist_rel l l' : Forall2 same l l' -> match vlist val t l, vlist val t l' with Some (r, n), Some (r', n') => Forall2 same r r' /\ n = n' | None, None => True | _, _ => False end.
  Proof.
    induction 1 as [|x x' l l' Hx H IHl]; [split; [constructor|reflexivity]|]. rewrite !vlist_cons. apply IH in Hx.
    destruct (val t x) as [[r1 n1]|], (val t x') as [[r2 n2]|]; cbn [vrel] in Hx; try contradiction; [|exact I].
    destruct (vlist val t l) as [[r n]|], (vlist val t l') as [[r' n']|]; try contradiction; [|exact I]. destruct Hx, IHl; subst. split; [constructor; assumption|reflexivity].
  Qed.
End Dicts.
Lemma best_of_rel l l' : Forall2 vrel l l' -> vrel (best_of l) (best_of l').
Proof.
  induction 1 as [|o o' l l' Ho H IH]; [exact I|]. destruct o as [[r n]|], o' as [[r' n']|]; cbn [vrel] in Ho; try contradiction; cbn [best_of]; [|exact IH].
  destruct Ho as [Ho ->]. destruct (best_of l) as [[s m]|], (best_of l') as [[s' m']|]; cbn [vrel] in IH; try contradiction; [|split; auto].
  destruct IH as [IH ->]. destruct (Nat.ltb n' m'); split; auto.
Qed.

Lemma vfields_names E val kvs fs : forall fv n, vfields E val kvs fs = Some (fv, n) -> map fst fv = map (fun ft => f_name (fst ft)) fs.
Proof.
  induction fs as [|[fi t] fs IH]; intros fv n H; [injection H as <- <-; reflexivity|]. cbn [vfields] in H.
  destruct (lookup_field fi kvs) as [x|].
  - destruct (val t x) as [[y m]|]; [|discriminate H]. destruct (fv_check E (f_val fi) y); [|discriminate H].
    destruct (vfields E val kvs fs) as [[r k]|] eqn:Er; [|discriminate H]. injection H as <- _. cbn [map fst]. f_equal. exact (IH _ _ eq_refl).
  - destruct (f_def fi); [|discriminate H]. destruct (vfields E val kvs fs) as [[r k]|] eqn:Er; [|discriminate H]. injection H as <- _. cbn [map fst]. f_equal. exact (IH _ _ eq_refl).
Qed.
Section Models.
  Context (E : env) (val : ty -> pv -> option (pv * nat)).
  Lemma lookup_field_rel fi kvs kvs' : (forall k, orel same (assoc k kvs) (assoc k kvs')) -> orel same (lookup_field fi kvs) (lookup_field fi kvs').
  Proof. intros H. unfold lookup_field. assert (H1 := H (f_alias fi)). destruct (assoc (f_alias fi) kvs), (assoc (f_alias fi) kvs'); cbn [orel] in H1; try contradiction; [exact H1|apply H]. Qed.
  Lemma vfields_rel kvs kvs' fs : (forall k, orel same (assoc k kvs) (assoc k kvs')) ->
    Forall (fun ft => default_ok (fst ft) (snd ft) = true /\ forall v v', same v v' -> vrel (val (snd ft) v) (val (snd ft) v')) fs ->
    frel (vfields E val kvs fs) (vfields E val kvs' fs).
  Proof.
    intros Hl Hf. induction Hf as [|[fi t] fs [Hd Hv] Hf IH]; [split; [constructor|reflexivity]|]. cbn [vfields fst snd] in *.
    assert (H1 := lookup_field_rel fi kvs kvs' Hl). destruct (lookup_field fi kvs) as [x|], (lookup_field fi kvs') as [x'|]; cbn [orel] in H1; try contradiction.
    - apply Hv in H1. destruct (val t x) as [[y n]|], (val t x') as [[y' n']|]; cbn [vrel] in H1; try contradiction; [|exact I].
      destruct H1 as [H1 ->]. rewrite (same_fv_check E _ _ _ H1). destruct (fv_check E (f_val fi) y'); [|exact I].
      destruct (vfields E val kvs fs) as [[r m]|], (vfields E val kvs' fs) as [[r' m']|]; cbn [frel] in IH |- *; try contradiction; [|exact I].
      destruct IH as [IH ->]. split; [constructor; [split; [reflexivity|exact H1]|exact IH]|reflexivity].
    - destruct (f_def fi) as [d|] eqn:Ed; [|exact I]. 
      destruct (vfields E val kvs fs) as [[r m]|], (vfields E val kvs' fs) as [[r' m']|]; cbn [frel] in IH |- *; try contradiction; [|exact I].
      destruct IH as [IH ->]. split; [constructor; [split; [reflexivity|apply same_refl; exact (def_pd fi t d Hd Ed)]|exact IH]|reflexivity].
  Qed.
  Lemma extras_rel (fs : list (finfo * ty)) kvs kvs' : NoDup (map fst kvs) -> NoDup (map fst kvs') -> (forall k, orel same (assoc k kvs) (assoc k kvs')) ->
    same_entries same (extras fs kvs) (extras fs kvs').
  Proof.
    intros N1 N2 Hl. apply lookup_entries; [apply NoDup_filter_keys; exact N1|apply NoDup_filter_keys; exact N2|]. intros k. unfold extras.
    rewrite (assoc_filter_key (fun k => negb (mem_str k (map (fun ft => used_key kvs (fst ft)) fs))) kvs),
            (assoc_filter_key (fun k => negb (mem_str k (map (fun ft => used_key kvs' (fst ft)) fs))) kvs').
    assert (Hu : map (fun ft : finfo * ty => used_key kvs (fst ft)) fs = map (fun ft => used_key kvs' (fst ft)) fs).
    { apply map_ext. intros ft. unfold used_key. rewrite (has_key_rel same kvs kvs' (f_alias (fst ft)) (Hl _)). reflexivity. }
    rewrite Hu. destruct (negb _); [apply Hl|exact I].
  Qed.
  Lemma extras_ok_rel k ex ex' : same_entries same ex ex' -> extras_ok E k ex = extras_ok E k ex'.
  Proof.
    intros (_ & _ & Hk & _). destruct k; cbn [extras_ok]; [| |reflexivity].
    - apply eq_true_iff_eq. rewrite !forallb_forall. split; intros H kv Hi; apply (in_map fst) in Hi; apply Hk in Hi; apply in_map_iff in Hi as (kv' & <- & Hi); apply H; exact Hi.
    - destruct ex as [|[a x] ex], ex' as [|[b y] ex']; try reflexivity; exfalso; [apply (Hk b)|apply (Hk a)]; left; reflexivity.
  Qed.
  Lemma vmodel_rel c k fs kvs kvs' : NoDup (map fst kvs) -> NoDup (map fst kvs') -> (forall k, orel same (assoc k kvs) (assoc k kvs')) ->
    NoDup (map (fun ft => f_name (fst ft)) fs) ->
    Forall (fun ft => default_ok (fst ft) (snd ft) = true /\ forall v v', same v v' -> vrel (val (snd ft) v) (val (snd ft) v')) fs ->
    vrel (vmodel E val c k fs kvs) (vmodel E val c k fs kvs').
  Proof.
    intros N1 N2 Hl Hn Hf. assert (H := vfields_rel _ _ _ Hl Hf). assert (Hx := extras_rel fs _ _ N1 N2 Hl). unfold vmodel.
    destruct (vfields E val kvs fs) as [[r m]|] eqn:Ev, (vfields E val kvs' fs) as [[r' m']|]; cbn [frel] in H; try contradiction; [|exact I].
    destruct H as [H ->]. unfold after_ok. rewrite (extras_ok_rel k _ _ Hx), (same_hook c _ _ H). destruct (_ && _)%bool; [|exact I]. split; [|reflexivity].
    apply same_obj; [|exact H|exact Hx]. rewrite (vfields_names _ _ _ _ _ _ Ev). exact Hn.
  Qed.
End Models.
Lemma root_keys_rel d d' : same_entries same d d' -> root_keys_ok d = root_keys_ok d'.
Proof.
  intros (_ & _ & Hk & _). unfold root_keys_ok.
  apply eq_true_iff_eq. rewrite !forallb_forall. split; intros H kv Hi; apply (in_map fst) in Hi; apply Hk in Hi; apply in_map_iff in Hi as (kv' & <- & Hi); apply H; exact Hi.
Qed.
Lemma update_rel fv fv' ex ex' : NoDup (map fst fv) -> Forall2 (fun a b => fst a = fst b /\ same (snd a) (snd b)) fv fv' -> same_entries same ex ex' ->
  NoDup (map fst (dict_update fv ex)) /\ NoDup (map fst (dict_update fv' ex')) /\ forall k, orel same (assoc k (dict_update fv ex)) (assoc k (dict_update fv' ex')).
Proof.
  intros Hn Hf Hx. assert (Hl := entries_lookup _ _ _ Hx). destruct Hx as (N1 & N2 & _). split; [apply dict_update_nodup; exact Hn|].
  split; [apply dict_update_nodup; rewrite <- (fields_keys _ _ _ Hf); exact Hn|]. intros k. rewrite !merged' by assumption. specialize (Hl k).
  destruct (assoc k ex), (assoc k ex'); cbn [orel] in Hl; try contradiction; [exact Hl|]. exact (fields_lookup _ _ _ Hf k).
Qed.
Theorem validate_same E t : wf_ty t = true -> forall v v', same v v' -> vrel (validate E t v) (validate E t v').
Proof.
  induction t using ty_ind'; intros Hw v v' Hs; cbn [validate].
  - split; [exact Hs|reflexivity].
  - destruct Hs as [v Ha| | | |]; try exact I. destruct v; try exact I. destruct (len_ok m s); [|exact I]. split; [apply same_atom; exact I|reflexivity].
  - destruct Hs as [v Ha| | | |]; try exact I. destruct v; try exact I. destruct (email_ok s); [|exact I]. split; [apply same_atom; exact I|reflexivity].
  - destruct Hs as [v Ha| | | |]; try exact I. destruct v; try exact I; try (destruct (e_int E _); [|exact I]); (split; [apply same_atom; exact I|reflexivity]).
  - destruct Hs as [v Ha| | | |]; try exact I. destruct v; try exact I; try (destruct (e_bool E _); [|exact I]); (split; [apply same_atom; exact I|reflexivity]).
  - destruct Hs as [v Ha| | | |]; try exact I. destruct v; try exact I; (destruct (e_url E _ _); [|exact I]); (split; [apply same_atom; exact I|reflexivity]).
  - destruct Hs as [v Ha| | | |]; try exact I. destruct v; try exact I. destruct (mem_str s _); [|exact I]. split; [apply same_atom; exact I|reflexivity].
  - destruct Hs as [v Ha| | | |]; try exact I. destruct v; try exact I. destruct (mem_Z z _); [|exact I]. split; [apply same_atom; exact I|reflexivity].
  - destruct Hs as [v Ha|l l' Hl| | |]; try exact I; [destruct v; try exact I; destruct Ha|].
    assert (H := vlist_rel (validate E) t (IHt Hw) l l' Hl). destruct (vlist (validate E) t l) as [[r n]|], (vlist (validate E) t l') as [[r' n']|]; try contradiction; [|exact I].
    destruct H as [H ->]. split; [apply same_list; exact H|reflexivity].
  - destruct Hs as [v Ha| |d d' Hd| |]; try exact I; [destruct v; try exact I; destruct Ha|].
    assert (H := vdict_rel (validate E) t (IHt Hw) d d' Hd). destruct (vdict (validate E) t d) as [[r n]|], (vdict (validate E) t d') as [[r' n']|]; cbn [drel] in H; try contradiction; [|exact I].
    destruct H as [H ->]. split; [apply same_dict; exact H|reflexivity].
  - assert (Hn := same_is_none _ _ Hs). assert (IH := IHt Hw v v' Hs). destruct v, v'; cbn [is_none] in Hn; try discriminate Hn; try exact IH. split; [exact same_none|reflexivity].
  - apply best_of_rel. cbn [wf_ty] in Hw. apply andb_prop in Hw as [_ Hw]. rewrite forallb_forall in Hw. rewrite Forall_forall in H.
    assert (Hin : forall t, In t ts -> vrel (validate E t v) (validate E t v')) by (intros t Ht; apply H; auto). clear -Hin.
    induction ts as [|t ts IH]; [constructor|]. constructor; [apply Hin; left; reflexivity|apply IH; intros s Hs; apply Hin; right; exact Hs].
  - destruct Hs as [v Ha|l l' Hl| | |]; try exact I; [destruct v; try exact I; destruct Ha|].
    assert (He : forallb is_proc l = forallb is_proc l').
    { induction Hl as [|x x' l l' Hx Hl IH]; [reflexivity|]. cbn [forallb]. rewrite IH. destruct Hx; reflexivity. }
    rewrite He. destruct (forallb is_proc l'); [|exact I]. split; [apply same_list; exact Hl|reflexivity].
  - assert (Hn := names_NoDup _ _ _ Hw). assert (Hm := Hw). cbn [wf_ty] in Hm. apply andb_prop in Hm as [Hm Hsub]. unfold model_ok in Hm. apply andb_prop in Hm as [Hm Hdef].
    assert (HF : Forall (fun ft => default_ok (fst ft) (snd ft) = true /\ forall v v', same v v' -> vrel (validate E (snd ft) v) (validate E (snd ft) v')) fs).
    { rewrite Forall_forall in *. rewrite forallb_forall in Hsub. intros ft Hi. split; [|apply (H ft Hi); apply Hsub; exact Hi].
      repeat match goal with Hm : (_ && _)%bool = true |- _ => apply andb_prop in Hm as [Hm ?] end.
      match goal with Hx : forallb (fun ft => default_ok (fst ft) (snd ft)) fs = true |- _ => exact (proj1 (forallb_forall _ _) Hx ft Hi) end. }
    destruct Hs as [v Ha| |d d' Hd|c' d d' Hd|c' fv fv' ex ex' Hnf Hf Hx]; try exact I; [destruct v; try exact I; destruct Ha| |].
    + assert (Hl := entries_lookup _ _ _ Hd). destruct Hd as (N1 & N2 & _). apply vmodel_rel; assumption.
    + destruct (String.eqb c c'); [|exact I]. destruct (update_rel _ _ _ _ Hnf Hf Hx) as (N1 & N2 & Hl). apply vmodel_rel; assumption.
  - assert (Hroot : forall d d', same_entries same d d' -> vrel
      match vdict (validate E) t d with Some (d', n) => if root_keys_ok d' then Some (VRoot c d', n) else None | None => None end
      match vdict (validate E) t d' with Some (d', n) => if root_keys_ok d' then Some (VRoot c d', n) else None | None => None end).
    { intros d d' Hd. assert (H := vdict_rel (validate E) t (IHt Hw) d d' Hd). destruct (vdict (validate E) t d) as [[r n]|], (vdict (validate E) t d') as [[r' n']|]; cbn [drel] in H; try contradiction; [|exact I].
      destruct H as [H ->]. rewrite (root_keys_rel _ _ H). destruct (root_keys_ok r'); [|exact I]. split; [apply same_root; exact H|reflexivity]. }
    destruct Hs as [v Ha| |d d' Hd|c' d d' Hd|c' fv fv' ex ex' Hnf Hf Hx]; try exact I; [destruct v; try exact I; destruct Ha| |].
    + apply Hroot; exact Hd.
    + destruct (String.eqb c c'); [|exact I]. apply Hroot; exact Hd.
Qed.

(** ** The two relations *)
Lemma perm_entries R d d1 d' : NoDup (map fst d) -> Forall2 (fun a b => fst a = fst b /\ R (snd a) (snd b)) d d1 -> Permutation d1 d' -> same_entries R d d'.
Proof.
  intros Hn Hf Hp. assert (Hn1 : NoDup (map fst d1)) by (rewrite <- (fields_keys _ _ _ Hf); exact Hn).
  assert (Hn' : NoDup (map fst d')) by (eapply Permutation_NoDup; [apply Permutation_map; exact Hp|exact Hn1]).
  apply lookup_entries; [exact Hn|exact Hn'|]. intros k. rewrite <- (assoc_perm k d1 d' Hn1 Hp). exact (fields_lookup _ _ _ Hf k).
Qed.
Lemma forall2_in {X} (R Q : X -> X -> Prop) l l' : Forall2 R l l' -> (forall x y, In x l -> R x y -> Q x y) -> Forall2 Q l l'.
Proof. induction 1 as [|x y l l' H1 H IH]; intros Hq; constructor; [apply Hq; [left; reflexivity|exact H1]|apply IH; intros a b Ha; apply Hq; right; exact Ha]. Qed.
Lemma upto_same v : forall v', python_dicts v -> same_upto_order v v' -> same v v'.
Proof.
  induction v using pv_ind'; intros v' Hp Hs; try (inversion Hs; subst; apply same_atom; exact I).
  - inversion Hs as [|l0 l' HF| | |]; subst; [apply same_refl; exact Hp|]. apply same_list. assert (Hl := cl_list _ pd_closed _ Hp). rewrite Forall_forall in H, Hl.
    eapply forall2_in; [exact HF|]. intros x y Hx Hxy. apply H; auto.
  - inversion Hs as [| |d0 d1 d' HF HP| |]; subst; [apply same_refl; exact Hp|]. apply same_dict. assert (Hd := cl_dict _ pd_closed _ Hp). assert (Hn := pd_here _ Hp). rewrite Forall_forall in H, Hd.
    eapply perm_entries; [exact Hn| |exact HP]. eapply forall2_in; [exact HF|]. intros x y Hx [Hk Hxy]. split; [exact Hk|]. apply H; auto.
  - inversion Hs as [| | | |c0 fv fv' ex0 ex1 ex' HF HE HP]; subst; [apply same_refl; exact Hp|]. destruct (pd_here _ Hp) as [N1 N2]. destruct (cl_obj _ pd_closed _ _ _ Hp) as [Hf Hx].
    rewrite Forall_forall in H, H0, Hf, Hx. apply same_obj; [exact N1| |].
    + eapply forall2_in; [exact HF|]. intros x y Hi [Hk Hxy]. split; [exact Hk|]. apply H; auto.
    + eapply perm_entries; [exact N2| |exact HP]. eapply forall2_in; [exact HE|]. intros x y Hi [Hk Hxy]. split; [exact Hk|]. apply H0; auto.
  - inversion Hs as [| | |c0 d0 d1 d' HF HP|]; subst; [apply same_refl; exact Hp|]. apply same_root. assert (Hd := cl_root _ pd_closed _ _ Hp). assert (Hn := pd_here _ Hp). rewrite Forall_forall in H, Hd.
    eapply perm_entries; [exact Hn| |exact HP]. eapply forall2_in; [exact HF|]. intros x y Hx [Hk Hxy]. split; [exact Hk|]. apply H; auto.
Qed.
Lemma entries_perm (R : pv -> pv -> Prop) d d' : same_entries R d d' ->
  exists d1, Forall2 (fun a b => fst a = fst b /\ R (snd a) (snd b)) d d1 /\ Permutation d1 d'.
Proof.
  intros (N1 & N2 & Hk & Hv). exists (map (fun kv => (fst kv, attr (fst kv) d')) d).
  assert (Ha : forall k, In k (map fst d) -> In (k, attr k d') d').
  { intros k Hi. apply Hk in Hi. unfold attr. destruct (assoc k d') eqn:Ea; [apply assoc_In; exact Ea|]. apply assoc_None in Ea. contradiction. }
  split.
  - assert (Hin : forall kv, In kv d -> In kv d) by auto. revert Hin. generalize d at 1 3 4. intros e. induction e as [|[k x] e IH]; intros Hin; cbn [map]; constructor.
    + cbn [fst snd]. split; [reflexivity|]. assert (Hx : In (k, x) d) by (apply Hin; left; reflexivity). apply (Hv k); [exact Hx|]. apply Ha. exact (in_map fst _ _ Hx).
    + apply IH. intros kv Hi. apply Hin. right. exact Hi.
  - apply NoDup_Permutation.
    + apply (NoDup_map_inv fst). rewrite map_map. cbn [fst]. exact N1.
    + apply (NoDup_map_inv fst). exact N2.
    + intros [k x]. rewrite in_map_iff. split.
      * intros ([k' y] & Heq & Hi). cbn [fst] in Heq. injection Heq as -> <-. apply Ha. exact (in_map fst _ _ Hi).
      * intros Hi. assert (Hd : In k (map fst d)) by (apply Hk; exact (in_map fst _ _ Hi)). apply in_map_iff in Hd as ([k' y] & Heq & Hd). cbn [fst] in Heq. subst k'. exists (k, y). split; [|exact Hd].
        cbn [fst]. f_equal. apply In_assoc in Hi; [|exact N2]. unfold attr. rewrite Hi. reflexivity.
Qed.
Lemma same_upto v : forall v', same v v' -> same_upto_order v v'.
Proof.
  induction v using pv_ind'; intros v' Hs; try (inversion Hs; subst; apply su_refl).
  - inversion Hs as [? Ha|l0 l' HF| | |]; subst; [destruct Ha|]. apply su_list. rewrite Forall_forall in H. eapply forall2_in; [exact HF|]. intros x y Hi. apply H. exact Hi.
  - inversion Hs as [? Ha| |d0 d' HE| |]; subst; [destruct Ha|]. apply entries_perm in HE as (d1 & HF & HP). eapply su_dict; [|exact HP]. rewrite Forall_forall in H.
    eapply forall2_in; [exact HF|]. intros x y Hi [Hk Hxy]. split; [exact Hk|]. apply H; assumption.
  - inversion Hs as [? Ha| | | |c0 fv fv' ex0 ex' Hn HF HE]; subst; [destruct Ha|]. apply entries_perm in HE as (d1 & HE & HP). rewrite Forall_forall in H, H0. eapply su_obj; [| |exact HP].
    + eapply forall2_in; [exact HF|]. intros x y Hi [Hk Hxy]. split; [exact Hk|]. apply H; assumption.
    + eapply forall2_in; [exact HE|]. intros x y Hi [Hk Hxy]. split; [exact Hk|]. apply H0; assumption.
  - inversion Hs as [? Ha| | |c0 d0 d' HE|]; subst; [destruct Ha|]. apply entries_perm in HE as (d1 & HF & HP). eapply su_root; [|exact HP]. rewrite Forall_forall in H.
    eapply forall2_in; [exact HF|]. intros x y Hi [Hk Hxy]. split; [exact Hk|]. apply H; assumption.
Qed.

(** ** Serialisation *)
Lemma assoc_dump_entries d k : assoc k (dump_entries d) = option_map dump (assoc k d).
Proof. induction d as [|[a x] d IH]; [reflexivity|]. rewrite dump_entries_cons. cbn [assoc]. destruct (str_eqb k a); [reflexivity|exact IH]. Qed.
Lemma entries_dump d d' : same_entries same d d' -> (forall k x x', In (k, x) d -> same x x' -> same (dump x) (dump x')) -> same_entries same (dump_entries d) (dump_entries d').
Proof.
  intros Hs IH. assert (Hl := entries_lookup _ _ _ Hs). destruct Hs as (N1 & N2 & _ & _).
  apply lookup_entries; [rewrite dump_entries_keys; exact N1|rewrite dump_entries_keys; exact N2|]. intros k. rewrite !assoc_dump_entries. specialize (Hl k).
  destruct (assoc k d) eqn:Ea, (assoc k d'); cbn [orel option_map] in *; try contradiction; [|exact I]. apply assoc_In in Ea. exact (IH _ _ _ Ea Hl).
Qed.
Lemma fields_dump infos fv fv' : Forall2 (fun a b => fst a = fst b /\ same (snd a) (snd b)) fv fv' -> (forall k x x', In (k, x) fv -> same x x' -> same (dump x) (dump x')) ->
  Forall2 (fun a b => fst a = fst b /\ same (snd a) (snd b)) (dump_fields infos fv) (dump_fields infos fv').
Proof.
  induction 1 as [|[k x] [k' x'] fv fv' [Hk Hx] H IH]; intros Hd; [constructor|]. cbn [fst snd] in *. subst k'. rewrite !dump_fields_cons. unfold out_key. rewrite (same_is_none _ _ Hx).
  assert (Hr : Forall2 (fun a b => fst a = fst b /\ same (snd a) (snd b)) (dump_fields infos fv) (dump_fields infos fv')) by (apply IH; intros a y y' Hi; apply (Hd a); right; exact Hi).
  destruct (find_info k infos) as [fi|]; [|exact Hr]. destruct (f_excl fi || f_exnull fi && is_none x')%bool; [exact Hr|]. constructor; [|exact Hr]. split; [reflexivity|].
  apply (Hd k); [left; reflexivity|exact Hx].
Qed.
Definition writes_once (v : pv) : Prop := forall c fv ex, within (VObj c fv ex) v -> NoDup (map fst (dump_fields (class_infos c) fv)).
Lemma dump_same v : forall v', writes_once v -> same v v' -> same (dump v) (dump v').
Proof.
  induction v using pv_ind'; intros v' Hw Hs.
  1-6,11-12: inversion Hs; subst; cbn [dump]; apply same_atom; exact I.
  - inversion Hs as [? Ha|l0 l' HF| | |]; subst; [destruct Ha|]. cbn [dump]. apply same_list. rewrite Forall_forall in H.
    assert (Hin : forall x, In x l -> writes_once x) by (intros x Hi c fv ex Hx; apply (Hw c fv ex); eapply w_list; eauto).
    clear Hw Hs. induction HF as [|x y l l' Hxy HF IH]; [constructor|]. cbn [map]. constructor; [apply H; [left; reflexivity|apply Hin; left; reflexivity|exact Hxy]|].
    apply IH; [intros z Hz; apply H; right; exact Hz|intros z Hz; apply Hin; right; exact Hz].
  - inversion Hs as [? Ha| |d0 d' HE| |]; subst; [destruct Ha|]. rewrite Forall_forall in H. change (same (VDict (dump_entries d)) (VDict (dump_entries d'))). apply same_dict. apply entries_dump; [exact HE|].
    intros k x x' Hi Hx. apply (H (k, x) Hi); [|exact Hx]. intros c fv ex Hy. apply (Hw c fv ex). eapply w_dict; eauto.
  - inversion Hs as [? Ha| | | |c0 fv fv' ex0 ex' Hn HF HE]; subst; [destruct Ha|]. rewrite Forall_forall in H, H0. rewrite !dump_obj. apply same_dict.
    assert (F1 : Forall2 (fun a b => fst a = fst b /\ same (snd a) (snd b)) (dump_fields (class_infos c) fs) (dump_fields (class_infos c) fv')).
    { apply fields_dump; [exact HF|]. intros k x x' Hi Hx. apply (H (k, x) Hi); [|exact Hx]. intros c' fv ex0 Hy. apply (Hw c' fv ex0). eapply w_field; eauto. }
    assert (F2 : same_entries same (dump_entries ex) (dump_entries ex')).
    { apply entries_dump; [exact HE|]. intros k x x' Hi Hx. apply (H0 (k, x) Hi); [|exact Hx]. intros c' fv ex0 Hy. apply (Hw c' fv ex0). eapply w_extra; eauto. }
    destruct (update_rel _ _ _ _ (Hw c fs ex (w_self _)) F1 F2) as (N1 & N2 & Hl). apply lookup_entries; assumption.
  - inversion Hs as [? Ha| | |c0 d0 d' HE|]; subst; [destruct Ha|]. rewrite Forall_forall in H. change (same (VDict (dump_entries d)) (VDict (dump_entries d'))). apply same_dict. apply entries_dump; [exact HE|].
    intros k x x' Hi Hx. apply (H (k, x) Hi); [|exact Hx]. intros c' fv ex Hy. apply (Hw c' fv ex). eapply w_root; eauto.
Qed.
Lemma alias_nodup infos : NoDup (all_keys infos) -> NoDup (map f_alias infos).
Proof.
  induction infos as [|g infos IH]; intros Hd; [constructor|]. cbn [all_keys flat_map] in Hd. apply NoDup_app_inv in Hd as (_ & Hd & Hx). cbn [map]. constructor; [|apply IH; exact Hd].
  intros Hi. apply in_map_iff in Hi as (fi & Ha & Hi). apply (Hx (f_alias g)); [apply field_keys_alias|]. rewrite <- Ha. apply (all_keys_in fi); [exact Hi|apply field_keys_alias].
Qed.
Lemma zdump_nodup fs : forall fv, NoDup (map f_alias (map (@fst finfo ty) fs)) -> NoDup (map fst (zdump fs fv)) /\ incl (map fst (zdump fs fv)) (map f_alias (map fst fs)).
Proof.
  induction fs as [|[fi t] fs IH]; intros fv Hn; [split; [constructor|intros x []]|]. cbn [map fst] in Hn. inversion Hn as [|? ? Hni Hn']; subst.
  destruct fv as [|[k x] fv]; [split; [constructor|intros y []]|]. cbn [zdump]. destruct (IH fv Hn') as [H1 H2]. destruct (written fi x); cbn [map fst].
  - split; [constructor; [intros Hi; apply Hni, H2, Hi|exact H1]|]. intros y [<-|Hy]; [left; reflexivity|right; apply H2; exact Hy].
  - split; [exact H1|]. intros y Hy. right. apply H2. exact Hy.
Qed.
Lemma canon_once E t o : linked t = true -> wf_ty t = true -> canon is_json E t o -> writes_once o.
Proof.
  intros Hl Hw Hc c fv ex Hx. destruct (obj_in _ _ _ _ _ _ Hl Hw Hc Hx) as (k & fs & Hl' & Hw' & Hc'). cbn [canon] in Hc'. destruct Hc' as (fv' & ex' & Heq & Hf & _). injection Heq as <- <-.
  rewrite (linked_infos _ _ _ Hl'). rewrite (dump_fields_zip (map fst fs) fs); [|rewrite map_map; eapply names_NoDup; exact Hw'|intros ft H; apply in_map; exact H|exact (canon_fields_names _ _ _ _ Hf)].
  apply zdump_nodup. apply alias_nodup. exact (wf_keys _ _ _ Hw').
Qed.

(** ** C53 *)
Definition both (R : pv -> pv -> Prop) (o o' : option pv) : Prop :=
  match o, o' with Some x, Some x' => R x x' | None, None => True | _, _ => False end.
(** Two spellings of the same data that list keys in a different order are both rejected, or accepted with the same result up to the order of
    maps, plain data and extensions. *)
Theorem c53_key_order E t v v' : In t all_types \/ In t annotations -> python_dicts v -> same_upto_order v v' ->
  both same_upto_order (parse E t v) (parse E t v').
Proof.
  intros Ht Hp Hs. assert (Hw : wf_ty t = true) by (destruct Ht as [Ht|Ht]; [exact (wf_all _ Ht)|exact (proj1 (forallb_forall _ _) annotations_wf t Ht)]).
  assert (H := validate_same E t Hw v v' (upto_same _ _ Hp Hs)). unfold parse.
  destruct (validate E t v) as [[r n]|], (validate E t v') as [[r' n']|]; cbn [vrel] in H; try contradiction; [|exact I]. cbn [option_map both fst]. apply same_upto. apply H.
Qed.
(** So does serialisation of what was loaded from JSON ... *)
Theorem c53_serialised E t v v' o o' : In t all_types -> is_json v -> python_dicts v -> same_upto_order v v' -> parse E t v = Some o -> parse E t v' = Some o' ->
  same_upto_order (dump o) (dump o').
Proof.
  intros Ht Hj Hp Hs Ho Ho'. assert (Hc := loaded_json _ _ _ _ Ht Ho Hj). assert (H := validate_same E t (wf_all _ Ht) v v' (upto_same _ _ Hp Hs)).
  apply parse_some in Ho as [n Ho]. apply parse_some in Ho' as [n' Ho']. rewrite Ho, Ho' in H. destruct H as [H _]. apply same_upto. apply dump_same; [|exact H].
  eapply canon_once; [exact (linked_all _ Ht)|exact (wf_all _ Ht)|exact Hc].
Qed.
(** ... and the verdict of the reference check. *)
Theorem c53_checked E v v' doc : python_dicts v -> same_upto_order v v' -> parse E T_AsyncAPI3 v = Some doc ->
  exists doc', parse E T_AsyncAPI3 v' = Some doc' /\ (unified E doc = None <-> unified E doc' = None).
Proof.
  intros Hp Hs Hd. assert (Hi : In T_AsyncAPI3 all_types) by in_table. assert (H := c53_key_order E T_AsyncAPI3 v v' (or_introl Hi) Hp Hs). rewrite Hd in H.
  destruct (parse E T_AsyncAPI3 v') as [doc'|]; [|destruct H]. exists doc'. split; [reflexivity|]. apply c44_order; [|exact H]. eapply parse_pd; [exact (wf_all _ Hi)|exact Hp|exact Hd].
Qed.
Definition orderA : pv := obj [("info", obj [("title", str "T"); ("version", str "1"); ("x-b", VInt 1); ("x-a", obj [("k", VInt 1); ("l", VNone)])]); ("asyncapi", str "3.0.0")].
Definition orderB : pv := obj [("asyncapi", str "3.0.0"); ("info", obj [("x-a", obj [("l", VNone); ("k", VInt 1)]); ("version", str "1"); ("title", str "T"); ("x-b", VInt 1)])].
Example c53_ex : python_dicts orderA /\ is_json orderA /\ same_upto_order orderA orderB /\ orderA <> orderB /\ exists o, parse E0 T_AsyncAPI3 orderA = Some o.
Proof.
  split; [apply python_dicts_dec; vm_compute; reflexivity|]. split; [apply json_dec; vm_compute; reflexivity|]. split; [|split; [discriminate|eexists; vm_compute; reflexivity]].
  eapply su_dict; [|apply perm_swap]. apply Forall2_cons; [split; [reflexivity|]|apply Forall2_cons; [split; [reflexivity|apply su_refl]|apply Forall2_nil]].
  apply su_dict with (d1 := [(u "title", str "T"); (u "version", str "1"); (u "x-b", VInt 1); (u "x-a", obj [("l", VNone); ("k", VInt 1)])]).
  - do 3 (apply Forall2_cons; [split; [reflexivity|apply su_refl]|]). apply Forall2_cons; [|apply Forall2_nil]. split; [reflexivity|]. eapply su_dict; [|apply perm_swap].
    do 2 (apply Forall2_cons; [split; [reflexivity|apply su_refl]|]). apply Forall2_nil.
  - apply NoDup_Permutation.
    + repeat constructor; cbn; intuition discriminate.
    + repeat constructor; cbn; intuition discriminate.
    + intros x. unfold obj, str. cbn [In map fst snd]. tauto.
Qed.
Print Assumptions c53_key_order.
Print Assumptions c53_serialised.
