(** Lemmas for C102 and C103. *)
From Verif Require Import PyStr Value Types Rules Pydantic ClassTable Classes Canon Fix Linked SpecParse ProofRules ProofParse
  State SpecState ProofState Resolve SpecResolve ProofResolve Unified SpecUnified ProofUnified ProofCheck Dump SpecDump ProofDump SpecDeep PropDeep SpecDeref.
Local Open Scope string_scope.

(** ** Where references may stand *)
Fixpoint has_ref (t : ty) : bool :=
  match t with
  | TList t' | TDict t' | TOpt t' | TRoot _ t' => has_ref t'
  | TUnion ts => existsb (fun t => is_ref_ty t || has_ref t) ts
  | TModel _ _ fs => existsb (fun ft => match ft with (_, t) => has_ref t end) fs
  | _ => false
  end.
Lemma stands_has_ref t v pos p D r : stands t v pos p D r -> has_ref t = true.
Proof.
  induction 1 as [ts k fs r Hi|t v pos p D r Hs IH|t l i x pos p D r Hn Hs IH|t d i k x pos p D r Hn Hs IH|c t d i k x pos p D r Hn Hs IH|ts t v pos p D r Hi Hs IH|c k fs fv ex i fi t x pos p D r Hf He Hn Hs IH];
    cbn [has_ref]; try exact IH.
  - apply existsb_exists. eexists. split; [exact Hi|]. reflexivity.
  - apply existsb_exists. exists t. split; [exact Hi|]. rewrite IH. apply orb_true_r.
  - apply existsb_exists. exists (fi, t). split; [exact (nth_error_In _ _ Hf)|exact IH].
Qed.
(** the field validators on fields that may hold references look at integers only; the rules relating fields do not look at such fields,
    except that a channel with parameters needs an address *)
Definition no_val (f : fvalidator) : bool := match f with FvNone | FvPriority => true | _ => false end.
Definition field_free (c : string) (ft : finfo * ty) : bool :=
  match ft with (fi, t) =>
    negb (has_ref t) || no_val (f_val fi) && match hook_of c hooks with None => true | Some _ => String.eqb c "Channel" && negb (str_eqb (f_name fi) (u "address")) end end.
Lemma table_free : forallb (fun t => match t with TModel c _ fs => forallb (field_free c) fs | _ => true end) all_types = true.
Proof. vm_compute. reflexivity. Qed.
Lemma field_free_in c k fs fi t : linked (TModel c k fs) = true -> In (fi, t) fs -> has_ref t = true ->
  no_val (f_val fi) = true /\ (hook_of c hooks = None \/ (c = "Channel" /\ f_name fi <> u "address")).
Proof.
  intros Hl Hi Hr. assert (Hb := proj1 (forallb_forall _ _) table_free _ (linked_in_table _ _ _ Hl)). cbn beta iota in Hb.
  assert (Hf := proj1 (forallb_forall _ _) Hb _ Hi). unfold field_free in Hf. rewrite Hr in Hf. cbn [negb orb] in Hf. apply andb_prop in Hf as [Hv Hh]. split; [exact Hv|].
  revert Hh. generalize (hook_of c hooks). intros [h|] Hh; [right|left; reflexivity]. apply andb_prop in Hh as [Hc Hn]. apply String.eqb_eq in Hc. split; [exact Hc|].
  intros He. rewrite He, str_eqb_refl in Hn. discriminate Hn.
Qed.

(** ** Updating lists *)
Lemma upd_nth {X} (f : X -> X) : forall l i x, nth_error l i = Some x -> nth_error (upd i f l) i = Some (f x).
Proof. induction l as [|y l IH]; intros [|i] x; cbn; try discriminate; [intros [= ->]; reflexivity|apply IH]. Qed.
Lemma upd_other {X} (f : X -> X) : forall l i j, i <> j -> nth_error (upd i f l) j = nth_error l j.
Proof. induction l as [|y l IH]; intros [|i] [|j] Hn; cbn; try reflexivity; [congruence|apply IH; congruence]. Qed.
Lemma upd_keys {X} (f : X -> X) : forall (d : list (pystr * X)) i, map fst (upd i (fun kv => (fst kv, f (snd kv))) d) = map fst d.
Proof. induction d as [|[k y] d IH]; intros [|i]; cbn; [reflexivity..|f_equal; apply IH]. Qed.
Lemma upd_Forall {X} (P : X -> Prop) f : forall l i x, nth_error l i = Some x -> P (f x) -> Forall P l -> Forall P (upd i f l).
Proof.
  induction l as [|y l IH]; intros [|i] x; cbn; try discriminate.
  - intros [= ->] Hp Hf. inversion Hf; subst. constructor; assumption.
  - intros Hn Hp Hf. inversion Hf; subst. constructor; [assumption|]. eapply IH; eassumption.
Qed.

(** ** The value stays canonical *)
Definition solid (v : pv) : Prop := match v with VList _ | VDict _ | VObj _ _ _ | VRoot _ _ => True | _ => False end.
Lemma stands_solid t v pos p D r : stands t v pos p D r -> solid r -> solid v.
Proof. induction 1; intros Hr; cbn [solid]; auto. Qed.
Lemma put_solid pos x v : solid x -> solid v -> solid (put pos x v).
Proof. destruct pos as [|i pos]; intros Hx Hv; [exact Hx|]. destruct v; cbn [put solid] in *; auto. Qed.
Lemma put_shape i pos x v : vshape (put (i :: pos) x v) = vshape v.
Proof. destruct v; reflexivity. Qed.
Lemma solid_val E f v : no_val f = true -> solid v -> fv_check E f v = true.
Proof. destruct f; intros Hf Hv; try discriminate Hf; [reflexivity|]. destruct v; cbn in *; try contradiction; reflexivity. Qed.
Lemma attr_upd f (fv : fields) : forall i k0 x k, nth_error fv i = Some (k0, x) -> k <> k0 -> attr k (upd i (fun kv => (fst kv, f (snd kv))) fv) = attr k fv.
Proof.
  unfold attr. induction fv as [|[k1 y] fv IH]; intros [|i] k0 x k; cbn [nth_error upd]; try discriminate.
  - intros [= -> ->] Hn. cbn [assoc fst snd]. destruct (str_eqb k k0) eqn:He; [apply str_eqb_eq in He; contradiction|reflexivity].
  - intros Hi Hn. cbn [assoc]. destruct (str_eqb k k1); [reflexivity|]. eapply IH; eassumption.
Qed.
Lemma attr_none f (fv : fields) k : (forall x, solid x -> f x <> VNone) -> forall i k0 x, nth_error fv i = Some (k0, x) -> solid x ->
  attr k fv = VNone \/ attr k (upd i (fun kv => (fst kv, f (snd kv))) fv) = VNone -> attr k fv = VNone /\ attr k (upd i (fun kv => (fst kv, f (snd kv))) fv) = VNone.
Proof.
  intros Hf. unfold attr. induction fv as [|[k1 y] fv IH]; intros [|i] k0 x; cbn [nth_error upd]; try discriminate.
  - intros [= -> ->] Hx. cbn [assoc fst snd]. destruct (str_eqb k k0); [|intros [H|H]; auto]. intros [->|H]; [destruct Hx|]. exfalso. exact (Hf _ Hx H).
  - intros Hi Hx. cbn [assoc]. destruct (str_eqb k k1); [intros [H|H]; auto|]. eapply IH; eassumption.
Qed.
Lemma hook_put c f fv i k0 x : (forall x, solid x -> solid (f x)) -> nth_error fv i = Some (k0, x) -> solid x ->
  hook_of c hooks = None \/ (c = "Channel" /\ k0 <> u "address") -> hook c fv = true -> hook c (upd i (fun kv => (fst kv, f (snd kv))) fv) = true.
Proof.
  intros Hf Hi Hx [Hh|[-> Ha]]; unfold hook.
  - rewrite Hh. auto.
  - change (hook_of "Channel" hooks) with (Some channel_rule). unfold channel_rule, at_. intros Hr.
    rewrite (attr_upd f fv i k0 x (u "address") Hi) by congruence.
    destruct (is_none (attr (u "parameters") fv)) eqn:En.
    + apply is_none_iff in En. destruct (attr_none f fv (u "parameters")) with (i := i) (k0 := k0) (x := x) as [_ H]; [|exact Hi|exact Hx|left; exact En|rewrite H; reflexivity].
      intros y Hy H. specialize (Hf y Hy). rewrite H in Hf. exact Hf.
    + destruct (is_none (attr (u "parameters") (upd i _ fv))); [reflexivity|exact Hr].
Qed.
Lemma canon_fields_upd E can f : forall fs fv i fi t x, canon_fields E can fs fv -> nth_error fs i = Some (fi, t) -> nth_error fv i = Some (f_name fi, x) ->
  can t x /\ (can t (f x) -> fv_check E (f_val fi) (f x) = true -> canon_fields E can fs (upd i (fun kv => (fst kv, f (snd kv))) fv)).
Proof.
  induction fs as [|[gi s] fs IH]; intros [|[k y] fv] [|i] fi t x Hc; cbn [nth_error]; try discriminate; cbn [canon_fields] in Hc; try contradiction.
  - intros [= -> ->] [= -> ->]. destruct Hc as [(Hk & Hy & _) Hr]. split; [exact Hy|]. intros Hx Hv. cbn [upd canon_fields fst snd]. auto.
  - intros Hs Hx. destruct Hc as [Hc Hr]. destruct (IH fv i fi t x Hr Hs Hx) as [H1 H2]. split; [exact H1|]. intros Hy Hv. cbn [upd canon_fields]. split; [exact Hc|]. exact (H2 Hy Hv).
Qed.
(** ** Unions *)
Lemma canon_in_ok A E t : forall v, canon A E t v -> in_ok t (vshape v) = true.
Proof.
  induction t using ty_ind'; intros v Hc; cbn [canon in_ok] in *; try reflexivity;
    try (destruct Hc as (z & -> & _) || destruct Hc as (z & ->); reflexivity).
  - destruct Hc as [->|Hc]; [reflexivity|]. specialize (IHt v Hc). destruct (vshape v); try reflexivity; exact IHt.
  - apply canon_union_each in Hc as (t & Ht & Hc). apply existsb_exists. exists t. split; [exact Ht|]. rewrite Forall_forall in H. exact (H t Ht v Hc).
  - destruct Hc as (fv & ex & -> & _). apply String.eqb_refl.
  - destruct Hc as (d & -> & _). apply String.eqb_refl.
Qed.
Lemma stands_in_ok t v pos p D r s : stands t v pos p D r -> is_reference r s -> in_ok t (vshape v) = true.
Proof.
  intros Hs Hr. induction Hs as [ts k fs r Hi|t v pos p D r Hs IH|t l i x pos p D r Hn Hs IH|t d i k x pos p D r Hn Hs IH|c t d i k x pos p D r Hn Hs IH|ts t v pos p D r Hi Hs IH|c k fs fv ex i fi t x pos p D r Hf He Hn Hs IH];
    cbn [in_ok]; try reflexivity.
  - destruct Hr as (fv & ex & -> & _). apply existsb_exists. eexists. split; [exact Hi|reflexivity].
  - specialize (IH Hr). destruct (vshape v); try reflexivity; exact IH.
  - apply String.eqb_refl.
  - apply existsb_exists. exists t. split; [exact Hi|exact (IH Hr)].
  - apply String.eqb_refl.
Qed.
Lemma stands_shape t v pos p D r s : stands t v pos p D r -> out_shape t = Some s -> vshape v = s.
Proof. intros Hs. destruct Hs; cbn [out_shape]; intros Ho; try discriminate Ho; injection Ho as <-; reflexivity. Qed.
Lemma union_pair ts t t' : union_ok ts = true -> In t ts -> In t' ts -> t = t' \/ rejects t t' = true \/ rejects t' t = true.
Proof.
  induction ts as [|h ts IH]; intros Hok Hi Hi'; [destruct Hi|]. cbn [union_ok] in Hok. apply andb_prop in Hok as [Hall Hok]. rewrite forallb_forall in Hall.
  destruct Hi as [->|Hi], Hi' as [->|Hi']; auto.
  - specialize (Hall _ Hi'). apply andb_prop in Hall as [H1 H2]. auto.
  - specialize (Hall _ Hi). apply andb_prop in Hall as [H1 H2]. auto.
Qed.
Lemma union_same A E ts t t' v pos p D r s : union_ok ts = true -> In t ts -> In t' ts -> stands t v pos p D r -> is_reference r s -> canon A E t' v -> t = t'.
Proof.
  intros Hok Hi Hi' Hs Hr Hc. assert (H1 := stands_in_ok _ _ _ _ _ _ _ Hs Hr). assert (H2 := canon_in_ok _ _ _ _ Hc).
  assert (Hx : rejects t t' = true -> False).
  { unfold rejects. destruct (out_shape t') as [sh|] eqn:Eo; [|discriminate]. rewrite (canon_out_shape _ _ _ _ _ Hc Eo) in H1. rewrite H1. discriminate. }
  assert (Hy : rejects t' t = true -> False).
  { unfold rejects. destruct (out_shape t) as [sh|] eqn:Eo; [|discriminate]. rewrite (stands_shape _ _ _ _ _ _ _ Hs Eo) in H2. rewrite H2. discriminate. }
  destruct (union_pair ts t t' Hok Hi Hi') as [H|[H|H]]; [exact H|destruct (Hx H)|destruct (Hy H)].
Qed.
Lemma canon_union_intro A E ts t v : union_ok ts = true -> In t ts -> is_dict_any t = false -> ts = [t] \/ out_shape t = Some (vshape v) -> canon A E t v ->
  canon A E (TUnion ts) v.
Proof.
  intros Hok Hi Hd Hs Hc. cbn [canon]. destruct Hs as [->|Hs]; [left; auto|].
  assert (Hrej : forall t', rejects t' t = true -> validate E t' v = None).
  { intros t' Hr. unfold rejects in Hr. rewrite Hs in Hr. destruct (validate E t' v) as [w|] eqn:Ev; [|reflexivity]. apply validate_in_ok in Ev. rewrite Ev in Hr. discriminate Hr. }
  induction ts as [|h ts IH]; [destruct Hi|]. cbn [union_ok] in Hok. apply andb_prop in Hok as [Hall Hok]. rewrite forallb_forall in Hall. cbn [canon_union]. destruct Hi as [->|Hi].
  - left. split; [exact Hc|]. apply Forall_forall. intros t' Ht'. apply Hrej. specialize (Hall t' Ht'). apply andb_prop in Hall as [Hr _]. exact Hr.
  - right. split; [|exact (IH Hok Hi)]. apply Hrej. specialize (Hall t Hi). apply andb_prop in Hall as [_ Hr]. rewrite Hd, orb_false_r in Hr. exact Hr.
Qed.
Lemma union_shape ts t : union_ok ts = true -> In t ts -> ts = [t] \/ exists s, out_shape t = Some s.
Proof.
  intros Hok Hi. destruct ts as [|h [|h2 ts]]; [destruct Hi|destruct Hi as [->|[]]; auto|right]. cbn [union_ok] in Hok. apply andb_prop in Hok as [Hall _]. rewrite forallb_forall in Hall.
  assert (Hr : forall a b, rejects a b = true -> exists s, out_shape b = Some s). { intros a b. unfold rejects. destruct (out_shape b) as [s0|]; [eauto|discriminate]. }
  destruct Hi as [->|Hi].
  - specialize (Hall h2 (or_introl eq_refl)). apply andb_prop in Hall as [Hall _]. exact (Hr _ _ Hall).
  - specialize (Hall t Hi). apply andb_prop in Hall as [_ Hall]. apply orb_prop in Hall as [Hall|Hall]; [exact (Hr _ _ Hall)|]. destruct t; try discriminate Hall. cbn. eauto.
Qed.
Lemma model_names_In c ts : In c (model_names ts) -> exists k fs, In (TModel c k fs) ts /\ c <> "Reference".
Proof.
  unfold model_names. intros H. apply in_flat_map in H as (t & Ht & Hc). destruct t; try destruct Hc. destruct (String.eqb_spec c0 "Reference") as [->|Hn]; [destruct Hc|].
  destruct Hc as [<-|[]]. eauto.
Qed.
Lemma linked_unique c k fs k' fs' : linked (TModel c k fs) = true -> linked (TModel c k' fs') = true -> k = k' /\ fs = fs'.
Proof. intros H H'. apply linked_fields in H as [Ha Hb]. apply linked_fields in H' as [Ha' Hb']. split; congruence. Qed.
Lemma canon_put E o c k fs fv ex : o = VObj c fv ex -> linked (TModel c k fs) = true -> canon is_json E (TModel c k fs) o ->
  forall t v pos p D r s, stands t v pos p D r -> is_reference r s -> In c D -> linked t = true -> wf_ty t = true -> canon is_json E t v -> canon is_json E t (put pos o v).
Proof.
  intros Ho Hlo Hco t v pos p D r s Hs Hr. assert (Hsr : solid r) by (destruct Hr as (? & ? & -> & _); exact I).
  induction Hs as [ts k0 fs0 r Hi|t v pos p D r Hs IH|t l i x pos p D r Hn Hs IH|t d i k0 x pos p D r Hn Hs IH|c0 t d i k0 x pos p D r Hn Hs IH|ts t v pos p D r Hi Hs IH|c0 k0 fs0 fv0 ex0 i fi t x pos p D r Hf He Hn Hs IH];
    intros Hc Hl Hw Hv.
  - cbn [put]. apply model_names_In in Hc as (k1 & fs1 & Hin & _). destruct (linked_unique _ _ _ _ _ Hlo (linked_union _ _ Hl Hin)) as [<- <-].
    cbn [wf_ty] in Hw. apply andb_prop in Hw as [Hw _]. apply (canon_union_intro _ _ ts (TModel c k fs)); [exact Hw|exact Hin|reflexivity| |exact Hco]. right. rewrite Ho. reflexivity.
  - cbn [canon] in Hv. right. apply IH; try assumption. destruct Hv as [->|Hv]; [|exact Hv]. destruct (stands_solid _ _ _ _ _ _ Hs Hsr).
  - cbn [canon] in Hv. destruct Hv as (l' & Heq & HF). injection Heq as <-. cbn [put canon]. eexists. split; [reflexivity|]. eapply upd_Forall; [exact Hn| |exact HF].
    apply IH; try assumption. rewrite Forall_forall in HF. exact (HF x (nth_error_In _ _ Hn)).
  - cbn [canon] in Hv. destruct Hv as (l' & Heq & HF). injection Heq as <-. cbn [put canon]. eexists. split; [reflexivity|]. eapply upd_Forall; [exact Hn| |exact HF].
    cbn [snd]. apply IH; try assumption. rewrite Forall_forall in HF. exact (HF (k0, x) (nth_error_In _ _ Hn)).
  - cbn [canon] in Hv. destruct Hv as (l' & Heq & HF & Hk). injection Heq as <-. cbn [put canon]. eexists. split; [reflexivity|]. split.
    + eapply upd_Forall; [exact Hn| |exact HF]. cbn [snd]. apply IH; try assumption; [exact (linked_root_sub _ _ Hl)|]. rewrite Forall_forall in HF. exact (HF (k0, x) (nth_error_In _ _ Hn)).
    + revert Hk. unfold root_keys_ok. intros Hk. apply forallb_forall. intros kv Hkv. rewrite forallb_forall in Hk. apply (in_map fst) in Hkv. rewrite (upd_keys (put pos o)) in Hkv.
      apply in_map_iff in Hkv as (kv' & <- & Hkv'). exact (Hk _ Hkv').
  - cbn [canon] in Hv. apply canon_union_each in Hv as (t' & Hi' & Hv). assert (Hok := Hw). cbn [wf_ty] in Hok. apply andb_prop in Hok as [Hok _].
    rewrite <- (union_same _ _ _ _ _ _ _ _ _ _ _ Hok Hi Hi' Hs Hr Hv) in Hv. assert (Hp := IH Hr Hsr Hc (linked_union _ _ Hl Hi) (wf_union _ _ Hw Hi) Hv).
    assert (Hda : is_dict_any t = false). { destruct t as [| | | | | | | | |t0| | | | |]; try reflexivity. destruct t0; try reflexivity. apply stands_has_ref in Hs. discriminate Hs. }
    apply (canon_union_intro _ _ ts t); try assumption. destruct (union_shape ts t Hok Hi) as [H1|[sh H1]]; [auto|right]. rewrite H1. f_equal. destruct pos as [|i pos].
    + clear -Hs H1. inversion Hs; subst; discriminate H1.
    + rewrite put_shape. symmetry. exact (stands_shape _ _ _ _ _ _ _ Hs H1).
  - cbn [canon] in Hv. destruct Hv as (fv1 & ex1 & Heq & Hcf & Hex & Ha). injection Heq as <- <-. cbn [put canon]. eexists _, _. split; [reflexivity|].
    assert (Hsx := stands_solid _ _ _ _ _ _ Hs Hsr). assert (Hin := nth_error_In _ _ Hf).
    destruct (field_free_in _ _ _ _ _ Hl Hin (stands_has_ref _ _ _ _ _ _ Hs)) as [Hnv Hh].
    destruct (canon_fields_upd E (canon is_json E) (put pos o) fs0 fv0 i fi t x Hcf Hf Hn) as [Hx Hup].
    assert (Hso : solid o) by (rewrite Ho; exact I). split; [|split; [exact Hex|]].
    + apply Hup; [apply IH; try assumption; [exact (linked_sub _ _ _ _ Hl Hin)|exact (wf_sub _ _ _ _ Hw Hin)]|]. apply solid_val; [exact Hnv|]. apply put_solid; assumption.
    + unfold after_ok in *. apply andb_prop in Ha as [Ha1 Ha2]. rewrite Ha1. cbn [andb]. eapply hook_put; [|exact Hn|exact Hsx|exact Hh|exact Ha2]. intros y Hy. apply put_solid; assumption.
Qed.

(** ** Standing, locations and the traversal *)
Lemma stands_location t v pos p D r : stands t v pos p D r -> location t p D.
Proof.
  induction 1 as [ts k fs r Hi|t v pos p D r Hs IH|t l i x pos p D r Hn Hs IH|t d i k x pos p D r Hn Hs IH|c t d i k x pos p D r Hn Hs IH|ts t v pos p D r Hi Hs IH|c k fs fv ex i fi t x pos p D r Hf He Hn Hs IH].
  - eapply lo_here. exact Hi.
  - apply lo_opt. exact IH.
  - apply lo_list. exact IH.
  - apply lo_dict. exact IH.
  - apply lo_root. exact IH.
  - eapply lo_member; eassumption.
  - eapply lo_field; [exact (nth_error_In _ _ Hf)|exact He|exact IH].
Qed.
Lemma stands_below t v pos p D r c k fs q D' : stands t v pos p D r -> In c D -> linked t = true -> linked (TModel c k fs) = true ->
  location (TModel c k fs) q D' -> location t (p ++ q)%list D'.
Proof.
  intros Hs Hc Hl Hlo Hq.
  induction Hs as [ts k0 fs0 r Hi|t v pos p D r Hs IH|t l i x pos p D r Hn Hs IH|t d i k0 x pos p D r Hn Hs IH|c0 t d i k0 x pos p D r Hn Hs IH|ts t v pos p D r Hi Hs IH|c0 k0 fs0 fv ex i fi t x pos p D r Hf He Hn Hs IH]; cbn [app].
  - apply model_names_In in Hc as (k1 & fs1 & Hin & _). destruct (linked_unique _ _ _ _ _ Hlo (linked_union _ _ Hl Hin)) as [<- <-]. eapply lo_member; eassumption.
  - apply lo_opt. exact (IH Hc Hl).
  - apply lo_list. exact (IH Hc Hl).
  - apply lo_dict. exact (IH Hc Hl).
  - apply lo_root. exact (IH Hc (linked_root_sub _ _ Hl)).
  - eapply lo_member; [exact Hi|exact (IH Hc (linked_union _ _ Hl Hi))].
  - eapply lo_field; [exact (nth_error_In _ _ Hf)|exact He|]. exact (IH Hc (linked_sub _ _ _ _ Hl (nth_error_In _ _ Hf))).
Qed.
Lemma reference_no_ref k fs : linked (TModel "Reference" k fs) = true -> has_ref (TModel "Reference" k fs) = false.
Proof.
  intros Hl. apply linked_fields in Hl as [<- _]. assert (H : forall k, has_ref (TModel "Reference" k (class_fields "Reference")) = false) by (intros k0; vm_compute; reflexivity). apply H.
Qed.
Lemma excl_unique c k fs fi t : linked (TModel c k fs) = true -> wf_ty (TModel c k fs) = true -> In (fi, t) fs -> f_excl fi = false ->
  forall fi' t', In (fi', t') (class_fields c) -> f_name fi' = f_name fi -> f_excl fi' = false.
Proof.
  intros Hl Hw Hin Hx. destruct (linked_fields _ _ _ Hl) as [-> _]. assert (Hnd := names_NoDup _ _ _ Hw). clear Hl Hw. intros fi' t' Hin' Hnm.
  induction fs as [|[gi u0] fs IH]; [contradiction|]. cbn [map fst] in Hnd. inversion Hnd as [|? ? Hni Hnd']; subst. destruct Hin as [Heq|Hin], Hin' as [Heq'|Hin'].
  - congruence.
  - injection Heq as -> ->. exfalso. apply Hni. rewrite <- Hnm. exact (in_map (fun ft => f_name (fst ft)) fs (fi', t') Hin').
  - injection Heq' as -> ->. exfalso. apply Hni. rewrite Hnm. exact (in_map (fun ft => f_name (fst ft)) fs (fi, t) Hin).
  - exact (IH Hin Hnd' Hin').
Qed.
Lemma stands_reached t v pos p D r : stands t v pos p D r -> solid r -> linked t = true -> wf_ty t = true -> reached v pos (flat_map step_text p) r.
Proof.
  intros Hs Hr.
  induction Hs as [ts k fs r Hi|t v pos p D r Hs IH|t l i x pos p D r Hn Hs IH|t d i k x pos p D r Hn Hs IH|c t d i k x pos p D r Hn Hs IH|ts t v pos p D r Hi Hs IH|c k fs fv ex i fi t x pos p D r Hf He Hn Hs IH];
    intros Hl Hw; cbn [flat_map].
  - constructor. reflexivity.
  - exact (IH Hr Hl Hw).
  - eapply re_step; [|exact (IH Hr Hl Hw)]. cbn [step_text]. constructor. exact Hn.
  - eapply re_step; [|exact (IH Hr Hl Hw)]. cbn [step_text]. constructor. exact Hn.
  - eapply re_step; [|exact (IH Hr (linked_root_sub _ _ Hl) Hw)]. cbn [step_text]. constructor. exact Hn.
  - exact (IH Hr (linked_union _ _ Hl Hi) (wf_union _ _ Hw Hi)).
  - assert (Hin := nth_error_In _ _ Hf). eapply re_step; [|exact (IH Hr (linked_sub _ _ _ _ Hl Hin) (wf_sub _ _ _ _ Hw Hin))]. cbn [step_text]. apply ch_field; [exact Hn| | |].
    + intros s (fv0 & ex0 & Heq & _). injection Heq as -> _ _. assert (Hh := reference_no_ref k fs Hl). cbn [has_ref] in Hh.
      assert (Ht : existsb (fun ft => match ft with (_, t) => has_ref t end) fs = true) by (apply existsb_exists; exists (fi, t); split; [exact Hin|exact (stands_has_ref _ _ _ _ _ _ Hs)]). congruence.
    + intros ->. destruct (stands_solid _ _ _ _ _ _ Hs Hr).
    + intros fi' t' Hi' Hn'. exact (excl_unique c k fs fi t Hl Hw Hin He fi' t' Hi' Hn').
Qed.

(** ** Objects lie at places of the object model *)
Lemma canon_mono (A B : pv -> Prop) E t : (forall v, A v -> B v) -> forall v, canon A E t v -> canon B E t v.
Proof.
  intros Hab. induction t using ty_ind'; intros v Hc; cbn [canon] in *; try exact Hc; auto.
  - destruct Hc as (l & -> & HF). exists l. split; [reflexivity|]. eapply Forall_impl; [|exact HF]. exact IHt.
  - destruct Hc as (l & -> & HF). exists l. split; [reflexivity|]. eapply Forall_impl; [|exact HF]. intros kv. apply IHt.
  - destruct Hc as [->|Hc]; auto.
  - induction ts as [|t ts IH]; [destruct Hc|]. inversion H as [|? ? H1 H2]; subst. cbn [canon_union] in *. destruct Hc as [[Hc Hr]|[Hr Hc]]; [left|right]; auto.
  - destruct Hc as (fv & ex & -> & Hf & Hex & Ha). exists fv, ex. split; [reflexivity|]. split; [|split; [|exact Ha]].
    + clear Ha. revert fv Hf. induction fs as [|[fi t] fs IH]; intros [|[k0 x] fv] Hf; cbn [canon_fields] in *; try contradiction; [exact I|].
      inversion H as [|? ? H1 H2]; subst. destruct Hf as [(H3 & H4 & H5) H6]. cbn [snd] in H1. auto.
    + eapply Forall_impl; [|exact Hex]. auto.
  - destruct Hc as (d & -> & HF & Hk). exists d. split; [reflexivity|]. split; [|exact Hk]. eapply Forall_impl; [|exact HF]. intros kv. apply IHt.
Qed.
Lemma json_no_objects v : is_json v -> no_objects v.
Proof. intros H c fv ex Hx. exact (H _ Hx). Qed.
Lemma reached_app v pos path w : reached v pos path w -> forall q pq x, reached w q pq x -> exists pos', reached v pos' (path ++ pq)%list x.
Proof.
  induction 1 as [v p0 ->|v i text w pos path r Hc Hr IH]; intros q pq x Hx; [exists q; exact Hx|].
  destruct (IH q pq x Hx) as [pos' H']. exists (i :: pos'). rewrite <- app_assoc. eapply re_step; eassumption.
Qed.
Definition visited (w v : pv) : Prop := exists pos path, reached v pos path w.
Lemma visited_self v : visited v v.
Proof. exists [], []. constructor. reflexivity. Qed.
Lemma visited_child v i text w : child v i text w -> visited w v.
Proof. intros Hc. exists [i], (text ++ [])%list. eapply re_step; [exact Hc|constructor; reflexivity]. Qed.
Lemma visited_trans v w x : visited w v -> visited x w -> visited x v.
Proof. intros (pos & path & Hr) (q & pq & Hq). destruct (reached_app _ _ _ _ Hr _ _ _ Hq) as [pos' H']. exists pos', (path ++ pq)%list. exact H'. Qed.
Definition key_in (v : pv) (k : pystr) : Prop := exists d x, (visited (VDict d) v \/ exists c, visited (VRoot c d) v) /\ In (k, x) d.
Lemma key_in_sub v w k : visited w v -> key_in w k -> key_in v k.
Proof.
  intros Hw (d & x & Hd & Hk). exists d, x. split; [|exact Hk]. destruct Hd as [Hd|[c Hd]]; [left|right; exists c]; eapply visited_trans; eassumption.
Qed.
(** the excluded fields and the fields of References hold no objects *)
Fixpoint clear_ways (t : ty) : bool :=
  match t with
  | TList t' | TDict t' | TOpt t' | TRoot _ t' => clear_ways t'
  | TUnion ts => forallb clear_ways ts
  | TModel c _ fs => forallb (fun ft => match ft with (fi, t) => clear_ways t && (negb (f_excl fi) && negb (String.eqb c "Reference") || no_refs t) end) fs
  | _ => true
  end.
Lemma root_clear_ways : clear_ways T_AsyncAPI3 = true.
Proof. vm_compute. reflexivity. Qed.
Lemma object_placed E t : linked t = true -> wf_ty t = true -> clear_ways t = true -> forall v, canon no_objects E t v ->
  forall c fv ex k fs, within (VObj c fv ex) v -> linked (TModel c k fs) = true ->
  exists pos p, reached v pos (flat_map step_text p) (VObj c fv ex) /\ (forall q D, location (TModel c k fs) q D -> location t (p ++ q)%list D)
    /\ (forall k0, In k0 (keys_of p) -> key_in v k0).
Proof.
  induction t using ty_ind'; intros Hl Hw Hcw v Hc c0 fv0 ex0 k0 fs0 Hx Hlo; cbn [canon] in Hc;
    try (exfalso; (destruct Hc as (z & -> & _) || destruct Hc as (z & ->)); apply within_atom in Hx; discriminate Hx).
  - exfalso. exact (Hc _ _ _ Hx).
  - destruct Hc as (l & -> & HF). apply within_inv in Hx as [Hx|(y & H0 & H1)]; [discriminate Hx|]. rewrite Forall_forall in HF.
    destruct (IHt Hl Hw Hcw y (HF _ H0) _ _ _ _ _ H1 Hlo) as (pos & p & Hre & Hlc & Hk). destruct (nth_of_In _ _ H0) as [i Hi].
    exists (i :: pos), (LIdx i :: p). split; [apply (re_step (VList l) i (step_text (LIdx i)) y); [constructor; exact Hi|exact Hre]|]. split.
    + intros q D Hq. cbn [app]. apply lo_list. exact (Hlc q D Hq).
    + intros k1 Hk1. apply (key_in_sub (VList l) y); [eapply visited_child; constructor; exact Hi|exact (Hk k1 Hk1)].
  - destruct Hc as (d & -> & HF). apply within_inv in Hx as [Hx|(k & y & H0 & H1)]; [discriminate Hx|]. rewrite Forall_forall in HF.
    destruct (IHt Hl Hw Hcw y (HF (k, y) H0) _ _ _ _ _ H1 Hlo) as (pos & p & Hre & Hlc & Hk). destruct (nth_of_In _ _ H0) as [i Hi].
    exists (i :: pos), (LKey k :: p). split; [apply (re_step (VDict d) i (step_text (LKey k)) y); [constructor; exact Hi|exact Hre]|]. split.
    + intros q D Hq. cbn [app]. apply lo_dict. exact (Hlc q D Hq).
    + intros k1 [<-|Hk1]; [exists d, y; split; [left; apply visited_self|exact H0]|]. apply (key_in_sub (VDict d) y); [eapply visited_child; constructor; exact Hi|exact (Hk k1 Hk1)].
  - destruct Hc as [->|Hc]; [exfalso; apply within_atom in Hx; discriminate Hx|].
    destruct (IHt Hl Hw Hcw v Hc _ _ _ _ _ Hx Hlo) as (pos & p & Hre & Hlc & Hk). exists pos, p. split; [exact Hre|]. split; [|exact Hk]. intros q D Hq. apply lo_opt. exact (Hlc q D Hq).
  - apply canon_union_each in Hc as (t & Ht & Hc). rewrite Forall_forall in H. cbn [clear_ways] in Hcw. rewrite forallb_forall in Hcw.
    destruct (H t Ht (linked_union _ _ Hl Ht) (wf_union _ _ Hw Ht) (Hcw t Ht) v Hc _ _ _ _ _ Hx Hlo) as (pos & p & Hre & Hlc & Hk). exists pos, p. split; [exact Hre|]. split; [|exact Hk].
    intros q D Hq. eapply lo_member; [exact Ht|exact (Hlc q D Hq)].
  - exfalso. exact (no_refs_spec E TProcs eq_refl v Hc _ _ _ Hx).
  - destruct Hc as (fv & ex & -> & Hf & Hex & Ha). cbn [clear_ways] in Hcw. apply within_inv in Hx as [Hx|(k1 & y & [H1|H1] & H2)].
    + injection Hx as -> -> ->. destruct (linked_unique _ _ _ _ _ Hl Hlo) as [<- <-]. exists [], []. split; [constructor; reflexivity|]. split; [intros q D Hq; exact Hq|intros ? []].
    + destruct (canon_fields_named _ _ _ _ Hf _ _ H1) as (fi & t & Hin & Hnm & Hct). rewrite Forall_forall in H. rewrite forallb_forall in Hcw.
      specialize (Hcw _ Hin). cbn beta iota in Hcw. apply andb_prop in Hcw as [Hcw Hex2]. apply orb_prop in Hex2 as [Hex2|Hno]; [|exfalso; exact (no_refs_spec E t Hno y Hct _ _ _ H2)].
      apply andb_prop in Hex2 as [He1 He2]. apply negb_true_iff in He1, He2. apply String.eqb_neq in He2.
      destruct (H (fi, t) Hin (linked_sub _ _ _ _ Hl Hin) (wf_sub _ _ _ _ Hw Hin) Hcw y Hct _ _ _ _ _ H2 Hlo) as (pos & p & Hre & Hlc & Hk). cbn [snd] in *.
      destruct (nth_of_In _ _ H1) as [i Hi]. subst k1. assert (Hch : child (VObj c fv ex) i (step_text (LField (f_name fi))) y).
      { apply ch_field; [exact Hi| | |].
        - intros s (? & ? & Hq & _). injection Hq as -> _ _. exact (He2 eq_refl).
        - intros ->. apply within_atom in H2. discriminate H2.
        - intros fi' t' Hi' Hn'. exact (excl_unique c k fs fi t Hl Hw Hin He1 fi' t' Hi' Hn'). }
      exists (i :: pos), (LField (f_name fi) :: p). split; [|split].
      * exact (re_step (VObj c fv ex) i (step_text (LField (f_name fi))) y _ _ _ Hch Hre).
      * intros q D Hq. cbn [app]. eapply lo_field; [exact Hin|exact He1|exact (Hlc q D Hq)].
      * intros k1 Hk1. apply (key_in_sub (VObj c fv ex) y); [exact (visited_child _ _ _ _ Hch)|exact (Hk k1 Hk1)].
    + exfalso. rewrite Forall_forall in Hex. exact (Hex _ H1 _ _ _ H2).
  - destruct Hc as (d & -> & HF & _). apply within_inv in Hx as [Hx|(k & y & H0 & H1)]; [discriminate Hx|]. rewrite Forall_forall in HF.
    destruct (IHt (linked_root_sub _ _ Hl) Hw Hcw y (HF (k, y) H0) _ _ _ _ _ H1 Hlo) as (pos & p & Hre & Hlc & Hk). destruct (nth_of_In _ _ H0) as [i Hi].
    exists (i :: pos), (LMapKey k :: p). split; [apply (re_step (VRoot c d) i (step_text (LMapKey k)) y); [cbn [step_text]; constructor; exact Hi|exact Hre]|]. split.
    + intros q D Hq. cbn [app]. apply lo_root. exact (Hlc q D Hq).
    + intros k1 [<-|Hk1]; [exists d, y; split; [right; exists c; apply visited_self|exact H0]|]. apply (key_in_sub (VRoot c d) y); [eapply visited_child; constructor; exact Hi|exact (Hk k1 Hk1)].
Qed.
(** every visited Reference lies at a location, whatever the position *)
Lemma reached_within v pos path x : reached v pos path x -> within x v.
Proof.
  induction 1 as [|v i text w pos path x Hc Hr IH]; [apply w_self|]. eapply within_trans; [exact IH|].
  destruct Hc as [l i x0 Hn|d i k x0 Hn|c d i k x0 Hn|c fv ex i k x0 Hn]; apply nth_error_In in Hn; [eapply w_list|eapply w_dict|eapply w_root|eapply w_field]; try exact Hn; apply w_self.
Qed.
Lemma reached_located E t : linked t = true -> wf_ty t = true -> refs_placed t = true -> no_ref_dicts t = true -> forall v, canon no_objects E t v ->
  forall pos path r s, reached v pos path r -> is_reference r s ->
  exists p, path = flat_map step_text p /\ (only_reference t p \/ exists D, location t p D) /\ (forall k0, In k0 (keys_of p) -> key_in v k0).
Proof.
  induction t using ty_ind'; intros Hl Hw Hp Hd v Hc pos path r s Hr Hs; cbn [canon] in Hc;
    try (exfalso; destruct Hs as (fv0 & ex0 & -> & _); apply reached_within in Hr; (destruct Hc as (z & -> & _) || destruct Hc as (z & ->)); apply within_atom in Hr; discriminate Hr).
  - exfalso. destruct Hs as (fv0 & ex0 & -> & _). exact (Hc _ _ _ (reached_within _ _ _ _ Hr)).
  - destruct Hc as (l & -> & HF). inversion Hr as [p0 Hp0|i text w pos' path' x Hch Hr']; subst; [destruct Hs as (? & ? & Hx & _); discriminate Hx|].
    inversion Hch as [l0 i0 x0 Hn| | |]; subst. assert (Hin := nth_error_In _ _ Hn). rewrite Forall_forall in HF.
    destruct (IHt Hl Hw Hp Hd w (HF _ Hin) _ _ _ _ Hr' Hs) as (p & -> & Hlo & Hk). exists (LIdx i :: p). split; [reflexivity|]. split.
    + destruct Hlo as [Hlo|[D Hlo]]; [left; constructor; exact Hlo|right; exists D; constructor; exact Hlo].
    + intros k1 Hk1. apply (key_in_sub (VList l) w); [exact (visited_child _ _ _ _ Hch)|exact (Hk k1 Hk1)].
  - destruct Hc as (d & -> & HF). inversion Hr as [p0 Hp0|i text w pos' path' x Hch Hr']; subst; [destruct Hs as (? & ? & Hx & _); discriminate Hx|].
    inversion Hch as [|d0 i0 k x0 Hn| |]; subst. assert (Hin := nth_error_In _ _ Hn). rewrite Forall_forall in HF.
    cbn [no_ref_dicts] in Hd. apply andb_prop in Hd as [Hd1 Hd2]. apply is_nil_spec in Hd1.
    destruct (IHt Hl Hw Hp Hd2 w (HF _ Hin) _ _ _ _ Hr' Hs) as (p & -> & Hlo & Hk). exists (LKey k :: p). split; [reflexivity|]. split.
    + destruct Hlo as [Hlo|[D Hlo]]; [exfalso; exact (opos_spec _ Hd1 _ Hlo)|right; exists D; constructor; exact Hlo].
    + intros k1 [<-|Hk1]; [exists d, w; split; [left; apply visited_self|exact Hin]|]. apply (key_in_sub (VDict d) w); [exact (visited_child _ _ _ _ Hch)|exact (Hk k1 Hk1)].
  - destruct Hc as [->|Hc]; [exfalso; destruct Hs as (? & ? & -> & _); apply reached_within in Hr; apply within_atom in Hr; discriminate Hr|].
    destruct (IHt Hl Hw Hp Hd v Hc _ _ _ _ Hr Hs) as (p & -> & Hlo & Hk). exists p. split; [reflexivity|]. split; [|exact Hk].
    destruct Hlo as [Hlo|[D Hlo]]; [left; constructor; exact Hlo|right; exists D; constructor; exact Hlo].
  - apply canon_union_each in Hc as (t & Ht & Hc). rewrite Forall_forall in H. cbn [refs_placed no_ref_dicts] in Hp, Hd. rewrite forallb_forall in Hp, Hd.
    specialize (Hp t Ht). specialize (Hd t Ht). apply andb_prop in Hp as [Hp1 Hp2].
    destruct (H t Ht (linked_union _ _ Hl Ht) (wf_union _ _ Hw Ht) Hp2 Hd v Hc _ _ _ _ Hr Hs) as (p & -> & Hlo & Hk). exists p. split; [reflexivity|]. split; [|exact Hk]. right.
    destruct Hlo as [Hlo|[D Hlo]]; [|exists D; eapply lo_member; eauto].
    apply orb_prop in Hp1 as [Hp1|Hp1]; [|apply is_nil_spec in Hp1; exfalso; exact (opos_spec _ Hp1 _ Hlo)].
    destruct t; try discriminate Hp1. apply String.eqb_eq in Hp1. subst c. inversion Hlo; subst. eexists. eapply lo_here. exact Ht.
  - exfalso. destruct Hs as (fv0 & ex0 & -> & _). exact (no_refs_spec E TProcs eq_refl v Hc _ _ _ (reached_within _ _ _ _ Hr)).
  - destruct Hc as (fv & ex & -> & Hf & Hex & Ha). cbn [refs_placed no_ref_dicts] in Hp, Hd.
    inversion Hr as [p0 Hp0|i text w pos' path' x Hch Hr']; subst.
    + destruct Hs as (? & ? & Hx & _). injection Hx as -> _ _. exists []. split; [reflexivity|]. split; [left; constructor|intros ? []].
    + inversion Hch as [| | |c0 fv0 ex0 i0 k1 x0 Hn Hnr Hnn Hexc]; subst. assert (Hin1 := nth_error_In _ _ Hn).
      destruct (canon_fields_named _ _ _ _ Hf _ _ Hin1) as (fi & t & Hin & Hnm & Hct). rewrite Forall_forall in H.
      destruct (String.eqb c "Reference") eqn:Ec.
      { exfalso. rewrite forallb_forall in Hp. destruct Hs as (fv2 & ex2 & -> & _). exact (no_refs_spec E t (Hp _ Hin) w Hct _ _ _ (reached_within _ _ _ _ Hr')). }
      rewrite forallb_forall in Hp, Hd. specialize (Hp _ Hin). specialize (Hd _ Hin). cbn beta iota in Hp, Hd. apply andb_prop in Hp as [Hp Hp3]. apply andb_prop in Hp as [Hp1 Hp2].
      destruct (H (fi, t) Hin (linked_sub _ _ _ _ Hl Hin) (wf_sub _ _ _ _ Hw Hin) Hp1 Hd w Hct _ _ _ _ Hr' Hs) as (p & -> & Hlo & Hk). cbn [snd] in *. subst k1.
      exists (LField (f_name fi) :: p). split; [reflexivity|]. split.
      * right. assert (Hx : f_excl fi = false) by (apply (Hexc fi t); [destruct (linked_fields _ _ _ Hl) as [-> _]; exact Hin|reflexivity]).
        destruct Hlo as [Hlo|[D Hlo]]; [|exists D; apply (lo_field c k fs fi t); assumption].
        apply orb_prop in Hp3 as [Hp3|Hp3]; [apply is_nil_spec in Hp3; exfalso; exact (opos_spec _ Hp3 _ Hlo)|].
        apply existsb_exists in Hp3 as ([[c' f] D] & Hrf & Hcf). apply andb_prop in Hcf as [Hc1 Hc2]. apply String.eqb_eq in Hc1. apply str_eqb_eq in Hc2. subst c'.
        exists [D]. rewrite Hc2. eapply lo_only; eauto.
      * intros k1 Hk1. apply (key_in_sub (VObj c fv ex) w); [exact (visited_child _ _ _ _ Hch)|exact (Hk k1 Hk1)].
  - destruct Hc as (d & -> & HF & _). inversion Hr as [p0 Hp0|i text w pos' path' x Hch Hr']; subst; [destruct Hs as (? & ? & Hx & _); discriminate Hx|].
    inversion Hch as [| |c0 d0 i0 k x0 Hn|]; subst. assert (Hin := nth_error_In _ _ Hn). rewrite Forall_forall in HF.
    cbn [refs_placed no_ref_dicts] in Hp, Hd. apply andb_prop in Hp as [Hp1 Hp2]. apply is_nil_spec in Hp1.
    destruct (IHt (linked_root_sub _ _ Hl) Hw Hp2 Hd w (HF _ Hin) _ _ _ _ Hr' Hs) as (p & -> & Hlo & Hk). exists (LMapKey k :: p). split; [reflexivity|]. split.
    + destruct Hlo as [Hlo|[D Hlo]]; [exfalso; exact (opos_spec _ Hp1 _ Hlo)|right; exists D; constructor; exact Hlo].
    + intros k1 [<-|Hk1]; [exists d, w; split; [right; exists c; apply visited_self|exact Hin]|]. apply (key_in_sub (VRoot c d) w); [exact (visited_child _ _ _ _ Hch)|exact (Hk k1 Hk1)].
Qed.

(** ** The traversal after the replacement *)
Definition refs_ok (v : pv) : Prop := forall fv ex, within (VObj "Reference" fv ex) v -> exists s, is_reference (VObj "Reference" fv ex) s.
Lemma refs_ok_sub v w : within w v -> refs_ok v -> refs_ok w.
Proof. intros Hw H fv ex Hx. apply H. eapply within_trans; eassumption. Qed.
Lemma child_within v i text w : child v i text w -> within w v.
Proof. intros Hc. apply (reached_within v [i] (text ++ [])%list). eapply re_step; [exact Hc|constructor; reflexivity]. Qed.
Lemma upd_same_key f (d : fields) i k x k' x' : nth_error d i = Some (k, x) -> nth_error (upd i (fun kv => (fst kv, f (snd kv))) d) i = Some (k', x') -> k' = k /\ x' = f x.
Proof. intros Hn Hm. rewrite (upd_nth _ _ _ _ Hn) in Hm. cbn [fst snd] in Hm. injection Hm as <- <-. auto. Qed.
Lemma child_put v i text w pos o j t y : refs_ok v -> child v i text w -> child (put (i :: pos) o v) j t y ->
  (j = i /\ t = text /\ y = put pos o w) \/ child v j t y.
Proof.
  intros Hok Hc Hc'. destruct (Nat.eq_dec j i) as [->|Hne].
  - left. destruct Hc as [l i x Hn|d i k x Hn|c d i k x Hn|c fv ex i k x Hn Hnr Hnn Hexc]; cbn [put] in Hc'.
    + inversion Hc' as [l0 i0 x0 Hm| | |]; subst. rewrite (upd_nth _ _ _ _ Hn) in Hm. injection Hm as <-. auto.
    + inversion Hc' as [|d0 i0 k0 x0 Hm| |]; subst. destruct (upd_same_key _ _ _ _ _ _ _ Hn Hm) as [-> ->]. auto.
    + inversion Hc' as [| |c0 d0 i0 k0 x0 Hm|]; subst. destruct (upd_same_key _ _ _ _ _ _ _ Hn Hm) as [-> ->]. auto.
    + inversion Hc' as [| | |c0 fv0 ex0 i0 k0 x0 Hm]; subst. destruct (upd_same_key _ _ _ _ _ _ _ Hn Hm) as [-> ->]. auto.
  - right. destruct Hc as [l i x Hn|d i k x Hn|c d i k x Hn|c fv ex i k x Hn Hnr Hnn Hexc]; cbn [put] in Hc'.
    + inversion Hc' as [l0 i0 x0 Hm| | |]; subst. rewrite upd_other in Hm by congruence. constructor. exact Hm.
    + inversion Hc' as [|d0 i0 k0 x0 Hm| |]; subst. rewrite upd_other in Hm by congruence. constructor. exact Hm.
    + inversion Hc' as [| |c0 d0 i0 k0 x0 Hm|]; subst. rewrite upd_other in Hm by congruence. constructor. exact Hm.
    + inversion Hc' as [| | |c0 fv0 ex0 i0 k0 x0 Hm Hr0 Hn0 He0]; subst. rewrite upd_other in Hm by congruence. constructor; assumption.
Qed.
Lemma reached_split v pos path r o : reached v pos path r -> refs_ok v -> forall pos' path' x s, reached (put pos o v) pos' path' x -> is_reference x s ->
  (exists q pq, path' = (path ++ pq)%list /\ reached o q pq x) \/ reached v pos' path' x.
Proof.
  induction 1 as [v p0 ->|v i text w pos path r Hc Hr IH]; intros Hok pos' path' x s Hx Hs.
  - left. exists pos', path'. cbn [app put] in *. auto.
  - inversion Hx as [p0 Hp0 Hv|j t y pos1 path1 x0 Hc' Hr' Hv Ht]; subst.
    { exfalso. destruct Hs as (fv & ex & Heq & Hs). destruct Hc as [l i x0 Hn|d i k x0 Hn|c d i k x0 Hn|c fv0 ex0 i k x0 Hn Hnr Hnn Hexc]; cbn [put] in Heq; try discriminate Heq.
      injection Heq as -> _ _. destruct (Hok fv0 ex0 (w_self _)) as [s0 Hs0]. exact (Hnr s0 Hs0). }
    destruct (child_put _ _ _ _ _ _ _ _ _ Hok Hc Hc') as [(-> & -> & ->)|Hold].
    + destruct (IH (refs_ok_sub _ _ (child_within _ _ _ _ Hc) Hok) _ _ _ _ Hr' Hs) as [(q & pq & -> & Hq)|Ho]; [left|right].
      * exists q, pq. rewrite app_assoc. auto.
      * eapply re_step; eassumption.
    + right. eapply re_step; eassumption.
Qed.

(** ** Resolution after the replacement *)
Section Inlined.
  Context (r o : pv).
  (** [y] is [x] with some occurrences of [r] replaced by [o] *)
  Inductive inl : pv -> pv -> Prop :=
  | il_same x : inl x x
  | il_here : inl r o
  | il_list l l' : Forall2 inl l l' -> inl (VList l) (VList l')
  | il_dict d d' : Forall2 (fun a b => fst a = fst b /\ inl (snd a) (snd b)) d d' -> inl (VDict d) (VDict d')
  | il_root c d d' : Forall2 (fun a b => fst a = fst b /\ inl (snd a) (snd b)) d d' -> inl (VRoot c d) (VRoot c d')
  | il_obj c d d' ex : Forall2 (fun a b => fst a = fst b /\ inl (snd a) (snd b)) d d' -> inl (VObj c d ex) (VObj c d' ex).
  Lemma upd_Forall2 {X} (R : X -> X -> Prop) f : (forall x, R x x) -> forall l i x, nth_error l i = Some x -> R x (f x) -> Forall2 R l (upd i f l).
  Proof.
    intros HR. assert (Hs : forall l, Forall2 R l l) by (induction l; constructor; auto).
    induction l as [|y l IH]; intros [|i] x; cbn; try discriminate.
    - intros [= ->] Hx. constructor; [exact Hx|apply Hs].
    - intros Hn Hx. constructor; [apply HR|]. eapply IH; eassumption.
  Qed.
  Lemma put_inl v pos path : reached v pos path r -> inl v (put pos o v).
  Proof.
    remember r as r0 eqn:Er. induction 1 as [v p0 ->|v i text w pos path r1 Hc Hr IH]; [subst; apply il_here|]. specialize (IH Er).
    assert (Hd : forall (d : fields) k, nth_error d i = Some (k, w) -> Forall2 (fun a b => fst a = fst b /\ inl (snd a) (snd b)) d (upd i (fun kv => (fst kv, put pos o (snd kv))) d)).
    { intros d k Hn. eapply upd_Forall2; [intros a; split; [reflexivity|apply il_same]|exact Hn|]. cbn [fst snd]. auto. }
    destruct Hc as [l i x Hn|d i k x Hn|c d i k x Hn|c fv ex i k x Hn Hnr Hnn Hexc]; cbn [put].
    - apply il_list. eapply upd_Forall2; [intros a; apply il_same|exact Hn|exact IH].
    - apply il_dict. eapply Hd. exact Hn.
    - apply il_root. eapply Hd. exact Hn.
    - apply il_obj. eapply Hd. exact Hn.
  Qed.
  Lemma inl_assoc d d' k v : Forall2 (fun a b => fst a = fst b /\ inl (snd a) (snd b)) d d' -> assoc k d = Some v -> exists v', assoc k d' = Some v' /\ inl v v'.
  Proof.
    induction 1 as [|[k1 x1] [k2 x2] d d' [Hk Hx] H IH]; cbn [assoc fst snd] in *; [discriminate|]. subst k2. destruct (str_eqb k k1); [|exact IH]. intros [= <-]. eauto.
  Qed.
  Context (Hrs : exists s, is_reference r s) (Hrf : forall fi t, In (fi, t) (class_fields "Reference") -> f_name fi = u "ref") (Ho : exists c fv ex, o = VObj c fv ex) (Hor : forall s, ~ is_reference o s).
  Lemma inl_none v v' : inl v v' -> v <> VNone -> v' <> VNone.
  Proof. intros H Hn. destruct H; try discriminate; [exact Hn|]. destruct Ho as (c & fv & ex & ->). discriminate. Qed.
  Lemma inl_goes v k w v' : inl v v' -> goes v k w -> (exists w', goes v' k w' /\ inl w w') \/ exists s, w = VStr s.
  Proof.
    intros Hi Hg. destruct Hi as [x| |l l' HF|d d' HF|c d d' HF|c d d' ex HF].
    - left. exists w. split; [exact Hg|apply il_same].
    - right. destruct Hrs as (s & fv & ex & -> & Hs). inversion Hg as [| |c0 fv0 ex0 fi t w0 Hin Ha Hn|c0 fv0 ex0 fi t w0 Hin Ha Hn]; subst; rewrite (Hrf _ _ Hin), Hs in Ha; injection Ha as <-; eauto.
    - inversion Hg.
    - left. inversion Hg as [|d0 k0 v0 Ha0| |]; subst. destruct (inl_assoc _ _ _ _ HF Ha0) as (w' & Ha & Hw). exists w'. split; [apply go_dict; exact Ha|exact Hw].
    - left. inversion Hg as [c0 d0 k0 v0 Ha0| | |]; subst. destruct (inl_assoc _ _ _ _ HF Ha0) as (w' & Ha & Hw). exists w'. split; [apply go_map; exact Ha|exact Hw].
    - left. inversion Hg as [| |c0 fv0 ex0 fi t w0 Hin Ha Hn|c0 fv0 ex0 fi t w0 Hin Ha Hn]; subst; destruct (inl_assoc _ _ _ _ HF Ha) as (w' & Ha' & Hw); exists w'; (split; [|exact Hw]).
      + eapply go_field; [exact Hin|exact Ha'|]. exact (inl_none _ _ Hw Hn).
      + eapply go_alias; [exact Hin|exact Ha'|]. exact (inl_none _ _ Hw Hn).
  Qed.
  Lemma inl_walks v l w : walks v l w -> forall v', inl v v' -> (exists w', walks v' l w' /\ inl w w') \/ exists s, w = VStr s.
  Proof.
    induction 1 as [v|v k w l x Hg Hw IH]; intros v' Hi; [left; exists v'; split; [constructor|exact Hi]|].
    destruct (inl_goes _ _ _ _ Hi Hg) as [(w' & Hg' & Hi')|[s ->]].
    - destruct (IH w' Hi') as [(x' & Hx & Hix)|H]; [left|right; exact H]. exists x'. split; [|exact Hix]. econstructor; eassumption.
    - right. inversion Hw as [|? ? ? ? ? Hg2]; subst; [eauto|inversion Hg2].
  Qed.
  Lemma inl_reference v v' s : inl v v' -> is_reference v s -> is_reference v' s \/ (v = r /\ v' = o).
  Proof.
    intros Hi (fv & ex & -> & Hs). inversion Hi; subst; [left; exists fv, ex; auto|right; auto|]. left.
    match goal with HF : Forall2 _ fv ?d' |- _ => destruct (inl_assoc _ _ _ _ HF Hs) as (w' & Ha & Hw); exists d', ex end. split; [reflexivity|]. rewrite Ha. f_equal.
    inversion Hw as [| Hx | | | |]; [reflexivity|]. exfalso. destruct Hrs as (s0 & fv0 & ex0 & -> & _). discriminate Hx.
  Qed.
  Lemma inl_not_reference v v' : inl v v' -> (forall s, ~ is_reference v s) -> (forall fv ex, v = VObj "Reference" fv ex -> exists s, is_reference v s) -> forall s, ~ is_reference v' s.
  Proof.
    intros Hi Hn Hok s Hs. destruct Hi; try (destruct Hs as (? & ? & Hx & _); discriminate Hx).
    - exact (Hn s Hs).
    - exact (Hor s Hs).
    - destruct Hs as (fv' & ex' & Hx & _). injection Hx as -> _ _. destruct (Hok _ _ eq_refl) as [s0 Hs0]. exact (Hn s0 Hs0).
  Qed.
  Lemma inl_type v v' : inl v v' -> v <> r -> type_name v' = type_name v.
  Proof. intros Hi Hn. destruct Hi; try reflexivity. congruence. Qed.
End Inlined.
