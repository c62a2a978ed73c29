(** C110: merging the data of two documents and loading the result is loading both and combining them. *)
From Verif Require Import PyStr Regex Value Types Rules Pydantic ClassTable Classes Canon Fix Linked SpecParse Sample ProofRules ProofParse
  State SpecState ProofState PropState SpecDump Dump ProofDump PropDump SpecDeep PropDeep Resolve SpecResolve ProofResolve PropResolve Unified SpecUnified ProofUnified ProofCheck ProofOrder PropUnified
  Validators SpecValidators ProofValidators PropValidators Pipeline SpecPipeline PropPipeline SpecRevalidate PropRevalidate PropSame SpecMerge PropMerge SpecMergeData.
Local Open Scope string_scope.
Local Open Scope list_scope.

Definition joins R (d e d' : fields) : Prop :=
  Forall2 (fun a b => fst b = fst a /\ match assoc (fst a) e with Some v => R (fst a) (snd a) v (snd b) | None => snd b = snd a end) d d'.
Definition rest (d e : fields) : fields := filter (fun kv => negb (mem_str (fst kv) (map fst d))) e.
Lemma joins_keys (R : pystr -> pv -> pv -> pv -> Prop) d e d' : joins R d e d' -> map fst d' = map fst d.
Proof. induction 1 as [|a b d d' [H _] _ IH]; [reflexivity|]. cbn [map]. congruence. Qed.
Lemma joins_left (R : pystr -> pv -> pv -> pv -> Prop) d e d' k : joins R d e d' -> forall x, assoc k d = Some x ->
  exists z, assoc k d' = Some z /\ match assoc k e with Some y => R k x y z | None => z = x end.
Proof.
  induction 1 as [|[a xa] [b zb] d d' [H Hr] _ IH]; intros x Hx; [discriminate Hx|]. cbn [fst snd] in *. subst b. cbn [assoc] in *. destruct (str_eqb k a) eqn:Ek; [|exact (IH x Hx)].
  injection Hx as <-. apply str_eqb_eq in Ek. subst a. exists zb. split; [reflexivity|exact Hr].
Qed.
Lemma joins_none (R : pystr -> pv -> pv -> pv -> Prop) d e d' k : joins R d e d' -> assoc k d = None -> assoc k (d' ++ rest d e) = assoc k e.
Proof.
  intros H Hd. rewrite assoc_app. assert (Hd' : assoc k d' = None) by (apply assoc_None; rewrite (joins_keys R _ _ _ H); apply assoc_None; exact Hd). rewrite Hd'.
  unfold rest. apply (assoc_filter_key (fun k0 => negb (mem_str k0 (map fst d)))). apply negb_true_iff, mem_str_not_In, assoc_None. exact Hd.
Qed.
Lemma joins_some (R : pystr -> pv -> pv -> pv -> Prop) d e d' k x : joins R d e d' -> assoc k d = Some x ->
  exists z, assoc k (d' ++ rest d e) = Some z /\ match assoc k e with Some y => R k x y z | None => z = x end.
Proof. intros H Hx. destruct (joins_left R _ _ _ k H x Hx) as (z & Hz & Hr). exists z. split; [|exact Hr]. rewrite assoc_app, Hz. reflexivity. Qed.
Lemma joins_new_key (R : pystr -> pv -> pv -> pv -> Prop) d e d' k : joins R d e d' -> In k (map fst (d' ++ rest d e)) <-> In k (map fst d) \/ In k (map fst e).
Proof.
  intros H. rewrite map_app, in_app_iff, (joins_keys R _ _ _ H). split.
  - intros [Hi|Hi]; [left; exact Hi|]. apply in_map_iff in Hi as ([k0 x] & <- & Hi). apply filter_In in Hi as [Hi _]. right. exact (in_map fst _ _ Hi).
  - intros [Hi|Hi]; [left; exact Hi|]. destruct (mem_str k (map fst d)) eqn:Em; [left; apply mem_str_In; exact Em|]. right. apply in_map_iff in Hi as ([k0 x] & <- & Hi). apply in_map_iff. exists (k0, x). split; [reflexivity|].
    apply filter_In. split; [exact Hi|]. cbn [fst] in *. rewrite Em. reflexivity.
Qed.
(** Where what both have is the same, it is the union. *)
Lemma joins_same (d e d' : fields) : NoDup (map fst e) -> joins (fun _ => same_data) d e d' -> d' = d /\ agree d e.
Proof.
  intros Hn H. split.
  - induction H as [|[a x] [b z] d d' [Hk Hr] _ IH]; [reflexivity|]. cbn [fst snd] in *. subst b. rewrite IH. f_equal. f_equal. destruct (assoc a e); [exact (proj2 Hr)|exact Hr].
  - intros k x y Hx Hy. apply In_assoc in Hy; [|exact Hn]. induction H as [|[a x0] [b z] d d' [Hk Hr] _ IH]; [contradiction|]. destruct Hx as [Hx|Hx]; [|exact (IH Hx)]. injection Hx as -> ->. cbn [fst snd] in Hr. rewrite Hy in Hr. exact (proj1 Hr).
Qed.

(** ** One section *)
Definition goes (E : env) (R : pv -> pv -> pv -> Prop) (fi : finfo) (t : ty) : Prop :=
  forall x y z a b na nb, python_dicts x -> python_dicts y -> R x y z -> validate E t x = Some (a, na) -> fv_check E (f_val fi) a = true -> validate E t y = Some (b, nb) -> fv_check E (f_val fi) b = true ->
    exists m n, validate E t z = Some (m, n) /\ fv_check E (f_val fi) m = true /\ combined a b m.
Lemma goes_same E fi t : goes E same_data fi t.
Proof. intros x y z a b na nb _ _ [<- ->] Ha Fa Hb Fb. exists a, na. rewrite Ha in Hb. injection Hb as <- _. split; [exact Ha|]. split; [exact Fa|apply co_same]. Qed.
Lemma entries_union E t d e d' e' : Forall2 (fun a b : pystr * pv => fst a = fst b /\ parse E t (snd a) = Some (snd b)) d d' -> Forall2 (fun a b : pystr * pv => fst a = fst b /\ parse E t (snd a) = Some (snd b)) e e' ->
  Forall2 (fun a b : pystr * pv => fst a = fst b /\ parse E t (snd a) = Some (snd b)) (union d e) (union d' e').
Proof.
  intros Hd He. unfold union. apply Forall2_app; [exact Hd|]. assert (Hk : map fst d = map fst d') by (clear He; induction Hd as [|? ? ? ? [H _] _ IH]; [reflexivity|cbn [map]; congruence]). rewrite <- Hk.
  induction He as [|a b e e' [H1 H2] _ IH]; [constructor|]. cbn [filter]. rewrite H1. destruct (negb _); [constructor; auto|exact IH].
Qed.
Lemma entries_in E t d d' k x' : Forall2 (fun a b : pystr * pv => fst a = fst b /\ parse E t (snd a) = Some (snd b)) d d' -> In (k, x') d' -> exists x, In (k, x) d /\ parse E t x = Some x'.
Proof.
  induction 1 as [|[a x] [b y] d d' [H1 H2] _ IH]; [contradiction|]. cbn [fst snd] in *. subst b. intros [Hi|Hi]; [injection Hi as -> ->; exists x; split; [left; reflexivity|exact H2]|].
  destruct (IH Hi) as (x0 & G1 & G2). exists x0. split; [right; exact G1|exact G2].
Qed.
Lemma root_keys_union d e : root_keys_ok d = true -> root_keys_ok e = true -> root_keys_ok (union d e) = true.
Proof.
  unfold root_keys_ok. rewrite !forallb_forall. intros Hd He kv Hi. apply union_in in Hi as [Hi|[Hi _]]; auto.
Qed.
Lemma goes_map E fi c t : f_val fi = FvNone -> goes E merged_map fi (TOpt (TRoot c t)).
Proof.
  intros Hf x y z a b na nb Px Py [[-> ->]|[[-> ->]|(d & e & d' & -> & -> & Hj & ->)]] Ha _ Hb _; rewrite Hf.
  - cbn [validate] in Ha. injection Ha as <- <-. exists b, nb. split; [exact Hb|]. split; [reflexivity|apply co_right].
  - cbn [validate] in Hb. injection Hb as <- <-. exists a, na. split; [exact Ha|]. split; [reflexivity|apply co_left].
  - apply (joins_same d e d') in Hj as [-> Hag]; [|exact (Py _ (w_self _))]. fold (rest d e). change (d ++ rest d e) with (union d e). cbn [validate] in Ha, Hb |- *.
    destruct (vdict (validate E) t d) as [[r n]|] eqn:Ed; [|discriminate Ha]. destruct (vdict (validate E) t e) as [[s m]|] eqn:Ee; [|discriminate Hb].
    destruct (root_keys_ok r) eqn:Kr; [|discriminate Ha]. destruct (root_keys_ok s) eqn:Ks; [|discriminate Hb]. injection Ha as <- <-. injection Hb as <- <-.
    apply ProofParse.vdict_ok in Ed as [_ Ed]. apply ProofParse.vdict_ok in Ee as [_ Ee]. destruct (vdict_complete E t _ _ (entries_union E t _ _ _ _ Ed Ee)) as [k Hk]. rewrite Hk, (root_keys_union r s Kr Ks).
    eexists _, _. split; [reflexivity|]. split; [reflexivity|]. apply co_map. intros key x y Hx Hy.
    apply (entries_in E t _ _ _ _ Ed) in Hx as (x0 & Hx & Hx'). apply (entries_in E t _ _ _ _ Ee) in Hy as (y0 & Hy & Hy'). rewrite (Hag key x0 y0 Hx Hy) in Hx'. congruence.
Qed.

(** ** A model, section by section *)
Section Model.
  Context (E : env) (R : pystr -> pv -> pv -> pv -> Prop) (d e d' : fields).
  Context (Hj : joins R d e d') (Nd : NoDup (map fst d)) (Ne : NoDup (map fst e)) (Pd : forall k x, In (k, x) d -> python_dicts x) (Pe : forall k x, In (k, x) e -> python_dicts x).
  Let M := d' ++ rest d e.
  Definition aliased (fs : list (finfo * ty)) (kvs : fields) : Prop := forall fi t, In (fi, t) fs -> f_name fi <> f_alias fi -> ~ In (f_name fi) (map fst kvs).
  Lemma lookup_alias fs kvs fi t : aliased fs kvs -> In (fi, t) fs -> lookup_field fi kvs = assoc (f_alias fi) kvs.
  Proof.
    intros Ha Hi. unfold lookup_field. destruct (assoc (f_alias fi) kvs) eqn:Ea; [reflexivity|]. destruct (str_eqb (f_name fi) (f_alias fi)) eqn:Ek.
    - apply str_eqb_eq in Ek. rewrite Ek. exact Ea.
    - apply assoc_None. apply (Ha fi t Hi). intros H. rewrite H, str_eqb_refl in Ek. discriminate Ek.
  Qed.
  Lemma aliased_merged fs : aliased fs d -> aliased fs e -> aliased fs M.
  Proof. intros H1 H2 fi t Hi Hn Hk. apply (joins_new_key R d e d' _ Hj) in Hk as [Hk|Hk]; [exact (H1 fi t Hi Hn Hk)|exact (H2 fi t Hi Hn Hk)]. Qed.
  Lemma merged_fields fs : aliased fs d -> aliased fs e ->
    (forall fi t, In (fi, t) fs -> goes E (R (f_alias fi)) fi t) ->
    (forall fi t, In (fi, t) fs -> f_def fi = Some VNone \/ f_def fi = None \/ (In (f_alias fi) (map fst d) <-> In (f_alias fi) (map fst e))) ->
    forall fv gv n m, vfields E (validate E) d fs = Some (fv, n) -> vfields E (validate E) e fs = Some (gv, m) ->
    exists hv k, vfields E (validate E) M fs = Some (hv, k) /\ combined_fields fv gv hv.
  Proof.
    intros Ad Ae. assert (AM := aliased_merged fs Ad Ae). induction fs as [|[fi t] fs IH]; intros Hg Hdef fv gv n m Hd He; [injection Hd as <- <-; injection He as <- <-; exists [], 0; split; [reflexivity|constructor]|].
    rewrite vfields_cons in Hd, He |- *. assert (Hi : In (fi, t) ((fi, t) :: fs)) by (left; reflexivity). rewrite (lookup_alias _ _ fi t Ad Hi) in Hd. rewrite (lookup_alias _ _ fi t Ae Hi) in He. rewrite (lookup_alias _ _ fi t AM Hi).
    assert (IH' : forall fv gv n m, vfields E (validate E) d fs = Some (fv, n) -> vfields E (validate E) e fs = Some (gv, m) -> exists hv k, vfields E (validate E) M fs = Some (hv, k) /\ combined_fields fv gv hv).
    { apply IH; [intros gi t' H; exact (Ad gi t' (or_intror H))|intros gi t' H; exact (Ae gi t' (or_intror H))|intros gi t' H; exact (AM gi t' (or_intror H))|intros gi t' H; exact (Hg gi t' (or_intror H))|intros gi t' H; exact (Hdef gi t' (or_intror H))]. }
    clear IH. specialize (Hg fi t Hi). specialize (Hdef fi t Hi).
    destruct (assoc (f_alias fi) d) as [x|] eqn:Ex; destruct (assoc (f_alias fi) e) as [y|] eqn:Ey.
    - destruct (joins_some R d e d' _ x Hj Ex) as (z & Hz & Hr). fold M in Hz. rewrite Hz. rewrite Ey in Hr.
      destruct (validate E t x) as [[a na]|] eqn:Va; [|discriminate Hd]. destruct (fv_check E (f_val fi) a) eqn:Fa; [|discriminate Hd]. destruct (vfields E (validate E) d fs) as [[fv' n']|] eqn:Fd; [|discriminate Hd]. injection Hd as <- <-.
      destruct (validate E t y) as [[b nb]|] eqn:Vb; [|discriminate He]. destruct (fv_check E (f_val fi) b) eqn:Fb; [|discriminate He]. destruct (vfields E (validate E) e fs) as [[gv' m']|] eqn:Fe; [|discriminate He]. injection He as <- <-.
      destruct (Hg x y z a b na nb (Pd _ _ (assoc_In _ _ _ Ex)) (Pe _ _ (assoc_In _ _ _ Ey)) Hr Va Fa Vb Fb) as (w & nw & Vw & Fw & Hc). destruct (IH' _ _ _ _ eq_refl eq_refl) as (hv & k & HM & Hcf). rewrite Vw, Fw, HM.
      eexists _, _. split; [reflexivity|]. constructor; assumption.
    - destruct (joins_some R d e d' _ x Hj Ex) as (z & Hz & Hr). fold M in Hz. rewrite Hz. rewrite Ey in Hr. subst z.
      destruct (validate E t x) as [[a na]|] eqn:Va; [|discriminate Hd]. destruct (fv_check E (f_val fi) a) eqn:Fa; [|discriminate Hd]. destruct (vfields E (validate E) d fs) as [[fv' n']|] eqn:Fd; [|discriminate Hd]. injection Hd as <- <-.
      destruct Hdef as [Hdef|[Hdef|Hdef]].
      + rewrite Hdef in He. destruct (vfields E (validate E) e fs) as [[gv' m']|] eqn:Fe; [|discriminate He]. injection He as <- <-. destruct (IH' _ _ _ _ eq_refl eq_refl) as (hv & k & HM & Hcf). rewrite HM. eexists _, _. split; [reflexivity|]. constructor; [apply co_left|exact Hcf].
      + rewrite Hdef in He. discriminate He.
      + exfalso. apply assoc_None in Ey. apply Ey, Hdef. exact (in_map fst _ _ (assoc_In _ _ _ Ex)).
    - unfold M. rewrite (joins_none R d e d' _ Hj Ex), Ey. fold M.
      destruct (validate E t y) as [[b nb]|] eqn:Vb; [|discriminate He]. destruct (fv_check E (f_val fi) b) eqn:Fb; [|discriminate He]. destruct (vfields E (validate E) e fs) as [[gv' m']|] eqn:Fe; [|discriminate He]. injection He as <- <-.
      destruct Hdef as [Hdef|[Hdef|Hdef]].
      + rewrite Hdef in Hd. destruct (vfields E (validate E) d fs) as [[fv' n']|] eqn:Fd; [|discriminate Hd]. injection Hd as <- <-. destruct (IH' _ _ _ _ eq_refl eq_refl) as (hv & k & HM & Hcf). rewrite HM. eexists _, _. split; [reflexivity|]. constructor; [apply co_right|exact Hcf].
      + rewrite Hdef in Hd. discriminate Hd.
      + exfalso. apply assoc_None in Ex. apply Ex, Hdef. exact (in_map fst _ _ (assoc_In _ _ _ Ey)).
    - unfold M. rewrite (joins_none R d e d' _ Hj Ex), Ey. fold M. destruct (f_def fi) as [df|]; [|discriminate Hd].
      destruct (vfields E (validate E) d fs) as [[fv' n']|] eqn:Fd; [|discriminate Hd]. injection Hd as <- <-. destruct (vfields E (validate E) e fs) as [[gv' m']|] eqn:Fe; [|discriminate He]. injection He as <- <-.
      destruct (IH' _ _ _ _ eq_refl eq_refl) as (hv & k & HM & Hcf). rewrite HM. eexists _, _. split; [reflexivity|]. constructor; [apply co_same|exact Hcf].
  Qed.
  Lemma extras_aliased (fs : list (finfo * ty)) kvs : aliased fs kvs -> extras fs kvs = filter (fun kv => negb (mem_str (fst kv) (map (fun ft => f_alias (fst ft)) fs))) kvs.
  Proof.
    intros Ha. unfold extras. apply filter_ext_in. intros [k x] Hi. cbn [fst]. f_equal. apply Bool.eq_iff_eq_true. rewrite !mem_str_In. split; intros H; apply in_map_iff in H as ([fi t] & He & Hf); cbn [fst] in He; apply in_map_iff; exists (fi, t); (split; [|exact Hf]); cbn [fst].
    - subst k. unfold used_key in *. destruct (has_key (f_alias fi) kvs) eqn:Eh; [reflexivity|]. destruct (str_eqb (f_name fi) (f_alias fi)) eqn:Ek; [apply str_eqb_eq in Ek; congruence|]. exfalso. apply (Ha fi t Hf); [intros Hk; rewrite Hk, str_eqb_refl in Ek; discriminate Ek|]. exact (in_map fst _ _ Hi).
    - subst k. unfold used_key. assert (Eh : has_key (f_alias fi) kvs = true) by (apply has_key_iff; exact (in_map fst _ _ Hi)). rewrite Eh. reflexivity.
  Qed.
  Lemma merged_extras fs : aliased fs d -> aliased fs e -> (forall k x y z, ~ In k (map (fun ft => f_alias (fst ft)) fs) -> R k x y z -> same_data x y z) ->
    extras fs M = union (extras fs d) (extras fs e) /\ agree (extras fs d) (extras fs e).
  Proof.
    intros Ad Ae Hx. rewrite (extras_aliased fs M (aliased_merged fs Ad Ae)), (extras_aliased fs d Ad), (extras_aliased fs e Ae). revert Hx. generalize (map (fun ft : finfo * ty => f_alias (fst ft)) fs). intros keys Hx. split.
    - unfold M. rewrite filter_app. unfold union. f_equal.
      + clear Nd Pd M Ad Ae. unfold joins in Hj. induction Hj as [|[a x] [b z] d0 d0' [Hk Hr] Ht IH]; [reflexivity|]. cbn [fst snd] in *. subst b. cbn [filter fst]. destruct (mem_str a keys) eqn:Em; cbn [negb]; [exact (IH Ht)|]. rewrite (IH Ht). f_equal. f_equal.
        destruct (assoc a e) as [y|]; [|exact Hr]. apply mem_str_not_In in Em. exact (proj2 (Hx a x y z Em Hr)).
      + unfold rest. clear. induction e as [|[k y] e' IH]; [reflexivity|]. cbn [filter fst]. assert (Hm : mem_str k keys = false -> mem_str k (map fst (filter (fun kv : pystr * pv => negb (mem_str (fst kv) keys)) d)) = mem_str k (map fst d)).
        { intros Hk. apply Bool.eq_iff_eq_true. rewrite !mem_str_In. split; intros H; apply in_map_iff in H as ([a x] & <- & H); [apply filter_In in H as [H _]; exact (in_map fst _ _ H)|]. apply in_map_iff. exists (a, x). split; [reflexivity|]. apply filter_In. split; [exact H|]. cbn [fst] in *. rewrite Hk. reflexivity. }
        destruct (mem_str k keys) eqn:Ek; cbn [negb].
        * destruct (mem_str k (map fst d)); cbn [negb filter fst]; [exact IH|]. rewrite Ek. cbn [negb]. exact IH.
        * cbn [filter fst]. rewrite (Hm eq_refl). destruct (mem_str k (map fst d)); cbn [negb filter fst]; [exact IH|]. rewrite Ek. cbn [negb]. f_equal. exact IH.
    - intros k x y Hi Hi'. apply filter_In in Hi as [Hi Hk]. apply filter_In in Hi' as [Hi' _]. cbn [fst] in Hk. apply negb_true_iff, mem_str_not_In in Hk. destruct (joins_left R d e d' k Hj x (In_assoc _ _ _ Nd Hi)) as (z & _ & Hr).
      rewrite (In_assoc _ _ _ Ne Hi') in Hr. exact (proj1 (Hx k x y z Hk Hr)).
  Qed.
  Lemma merged_model c fs a b n m : In c ["AsyncAPI3"; "Components"] -> (forall fv, hook c fv = true) -> aliased fs d -> aliased fs e ->
    (forall fi t, In (fi, t) fs -> goes E (R (f_alias fi)) fi t) ->
    (forall fi t, In (fi, t) fs -> f_def fi = Some VNone \/ f_def fi = None \/ (In (f_alias fi) (map fst d) <-> In (f_alias fi) (map fst e))) ->
    (forall k x y z, ~ In k (map (fun ft => f_alias (fst ft)) fs) -> R k x y z -> same_data x y z) ->
    vmodel E (validate E) c KExt fs d = Some (a, n) -> vmodel E (validate E) c KExt fs e = Some (b, m) ->
    exists w k, vmodel E (validate E) c KExt fs M = Some (w, k) /\ combined a b w.
  Proof.
    intros Hc Hh Ad Ae Hg Hdef Hx Ha Hb. unfold vmodel in Ha, Hb |- *. destruct (vfields E (validate E) d fs) as [[fv n']|] eqn:Fd; [|discriminate Ha]. destruct (vfields E (validate E) e fs) as [[gv m']|] eqn:Fe; [|discriminate Hb].
    destruct (merged_fields fs Ad Ae Hg Hdef fv gv n' m' Fd Fe) as (hv & k & HM & Hcf). rewrite HM. destruct (merged_extras fs Ad Ae Hx) as [-> Hag].
    unfold after_ok in *. rewrite Hh in *. rewrite andb_true_r in *. cbn [extras_ok] in *.
    destruct (forallb _ (extras fs d)) eqn:X1; [|discriminate Ha]. destruct (forallb _ (extras fs e)) eqn:X2; [|discriminate Hb]. injection Ha as <- <-. injection Hb as <- <-.
    assert (X3 : forallb (fun kv => ext_key_ok E (fst kv)) (union (extras fs d) (extras fs e)) = true).
    { rewrite forallb_forall in *. intros kv Hi. apply union_in in Hi as [Hi|[Hi _]]; auto. }
    rewrite X3. eexists _, _. split; [reflexivity|]. apply co_object; assumption.
  Qed.
End Model.
(** ** Components and the document *)
Definition none_field (ft : finfo * ty) : bool := match f_def (fst ft), f_val (fst ft) with Some VNone, FvNone => true | _, _ => false end.
Definition map_field (ft : finfo * ty) : bool := none_field ft && match snd ft with TOpt (TRoot _ _) => true | _ => false end.
Definition component_field (ft : finfo * ty) : bool := mem_str (f_alias (fst ft)) component_maps && map_field ft.
Definition document_maps : list pystr := map u ["servers"; "channels"; "operations"].
Definition document_field (ft : finfo * ty) : bool :=
  if mem_str (f_alias (fst ft)) document_maps then map_field ft
  else if str_eqb (f_alias (fst ft)) (u "components") then none_field ft && match snd ft with TOpt (TModel "Components" KExt fs) => forallb component_field fs && forallb (fun k => mem_str k (map (fun ft => f_alias (fst ft)) fs)) component_maps | _ => false end
  else match f_def (fst ft) with Some VNone | None => true | _ => str_eqb (f_alias (fst ft)) (u "asyncapi") end.
Lemma document_form : exists fs, T_AsyncAPI3 = TModel "AsyncAPI3" KExt fs /\ class_fields "AsyncAPI3" = fs /\ forallb document_field fs = true /\ forallb (fun k => mem_str k (map (fun ft => f_alias (fst ft)) fs)) (u "components" :: document_maps) = true
  /\ forall fi t cs, In (fi, t) fs -> t = TOpt (TModel "Components" KExt cs) -> class_fields "Components" = cs.
Proof.
  eexists. split; [reflexivity|]. split; [vm_compute; reflexivity|]. split; [vm_compute; reflexivity|]. split; [vm_compute; reflexivity|]. intros fi t cs Hi ->.
  assert (Hl : linked T_AsyncAPI3 = true) by (apply linked_all; in_table).
  assert (G : linked (TOpt (TModel "Components" KExt cs)) = true) by (apply (linked_sub _ _ _ (fi, TOpt (TModel "Components" KExt cs)) Hl); exact Hi). exact (proj1 (linked_fields "Components" KExt cs G)).
Qed.
Lemma map_field_goes E fi t : map_field (fi, t) = true -> goes E merged_map fi t.
Proof.
  unfold map_field, none_field. cbn [fst snd]. intros H. apply andb_prop in H as [H1 H2]. destruct t as [| | | | | | | | | |t'| | | |]; try discriminate H2. destruct t' as [| | | | | | | | | | | | | |c t']; try discriminate H2.
  apply goes_map. destruct (f_def fi) as [[]|]; try discriminate H1. destruct (f_val fi); try discriminate H1. reflexivity.
Qed.
Lemma none_field_def fi t : none_field (fi, t) = true -> f_def fi = Some VNone /\ f_val fi = FvNone.
Proof. unfold none_field. cbn [fst]. destruct (f_def fi) as [[]|]; try discriminate. destruct (f_val fi); try discriminate. auto. Qed.
Definition spelled (fs : list (finfo * ty)) (v : pv) : Prop := forall d, v = VDict d -> aliased fs d.
Lemma goes_components E fi fs x y z a b na nb : f_val fi = FvNone -> forallb component_field fs = true -> forallb (fun k => mem_str k (map (fun ft => f_alias (fst ft)) fs)) component_maps = true ->
  spelled fs x -> spelled fs y -> python_dicts x -> python_dicts y -> merged_components x y z ->
  validate E (TOpt (TModel "Components" KExt fs)) x = Some (a, na) -> validate E (TOpt (TModel "Components" KExt fs)) y = Some (b, nb) ->
  exists m n, validate E (TOpt (TModel "Components" KExt fs)) z = Some (m, n) /\ combined a b m.
Proof.
  intros Hv Hok Hall Sx Sy Px Py [[-> ->]|[[-> ->]|(d & e & d' & -> & -> & Hj & ->)]] Ha Hb.
  - cbn [validate] in Ha. injection Ha as <- <-. exists b, nb. split; [exact Hb|apply co_right].
  - cbn [validate] in Hb. injection Hb as <- <-. exists a, na. split; [exact Ha|apply co_left].
  - cbn [validate] in Ha, Hb |- *. rewrite forallb_forall in Hok, Hall.
    apply (merged_model E (fun k => if mem_str k component_maps then merged_map else same_data) d e d' Hj (Px _ (w_self _)) (Py _ (w_self _))) with (n := na) (m := nb) (c := "Components") (fs := fs); [| |right; left; reflexivity|reflexivity|exact (Sx d eq_refl)|exact (Sy e eq_refl)| | | |exact Ha|exact Hb].
    + intros k x Hi w Hw. apply Px. exact (w_dict _ _ _ _ Hi Hw).
    + intros k x Hi w Hw. apply Py. exact (w_dict _ _ _ _ Hi Hw).
    + intros gi t Hi. specialize (Hok _ Hi). unfold component_field in Hok. cbn [fst] in Hok. apply andb_prop in Hok as [H1 H2]. rewrite H1. exact (map_field_goes E gi t H2).
    + intros gi t Hi. specialize (Hok _ Hi). unfold component_field, map_field in Hok. apply andb_prop in Hok as [_ Hok]. apply andb_prop in Hok as [Hok _]. left. exact (proj1 (none_field_def _ _ Hok)).
    + intros k x y z Hk Hr. destruct (mem_str k component_maps) eqn:Em; [|exact Hr]. exfalso. apply Hk. apply mem_str_In. apply Hall. apply mem_str_In. exact Em.
Qed.
Theorem c110_loads E A B M a b : python_dicts A -> python_dicts B -> spec_spelled A -> spec_spelled B -> versions_given A B -> merged_documents A B M ->
  parse E T_AsyncAPI3 A = Some a -> parse E T_AsyncAPI3 B = Some b -> exists m, parse E T_AsyncAPI3 M = Some m /\ combined a b m.
Proof.
  intros PA PB [SA SA'] [SB SB'] Hver HM Ha Hb. apply parse_some in Ha as [na Ha]. apply parse_some in Hb as [nb Hb].
  destruct document_form as (fs & HT & Hcf & Hok & Hall & Hcomp). unfold no_python_names in SA, SB, SA', SB'. rewrite Hcf in SA, SB. rewrite HT in *. clear HT Hcf.
  destruct HM as [[-> ->]|[[-> ->]|(d & e & d' & -> & -> & Hj & ->)]]; [discriminate Ha|discriminate Hb|].
  assert (G : exists w k, validate E (TModel "AsyncAPI3" KExt fs) (VDict (d' ++ rest d e)) = Some (w, k) /\ combined a b w); [|destruct G as (w & k & Hw & Hc); exists w; split; [apply parse_some; exists k; exact Hw|exact Hc]].
  cbn [validate] in Ha, Hb |- *. rewrite forallb_forall in Hok, Hall.
  assert (Ad : aliased fs d) by (intros fi t; exact (SA d fi t eq_refl)). assert (Ae : aliased fs e) by (intros fi t; exact (SB e fi t eq_refl)).
  set (R := fun k => if mem_str k document_maps then merged_map else if str_eqb k (u "components") then (fun x y z => merged_components x y z /\ (forall c, class_fields "Components" = c -> spelled c x /\ spelled c y)) else same_data).
  assert (HjR : joins R d e d').
  { assert (Hin : forall kv, In kv d -> In kv d) by auto. revert Hin Hj. generalize d at 1 3 4. intros d0 Hin Hj. induction Hj as [|[k x] [k' z] d0 d0' [Hk Hr] _ IH]; constructor; [|apply IH; intros kv Hi; exact (Hin kv (or_intror Hi))].
    cbn [fst snd] in *. subst k'. split; [reflexivity|]. destruct (assoc k e) as [y|] eqn:Ey; [|exact Hr]. unfold R. fold document_maps in Hr. destruct (mem_str k document_maps); [exact Hr|]. destruct (str_eqb k (u "components")) eqn:Ek; [|exact Hr].
    apply str_eqb_eq in Ek. subst k. split; [exact Hr|]. intros c Hc. split; intros dd Hd fi t Hi.
    - apply (SA' d x eq_refl (Hin _ (or_introl eq_refl)) dd fi t Hd). rewrite Hc. exact Hi.
    - apply (SB' e y eq_refl (assoc_In _ _ _ Ey) dd fi t Hd). rewrite Hc. exact Hi. }
  apply (merged_model E R d e d' HjR (PA _ (w_self _)) (PB _ (w_self _))) with (n := na) (m := nb) (c := "AsyncAPI3") (fs := fs); [| |left; reflexivity|reflexivity|exact Ad|exact Ae| | | |exact Ha|exact Hb].
  - intros k x Hi w Hw. apply PA. exact (w_dict _ _ _ _ Hi Hw).
  - intros k x Hi w Hw. apply PB. exact (w_dict _ _ _ _ Hi Hw).
  - intros fi t Hi. assert (Ho := Hok _ Hi). unfold document_field in Ho. cbn [fst snd] in Ho. unfold R. destruct (mem_str (f_alias fi) document_maps); [exact (map_field_goes E fi t Ho)|]. destruct (str_eqb (f_alias fi) (u "components")); [|apply goes_same].
    apply andb_prop in Ho as [Hn Ho]. apply none_field_def in Hn as [_ Hv]. destruct t as [| | | | | | | | | |t'| | | |]; try discriminate Ho. destruct t' as [| | | | | | | | | | | | |c k cs|]; try discriminate Ho.
    destruct (String.eqb_spec c "Components") as [->|Hne].
    + destruct k; try discriminate Ho. apply andb_prop in Ho as [H1 H2]. intros x y z a0 b0 n1 n2 Px Py [Hm Hs] V1 _ V2 _. destruct (Hs cs (Hcomp fi _ cs Hi eq_refl)) as [S1 S2].
      destruct (goes_components E fi cs x y z a0 b0 n1 n2 Hv H1 H2 S1 S2 Px Py Hm V1 V2) as (m & n & H3 & H4). exists m, n. split; [exact H3|]. split; [rewrite Hv; reflexivity|exact H4].
    + exfalso. revert Ho Hne. clear. intros Ho Hne. repeat (destruct c as [|[[] [] [] [] [] [] [] []] c]; try discriminate Ho). apply Hne. reflexivity.
  - intros fi t Hi. assert (Ho := Hok _ Hi). unfold document_field in Ho. cbn [fst snd] in Ho. destruct (mem_str (f_alias fi) document_maps).
    + unfold map_field in Ho. apply andb_prop in Ho as [Ho _]. left. exact (proj1 (none_field_def _ _ Ho)).
    + destruct (str_eqb (f_alias fi) (u "components")); [apply andb_prop in Ho as [Ho _]; left; exact (proj1 (none_field_def _ _ Ho))|].
      destruct (f_def fi) as [[]|]; try (left; reflexivity); try (right; left; reflexivity); right; right; apply str_eqb_eq in Ho; rewrite Ho; exact (Hver d e eq_refl eq_refl).
  - intros k x y z Hk Hr. unfold R in Hr. destruct (mem_str k document_maps) eqn:Em; [exfalso; apply Hk, mem_str_In, Hall; right; apply mem_str_In; exact Em|]. destruct (str_eqb k (u "components")) eqn:Ek; [|exact Hr].
    exfalso. apply str_eqb_eq in Ek. subst k. apply Hk, mem_str_In, Hall. left. reflexivity.
Qed.
(** So what is accepted separately is accepted together, and references keep their meaning. *)
Lemma loaded_ok E A a : is_json A -> parse E T_AsyncAPI3 A = Some a -> well_typed E T_AsyncAPI3 a /\ valid_throughout E a.
Proof.
  intros Hj Ha. assert (Hi : In T_AsyncAPI3 all_types) by in_table. split; [exact (parse_wt E T_AsyncAPI3 A a (wf_all _ Hi) Ha)|exact (c52_parsed_valid E T_AsyncAPI3 A a Hi Hj Ha)].
Qed.
Theorem c110_accepted E A B M a b n : is_json A -> is_json B -> python_dicts A -> python_dicts B -> spec_spelled A -> spec_spelled B -> versions_given A B -> merged_documents A B M ->
  parse E T_AsyncAPI3 A = Some a -> parse E T_AsyncAPI3 B = Some b -> bundled E n a = Some true -> bundled E n b = Some true ->
  exists m, parse E T_AsyncAPI3 M = Some m /\ bundled E n m = Some true.
Proof.
  intros JA JB PA PB SA SB HV HM Ha Hb Na Nb. destruct (c110_loads E A B M a b PA PB SA SB HV HM Ha Hb) as (m & Hm & Hc). exists m. split; [exact Hm|].
  destruct (loaded_ok E A a JA Ha) as [WA VA]. destruct (loaded_ok E B b JB Hb) as [WB VB]. exact (c107_accepted E a b m n Hc WA WB VA VB Na Nb).
Qed.
Theorem c110_references E A B M a b s o p : is_json A -> is_json B -> python_dicts A -> python_dicts B -> spec_spelled A -> spec_spelled B -> versions_given A B -> merged_documents A B M ->
  parse E T_AsyncAPI3 A = Some a -> parse E T_AsyncAPI3 B = Some b -> resolve a s = Resolved o p \/ resolve b s = Resolved o p ->
  exists m o', parse E T_AsyncAPI3 M = Some m /\ resolve m s = Resolved o' p /\ type_name o' = type_name o
    /\ (o' = o \/ (exists c d d', o = VRoot c d /\ o' = VRoot c d') \/ exists c fv ex fv' ex', In c ["AsyncAPI3"; "Components"] /\ o = VObj c fv ex /\ o' = VObj c fv' ex').
Proof.
  intros JA JB PA PB SA SB HV HM Ha Hb Hr. destruct (c110_loads E A B M a b PA PB SA SB HV HM Ha Hb) as (m & Hm & Hc).
  destruct (loaded_ok E A a JA Ha) as [WA VA]. destruct (loaded_ok E B b JB Hb) as [WB VB]. destruct (c107_resolves E a b m s o p Hc WA WB VA VB Hr) as (o' & H1 & H2 & H3). exists m, o'. auto.
Qed.

(** Two files that meet the conditions: the documents of C107. *)
Definition merged_data : pv := spec [("channels", obj [shared; ("c1", obj [("messages", obj [("m", ref "#/components/messages/m1")])]); ("c2", obj [("messages", obj [("m", obj [])])])]);
  ("components", obj [("messages", obj [("m1", obj [("tags", VList [ref "#/components/tags/t1"])])]);
     ("tags", obj [("t1", obj [("name", str "t")]); ("t2", obj [("name", str "t"); ("externalDocs", ref "#/components/externalDocs/d")])]); ("externalDocs", obj [("d", obj [("url", str "http://a/")])])]);
  ("operations", obj [("o", obj [("action", str "send"); ("channel", ref "#/channels/c2"); ("messages", VList [ref "#/channels/c2/messages/m"])])])].
Definition named_like (names : list pystr) (v : pv) : bool := match v with VDict d => forallb (fun kv => negb (mem_str (fst kv) names)) d | _ => true end.
Definition foreign (fs : list (finfo * ty)) : list pystr := map (fun ft => f_name (fst ft)) (filter (fun ft => negb (str_eqb (f_name (fst ft)) (f_alias (fst ft)))) fs).
Lemma named_like_ok c names v : foreign (class_fields c) = names -> named_like names v = true -> no_python_names c v.
Proof.
  intros <- H d fi t -> Hi Hn Hk. cbn [named_like] in H. rewrite forallb_forall in H. apply in_map_iff in Hk as ([k x] & He & Hk). specialize (H _ Hk). cbn [fst] in *. apply negb_true_iff, mem_str_not_In in H. apply H. rewrite He.
  unfold foreign. apply in_map_iff. exists (fi, t). split; [reflexivity|]. apply filter_In. split; [exact Hi|]. cbn [fst]. destruct (str_eqb (f_name fi) (f_alias fi)) eqn:Ee; [|reflexivity]. apply str_eqb_eq in Ee. contradiction.
Qed.
Definition foreign_document : list pystr := Eval vm_compute in foreign (class_fields "AsyncAPI3").
Definition foreign_components : list pystr := Eval vm_compute in foreign (class_fields "Components").
Definition spelled_b (v : pv) : bool := named_like foreign_document v && match v with VDict d => forallb (fun kv => negb (str_eqb (fst kv) (u "components")) || named_like foreign_components (snd kv)) d | _ => true end.
Lemma spelled_dec v : spelled_b v = true -> spec_spelled v.
Proof.
  intros H. apply andb_prop in H as [H1 H2]. split; [apply (named_like_ok _ foreign_document); [vm_compute; reflexivity|exact H1]|]. intros d x -> Hi. rewrite forallb_forall in H2. specialize (H2 _ Hi). cbn [fst snd] in H2. rewrite str_eqb_refl in H2.
  apply (named_like_ok _ foreign_components); [vm_compute; reflexivity|exact H2].
Qed.
Lemma versions_dec d e : mem_str (u "asyncapi") (map fst d) = mem_str (u "asyncapi") (map fst e) -> versions_given (VDict d) (VDict e).
Proof. intros H d' e' Hd He. injection Hd as <-. injection He as <-. rewrite <- !mem_str_In, H. reflexivity. Qed.
Ltac compute_in t := let r := eval vm_compute in t in change t with r; cbv beta iota.
Ltac joining step := right; right; eexists _, _, _; split; [vm_compute; reflexivity|]; split; [vm_compute; reflexivity|]; split;
  [repeat (eapply (@Forall2_cons _ _ _ (_, _) (_, _)); [split; [cbn [fst]; reflexivity|cbn [fst snd]; match goal with |- context [assoc ?k ?e] => compute_in (assoc k e) end; first [reflexivity | step]]|]); apply Forall2_nil|vm_compute; reflexivity].
Ltac section := repeat match goal with |- context [mem_str ?k ?l] => compute_in (mem_str k l) | |- context [str_eqb ?k ?l] => compute_in (str_eqb k l) end.
Example c110_ex : is_json one /\ is_json two /\ python_dicts one /\ python_dicts two /\ spec_spelled one /\ spec_spelled two /\ versions_given one two /\ merged_documents one two merged_data
  /\ parse E0 T_AsyncAPI3 one = Some one_doc /\ parse E0 T_AsyncAPI3 two = Some two_doc
  /\ forall n, In n ["UnifiedReferencesValidator"; "TagsRefValidator"; "ExternalDocsRefValidator"] -> bundled E0 (u n) one_doc = Some true /\ bundled E0 (u n) two_doc = Some true.
Proof.
  split; [apply json_dec; vm_compute; reflexivity|]. split; [apply json_dec; vm_compute; reflexivity|]. split; [apply python_dicts_dec; vm_compute; reflexivity|]. split; [apply python_dicts_dec; vm_compute; reflexivity|].
  split; [apply spelled_dec; vm_compute; reflexivity|]. split; [apply spelled_dec; vm_compute; reflexivity|]. split; [apply versions_dec; vm_compute; reflexivity|]. split.
  - unfold merged_documents. joining ltac:(section; first [split; reflexivity | unfold merged_map; joining ltac:(split; reflexivity) | unfold merged_components; joining ltac:(section; unfold merged_map; joining ltac:(split; reflexivity))]).
  - split; [vm_compute; reflexivity|]. split; [vm_compute; reflexivity|]. intros n [<-|[<-|[<-|[]]]]; split; vm_compute; reflexivity.
Qed.
(** The proviso on names is needed: the same setting spelt once one way and once the other cannot be loaded when merged. *)
Theorem c110_names_needed E : exists A B M a b, is_json A /\ is_json B /\ python_dicts A /\ python_dicts B /\ versions_given A B /\ merged_documents A B M
  /\ parse E T_AsyncAPI3 A = Some a /\ parse E T_AsyncAPI3 B = Some b /\ a = b /\ parse E T_AsyncAPI3 M = None.
Proof.
  exists (obj [("info", obj [("title", str "t"); ("version", str "1")]); ("defaultContentType", str "a")]), (obj [("info", obj [("title", str "t"); ("version", str "1")]); ("default_content_type", str "a")]).
  exists (obj [("info", obj [("title", str "t"); ("version", str "1")]); ("defaultContentType", str "a"); ("default_content_type", str "a")]). eexists _, _.
  split; [apply json_dec; vm_compute; reflexivity|]. split; [apply json_dec; vm_compute; reflexivity|]. split; [apply python_dicts_dec; vm_compute; reflexivity|]. split; [apply python_dicts_dec; vm_compute; reflexivity|].
  split; [apply versions_dec; vm_compute; reflexivity|]. split; [unfold merged_documents; joining ltac:(section; split; reflexivity)|]. split; [vm_compute; reflexivity|]. split; [vm_compute; reflexivity|]. split; [reflexivity|vm_compute; reflexivity].
Qed.
(** In whatever order the merged data is written. *)
Theorem c110_any_order E A B M M' a b : python_dicts A -> python_dicts B -> spec_spelled A -> spec_spelled B -> versions_given A B -> merged_documents A B M -> python_dicts M -> same_upto_order M M' ->
  parse E T_AsyncAPI3 A = Some a -> parse E T_AsyncAPI3 B = Some b -> exists m m', parse E T_AsyncAPI3 M' = Some m' /\ combined a b m /\ same_upto_order m m'.
Proof.
  intros PA PB SA SB HV HM PM Hs Ha Hb. destruct (c110_loads E A B M a b PA PB SA SB HV HM Ha Hb) as (m & Hm & Hc). assert (Hi : In T_AsyncAPI3 all_types) by in_table. assert (H := c53_key_order E T_AsyncAPI3 M M' (or_introl Hi) PM Hs).
  rewrite Hm in H. destruct (parse E T_AsyncAPI3 M') as [m'|]; [|destruct H]. exists m, m'. split; [reflexivity|]. split; [exact Hc|exact H].
Qed.
(** The proviso on versions is needed: what leaves its version out means 3.0.0, which is not what the other says. *)
Definition newer : pv := obj [("asyncapi", str "3.1.0"); header].
Definition unsaid : pv := obj [header].
Definition version_of (v : pv) : pv := match v with VObj _ fv _ => attr (u "asyncapi") fv | _ => VNone end.
Theorem c110_versions_needed : exists M a b m, is_json newer /\ is_json unsaid /\ python_dicts newer /\ python_dicts unsaid /\ spec_spelled newer /\ spec_spelled unsaid /\ merged_documents newer unsaid M
  /\ parse E0 T_AsyncAPI3 newer = Some a /\ parse E0 T_AsyncAPI3 unsaid = Some b /\ parse E0 T_AsyncAPI3 M = Some m /\ version_of a = str "3.1.0" /\ version_of b = str "3.0.0" /\ version_of m = str "3.1.0".
Proof.
  exists newer. do 3 eexists. split; [apply json_dec; vm_compute; reflexivity|]. split; [apply json_dec; vm_compute; reflexivity|]. split; [apply python_dicts_dec; vm_compute; reflexivity|]. split; [apply python_dicts_dec; vm_compute; reflexivity|].
  split; [apply spelled_dec; vm_compute; reflexivity|]. split; [apply spelled_dec; vm_compute; reflexivity|]. split; [unfold merged_documents; joining ltac:(section; split; reflexivity)|].
  split; [vm_compute; reflexivity|]. split; [vm_compute; reflexivity|]. split; [vm_compute; reflexivity|]. split; [vm_compute; reflexivity|]. split; vm_compute; reflexivity.
Qed.
Print Assumptions c110_loads. Print Assumptions c110_accepted. Print Assumptions c110_references. Print Assumptions c110_names_needed. Print Assumptions c110_any_order.
