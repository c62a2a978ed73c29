(** Properties C62-C64: required fields, defaults, kinds of values and admitted keys are the documented ones. *)
From Verif Require Import PyStr Regex Value Types Rules Pydantic ClassTable Classes Canon Fix Linked SpecParse Sample ProofRules ProofParse
  State SpecState ProofState PropState Resolve SpecResolve ProofResolve Dump SpecDump ProofDump PropDump SpecDeep PropDeep SpecObjects.
Local Open Scope string_scope.

(** ** The class table against the documented objects, checked by computation. *)
Definition model_names (ts : list ty) : option (list string) :=
  (fix go ts := match ts with
    | [] => Some []
    | TModel c _ _ :: r => option_map (cons c) (go r)
    | _ :: _ => None end) ts.
Fixpoint ty_form (t : ty) (f : form) {struct t} : bool :=
  match t, f with
  | TAny, Free | TStr None, Str | TEmail, Email | TInt, Int | TBool, Bool | TProcs, Procs => true
  | TStr (Some n), StrMax m => N.eqb n m
  | TUrl h, Url h' => Bool.eqb h h'
  | TLitS l, OneOf l' => list_eqb str_eqb l (map u l')
  | TLitI l, OneOfZ l' => list_eqb Z.eqb l l'
  | TList t', ListOf f' | TDict t', DictOf f' => ty_form t' f'
  | TModel c _ _, Obj cs => list_eqb String.eqb [c] cs
  | TUnion ts, Obj cs => match model_names ts with Some l => list_eqb String.eqb l cs | None => false end
  | TUnion ts, Alt fs =>
      (fix go (ts : list ty) (fs : list form) : bool := match ts, fs with
        | [], [] => true
        | t :: ts', f :: fs' => ty_form t f && go ts' fs'
        | _, _ => false end) ts fs
  | TRoot c _, Map c' => String.eqb c c'
  | _, _ => false
  end.
Definition row_ok (ft : finfo * ty) (r : row) : bool :=
  str_eqb (f_name (fst ft)) (u (r_name r)) && str_eqb (f_alias (fst ft)) (u (r_key r))
  && def_eqb (f_def (fst ft)) (omitted (r_mode r))
  && match r_mode r with
     | Required | Default false _ => ty_form (snd ft) (r_form r)
     | Optional | Default true _ => match snd ft with TOpt t => ty_form t (r_form r) | _ => false end
     end.
Definition policy_of (k : kind) : policy := match k with KExt => Extensible | KForbid => Closed | KFree => Open end.
Definition policy_eqb (a b : policy) : bool := match a, b with Extensible, Extensible | Closed, Closed | Open, Open => true | _, _ => false end.
Fixpoint rows_ok (fs : list (finfo * ty)) (rows : list row) : bool :=
  match fs, rows with
  | [], [] => true
  | ft :: fs', r :: rows' => row_ok ft r && rows_ok fs' rows'
  | _, _ => false
  end.
Definition object_ok (ts : list ty) (x : string * policy * list row) : bool :=
  match x with (c, pol, rows) =>
    match find_class c ts with Some (k, fs) => policy_eqb (policy_of k) pol && rows_ok fs rows | None => false end
  end.
Lemma objects_ok : forallb (object_ok all_types) objects = true.
Proof. vm_compute. reflexivity. Qed.
Definition map_ok (ts : list ty) (x : string * form) : bool :=
  match find_root (fst x) ts with Some t => ty_form t (snd x) | None => false end.
Lemma maps_ok : forallb (map_ok all_types) maps = true.
Proof. vm_compute. reflexivity. Qed.
(** Every class of the library is described. *)
Theorem c62_complete :
  (forall c k fs, In (TModel c k fs) all_types -> exists pol rows, In (c, pol, rows) objects)
  /\ (forall c t, In (TRoot c t) all_types -> exists f, In (c, f) maps).
Proof.
  assert (H : forallb (fun t => match t with
      | TModel c _ _ => existsb (fun x => String.eqb c (fst (fst x))) objects
      | TRoot c _ => existsb (fun x => String.eqb c (fst x)) maps
      | _ => true end) all_types = true) by (vm_compute; reflexivity).
  revert H. generalize objects as os, maps as ms, all_types as ts. intros os ms ts H. rewrite forallb_forall in H. split.
  - intros c k fs Hi. specialize (H _ Hi). cbv beta iota in H. apply existsb_exists in H as ([[c' pol] rows] & Hin & He). apply String.eqb_eq in He.
    cbn [fst] in He. subst. eauto.
  - intros c t Hi. specialize (H _ Hi). cbv beta iota in H. apply existsb_exists in H as ([c' f] & Hin & He). apply String.eqb_eq in He.
    cbn [fst] in He. subst. eauto.
Qed.

Lemma described_gen ts os c pol rows k fs : forallb (object_ok ts) os = true -> In (c, pol, rows) os -> find_class c ts = Some (k, fs) ->
  policy_of k = pol /\ rows_ok fs rows = true.
Proof.
  intros H Ho Hl. rewrite forallb_forall in H. specialize (H _ Ho).
  unfold object_ok in H. rewrite Hl in H. apply andb_prop in H as [H1 H2]. split; [|exact H2].
  destruct k, pol; try discriminate H1; reflexivity.
Qed.
Lemma described c pol rows k fs : In (c, pol, rows) objects -> In (TModel c k fs) all_types ->
  policy_of k = pol /\ rows_ok fs rows = true.
Proof. intros Ho Ht. exact (described_gen all_types objects c pol rows k fs objects_ok Ho (linked_class _ _ _ (linked_all _ Ht))). Qed.
Lemma map_gen ts ms c f t : forallb (map_ok ts) ms = true -> In (c, f) ms -> find_root c ts = Some t -> ty_form t f = true.
Proof. intros H Ho Hl. rewrite forallb_forall in H. specialize (H _ Ho). unfold map_ok in H. cbn [fst snd] in H. rewrite Hl in H. exact H. Qed.
Lemma map_described c f t : In (c, f) maps -> In (TRoot c t) all_types -> ty_form t f = true.
Proof. intros Ho Ht. exact (map_gen all_types maps c f t maps_ok Ho (linked_root _ _ (linked_all _ Ht))). Qed.
Lemma rows_ok_In fs rows r : rows_ok fs rows = true -> In r rows -> exists fi t, In (fi, t) fs /\ row_ok (fi, t) r = true.
Proof.
  revert rows; induction fs as [|[fi t] fs IH]; intros [|r' rows] H Hr; try discriminate; [contradiction|].
  cbn [rows_ok] in H. apply andb_prop in H as [H1 H2]. destruct Hr as [->|Hr]; [exists fi, t; split; [left; reflexivity|exact H1]|].
  destruct (IH _ H2 Hr) as (fi' & t' & Hi & Hk). exists fi', t'. split; [right; exact Hi|exact Hk].
Qed.
Lemma rows_ok_In' fs rows fi t : rows_ok fs rows = true -> In (fi, t) fs -> exists r, In r rows /\ row_ok (fi, t) r = true.
Proof.
  revert rows; induction fs as [|[fi' t'] fs IH]; intros [|r' rows] H Hr; try discriminate; [contradiction|].
  cbn [rows_ok] in H. apply andb_prop in H as [H1 H2]. destruct Hr as [[= -> ->]|Hr]; [exists r'; split; [left; reflexivity|exact H1]|].
  destruct (IH _ H2 Hr) as (r & Hi & Hk). exists r. split; [right; exact Hi|exact Hk].
Qed.
Lemma row_ok_inv fi t r : row_ok (fi, t) r = true ->
  f_name fi = u (r_name r) /\ f_alias fi = u (r_key r) /\ f_def fi = omitted (r_mode r).
Proof.
  unfold row_ok. cbn [fst snd]. intros H. apply andb_prop in H as [H _]. apply andb_prop in H as [H H3]. apply andb_prop in H as [H1 H2].
  apply str_eqb_eq in H1, H2. apply def_eqb_eq in H3. auto.
Qed.

(** ** Forms *)
Lemma model_names_inv ts l E v : model_names ts = Some l -> wt_one (fun t' => well_typed E t' v) ts ->
  exists c fv ex, In c l /\ v = VObj c fv ex.
Proof.
  revert l; induction ts as [|t ts IH]; intros l H Hw; [contradiction|].
  destruct t; cbn [model_names] in H; try discriminate H.
  change ((fix go (ts0 : list ty) : option (list string) := _) ts) with (model_names ts) in H.
  destruct (model_names ts) as [l'|]; [|discriminate H]. injection H as <-. destruct Hw as [Hw|Hw].
  - cbn [well_typed] in Hw. destruct Hw as (fv & ex & -> & _). exists c, fv, ex. split; [left; reflexivity|reflexivity].
  - destruct (IH _ eq_refl Hw) as (c' & fv & ex & Hi & ->). exists c', fv, ex. split; [right; exact Hi|reflexivity].
Qed.
Lemma list_eqb_string a b : list_eqb String.eqb a b = true -> a = b.
Proof. apply list_eqb_eq. intros x y _ H. apply String.eqb_eq. exact H. Qed.
Lemma ty_form_sound E t : forall f v, ty_form t f = true -> well_typed E t v -> has_form E f v.
Proof.
  induction t using ty_ind'; intros f v Hf Hw.
  - destruct f; try discriminate Hf. exact I.
  - destruct Hw as (s & -> & Hs). destruct f, m; try discriminate Hf; cbn [has_form]; [eauto|]. cbn [ty_form] in Hf. apply N.eqb_eq in Hf. subst. exists s. auto.
  - destruct f; try discriminate Hf. exact Hw.
  - destruct f; try discriminate Hf. exact Hw.
  - destruct f; try discriminate Hf. exact Hw.
  - destruct f; try discriminate Hf. cbn [ty_form] in Hf. apply eqb_prop in Hf. subst. exact Hw.
  - destruct f; try discriminate Hf. cbn [ty_form] in Hf. apply list_eqb_eq in Hf; [|intros; apply str_eqb_eq; assumption]. subst.
    destruct Hw as (s & -> & Hi). apply in_map_iff in Hi as (s0 & <- & Hi). exists s0. auto.
  - destruct f; try discriminate Hf. cbn [ty_form] in Hf. apply list_eqb_eq in Hf; [|intros; apply Z.eqb_eq; assumption]. subst.
    destruct Hw as (s & -> & Hi). exists s. auto.
  - destruct f; try discriminate Hf. cbn [ty_form] in Hf. destruct Hw as (l & -> & Hl). exists l. split; [reflexivity|].
    rewrite Forall_forall in *. intros x Hx. apply IHt; auto.
  - destruct f; try discriminate Hf. cbn [ty_form] in Hf. destruct Hw as (l & -> & Hl). exists l. split; [reflexivity|].
    rewrite Forall_forall in *. intros x Hx. apply IHt; auto.
  - destruct f; discriminate Hf.
  - destruct f; try discriminate Hf; cbn [ty_form] in Hf; cbn [well_typed] in Hw.
    + destruct (model_names ts) as [l|] eqn:El; [|discriminate Hf]. apply list_eqb_string in Hf. subst. exact (model_names_inv _ _ _ _ El Hw).
    + cbn [has_form]. revert l Hf Hw. induction ts as [|t ts IH]; intros [|f fs] Hf Hw; try discriminate; [contradiction|].
      apply andb_prop in Hf as [H1 H2]. inversion H; subst. destruct Hw as [Hw|Hw]; [left; auto|right; apply IH; assumption].
  - destruct f; try discriminate Hf. exact Hw.
  - destruct f; try discriminate Hf. cbn [ty_form] in Hf. apply list_eqb_string in Hf. subst. destruct Hw as (fv & ex & -> & _).
    exists c, fv, ex. split; [left; reflexivity|reflexivity].
  - destruct f; try discriminate Hf. cbn [ty_form] in Hf. apply String.eqb_eq in Hf. subst. destruct Hw as (d & -> & _). exists d. reflexivity.
Qed.
Lemma row_form E fi t r v : row_ok (fi, t) r = true -> well_typed E t v -> as_described E r v.
Proof.
  unfold row_ok, as_described. cbn [fst snd]. intros H Hw. apply andb_prop in H as [_ H].
  destruct (r_mode r) as [| |[|] d].
  - left. eapply ty_form_sound; eauto.
  - destruct t; try discriminate H. destruct Hw as [->|Hw]; [right; auto|left; eapply ty_form_sound; eauto].
  - destruct t; try discriminate H. destruct Hw as [->|Hw]; [right; auto|left; eapply ty_form_sound; eauto].
  - left. eapply ty_form_sound; eauto.
Qed.
Lemma wt_rows E fs rows fv : rows_ok fs rows = true -> wt_fields E (well_typed E) fs fv ->
  Forall2 (fun r kv => fst kv = u (r_name r) /\ as_described E r (snd kv)) rows fv.
Proof.
  revert rows fv; induction fs as [|[fi t] fs IH]; intros [|r rows] [|[k v] fv] H Hw; try discriminate; try contradiction; [constructor|].
  cbn [rows_ok] in H. apply andb_prop in H as [H1 H2]. cbn [wt_fields] in Hw. destruct Hw as (-> & Hw & _ & Hr).
  constructor; [|apply IH; assumption]. cbn [fst snd]. split; [apply (row_ok_inv _ _ _ H1)|eapply row_form; eauto].
Qed.

(** ** C62 *)
Lemma typed_at E kvs fs fv fi t : typed_fields E kvs fs fv -> In (fi, t) fs -> exists v, field_value E kvs fi t v.
Proof.
  induction 1 as [|[fi' t'] kv fs fv [_ Hv] _ IH]; intros Hi; [contradiction|]. destruct Hi as [[= -> ->]|Hi]; [exists (snd kv); exact Hv|auto].
Qed.
Lemma typed_assoc E kvs fs fv fi t : NoDup (map (fun ft => f_name (fst ft)) fs) -> typed_fields E kvs fs fv -> In (fi, t) fs ->
  exists v, assoc (f_name fi) fv = Some v /\ field_value E kvs fi t v.
Proof.
  intros Hn H. induction H as [|[gi s] [key x] fs fv [Hk Hv] H IH]; intros Hi; [contradiction|]. cbn [fst snd map] in *. subst key.
  inversion Hn as [|? ? Hni Hnd]; subst. cbn [assoc]. destruct Hi as [[= -> ->]|Hi]; [rewrite str_eqb_refl; eauto|].
  destruct (str_eqb (f_name fi) (f_name gi)) eqn:Ee; [|auto]. apply str_eqb_eq in Ee. exfalso. apply Hni. rewrite <- Ee.
  exact (in_map (fun ft => f_name (fst ft)) fs (fi, t) Hi).
Qed.
Lemma assoc_key {A} k (d : list (pystr * A)) v : assoc k d = Some v -> In k (map fst d).
Proof. intros H. apply assoc_In in H. change k with (fst (k, v)). apply in_map. exact H. Qed.
(** A required field that the data does not give (under its key or its Python name): rejected. *)
Theorem c62_required E c pol rows k fs r d o :
  In (c, pol, rows) objects -> In (TModel c k fs) all_types -> In r rows -> r_mode r = Required ->
  parse E (TModel c k fs) (VDict d) = Some o -> In (u (r_key r)) (map fst d) \/ In (u (r_name r)) (map fst d).
Proof.
  intros Ho Ht Hr Hm Hp. destruct (described _ _ _ _ _ Ho Ht) as [_ Hok]. destruct (rows_ok_In _ _ _ Hok Hr) as (fi & t & Hi & Hrow).
  destruct (row_ok_inv _ _ _ Hrow) as (Hn & Ha & Hd). rewrite Hm in Hd. cbn [omitted] in Hd.
  apply model_parse_iff in Hp as (fv & _ & Htf & _). destruct (typed_at _ _ _ _ _ _ Htf Hi) as (v & [(x & Hg & _)|(_ & _ & Hdf)]).
  - rewrite <- Hn, <- Ha. destruct Hg as [H|[_ H]]; apply assoc_key in H; auto.
  - congruence.
Qed.
(** A field that is not given gets its documented default. *)
Theorem c62_omitted E c pol rows k fs r d fv ex :
  In (c, pol, rows) objects -> In (TModel c k fs) all_types -> In r rows ->
  ~ In (u (r_key r)) (map fst d) -> ~ In (u (r_name r)) (map fst d) ->
  parse E (TModel c k fs) (VDict d) = Some (VObj c fv ex) -> assoc (u (r_name r)) fv = omitted (r_mode r).
Proof.
  intros Ho Ht Hr H1 H2 Hp. destruct (described _ _ _ _ _ Ho Ht) as [_ Hok]. destruct (rows_ok_In _ _ _ Hok Hr) as (fi & t & Hi & Hrow).
  destruct (row_ok_inv _ _ _ Hrow) as (Hn & Ha & Hd). assert (Hnd := names_NoDup _ _ _ (wf_all _ Ht)).
  apply model_parse_iff in Hp as (fv' & Heq & Htf & _). injection Heq as -> _.
  destruct (typed_assoc _ _ _ _ _ _ Hnd Htf Hi) as (v & Hv & Hfv). rewrite <- Hn, Hv, <- Hd. rewrite <- Ha in H1. rewrite <- Hn in H2.
  destruct Hfv as [(x & Hg & _)|(_ & _ & Hdf)]; [|symmetry; exact Hdf].
  exfalso. destruct Hg as [H|[_ H]]; apply assoc_key in H; auto.
Qed.
Lemma assoc_leave_out r d k : ~ In k [u (r_key r); u (r_name r)] -> assoc k (leave_out r d) = assoc k d.
Proof.
  intros Hk. unfold leave_out. induction d as [|[k' v] d IH]; [reflexivity|]. cbn [filter fst assoc].
  destruct (mem_str k' [u (r_key r); u (r_name r)]) eqn:Em; cbn [negb].
  - destruct (str_eqb k k') eqn:Ee; [|exact IH]. apply str_eqb_eq in Ee. subst. apply mem_str_In in Em. contradiction.
  - cbn [assoc]. rewrite IH. reflexivity.
Qed.
Lemma assoc_left_out r d k : In k [u (r_key r); u (r_name r)] -> assoc k (leave_out r d) = None.
Proof.
  intros Hk. apply assoc_None. unfold leave_out. intros Hi. apply in_map_iff in Hi as (kv & <- & Hi). apply filter_In in Hi as [_ Hi].
  apply mem_str_In in Hk. rewrite Hk in Hi. discriminate Hi.
Qed.
Lemma typed_build E kvs fs : (forall fi t, In (fi, t) fs -> exists v, field_value E kvs fi t v) -> exists fv, typed_fields E kvs fs fv.
Proof.
  induction fs as [|[fi t] fs IH]; intros H; [exists []; constructor|]. destruct (H fi t (or_introl eq_refl)) as [v Hv].
  destruct IH as [fv Hf]; [intros; apply H; right; assumption|]. exists ((f_name fi, v) :: fv). constructor; [auto|exact Hf].
Qed.
(** Every other field may be left out (in objects without a rule relating several fields). *)
Theorem c62_optional E c pol rows k fs r d o :
  In (c, pol, rows) objects -> In (TModel c k fs) all_types -> In r rows -> r_mode r <> Required -> ~ In c with_rule ->
  parse E (TModel c k fs) (VDict d) = Some o -> exists o', parse E (TModel c k fs) (VDict (leave_out r d)) = Some o'.
Proof.
  intros Ho Ht Hr Hm Hc Hp. destruct (described _ _ _ _ _ Ho Ht) as [_ Hok]. destruct (rows_ok_In _ _ _ Hok Hr) as (fi & t & Hi & Hrow).
  destruct (row_ok_inv _ _ _ Hrow) as (Hn & Ha & Hd). assert (Hw := wf_all _ Ht).
  apply model_parse_iff in Hp as (fv & _ & Htf & Hx & _).
  assert (Hf : exists fv', typed_fields E (leave_out r d) fs fv').
  { apply typed_build. intros gi s Hg. destruct (typed_at _ _ _ _ _ _ Htf Hg) as (v & Hv).
    cbn [wf_ty] in Hw. apply andb_prop in Hw as [Hw _]. unfold model_ok in Hw. do 4 (apply andb_prop in Hw as [Hw _]). apply nodupb_NoDup in Hw.
    assert (Hdec : {In (f_alias gi) [u (r_key r); u (r_name r)]} + {~ In (f_alias gi) [u (r_key r); u (r_name r)]}).
    { destruct (mem_str (f_alias gi) [u (r_key r); u (r_name r)]) eqn:Em; [left; apply mem_str_In; exact Em|right; apply mem_str_not_In; exact Em]. }
    assert (Hdec2 : {In (f_name gi) [u (r_key r); u (r_name r)]} + {~ In (f_name gi) [u (r_key r); u (r_name r)]}).
    { destruct (mem_str (f_name gi) [u (r_key r); u (r_name r)]) eqn:Em; [left; apply mem_str_In; exact Em|right; apply mem_str_not_In; exact Em]. }
    assert (Hown : forall key, In key (field_keys gi) -> In key [u (r_key r); u (r_name r)] -> gi = fi).
    { intros key H1 H2. apply (key_owner (map fst fs) gi fi key Hw); [change gi with (fst (gi, s)); apply in_map; exact Hg|change fi with (fst (fi, t)); apply in_map; exact Hi|exact H1|].
      destruct H2 as [<-|[<-|[]]]; [rewrite <- Ha; apply field_keys_alias|rewrite <- Hn; apply field_keys_name]. }
    destruct (omitted (r_mode r)) as [w|] eqn:Ew; [|destruct (r_mode r); try discriminate Ew; congruence].
    destruct Hdec as [H1|H1].
    - rewrite (Hown _ (field_keys_alias gi) H1) in *. exists w. right. rewrite Hn, Ha. rewrite !assoc_left_out by (simpl; auto). auto.
    - destruct Hdec2 as [H2|H2].
      + rewrite (Hown _ (field_keys_name gi) H2) in *. exists w. right. rewrite Hn, Ha. rewrite !assoc_left_out by (simpl; auto). auto.
      + exists v. unfold field_value, gives in *. rewrite !assoc_leave_out by assumption. exact Hv. }
  destruct Hf as [fv' Hf]. eexists. apply model_parse_iff. exists fv'. split; [reflexivity|]. split; [exact Hf|]. split.
  - assert (Hsub : forall key, In key (map fst (leave_out r d)) -> In key (map fst d)).
    { intros key Hk. apply in_map_iff in Hk as (kv & <- & Hk). apply filter_In in Hk as [Hk _]. apply in_map. exact Hk. }
    assert (Hun : forall key, unclaimed fs (leave_out r d) key -> unclaimed fs d key).
    { intros key [H1 H2]. split; [auto|]. intros gi s Hg. destruct (H2 gi s Hg) as [H3 H4]. auto. }
    destruct k; cbn [extra_policy] in *; [intros key Hk; apply Hx, Hun, Hk|intros key Hk; exact (Hx key (Hun key Hk))|exact I].
  - unfold cross_field_spec. repeat match goal with |- _ /\ _ => split end; intros ->; exfalso; apply Hc; simpl; tauto.
Qed.
(** The one field documented as REQUIRED ("schemaFormat", schema.py:125-136) that is not. *)
Theorem c62_schema_format E : exists o, parse E T_MultiFormatSchema (obj [("schema", VNone)]) = Some o
  /\ get_in "schema_format" o = str "application/vnd.aai.asyncapi;version=3.0.0".
Proof. eexists. split; vm_compute; reflexivity. Qed.
Example c62_ex : (exists o, parse E0 T_Server (obj [("host", str "h"); ("protocol", str "p"); ("description", str "d")]) = Some o)
  /\ parse E0 T_Server (obj [("host", str "h"); ("description", str "d")]) = None
  /\ In (req "host" Str) (match find (fun x => String.eqb "Server" (fst (fst x))) objects with Some (_, _, rows) => rows | None => [] end).
Proof. split; [eexists; vm_compute; reflexivity|]. split; [vm_compute; reflexivity|]. vm_compute. left. reflexivity. Qed.

(** ** C63 *)
(** Every object built from any data has, in order, the documented fields with documented kinds of values ... *)
Theorem c63_fields E c pol rows k fs v o :
  In (c, pol, rows) objects -> In (TModel c k fs) all_types -> parse E (TModel c k fs) v = Some o ->
  exists fv ex, o = VObj c fv ex /\ Forall2 (fun r kv => fst kv = u (r_name r) /\ as_described E r (snd kv)) rows fv.
Proof.
  intros Ho Ht Hp. destruct (described _ _ _ _ _ Ho Ht) as [_ Hok]. assert (Hw := parse_wt _ _ _ _ (wf_all _ Ht) Hp). cbn [well_typed] in Hw.
  destruct Hw as (fv & ex & -> & Hf & _). exists fv, ex. split; [reflexivity|]. eapply wt_rows; eauto.
Qed.
(** ... and so has every object inside something built from plain data, at any depth. *)
Theorem c63_throughout E t v o c pol rows fv ex :
  In t all_types -> is_json v -> parse E t v = Some o -> within (VObj c fv ex) o -> In (c, pol, rows) objects ->
  Forall2 (fun r kv => fst kv = u (r_name r) /\ as_described E r (snd kv)) rows fv.
Proof.
  intros Ht Hj Hp Hx Ho. destruct (c52_parsed_valid E t v o Ht Hj Hp _ Hx) as (k & fs & Hi & Hf & _).
  destruct (described _ _ _ _ _ Ho Hi) as [_ Hok]. eapply wt_rows; eauto.
Qed.
(** ... also after any sequence of attribute assignments (side condition of C14). *)
Theorem c63_assigned E procs c pol rows k fs v o l :
  In (c, pol, rows) objects -> In (TModel c k fs) all_types -> keeps E procs -> parse E (TModel c k fs) v = Some o -> never_shadowed E procs l o ->
  exists fv ex, assign_run E procs l o = VObj c fv ex
    /\ Forall2 (fun r kv => fst kv = u (r_name r) /\ as_described E r (snd kv)) rows fv.
Proof.
  intros Ho Ht Hk Hp Hs. destruct (described _ _ _ _ _ Ho Ht) as [_ Hok]. assert (Hw := c14_assignments_keep_types _ _ _ _ _ _ Ht Hk Hp Hs).
  cbn [well_typed] in Hw. destruct Hw as (fv & ex & -> & Hf & _). exists fv, ex. split; [reflexivity|]. eapply wt_rows; eauto.
Qed.
(** Entries of the patterned maps. *)
Theorem c63_map_entries E c f t v o : In (c, f) maps -> In (TRoot c t) all_types -> parse E (TRoot c t) v = Some o ->
  exists d, o = VRoot c d /\ forall k x, In (k, x) d -> has_form E f x.
Proof.
  intros Hm Ht Hp. assert (Hf := map_described _ _ _ Hm Ht). assert (Hw := parse_wt _ _ _ _ (wf_all _ Ht) Hp). cbn [well_typed] in Hw.
  destruct Hw as (d & -> & Hd). exists d. split; [reflexivity|]. intros k x Hx. rewrite Forall_forall in Hd. eapply ty_form_sound; [exact Hf|exact (Hd _ Hx)].
Qed.
(** Conversely values of the literal kinds are accepted, and kept unchanged. *)
Lemma forall_validate_list E t l : Forall (fun x => exists n, validate E t x = Some (x, n)) l -> exists n, vlist (validate E) t l = Some (l, n).
Proof.
  induction 1 as [|x l [n Hn] _ [m Hm]]; [exists 0; reflexivity|]. rewrite vlist_cons, Hn, Hm. eauto.
Qed.
Lemma forall_validate_dict E t d : Forall (fun kv => exists n, validate E t (snd kv) = Some (snd kv, n)) d -> exists n, vdict (validate E) t d = Some (d, n).
Proof.
  induction 1 as [|[k x] l [n Hn] _ [m Hm]]; [exists 0; reflexivity|]. cbn [snd] in Hn. exists (n + m). cbn [vdict].
  change ((fix go (d : fields) : option (fields * nat) := _) l) with (vdict (validate E) t l). rewrite Hn, Hm. reflexivity.
Qed.
Lemma ty_form_complete E t : forall f v, ty_form t f = true -> literal_form f = true -> has_form E f v -> exists n, validate E t v = Some (v, n).
Proof.
  induction t using ty_ind'; intros f v Hf Hl Hv; destruct f; try discriminate Hf; try discriminate Hl; cbn [ty_form] in Hf; cbn [has_form] in Hv; cbn [validate].
  - eauto.
  - destruct m; [discriminate Hf|]. destruct Hv as (s & ->). cbn [len_ok]. eauto.
  - destruct m as [m|]; [|discriminate Hf]. apply N.eqb_eq in Hf. subst. destruct Hv as (s & -> & Hs). cbn [len_ok]. apply N.leb_le in Hs. rewrite Hs. eauto.
  - destruct m; discriminate Hf.
  - destruct m; discriminate Hf.
  - destruct m; discriminate Hf.
  - destruct m; discriminate Hf.
  - destruct m; discriminate Hf.
  - destruct m; discriminate Hf.
  - destruct m; discriminate Hf.
  - destruct m; discriminate Hf.
  - destruct Hv as (s & -> & Hs). apply email_ok_iff in Hs. rewrite Hs. eauto.
  - destruct Hv as (z & ->). eauto.
  - destruct Hv as (b & ->). eauto.
  - apply list_eqb_eq in Hf; [|intros; apply str_eqb_eq; assumption]. subst. destruct Hv as (s & Hi & ->).
    assert (Hm : mem_str (u s) (map u l0) = true) by (apply mem_str_In, in_map; exact Hi). rewrite Hm. eauto.
  - apply list_eqb_eq in Hf; [|intros; apply Z.eqb_eq; assumption]. subst. destruct Hv as (s & Hi & ->). apply mem_Z_In in Hi. rewrite Hi. eauto.
  - destruct Hv as (l & -> & Hv). destruct (forall_validate_list E t l) as [n Hn]; [|rewrite Hn; eauto].
    rewrite Forall_forall in *. intros x Hx. apply (IHt f); auto.
  - destruct Hv as (l & -> & Hv). destruct (forall_validate_dict E t l) as [n Hn]; [|rewrite Hn; eauto].
    rewrite Forall_forall in *. intros x Hx. apply (IHt f); auto.
Qed.
Theorem c63_accepts E c pol rows k fs r x :
  In (c, pol, rows) objects -> In (TModel c k fs) all_types -> In r rows -> literal_form (r_form r) = true -> as_described E r x ->
  exists fi t, In (fi, t) fs /\ f_name fi = u (r_name r) /\ f_alias fi = u (r_key r) /\ parse E t x = Some x.
Proof.
  intros Ho Ht Hr Hl Hx. destruct (described _ _ _ _ _ Ho Ht) as [_ Hok]. destruct (rows_ok_In _ _ _ Hok Hr) as (fi & t & Hi & Hrow).
  exists fi, t. destruct (row_ok_inv _ _ _ Hrow) as (Hn & Ha & Hd). split; [exact Hi|]. split; [exact Hn|]. split; [exact Ha|].
  apply parse_some. unfold row_ok in Hrow. apply andb_prop in Hrow as [_ Hrow]. cbn [snd] in Hrow. unfold as_described in Hx.
  destruct (r_mode r) as [| |[|] w].
  - destruct Hx as [Hx|[_ []]]. eapply ty_form_complete; eauto.
  - destruct t; try discriminate Hrow. cbn [validate]. destruct Hx as [Hx|[-> _]]; [|eauto]. destruct x; try eauto; eapply ty_form_complete; eauto.
  - destruct t; try discriminate Hrow. cbn [validate]. destruct Hx as [Hx|[-> _]]; [|eauto]. destruct x; try eauto; eapply ty_form_complete; eauto.
  - destruct Hx as [Hx|[_ Hx]]; [|discriminate Hx]. eapply ty_form_complete; eauto.
Qed.
Example c63_ex : exists fv, parse E0 T_Operation (obj [("action", str "send"); ("channel", ref "#/channels/a"); ("tags", VList [ref "#/components/tags/t"])]) = Some (VObj "Operation" fv [])
  /\ get "action" fv = str "send" /\ parse E0 T_Operation (obj [("action", str "publish"); ("channel", ref "#/channels/a")]) = None.
Proof. eexists. split; [vm_compute; reflexivity|]. split; vm_compute; reflexivity. Qed.

(** ** C64 *)
(** Keys of accepted data: documented keys, Python names, or what the object's policy admits. *)
Theorem c64_keys E c pol rows k fs d o key :
  In (c, pol, rows) objects -> In (TModel c k fs) all_types -> parse E (TModel c k fs) (VDict d) = Some o -> In key (map fst d) ->
  (exists r, In r rows /\ (key = u (r_key r) \/ key = u (r_name r)))
  \/ match pol with Extensible => upto_nl (extension_key E) key | Closed => False | Open => True end.
Proof.
  intros Ho Ht Hp Hk. destruct (described _ _ _ _ _ Ho Ht) as [<- Hok]. apply model_parse_iff in Hp as (fv & _ & _ & Hx & _).
  destruct (declaredb fs key) eqn:Ed.
  - left. apply declaredb_iff in Ed as (fi & t & Hi & Hd). destruct (rows_ok_In' _ _ _ _ Hok Hi) as (r & Hr & Hrow). exists r. split; [exact Hr|].
    destruct (row_ok_inv _ _ _ Hrow) as (<- & <- & _). tauto.
  - right. assert (Hn : ~ declared fs key) by (intros H; apply declaredb_iff in H; congruence).
    assert (Hu := undeclared_unclaimed _ _ _ Hk Hn). destruct k; cbn [policy_of extra_policy] in *; [apply Hx; exact Hu|exact (Hx _ Hu)|exact I].
Qed.
(** A documented key is understood: it never ends up among the extras, and the field holds what its value validates to. *)
Theorem c64_recognised E c pol rows k fs d fv ex r x :
  In (c, pol, rows) objects -> In (TModel c k fs) all_types -> parse E (TModel c k fs) (VDict d) = Some (VObj c fv ex) -> In r rows ->
  assoc (u (r_key r)) d = Some x ->
  ~ In (u (r_key r)) (map fst ex)
  /\ exists fi t y, In (fi, t) fs /\ f_name fi = u (r_name r) /\ parse E t x = Some y /\ assoc (u (r_name r)) fv = Some y.
Proof.
  intros Ho Ht Hp Hr Hx. destruct (described _ _ _ _ _ Ho Ht) as [_ Hok]. destruct (rows_ok_In _ _ _ Hok Hr) as (fi & t & Hi & Hrow).
  destruct (row_ok_inv _ _ _ Hrow) as (Hn & Ha & Hd). assert (Hnd := names_NoDup _ _ _ (wf_all _ Ht)).
  apply model_parse_iff in Hp as (fv' & Heq & Htf & _). injection Heq as -> ->. split.
  - intros H. apply in_map_iff in H as (kv & Hk & H). apply extras_unclaimed in H as [_ H]. rewrite Hk in H.
    destruct H as [_ H]. destruct (H fi t Hi) as [H1 _]. congruence.
  - destruct (typed_assoc _ _ _ _ _ _ Hnd Htf Hi) as (v & Hv & Hfv). exists fi, t. rewrite <- Ha in Hx. rewrite <- Hn.
    destruct Hfv as [(y & Hg & Hpy & _)|(H & _)]; [|congruence]. exists v. split; [exact Hi|]. split; [reflexivity|]. split; [|exact Hv].
    destruct Hg as [Hg|[Hg _]]; [|congruence]. rewrite Hx in Hg. injection Hg as ->. exact Hpy.
Qed.
(** So is the Python name, when the documented key is not given. *)
Theorem c64_python_name E c pol rows k fs d fv ex r x :
  In (c, pol, rows) objects -> In (TModel c k fs) all_types -> parse E (TModel c k fs) (VDict d) = Some (VObj c fv ex) -> In r rows ->
  assoc (u (r_key r)) d = None -> assoc (u (r_name r)) d = Some x ->
  exists fi t y, In (fi, t) fs /\ f_name fi = u (r_name r) /\ parse E t x = Some y /\ assoc (u (r_name r)) fv = Some y.
Proof.
  intros Ho Ht Hp Hr Hx0 Hx. destruct (described _ _ _ _ _ Ho Ht) as [_ Hok]. destruct (rows_ok_In _ _ _ Hok Hr) as (fi & t & Hi & Hrow).
  destruct (row_ok_inv _ _ _ Hrow) as (Hn & Ha & Hd). assert (Hnd := names_NoDup _ _ _ (wf_all _ Ht)).
  apply model_parse_iff in Hp as (fv' & Heq & Htf & _). injection Heq as -> ->.
  destruct (typed_assoc _ _ _ _ _ _ Hnd Htf Hi) as (v & Hv & Hfv). exists fi, t. rewrite <- Ha in Hx0. rewrite <- Hn in *.
  destruct Hfv as [(y & Hg & Hpy & _)|(_ & H & _)]; [|congruence]. exists v. split; [exact Hi|]. split; [reflexivity|]. split; [|exact Hv].
  destruct Hg as [Hg|[_ Hg]]; [congruence|]. rewrite Hx in Hg. injection Hg as ->. exact Hpy.
Qed.
Example c64_ex : parse E0 T_License (obj [("name", str "MIT"); ("x-a", VInt 1)]) <> None /\ parse E0 T_License (obj [("name", str "MIT"); ("a", VInt 1)]) = None
  /\ parse E0 T_MQTTLastWill (obj [("topic", str "t"); ("qos", VInt 1); ("message", str "m"); ("retain", VBool true); ("x-a", VInt 1)]) = None.
Proof. split; [vm_compute; discriminate|]. split; vm_compute; reflexivity. Qed.
Print Assumptions c62_optional.
Print Assumptions c63_throughout.
Print Assumptions c63_accepts.
Print Assumptions c64_keys.
Print Assumptions c64_recognised.
