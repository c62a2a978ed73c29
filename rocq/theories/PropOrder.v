(** C88: in which order the errors of a rejected value are listed. *)
From Verif Require Import PyStr Regex Value Types Rules Pydantic ClassTable Classes Canon Fix SpecParse ProofRules ProofParse
  State SpecState ProofState ProofDump Sample Linked Errors SpecErrors ProofErrors PropErrors.

(** ** Specification *)
Definition ahead {A} (x y : A) (l : list A) : Prop := exists a b c, l = a ++ x :: b ++ y :: c.
(** The key at which the errors of a field are located: the one it is given under, the alias if it is missing. *)
Inductive located (fi : finfo) (kvs : fields) : pystr -> Prop :=
| lo_given key x : given fi kvs key x -> located fi kvs key
| lo_missing : assoc (f_alias fi) kvs = None -> assoc (f_name fi) kvs = None -> located fi kvs (f_alias fi).
(** Which of two parts of a value is looked at first: items by position; entries of a dict or map in the order of the input; the declared fields
    of a class in the order of their declaration, then the keys of the input that belong to none of them, in the order of the input; the
    alternatives of a union in the order in which they are written. *)
Inductive sooner : ty -> pv -> locstep -> locstep -> Prop :=
| so_item t l i j : i < j -> sooner (TList t) (VList l) (AtIndex i) (AtIndex j)
| so_processor l i j : i < j -> sooner TProcs (VList l) (AtIndex i) (AtIndex j)
| so_value t d k k' : ahead k k' (map fst d) -> sooner (TDict t) (VDict d) (AtKey k) (AtKey k')
| so_entry c t v d k k' : entries c v d -> ahead k k' (map fst d) -> sooner (TRoot c t) v (AtKey k) (AtKey k')
| so_alternative ts v i j : i < j -> sooner (TUnion ts) v (AtMember i) (AtMember j)
| so_fields c k fs v kvs f g key key' : mapping c v kvs -> ahead f g fs -> located (fst f) kvs key -> located (fst g) kvs key' ->
    sooner (TModel c k fs) v (AtKey key) (AtKey key')
| so_extra c k fs v kvs f key key' : mapping c v kvs -> In f fs -> located (fst f) kvs key -> unclaimed fs kvs key' -> sooner (TModel c k fs) v (AtKey key) (AtKey key')
| so_extras c k fs v kvs key key' : mapping c v kvs -> unclaimed fs kvs key -> unclaimed fs kvs key' -> ahead key key' (map fst kvs) ->
    sooner (TModel c k fs) v (AtKey key) (AtKey key').
(** Location [p] comes before location [q]: they part at some value, where [p] goes to the part that is looked at first. *)
Definition before (E : env) (t : ty) (v : pv) (p q : list locstep) : Prop :=
  exists r s p' s' q' t' v', p = r ++ s :: p' /\ q = r ++ s' :: q' /\ leads_to E t v r t' v' /\ sooner t' v' s s'.
Definition in_order (E : env) (t : ty) (v : pv) (l : list error) : Prop := ForallOrdPairs (fun e e' => before E t v (fst e) (fst e')) l.

(** ** Proofs *)
Lemma fop_app {A} (R : A -> A -> Prop) a b : ForallOrdPairs R a -> ForallOrdPairs R b -> (forall x y, In x a -> In y b -> R x y) -> ForallOrdPairs R (a ++ b).
Proof.
  intros Ha Hb Hab. induction Ha as [|x a Hx Ha IH]; [exact Hb|]. cbn [app]. constructor.
  - apply Forall_app. split; [exact Hx|]. apply Forall_forall. intros y Hy. apply Hab; [left; reflexivity|exact Hy].
  - apply IH. intros y z Hy Hz. apply Hab; [right; exact Hy|exact Hz].
Qed.
Lemma fop_impl {A} (R S : A -> A -> Prop) l : (forall x y, R x y -> S x y) -> ForallOrdPairs R l -> ForallOrdPairs S l.
Proof. intros H. induction 1 as [|x l Hx Hl IH]; constructor; [eapply Forall_impl; [|exact Hx]; auto|exact IH]. Qed.
Lemma fop_one {A} (R : A -> A -> Prop) x : ForallOrdPairs R [x].
Proof. repeat constructor. Qed.
Lemma fop_here E t v o : in_order E t v (here_ o).
Proof. destruct o; [apply fop_one|constructor]. Qed.
Lemma before_here E t v s s' p q : sooner t v s s' -> before E t v (s :: p) (s' :: q).
Proof. intros H. exists [], s, p, s', q, t, v. repeat split; [constructor|exact H]. Qed.
Lemma before_under E t v s t' x p q : (forall r t2 v2, leads_to E t' x r t2 v2 -> leads_to E t v (s :: r) t2 v2) -> before E t' x p q -> before E t v (s :: p) (s :: q).
Proof. intros Hl (r & a & p' & b & q' & t2 & v2 & -> & -> & H1 & H2). exists (s :: r), a, p', b, q', t2, v2. repeat split; auto. Qed.
Lemma order_under E t v s t' x l : (forall r t2 v2, leads_to E t' x r t2 v2 -> leads_to E t v (s :: r) t2 v2) -> in_order E t' x l -> in_order E t v (under s l).
Proof.
  intros Hl. induction 1 as [|e l He H IH]; [constructor|]. cbn [under map]. constructor; [|exact IH]. apply Forall_forall. intros e' He'. apply in_map_iff in He' as (e0 & <- & He').
  cbn [fst]. rewrite Forall_forall in He. eapply before_under; [exact Hl|auto].
Qed.
Lemma in_under_ s l e : In e (under s l) -> exists p, fst e = s :: p.
Proof. intros H. apply in_map_iff in H as (e0 & <- & _). cbn. eauto. Qed.
Lemma order_list E t all : (forall x, In x all -> in_order E t x (report E t x)) ->
  forall l i, (forall j x, nth_error l j = Some x -> nth_error all (i + j) = Some x) -> in_order E (TList t) (VList all) (rlist (report E) t i l).
Proof.
  intros Hr. induction l as [|x l IH]; intros i Hl; cbn [rlist]; [constructor|]. assert (Hx := Hl 0 x eq_refl). rewrite Nat.add_0_r in Hx. apply fop_app.
  - eapply order_under; [|apply Hr; eapply nth_error_In; exact Hx]. intros r t2 v2 H. eapply lt_item; eauto.
  - apply IH. intros j y Hy. replace (S i + j) with (i + S j) by lia. apply Hl. exact Hy.
  - intros e e' He He'. apply in_under_ in He as (p & He). destruct e' as [p' c']. apply in_rlist in He' as (j & y & q & _ & -> & _). rewrite He. apply before_here. constructor. lia.
Qed.
Lemma order_dict E t (lead : pystr -> pv -> Prop) tt v : (forall k x r t2 v2, lead k x -> leads_to E t x r t2 v2 -> leads_to E tt v (AtKey k :: r) t2 v2) ->
  forall d all, (forall k x, In (k, x) d -> lead k x /\ in_order E t x (report E t x)) -> (exists a, all = a ++ d) -> (forall k k', ahead k k' (map fst all) -> sooner tt v (AtKey k) (AtKey k')) ->
  in_order E tt v (rdict (report E) t d).
Proof.
  intros Hl. induction d as [|[k x] d IH]; intros all Hd (a & ->) Hs; cbn [rdict]; [constructor|]. destruct (Hd k x (or_introl eq_refl)) as [H1 H2]. apply fop_app.
  - eapply order_under; [|exact H2]. intros r t2 v2 H. eapply Hl; eauto.
  - apply (IH (a ++ (k, x) :: d)); [intros k' y H; apply Hd; right; exact H| |exact Hs]. exists (a ++ [(k, x)]). rewrite <- app_assoc. reflexivity.
  - intros e e' He He'. apply in_under_ in He as (p & He). destruct e' as [p' c']. apply in_rdict in He' as (k' & y & q & Hi & -> & _). rewrite He. apply before_here. apply Hs.
    apply in_split in Hi as (b & c & ->). exists (map fst a), (map fst b), (map fst c). rewrite !map_app. cbn [map fst]. rewrite map_app. reflexivity.
Qed.
Lemma order_members E ts v : (forall s, In s ts -> parse E s v = None) -> (forall t, In t ts -> in_order E t v (report E t v)) ->
  forall l i, (forall j t, nth_error l j = Some t -> nth_error ts (i + j) = Some t) -> in_order E (TUnion ts) v (members i (map (fun t => report E t v) l)).
Proof.
  intros Hp Hr. induction l as [|x l IH]; intros i Hl; cbn [map members]; [constructor|]. assert (Hx := Hl 0 x eq_refl). rewrite Nat.add_0_r in Hx. apply fop_app.
  - eapply order_under; [|apply Hr; eapply nth_error_In; exact Hx]. intros r t2 v2 H. eapply lt_member; eauto.
  - apply IH. intros j y Hy. replace (S i + j) with (i + S j) by lia. apply Hl. exact Hy.
  - intros e e' He He'. apply in_under_ in He as (p & He). destruct e' as [p' c']. apply in_members in He' as (j & y & q & _ & -> & _). rewrite He. apply before_here. constructor. lia.
Qed.
Lemma order_processors E all l : forall i, in_order E TProcs (VList all) (wrong_items i l).
Proof.
  induction l as [|x l IH]; intros i; cbn [wrong_items]; [constructor|]. apply fop_app; [destruct (is_proc x); [constructor|apply fop_one]|apply IH|].
  intros e e' He He'. destruct (is_proc x); [destruct He|]. destruct He as [<-|[]]. destruct e' as [p' c']. apply in_wrong_items in He' as (j & y & _ & _ & -> & _). apply before_here. constructor. lia.
Qed.
Lemma located_key kvs fi : located fi kvs (field_key kvs fi).
Proof.
  unfold field_key. destruct (lookup_field fi kvs) as [x|] eqn:El.
  - eapply lo_given. apply given_iff. split; [exact El|reflexivity].
  - unfold lookup_field in El. destruct (assoc (f_alias fi) kvs) eqn:Ea; [discriminate El|]. constructor; assumption.
Qed.
Lemma order_fields E c k all v kvs : mapping c v kvs ->
  forall fs a, all = a ++ fs -> (forall fi t key x, In (fi, t) fs -> given fi kvs key x -> in_order E t x (report E t x) /\ (report E t x = [] <-> fine E t x)) ->
  in_order E (TModel c k all) v (rfields E (report E) kvs fs).
Proof.
  intros Hm. induction fs as [|[fi t] fs IH]; intros a Ha Hr; cbn [rfields]; [constructor|]. apply fop_app.
  - destruct (lookup_field fi kvs) as [x|] eqn:El; [|destruct (f_def fi); [constructor|apply fop_one]].
    assert (Hg : given fi kvs (used_key kvs fi) x) by (apply given_iff; auto). destruct (Hr fi t _ x (or_introl eq_refl) Hg) as [H1 H2].
    apply (order_under E _ _ _ t x); [intros r t2 v2 H; eapply lt_field; eauto; rewrite Ha; apply in_or_app; right; left; reflexivity|].
    destruct (validate E t x) as [[x' n]|] eqn:Ev; [|rewrite app_nil_r; exact H1]. rewrite (proj2 H2) by (unfold fine; eauto). cbn [app]. apply fop_here.
  - apply (IH (a ++ [(fi, t)])); [rewrite Ha, <- app_assoc; reflexivity|]. intros fi' t' key x Hi. apply Hr. right. exact Hi.
  - intros [p1 c1] [p2 c2] H1 H2.
    assert (Hh : In (p1, c1) (rfields E (report E) kvs [(fi, t)])) by (cbn [rfields]; rewrite app_nil_r; exact H1).
    apply rfields_head in Hh as (fi1 & t1 & q1 & [[= <- <-]|[]] & ->). apply rfields_head in H2 as (fi2 & t2 & q2 & Hi & ->). cbn [fst]. apply before_here.
    apply in_split in Hi as (b & d & ->). eapply (so_fields c k all v kvs (fi, t) (fi2, t2)); [exact Hm| |apply located_key|apply located_key]. exists a, b, d. exact Ha.
Qed.
Lemma order_extras E c k fs v kvs : mapping c v kvs -> in_order E (TModel c k fs) v (rextras k (extras fs kvs)).
Proof.
  intros Hm. unfold rextras. destruct k; try constructor. assert (Hall : exists pre, kvs = pre ++ kvs) by (exists []; reflexivity).
  unfold extras. set (p := fun kv : pystr * pv => negb (mem_str (fst kv) (map (fun ft : finfo * ty => used_key kvs (fst ft)) fs))).
  assert (Hp : forall kv, In kv kvs -> p kv = true -> unclaimed fs kvs (fst kv)) by (intros kv Hi H; apply (extras_unclaimed fs kvs kv); apply filter_In; auto).
  clearbody p. revert Hall Hp. generalize kvs at 2 3 5. intros l. revert Hm. induction l as [|[a x] l IH]; intros Hm (pre & Hpre) Hp; cbn [filter map]; [constructor|].
  assert (Hin : In (a, x) kvs) by (rewrite Hpre; apply in_or_app; right; left; reflexivity).
  assert (Hrest : in_order E (TModel c KForbid fs) v (map (fun kv => ([AtKey (fst kv)], NotAllowed)) (filter p l))).
  { apply IH; [exact Hm|exists (pre ++ [(a, x)]); rewrite <- app_assoc; exact Hpre|]. intros kv Hi. apply Hp. right. exact Hi. }
  destruct (p (a, x)) eqn:Ep; [|exact Hrest]. cbn [map fst]. constructor; [|exact Hrest]. apply Forall_forall. intros e He. apply in_map_iff in He as ([b y] & <- & Hb). apply filter_In in Hb as [Hb Hpb]. cbn [fst].
  apply before_here. eapply so_extras; [exact Hm|apply (Hp (a, x)); [left; reflexivity|exact Ep]|apply (Hp (b, y)); [right; exact Hb|exact Hpb]|].
  apply in_split in Hb as (l1 & l2 & ->). rewrite Hpre. exists (map fst pre), (map fst l1), (map fst l2). rewrite !map_app. cbn [map fst]. rewrite map_app. reflexivity.
Qed.
Lemma order_model E c k fs v kvs : mapping c v kvs ->
  (forall fi t key x, In (fi, t) fs -> given fi kvs key x -> in_order E t x (report E t x) /\ (report E t x = [] <-> fine E t x)) ->
  Forall (fun ft => forall v, report E (snd ft) v = [] <-> fine E (snd ft) v) fs ->
  in_order E (TModel c k fs) v (rmodel E (report E) c k fs kvs).
Proof.
  intros Hm Hr Hf. unfold rmodel. assert (Hn := rfields_nil E kvs fs Hf). destruct (vfields E (validate E) kvs fs) as [[fv n]|].
  - rewrite (proj2 Hn) by eauto. cbn [app]. destruct (rextras k (extras fs kvs)) eqn:Ex; [cbn [app]; apply fop_here|]. rewrite app_nil_r, <- Ex. apply order_extras. exact Hm.
  - rewrite app_nil_r. apply fop_app; [eapply (order_fields E c k fs v kvs Hm fs []); [reflexivity|exact Hr]|apply order_extras; exact Hm|].
    intros [p1 c1] [p2 c2] H1 H2. apply rfields_head in H1 as (fi & t & q & Hi & ->). unfold rextras in H2. destruct k; try destruct H2. apply in_map_iff in H2 as ([a x] & [= <- <-] & H2).
    apply extras_unclaimed in H2 as [_ Hu]. cbn [fst] in *. apply before_here. eapply (so_extra c KForbid fs v kvs (fi, t)); [exact Hm|exact Hi|apply located_key|exact Hu].
Qed.
Lemma order_root E c t v d : entries c v d -> (forall k x, In (k, x) d -> in_order E t x (report E t x)) -> (forall v, report E t v = [] <-> fine E t v) ->
  in_order E (TRoot c t) v (rroot E (report E) t d).
Proof.
  intros Hm Hr Hn. unfold rroot. assert (Hd := rdict_nil E t d Hn). destruct (vdict (validate E) t d) as [[d' n]|].
  - rewrite (proj2 Hd) by eauto. cbn [app]. apply fop_here.
  - rewrite app_nil_r. eapply (order_dict E t (fun k x => In (k, x) d) (TRoot c t) v) with (all := d).
    + intros k x r t2 v2 Hi H. eapply lt_entry; eauto.
    + intros k x Hi. split; [exact Hi|eauto].
    + exists []. reflexivity.
    + intros k k' H. eapply so_entry; eauto.
Qed.
Lemma order_report E t : report_ok t = true -> forall v, in_order E t v (report E t v).
Proof.
  induction t as [|m| | | |h|l|l|t IH|t IH|t IH|ts IH| |c k fs IH|c t IH] using ty_ind'; intros Hok v.
  all: try (cbn [report]; unfold unless_fine; destruct (validate _ _ _); [constructor|apply fop_one]).
  - cbn [report]. destruct v; try apply fop_one. destruct (email_ok s); [constructor|apply fop_one].
  - cbn [report]. destruct v; try apply fop_one. apply order_list; [intros x Hx; apply IH; exact Hok|]. intros j x Hx. exact Hx.
  - cbn [report]. destruct v; try apply fop_one. eapply (order_dict E t (fun k x => In (k, x) d) (TDict t) (VDict d)) with (all := d).
    + intros k x r t2 v2 Hi H. eapply lt_value; eauto.
    + intros k x Hi. split; [exact Hi|apply IH; exact Hok].
    + exists []. reflexivity.
    + intros k k' H. constructor. exact H.
  - cbn [report]. assert (H : v <> VNone -> in_order E (TOpt t) v (report E t v)).
    { intros Hv. eapply fop_impl; [|exact (IH Hok v)]. intros e e' (r & a & p' & b & q' & t2 & v2 & H1 & H2 & H3 & H4). exists r, a, p', b, q', t2, v2. repeat split; auto. apply lt_optional; assumption. }
    destruct v; try (apply H; discriminate). constructor.
  - cbn [report]. destruct (validate E (TUnion ts) v) eqn:Ev; [constructor|]. cbn [report_ok] in Hok. apply andb_prop in Hok as [_ Hok]. rewrite forallb_forall in Hok. rewrite Forall_forall in IH.
    apply order_members; [apply union_none; exact Ev|intros t Ht; apply IH; auto|]. intros j t H. exact H.
  - cbn [report]. destruct v; try apply fop_one. apply order_processors.
  - assert (Hx : forall kvs, mapping c v kvs -> in_order E (TModel c k fs) v (rmodel E (report E) c k fs kvs)).
    { intros kvs Hm. rewrite Forall_forall in IH. cbn [report_ok] in Hok. rewrite forallb_forall in Hok.
      assert (Hok' : forall ft, In ft fs -> report_ok (snd ft) = true) by (intros ft Hi; specialize (Hok _ Hi); apply andb_prop in Hok as [_ Hok]; exact Hok).
      apply order_model; [exact Hm| |apply Forall_forall; intros ft Hi; apply report_nil; auto]. intros fi t key x Hi Hg. split; [apply (IH _ Hi (Hok' _ Hi))|apply report_nil; exact (Hok' _ Hi)]. }
    cbn [report]. destruct v; try apply fop_one; [apply Hx; constructor|]. destruct (String.eqb_spec c c0) as [<-|]; [apply Hx; constructor|apply fop_one].
  - assert (Hx : forall d, entries c v d -> in_order E (TRoot c t) v (rroot E (report E) t d)).
    { intros d Hm. apply order_root; [exact Hm|intros k x Hi; apply IH; exact Hok|apply report_nil; exact Hok]. }
    cbn [report]. destruct v; try apply fop_one; [apply Hx; constructor|]. destruct (String.eqb_spec c c0) as [<-|]; [apply Hx; constructor|apply fop_one].
Qed.

(** ** The order leaves no choice *)
Lemma ahead_asym {A} (x y : A) l : NoDup l -> ahead x y l -> ~ ahead y x l.
Proof.
  intros Hn (a & b & c & ->) (a' & b' & c' & He). revert a' b' c' He. induction a as [|z a IH]; intros a' b' c' He; cbn [app] in *.
  - inversion Hn as [|? ? Hni _]; subst. apply Hni. destruct a' as [|w a']; cbn [app] in He; injection He as <- He.
    + apply in_or_app. right. left. reflexivity.
    + rewrite He. apply in_or_app. right. right. apply in_or_app. right. left. reflexivity.
  - inversion Hn as [|? ? Hni Hn']; subst. destruct a' as [|w a']; cbn [app] in He; injection He as -> He; [|exact (IH Hn' _ _ _ He)].
    apply Hni. apply in_or_app. right. right. apply in_or_app. right. left. reflexivity.
Qed.
Lemma ahead_in {A} (x y : A) l : ahead x y l -> In x l /\ In y l.
Proof. intros (a & b & c & ->). split; apply in_or_app; right; [left; reflexivity|right; apply in_or_app; right; left; reflexivity]. Qed.
Lemma ahead_map {A B} (f : A -> B) x y l : ahead x y l -> ahead (f x) (f y) (map f l).
Proof. intros (a & b & c & ->). exists (map f a), (map f b), (map f c). rewrite !map_app. cbn [map]. rewrite map_app. reflexivity. Qed.
Lemma located_in fi kvs key : located fi kvs key -> In key (field_keys fi).
Proof. intros [k x [y H|y H1 H2]|H1 H2]; auto using field_keys_name, field_keys_alias. Qed.
Lemma keys_owner (fs : list (finfo * ty)) f g key : NoDup (all_keys (map fst fs)) -> In f fs -> In g fs -> In key (field_keys (fst f)) -> In key (field_keys (fst g)) -> f = g.
Proof.
  induction fs as [|h fs IH]; intros Hn Hf Hg Kf Kg; [destruct Hf|]. cbn [map all_keys flat_map] in Hn. apply NoDup_app_inv in Hn as (_ & Hn & Hx).
  assert (Hin : forall e, In e fs -> In key (field_keys (fst e)) -> In key (flat_map field_keys (map fst fs))) by (intros e He Hk; apply in_flat_map; exists (fst e); split; [apply in_map; exact He|exact Hk]).
  destruct Hf as [->|Hf], Hg as [->|Hg]; auto.
  - exfalso. exact (Hx _ Kf (Hin _ Hg Kg)).
  - exfalso. exact (Hx _ Kg (Hin _ Hf Kf)).
Qed.
Lemma fields_nodup (fs : list (finfo * ty)) : NoDup (all_keys (map fst fs)) -> NoDup fs.
Proof.
  induction fs as [|h fs IH]; intros Hn; [constructor|]. cbn [map all_keys flat_map] in Hn. apply NoDup_app_inv in Hn as (_ & Hn & Hx). constructor; [|auto]. intros Hi.
  apply (Hx (f_alias (fst h))); [apply field_keys_alias|]. apply in_flat_map. exists (fst h). split; [apply in_map; exact Hi|apply field_keys_alias].
Qed.
Lemma located_claims (fs : list (finfo * ty)) kvs f key : In f fs -> located (fst f) kvs key -> ~ unclaimed fs kvs key.
Proof.
  intros Hi Hl [Hin Hu]. destruct f as [fi t]. destruct (Hu fi t Hi) as [Ha Hn]. cbn [fst] in Hl. destruct Hl as [k x [y H|y H1 H2]|H1 H2]; try congruence.
  apply assoc_None in H1. apply H1. apply Hn. reflexivity.
Qed.
Lemma mapping_fun c v a b : mapping c v a -> mapping c v b -> a = b.
Proof. intros [] H; inversion H; reflexivity. Qed.
Lemma entries_fun c v a b : entries c v a -> entries c v b -> a = b.
Proof. intros [] H; inversion H; reflexivity. Qed.
Lemma wf_model_keys c k fs : wf_ty (TModel c k fs) = true -> NoDup (all_keys (map fst fs)).
Proof. cbn [wf_ty]. intros H. apply andb_prop in H as [Hmo _]. unfold model_ok in Hmo. repeat (apply andb_prop in Hmo as [Hmo _]). apply nodupb_NoDup in Hmo. exact Hmo. Qed.
Lemma sooner_asym t v s s' : wf_ty t = true -> python_dicts v -> sooner t v s s' -> ~ sooner t v s' s.
Proof.
  intros Hwf Hd H H'. destruct H as [t l i j Hij|l i j Hij|t d k k' Ha|c t v d k k' He Ha|ts v i j Hij|c k fs v kvs f g key key' Hm Ha Hf Hg|c k fs v kvs f key key' Hm Hf Hl Hu|c k fs v kvs key key' Hm Hu Hu' Ha].
  - inversion H'; subst. lia.
  - inversion H'; subst. lia.
  - inversion H' as [| |? ? ? ? Ha'| | | | |]; subst. revert Ha'. apply ahead_asym; [exact (Hd _ (w_self _))|exact Ha].
  - inversion H' as [| | |? ? ? d2 ? ? He' Ha'| | | |]; subst. rewrite (entries_fun _ _ _ _ He' He) in Ha'. revert Ha'. apply ahead_asym; [eapply entries_nodup; eauto|exact Ha].
  - inversion H'; subst. lia.
  - assert (Hn := wf_model_keys _ _ _ Hwf). destruct (ahead_in _ _ _ Ha) as [If Ig]. inversion H' as [| | | | |? ? ? ? kvs2 f2 g2 ? ? Hm' Ha' Hf' Hg'|? ? ? ? kvs2 f2 ? ? Hm' Hf' Hl' Hu'|? ? ? ? kvs2 ? ? Hm' Hu' Hu2 Ha']; subst;
      assert (kvs2 = kvs) by (eapply mapping_fun; eauto); subst kvs2.
    + destruct (ahead_in _ _ _ Ha') as [If' Ig']. assert (f2 = g) by (eapply keys_owner; eauto using located_in). assert (g2 = f) by (eapply keys_owner; eauto using located_in). subst.
      revert Ha'. apply ahead_asym; [apply fields_nodup; exact Hn|exact Ha].
    + exact (located_claims _ _ _ _ If Hf Hu').
    + exact (located_claims _ _ _ _ If Hf Hu2).
  - inversion H' as [| | | | |? ? ? ? kvs2 f2 g2 ? ? Hm' Ha' Hf' Hg'|? ? ? ? kvs2 f2 ? ? Hm' Hf' Hl' Hu'|? ? ? ? kvs2 ? ? Hm' Hu' Hu2 Ha']; subst;
      assert (kvs2 = kvs) by (eapply mapping_fun; eauto); subst kvs2.
    + destruct (ahead_in _ _ _ Ha') as [If' Ig']. exact (located_claims _ _ _ _ If' Hf' Hu).
    + exact (located_claims _ _ _ _ Hf Hl Hu').
    + exact (located_claims _ _ _ _ Hf Hl Hu2).
  - inversion H' as [| | | | |? ? ? ? kvs2 f2 g2 ? ? Hm' Ha' Hf' Hg'|? ? ? ? kvs2 f2 ? ? Hm' Hf' Hl' Hu2|? ? ? ? kvs2 ? ? Hm' Hu2 Hu3 Ha']; subst;
      assert (kvs2 = kvs) by (eapply mapping_fun; eauto); subst kvs2.
    + destruct (ahead_in _ _ _ Ha') as [If' Ig']. exact (located_claims _ _ _ _ If' Hf' Hu').
    + exact (located_claims _ _ _ _ Hf' Hl' Hu').
    + revert Ha'. apply ahead_asym; [eapply mapping_nodup; eauto|exact Ha].
Qed.
Fixpoint strip (t : ty) : ty := match t with TOpt t' => strip t' | _ => t end.
Lemma sooner_strip t v s s' : sooner t v s s' -> strip t = t.
Proof. intros []; reflexivity. Qed.
Lemma leads_nil E t v p t2 v2 : leads_to E t v p t2 v2 -> p = [] -> strip t2 = strip t /\ v2 = v.
Proof. induction 1; intros Hp; try discriminate Hp; [auto|]. cbn [strip]. auto. Qed.
Lemma leads_wf E t v p t2 v2 : leads_to E t v p t2 v2 -> wf_ty t = true -> wf_ty t2 = true.
Proof.
  induction 1 as [t v|t l i x p t' v' Hn H IH|t d k x p t' v' Hn H IH|t v p t' v' Hn H IH|ts i t v p t' v' Hp Hn H IH|c k fs v kvs fi t key x p t' v' Hm Hi Hg H IH|c t v d k x p t' v' Hm Hi H IH]; intros Hwf; auto; apply IH.
  - cbn [wf_ty] in Hwf. apply andb_prop in Hwf as [_ Hwf]. rewrite forallb_forall in Hwf. apply Hwf. eapply nth_error_In. exact Hn.
  - exact (wf_sub _ _ _ _ Hwf Hi).
Qed.
Lemma in_assoc_fun (d : fields) k x y : NoDup (map fst d) -> In (k, x) d -> In (k, y) d -> x = y.
Proof.
  induction d as [|[a z] d IH]; intros Hn Hx Hy; [destruct Hx|]. cbn [map fst] in Hn. inversion Hn as [|? ? Hni Hn']; subst. destruct Hx as [Hx|Hx], Hy as [Hy|Hy]; [congruence| | |auto]; exfalso; apply Hni; apply in_map_iff.
  - injection Hx as -> _. exists (k, y). auto.
  - injection Hy as -> _. exists (k, x). auto.
Qed.
Lemma leads_fun E t v p t1 v1 : leads_to E t v p t1 v1 -> wf_ty t = true -> python_dicts v -> forall t2 v2, leads_to E t v p t2 v2 -> strip t1 = strip t2 /\ v1 = v2.
Proof.
  induction 1 as [t v|t l i x p t' v' Hn H IH|t d k x p t' v' Hn H IH|t v p t' v' Hn H IH|ts i t v p t' v' Hp Hn H IH|c k fs v kvs fi t key x p t' v' Hm Hi Hg H IH|c t v d k x p t' v' Hm Hi H IH]; intros Hwf Hd t2 v2 H2.
  - apply leads_nil in H2 as [-> ->]; auto.
  - inversion H2 as [|? ? ? y ? ? ? Hn2 H3| | | | |]; subst. rewrite Hn in Hn2. injection Hn2 as <-. apply (IH Hwf); [eapply pd_item; [exact Hd|eapply nth_error_In; exact Hn]|exact H3].
  - inversion H2 as [| |? ? ? y ? ? ? Hn2 H3| | | |]; subst. assert (y = x) by (eapply in_assoc_fun; [exact (Hd _ (w_self _))|exact Hn2|exact Hn]). subst y. apply (IH Hwf); [eapply pd_value; [exact Hd|exact Hn]|exact H3].
  - inversion H2 as [| | |? ? ? ? ? Hn2 H3| | |]; subst.
    + apply leads_nil in H as [-> ->]; auto.
    + apply (IH Hwf Hd). exact H3.
  - inversion H2 as [| | | |? ? t0 ? ? ? ? Hp2 Hn2 H3| |]; subst. rewrite Hn in Hn2. injection Hn2 as <-. apply IH; [|exact Hd|exact H3].
    cbn [wf_ty] in Hwf. apply andb_prop in Hwf as [_ Hwf]. rewrite forallb_forall in Hwf. apply Hwf. eapply nth_error_In. exact Hn.
  - inversion H2 as [| | | | |? ? ? ? kvs2 fi2 t0 ? y ? ? ? Hm2 Hi2 Hg2 H3|]; subst. assert (kvs2 = kvs) by (eapply mapping_fun; eauto). subst kvs2.
    assert (He : (fi2, t0) = (fi, t)) by (apply (keys_owner fs _ _ key (wf_model_keys _ _ _ Hwf) Hi2 Hi); eapply located_in; econstructor; eassumption). injection He as -> ->.
    assert (Hy : y = x) by (apply given_assoc in Hg, Hg2; congruence). subst y. apply IH; [exact (wf_sub _ _ _ _ Hwf Hi)| |exact H3]. eapply pd_mapping; eauto. eapply assoc_In. eapply given_assoc. exact Hg.
  - inversion H2 as [| | | | | |? ? ? d2 ? y ? ? ? Hm2 Hi2 H3]; subst. assert (d2 = d) by (eapply entries_fun; eauto). subst d2.
    assert (y = x) by (eapply in_assoc_fun; [eapply entries_nodup; eauto|exact Hi2|exact Hi]). subst y. apply (IH Hwf); [eapply pd_entries; eauto|exact H3].
Qed.
Lemma sooner_irrefl t v s : wf_ty t = true -> python_dicts v -> ~ sooner t v s s.
Proof. intros Hwf Hd H. exact (sooner_asym _ _ _ _ Hwf Hd H H). Qed.
(** Two different ways to part are the same. *)
Lemma part_same {A} (r1 r2 : list A) a1 b1 a2 b2 p1 p2 q1 q2 : r1 ++ a1 :: p1 = r2 ++ a2 :: p2 -> r1 ++ b1 :: q1 = r2 ++ b2 :: q2 -> a1 <> b1 -> a2 <> b2 -> r1 = r2 /\ a1 = a2 /\ b1 = b2.
Proof.
  revert r2. induction r1 as [|x r1 IH]; intros [|y r2] Ha Hb N1 N2; cbn [app] in *.
  - injection Ha as -> _. injection Hb as -> _. auto.
  - injection Ha as -> _. injection Hb as -> _. contradiction.
  - injection Ha as <- _. injection Hb as <- _. contradiction.
  - injection Ha as -> Ha. injection Hb as Hb. destruct (IH r2 Ha Hb N1 N2) as (-> & -> & ->). auto.
Qed.
Lemma before_asym E t v p q : wf_ty t = true -> python_dicts v -> before E t v p q -> ~ before E t v q p.
Proof.
  intros Hwf Hd (r & s & p' & s' & q' & t1 & v1 & -> & -> & L1 & S1) (r2 & s2 & p2 & s2' & q2 & t2 & v2 & Hq & Hp & L2 & S2).
  assert (W1 := leads_wf _ _ _ _ _ _ L1 Hwf). assert (W2 := leads_wf _ _ _ _ _ _ L2 Hwf). destruct (leads_found _ _ _ _ _ _ L1 Hd) as [_ D1]. destruct (leads_found _ _ _ _ _ _ L2 Hd) as [_ D2].
  assert (N1 : s <> s') by (intros ->; exact (sooner_irrefl _ _ _ W1 D1 S1)). assert (N2 : s2' <> s2) by (intros ->; exact (sooner_irrefl _ _ _ W2 D2 S2)).
  destruct (part_same _ _ _ _ _ _ _ _ _ _ Hp Hq N1 N2) as (-> & -> & ->). destruct (leads_fun _ _ _ _ _ _ L1 Hwf Hd _ _ L2) as [Ht ->].
  rewrite (sooner_strip _ _ _ _ S1), (sooner_strip _ _ _ _ S2) in Ht. subst t2. exact (sooner_asym _ _ _ _ W1 D1 S1 S2).
Qed.
Lemma ordered_unique {A} (R : A -> A -> Prop) : (forall x y, R x y -> ~ R y x) -> forall l1 l2, ForallOrdPairs R l1 -> ForallOrdPairs R l2 -> (forall x, In x l1 <-> In x l2) -> l1 = l2.
Proof.
  intros Hasym. induction l1 as [|x l1 IH]; intros [|y l2] H1 H2 Hin.
  - reflexivity.
  - destruct (proj2 (Hin y) (or_introl eq_refl)).
  - destruct (proj1 (Hin x) (or_introl eq_refl)).
  - inversion H1 as [|? ? F1 O1]; subst. inversion H2 as [|? ? F2 O2]; subst. rewrite Forall_forall in F1, F2.
    assert (x = y). { destruct (proj1 (Hin x) (or_introl eq_refl)) as [->|Hx]; [reflexivity|]. destruct (proj2 (Hin y) (or_introl eq_refl)) as [->|Hy]; [reflexivity|]. destruct (Hasym x y); auto. } subst y.
    f_equal. apply IH; auto. intros z. split; intros Hz.
    + destruct (proj1 (Hin z) (or_intror Hz)) as [<-|H]; [|exact H]. assert (Hr := F1 _ Hz). destruct (Hasym _ _ Hr Hr).
    + destruct (proj2 (Hin z) (or_intror Hz)) as [<-|H]; [|exact H]. assert (Hr := F2 _ Hz). destruct (Hasym _ _ Hr Hr).
Qed.

(** ** C88 *)
(** The errors are listed in the order in which the parts of the value are looked at. *)
Theorem c88_order E t v l1 p why l2 q why' l3 : In t all_types -> report E t v = l1 ++ (p, why) :: l2 ++ (q, why') :: l3 -> before E t v p q.
Proof.
  intros Ht He. assert (H := order_report E t (table_report_ok _ Ht) v). rewrite He in H. clear He. induction l1 as [|e l1 IH]; cbn [app] in H; inversion H as [|? ? F O]; subst; [|auto].
  rewrite Forall_forall in F. apply (F (q, why')). apply in_or_app. right. left. reflexivity.
Qed.
(** No location is the beginning of another one. *)
Theorem c88_apart E t v l1 p why l2 q why' l3 r : In t all_types -> python_dicts v -> report E t v = l1 ++ (p, why) :: l2 ++ (q, why') :: l3 -> q <> p ++ r /\ p <> q ++ r.
Proof.
  intros Ht Hd He. destruct (c88_order _ _ _ _ _ _ _ _ _ _ Ht He) as (r0 & s & p' & s' & q' & t' & v' & -> & -> & HL & HS).
  destruct (leads_found _ _ _ _ _ _ HL Hd) as [_ D']. assert (N : s <> s') by (intros ->; exact (sooner_irrefl _ _ _ (leads_wf _ _ _ _ _ _ HL (wf_all _ Ht)) D' HS)).
  rewrite <- !app_assoc. cbn [app]. split; intros Hx; apply app_inv_head in Hx; injection Hx as Hx _; congruence.
Qed.
(** The order is a matter of the value and its class alone: exactly one list has all the faults in this order, and it is the one reported. *)
Theorem c88_determined E t v l : In t all_types -> python_dicts v ->
  (l = report E t v <-> (forall p why, In (p, why) l <-> fault E t v p why) /\ in_order E t v l).
Proof.
  intros Ht Hd. assert (Ho := order_report E t (table_report_ok _ Ht) v). split.
  - intros ->. split; [|exact Ho]. intros p why. apply c78_exactly_the_faults. exact Ht.
  - intros [Hin Hord]. refine (ordered_unique _ _ _ _ Hord Ho _).
    + intros x y. apply before_asym; [apply wf_all; exact Ht|exact Hd].
    + intros [p why]. rewrite Hin. symmetry. apply c78_exactly_the_faults. exact Ht.
Qed.
Local Open Scope string_scope.
(** A server without protocol, with a bad host, a bad tag and two bad variables; the class declares host, protocol, variables, tags in this order. *)
Definition serverO : pv := obj [("variables", obj [("z", VInt 1); ("a", obj [("enum", VInt 2)])]); ("tags", VList [VInt 1]); ("host", VInt 3)].
Example c88_ex : let k s := AtKey (u s) in map fst (report E0 T_Server serverO) =
  [[k "host"]; [k "protocol"];
   [k "variables"; k "z"; AtMember 0]; [k "variables"; k "z"; AtMember 1];
   [k "variables"; k "a"; AtMember 0; k "enum"]; [k "variables"; k "a"; AtMember 1; k "$ref"]; [k "variables"; k "a"; AtMember 1; k "enum"];
   [k "tags"; AtIndex 0; AtMember 0]; [k "tags"; AtIndex 0; AtMember 1]].
Proof. vm_compute. reflexivity. Qed.
Print Assumptions c88_order. Print Assumptions c88_apart. Print Assumptions c88_determined.
