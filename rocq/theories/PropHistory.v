(** Property C89: a document stays valid over histories of edits. *)
From Verif Require Import PyStr Regex Value Types Rules Pydantic ClassTable Classes Canon Fix Linked SpecParse Sample ProofRules ProofParse
  State SpecState ProofState PropState Resolve SpecResolve ProofResolve PropResolve Unified SpecUnified ProofUnified ProofCheck PropUnified
  ProofDump Validators SpecValidators ProofValidators PropValidators Pipeline SpecPipeline PropPipeline Dump SpecDump PropDump SpecDeep PropDeep SpecAssign PropAssign SpecHistory.
Local Open Scope string_scope.

Definition node (free : bool) (E : env) (x : pv) : Prop :=
  match x with VObj c fv ex => object_but free E c fv ex | VRoot c d => map_valid E c d | _ => True end.
Lemma but_closed free E : closed (valid_but free E).
Proof. exact (within_closed (fun x _ => node free E x)). Qed.
Lemma but_sub free E v x : valid_but free E v -> within x v -> valid_but free E x.
Proof. intros H Hx y Hy. apply H. eapply within_trans; eauto. Qed.
Lemma but_list free E l : (forall x, In x l -> valid_but free E x) -> valid_but free E (VList l).
Proof. intros H x Hx. inversion Hx as [|l0 y Hi Hw| | | |]; subst; [exact I|]. exact (H y Hi x Hw). Qed.
Lemma but_dict free E d : (forall k x, In (k, x) d -> valid_but free E x) -> valid_but free E (VDict d).
Proof. intros H x Hx. inversion Hx as [| |d0 k y Hi Hw| | |]; subst; [exact I|]. exact (H k y Hi x Hw). Qed.
Lemma but_root free E c d : map_valid E c d -> (forall k x, In (k, x) d -> valid_but free E x) -> valid_but free E (VRoot c d).
Proof. intros Hm H x Hx. inversion Hx as [| | | | |c0 d0 k y Hi Hw]; subst; [exact Hm|]. exact (H k y Hi x Hw). Qed.
Lemma but_obj free E c fv ex : object_but free E c fv ex -> (forall k x, In (k, x) fv -> valid_but free E x) -> (forall k x, In (k, x) ex -> valid_but free E x) ->
  valid_but free E (VObj c fv ex).
Proof. intros Hm H1 H2 x Hx. inversion Hx as [| | |c0 f0 e0 k y Hi Hw|c0 f0 e0 k y Hi Hw|]; subst; [exact Hm|exact (H1 k y Hi x Hw)|exact (H2 k y Hi x Hw)]. Qed.

(** Validation yields valid values from valid data. *)
Lemma parse_but free E t v o : linked t = true -> wf_ty t = true -> valid_but free E v -> parse E t v = Some o -> valid_but free E o.
Proof.
  intros Hl Hw Hv Hp. apply parse_some in Hp as [n Hp].
  assert (Hc := validate_canon (valid_but free E) (valid_but free E) E t (but_closed free E) (fun _ h => h) Hw _ _ _ Hv Hp).
  intros x Hx. destruct x as [| | | | | | | |c fv ex|c d| |]; try exact I.
  - destruct (canon_within _ _ _ Hl Hw _ Hc _ Hx I) as [(t' & Hm & Hl' & Hw' & Hc')|(a & Ha & Hi)]; [|exact (Ha _ Hi)].
    destruct t' as [| | | | | | | | | | | | |c' k fs|c' t']; try contradiction; [|cbn [canon] in Hc'; destruct Hc' as (? & He & _); discriminate He].
    assert (Hwt := canon_wt _ _ _ Hw' _ Hc'). cbn [canon] in Hc'. destruct Hc' as (fv' & ex' & Heq & _ & _ & Hok). injection Heq as -> <- <-.
    cbn [well_typed] in Hwt. destruct Hwt as (fv' & ex' & Heq & Hwt & _). injection Heq as <- <-.
    exists k, fs. split; [apply linked_in_table; exact Hl'|]. split; [exact Hwt|]. split; [|eapply extras_valid_canon; eauto].
    intros _. unfold after_ok in Hok. apply andb_prop in Hok as [_ Hok]. apply hook_iff. exact Hok.
  - destruct (canon_within _ _ _ Hl Hw _ Hc _ Hx I) as [(t' & Hm & Hl' & Hw' & Hc')|(a & Ha & Hi)]; [|exact (Ha _ Hi)].
    destruct t' as [| | | | | | | | | | | | |c' k fs|c' t']; try contradiction; cbn [canon] in Hc'; [destruct Hc' as (? & ? & He & _); discriminate He|].
    destruct Hc' as (d' & He & Hd & Hk). injection He as -> <-.
    exists t'. split; [apply find_root_In; apply linked_root; exact Hl'|]. intros key y Hi. split.
    + unfold root_keys_ok in Hk. rewrite forallb_forall in Hk. apply patterned_key_iff. exact (Hk _ Hi).
    + rewrite Forall_forall in Hd. eapply canon_wt; [exact Hw'|exact (Hd _ Hi)].
Qed.

(** An object of a class fits wherever another object of the class does. *)
Lemma but_model free E c k fs fv ex : In (TModel c k fs) all_types -> object_but free E c fv ex ->
  wt_fields E (well_typed E) fs fv /\ (c <> "OAuthFlows" \/ free = false -> cross_field_spec c fv) /\ extras_valid E k fs ex.
Proof.
  intros Ht (k' & fs' & Ht' & Hr). assert (H1 := linked_class _ _ _ (linked_all _ Ht)). assert (H2 := linked_class _ _ _ (linked_all _ Ht')).
  rewrite H1 in H2. injection H2 as <- <-. exact Hr.
Qed.
Lemma but_typed free E c k fs fv ex : In (TModel c k fs) all_types -> object_but free E c fv ex -> well_typed E (TModel c k fs) (VObj c fv ex).
Proof.
  intros Ht Hb. destruct (but_model _ _ _ _ _ _ _ Ht Hb) as (Hwt & _ & Hx). cbn [well_typed]. exists fv, ex. split; [reflexivity|]. split; [exact Hwt|].
  split; intros ->; cbn [extras_valid] in Hx; [exact Hx|]. intros fi t' Hi Hn. destruct (Hx _ Hn) as [_ Hd]. apply Hd. exists fi, t'. auto.
Qed.
(** [o'] may stand where [o] stood: same class. *)
Inductive alike : pv -> pv -> Prop :=
| al_obj c fv ex fv' ex' : alike (VObj c fv ex) (VObj c fv' ex')
| al_root c d d' : alike (VRoot c d) (VRoot c d').
Lemma alike_typed free E t : linked t = true -> forall o o', alike o o' -> node free E o' -> well_typed E t o -> well_typed E t o'.
Proof.
  induction t using ty_ind'; intros Hl o o' Ha Hn Ho; cbn [well_typed] in Ho |- *;
    try (destruct Ho as (s & -> & _); inversion Ha; fail); try (destruct Ho as (s & ->); inversion Ha; fail); try (destruct Ho as (s & s0 & -> & _); inversion Ha; fail).
  - exact I.
  - destruct Ho as [->|Ho]; [inversion Ha|]. right. eapply IHt; eauto.
  - cbn [linked] in Hl. rewrite forallb_forall in Hl. rewrite Forall_forall in H. induction ts as [|t ts IH]; cbn [wt_one] in *; [exact Ho|]. destruct Ho as [Ho|Ho].
    + left. eapply (H t); eauto; [left; reflexivity|apply Hl; left; reflexivity].
    + right. apply IH; auto; intros; [eapply H; eauto; right; assumption|apply Hl; right; assumption].
  - destruct Ho as (fv & ex & -> & _). inversion Ha; subst. exact (but_typed free E c k fs fv' ex' (linked_in_table _ _ _ Hl) Hn).
  - destruct Ho as (d & -> & _). inversion Ha; subst. cbn [node] in Hn. destruct Hn as (t' & Ht' & Hd). assert (H1 := linked_root _ _ Hl). assert (H2 := linked_root _ _ (linked_all _ Ht')).
    rewrite H1 in H2. injection H2 as <-. exists d'. split; [reflexivity|]. apply Forall_forall. intros [k x] Hi. exact (proj2 (Hd k x Hi)).
Qed.

(** Only the edited object matters to [at_path]. *)
Lemma at_path_at f g : forall p v o, get_path p v = Some o -> f o = g o -> at_path p f v = at_path p g v.
Proof.
  assert (Hk : forall F G k d x, assoc k d = Some x -> F x = G x -> upd_key F k d = upd_key G k d).
  { intros F G k. induction d as [|[k' y] d IH]; intros x Hx Hf; cbn [assoc upd_key] in *; [discriminate Hx|].
    destruct (str_eqb k k'); [injection Hx as ->; rewrite Hf; reflexivity|]. rewrite (IH x Hx Hf). reflexivity. }
  assert (Hi : forall F G l i x, nth_error l i = Some x -> F x = G x -> upd_idx F i l = upd_idx G i l).
  { intros F G. induction l as [|y l IH]; intros [|i] x Hx Hf; cbn [nth_error upd_idx] in *; try discriminate Hx; [injection Hx as ->; rewrite Hf; reflexivity|]. rewrite (IH i x Hx Hf). reflexivity. }
  induction p as [|s p IH]; intros v o Hg Hf; cbn [get_path at_path] in *; [injection Hg as ->; rewrite Hf; reflexivity|].
  destruct s, v; try reflexivity; try discriminate Hg;
    (destruct (assoc _ _) eqn:Ea in Hg || destruct (nth_error _ _) eqn:Ea in Hg; try discriminate Hg);
    (erewrite Hk; [reflexivity|exact Ea|exact (IH _ _ Hg Hf)]) || (erewrite Hi; [reflexivity|exact Ea|exact (IH _ _ Hg Hf)]).
Qed.
Lemma at_path_typed free E p t v o o' b v' : linked t = true -> wf_ty t = true -> get_path p v = Some o -> alike o o' -> node free E o' ->
  at_path p (fun _ => (true, o')) v = Some (b, v') -> well_typed E t v -> well_typed E t v' /\ forall fvl, field_rule E fvl v -> field_rule E fvl v'.
Proof.
  intros Hl Hw Hg Ha Hn Hp Hv.
  set (f := fun x => (true, match x, o' with VObj c _ _, VObj c' _ _ => if String.eqb c c' then o' else x | VRoot c _, VRoot c' _ => if String.eqb c c' then o' else x | _, _ => x end)).
  assert (Hf : f o = (true, o')). { unfold f. inversion Ha; subst; rewrite String.eqb_refl; reflexivity. }
  rewrite (at_path_at _ f p v o Hg (eq_sym Hf)) in Hp. refine (at_path_keeps E (fun _ => True) f _ _ p t v b v' Hl Hw Hv (fun _ _ => I) Hp).
  - intros x. unfold f. destruct x; try reflexivity; cbn [snd]; destruct o'; eauto; destruct (String.eqb c c0); eauto.
  - intros t0 x Hl0 Hw0 Hx _. unfold f. cbn [snd]. destruct x; try exact Hx; destruct o'; try exact Hx; (destruct (String.eqb c c0) eqn:Ec; [|exact Hx]); apply String.eqb_eq in Ec; subst c0;
      (eapply alike_typed; [exact Hl0| |exact Hn|exact Hx]; constructor).
Qed.

(** What an edit deep inside a field leaves of the field, as far as rules relating fields look. *)
Definition container (v : pv) : Prop := match v with VList _ | VDict _ | VObj _ _ _ | VRoot _ _ => True | _ => False end.
Definition near (z z' : pv) : Prop := z = z' \/ (container z /\ container z').
Lemma near_present z z' : near z z' -> present z -> present z'.
Proof. intros [->|[_ H]] Hp; [exact Hp|]. intros ->. exact H. Qed.
Lemma near_sym z z' : near z z' -> near z' z.
Proof. intros [->|[H1 H2]]; [left; reflexivity|right; auto]. Qed.
Lemma near_none z z' : near z z' -> z = VNone -> z' = VNone.
Proof. intros [->|[H _]] Hz; [exact Hz|]. subst z. destruct H. Qed.
Lemma near_str z z' s : near z z' -> z = VStr s -> z' = VStr s.
Proof. intros [->|[H _]] Hz; [exact Hz|]. subst z. destruct H. Qed.
Lemma near_in z z' l : near z z' -> (forall x, In x l -> exists s, x = S_ s) -> In z l -> In z' l.
Proof. intros [->|[H _]] Hl Hz; [exact Hz|]. destruct (Hl _ Hz) as (s & ->). destruct H. Qed.
Definition near_fields (fv fv' : fields) : Prop := forall n, near (attr n fv) (attr n fv').
Lemma near_get fv fv' n : near_fields fv fv' -> near (get n fv) (get n fv').
Proof. intros H. apply H. Qed.
Lemma cross_near c fv fv' : near_fields fv fv' ->
  (c = "OAuthFlows" -> forall n m, present (get_in m (get n fv)) -> present (get_in m (get n fv'))) -> cross_field_spec c fv -> cross_field_spec c fv'.
Proof.
  intros Hn Ho (H1 & H2 & H3 & H4 & H5 & H6 & H7 & H8 & H9). 
  assert (P : forall n, present (get n fv) -> present (get n fv')) by (intros n; apply near_present, near_get, Hn).
  assert (P' : forall n, present (get n fv') -> present (get n fv)) by (intros n; apply near_present, near_sym, near_get, Hn).
  assert (S : forall n s, get n fv = S_ s -> get n fv' = S_ s) by (intros n s; apply near_str, near_get, Hn).
  assert (S' : forall n s, get n fv' = S_ s -> get n fv = S_ s) by (intros n s; apply near_str, near_sym, near_get, Hn).
  assert (N : forall n, get n fv = VNone -> get n fv' = VNone) by (intros n; apply near_none, near_get, Hn).
  assert (L : forall n a b, In (get n fv) [S_ a; S_ b] -> In (get n fv') [S_ a; S_ b]).
  { intros n a b. apply near_in; [apply near_get, Hn|]. intros x [<-|[<-|[]]]; eauto. }
  assert (L' : forall n a b, In (get n fv') [S_ a; S_ b] -> In (get n fv) [S_ a; S_ b]).
  { intros n a b. apply near_in; [apply near_sym, near_get, Hn|]. intros x [<-|[<-|[]]]; eauto. }
  assert (L3 : forall n a b e, In (get n fv) [S_ a; S_ b; S_ e] -> In (get n fv') [S_ a; S_ b; S_ e]).
  { intros n a b e. apply near_in; [apply near_get, Hn|]. intros x [<-|[<-|[<-|[]]]]; eauto. }
  assert (A : forall n a, get n fv = VStr a -> get n fv' = VStr a) by (intros n a; apply near_str, near_get, Hn).
  clear Hn. split; [|split; [|split; [|split; [|split; [|split; [|split; [|split]]]]]]]; intros Hc.
  - specialize (H1 Hc). unfold channel_spec in *. intros Hp. destruct (H1 (P' _ Hp)) as (a & Hg & Ha). exists a. split; [apply A; exact Hg|exact Ha].
  - specialize (H2 Hc). unfold example_spec in *. destruct H2 as [H2|H2]; [left|right]; apply P; exact H2.
  - specialize (H3 Hc). specialize (Ho Hc). unfold oauth_flows_spec in *. destruct H3 as (A1 & A2 & A3 & A4).
    split; [|split; [|split]]; intros Hp; apply P' in Hp; [apply Ho; apply A1; exact Hp|apply Ho; apply A2; exact Hp|apply Ho; apply A3; exact Hp|]. destruct (A4 Hp) as [B1 B2]. split; apply Ho; assumption.
  - specialize (H4 Hc). unfold security_spec in *. cbv zeta in *. destruct H4 as (A1 & A2 & A3 & A4 & A5 & A6 & A7).
    split; [|split; [|split; [|split; [|split; [|split]]]]].
    + intros Hx. apply L. apply A1. apply S'. exact Hx.
    + intros Hx. destruct (A2 (S' _ _ Hx)) as [B1 B2]. split; [apply P; exact B1|apply L3; exact B2].
    + intros Hx. apply P, A3, S'. exact Hx.
    + intros Hx. destruct (A4 (P' _ Hx)) as [B1 B2]. split; apply S; assumption.
    + intros Hx. apply P, A5, S'. exact Hx.
    + intros Hx. apply P, A6, S'. exact Hx.
    + intros Hx. destruct (A7 (P' _ Hx)) as [B|B]; [left|right]; apply S; exact B.
  - specialize (H5 Hc). unfold amqp_channel_spec in *. destruct H5 as [A1 A2].
    split; intros Hx; [destruct (A1 (S' _ _ Hx)) as [B1 B2]|destruct (A2 (S' _ _ Hx)) as [B1 B2]]; (split; [apply P; exact B1|apply N; exact B2]).
  - specialize (H6 Hc). unfold ibmmq_channel_spec in *. destruct H6 as [A1 A2]. split; [intros [B1 B2]; apply A1; split; apply P'; assumption|]. intros Hx. apply P, A2, S'. exact Hx.
  - specialize (H7 Hc). unfold ibmmq_message_spec in *. intros Hx. apply N, H7, L'. exact Hx.
  - specialize (H8 Hc). unfold kafka_server_spec in *. intros Hx. apply P, H8, P'. exact Hx.
  - specialize (H9 Hc). unfold solace_destination_spec in *. destruct H9 as [A1 A2].
    split; intros Hx; [destruct (A1 (S' _ _ Hx)) as [B1 B2]|destruct (A2 (S' _ _ Hx)) as [B1 B2]]; (split; [apply P; exact B1|apply N; exact B2]).
Qed.
Lemma upd_attr (R0 : pv -> pv -> Prop) (Hr : forall z, R0 z z) n x x' : R0 x x' -> forall d1 d2 m, R0 (attr m (d1 ++ (n, x) :: d2)%list) (attr m (d1 ++ (n, x') :: d2)%list).
Proof.
  intros Hx. unfold attr. induction d1 as [|[k y] d1 IH]; intros d2 m; cbn [app assoc].
  - destruct (str_eqb m n); [exact Hx|]. apply Hr.
  - destruct (str_eqb m k); [apply Hr|]. apply IH.
Qed.
Lemma at_path_near p : forall v o o' b v', alike o o' -> get_path p v = Some o -> at_path p (fun _ => (true, o')) v = Some (b, v') ->
  container v /\ container v' /\ (p <> [] -> forall c fv ex, v = VObj c fv ex -> exists fv' ex', v' = VObj c fv' ex' /\ near_fields fv fv').
Proof.
  induction p as [|s p IH]; intros v o o' b v' Ha Hg Hp; cbn [get_path at_path] in *.
  - injection Hg as ->. injection Hp as _ <-. inversion Ha; subst; repeat split; intros Hq; destruct (Hq eq_refl).
  - assert (Hobj : container v /\ container v').
    { destruct s, v; try discriminate Hp; cbn [option_map] in Hp;
        match type of Hp with option_map _ ?X = _ => destruct X as [[b0 d0]|]; [|discriminate Hp] end; injection Hp as _ <-; split; exact I. }
    split; [exact (proj1 Hobj)|]. split; [exact (proj2 Hobj)|]. intros _ c fv ex ->. clear Hobj. destruct s; try discriminate Hp.
    + destruct (assoc f fv) as [x|] eqn:Ea; [|discriminate Hg]. destruct (upd_key _ f fv) as [[b0 d0]|] eqn:Eu; [|discriminate Hp]. injection Hp as -> <-.
      apply upd_key_spec in Eu as (d1 & y & d2 & y' & -> & -> & Hy & Ha'). rewrite Ea in Ha'. injection Ha' as <-. eexists _, _. split; [reflexivity|]. cbn [snd].
      intros m. apply (upd_attr near); [intros z; left; reflexivity|]. right. destruct (IH _ _ _ _ _ Ha Hg Hy) as (H1 & H2 & _). auto.
    + destruct (upd_key _ k ex) as [[b0 d0]|] eqn:Eu; [|discriminate Hp]. injection Hp as -> <-. eexists _, _. split; [reflexivity|]. intros m. left. reflexivity.
Qed.
Lemma flows_fields : exists k fs, find_class "OAuthFlows" all_types = Some (k, fs) /\ Forall (fun ft => exists k' fs', snd ft = TOpt (TModel "OAuthFlow" k' fs')) fs.
Proof. eexists _, _. split; [vm_compute; reflexivity|]. repeat (apply Forall_cons; [eexists _, _; reflexivity|]); apply Forall_nil. Qed.
Lemma wt_fields_each E fs : forall fv k x, wt_fields E (well_typed E) fs fv -> In (k, x) fv -> exists fi t, In (fi, t) fs /\ k = f_name fi /\ well_typed E t x.
Proof.
  induction fs as [|[fi t] fs IH]; intros [|[k0 y] fv] k x H Hi; cbn [wt_fields] in H; try contradiction. destruct H as (Hk & Hw & _ & H). destruct Hi as [Hi|Hi].
  - injection Hi as -> ->. exists fi, t. split; [left; reflexivity|auto].
  - destruct (IH _ _ _ H Hi) as (gi & s & H1 & H2). exists gi, s. split; [right; exact H1|exact H2].
Qed.
Lemma at_mid {A} (l1 : list A) x l2 y : In y (l1 ++ x :: l2)%list -> y = x \/ forall x', In y (l1 ++ x' :: l2)%list.
Proof. intros H. apply in_app_or in H as [H|[H|H]]; [right; intros x'; apply in_or_app; left; exact H|left; auto|right; intros x'; apply in_or_app; right; right; exact H]. Qed.

(** An edit inside a valid value that leaves the edited object valid leaves the whole valid. *)
Lemma keep_valid free E : forall p v o o' v', valid_but free E v -> get_path p v = Some o -> alike o o' -> valid_but free E o' ->
  (free = false -> forall fv ex, o <> VObj "OAuthFlow" fv ex) -> at_path p (fun _ => (true, o')) v = Some (true, v') -> valid_but free E v'.
Proof.
  induction p as [|s p IH]; intros v o o' v' Hv Hg Ha Ho Hflow Hp.
  - cbn [at_path] in Hp. injection Hp as <-. exact Ho.
  - assert (Hno : node free E o') by (apply Ho; apply w_self).
    assert (Hself : node free E v) by (apply Hv; apply w_self). destruct s, v as [| | | | | |l|d|c fv ex|c d| |]; try discriminate Hp; cbn [get_path at_path] in Hg, Hp.
    + destruct (assoc f fv) as [x|] eqn:Ea; [|discriminate Hg]. destruct (upd_key _ f fv) as [[b0 d0]|] eqn:Eu; [|discriminate Hp]. injection Hp as -> <-. cbn [snd].
      apply upd_key_spec in Eu as (d1 & y & d2 & x' & -> & -> & Hx' & Ha'). rewrite Ea in Ha'. injection Ha' as <-.
      assert (Hin : In (f, x) (d1 ++ (f, x) :: d2)%list) by (apply in_elt).
      assert (Hvx : valid_but free E x) by (eapply but_sub; [exact Hv|]; eapply w_field; [exact Hin|apply w_self]).
      assert (Hvx' := IH _ _ _ _ Hvx Hg Ha Ho Hflow Hx').
      apply but_obj.
      * cbn [node] in Hself. destruct Hself as (k & fs & Ht & Hwt & Hc & Hx). exists k, fs. split; [exact Ht|].
        assert (Hl := linked_all _ Ht). assert (Hw := wf_all _ Ht). split; [|split; [|exact Hx]].
        -- eapply wt_fields_upd; [exact Hwt|]. intros fi t Hi Hwx Hr.
           destruct (at_path_typed free E p t x o o' _ _ (linked_sub _ _ _ _ Hl Hi) (wf_sub _ _ _ _ Hw Hi) Hg Ha Hno Hx' Hwx) as [H1 H2]. split; [exact H1|apply H2; exact Hr].
        -- intros Hfree. destruct (at_path_near p _ _ _ _ _ Ha Hg Hx') as (C1 & C2 & C3). apply (cross_near c (d1 ++ (f, x) :: d2)%list); [| |apply Hc; exact Hfree].
           ++ intros m. apply (upd_attr near); [intros z; left; reflexivity|right; auto].
           ++ intros -> n m. destruct Hfree as [Hfree|Hfree]; [destruct (Hfree eq_refl)|]. unfold get.
              apply (upd_attr (fun z z' => present (get_in m z) -> present (get_in m z'))); [auto|].
              destruct flows_fields as (k0 & fs0 & Hf0 & Hall). apply linked_class in Hl. rewrite Hf0 in Hl. injection Hl as -> ->.
              destruct (wt_fields_each _ _ _ _ _ Hwt Hin) as (fi & t & Hi & _ & Hwx). rewrite Forall_forall in Hall. destruct (Hall _ Hi) as (k1 & fs1 & Ht1). cbn [snd] in Ht1. subst t.
              cbn [well_typed] in Hwx. destruct Hwx as [->|(f1 & e1 & -> & _)]; [intros Hpr; destruct (Hpr eq_refl)|].
              destruct p as [|s p]; [cbn [get_path] in Hg; injection Hg as <-; destruct (Hflow Hfree f1 e1 eq_refl)|].
              destruct (C3 ltac:(discriminate) _ _ _ eq_refl) as (f2 & e2 & -> & Hn). cbn [get_in]. apply near_present. apply near_get. exact Hn.
      * intros k0 x0 Hi. apply at_mid in Hi as [Hi|Hi]; [injection Hi as -> ->; exact Hvx'|]. eapply but_sub; [exact Hv|]. eapply w_field; [exact (Hi _)|apply w_self].
      * intros k0 x0 Hi. eapply but_sub; [exact Hv|]. eapply w_extra; [exact Hi|apply w_self].
    + destruct (assoc k ex) as [x|] eqn:Ea; [|discriminate Hg]. destruct (upd_key _ k ex) as [[b0 d0]|] eqn:Eu; [|discriminate Hp]. injection Hp as -> <-. cbn [snd].
      apply upd_key_spec in Eu as (d1 & y & d2 & x' & -> & -> & Hx' & Ha'). rewrite Ea in Ha'. injection Ha' as <-.
      assert (Hin : In (k, x) (d1 ++ (k, x) :: d2)%list) by (apply in_elt).
      assert (Hvx : valid_but free E x) by (eapply but_sub; [exact Hv|]; eapply w_extra; [exact Hin|apply w_self]).
      assert (Hvx' := IH _ _ _ _ Hvx Hg Ha Ho Hflow Hx').
      apply but_obj.
      * cbn [node] in Hself. destruct Hself as (k0 & fs & Ht & Hwt & Hc & Hx). exists k0, fs. split; [exact Ht|]. split; [exact Hwt|]. split; [exact Hc|].
        destruct k0; cbn [extras_valid] in *; [|destruct d1; discriminate Hx|exact I]. intros key Hk. apply Hx. rewrite map_app in *. exact Hk.
      * intros k0 x0 Hi. eapply but_sub; [exact Hv|]. eapply w_field; [exact Hi|apply w_self].
      * intros k0 x0 Hi. apply at_mid in Hi as [Hi|Hi]; [injection Hi as -> ->; exact Hvx'|]. eapply but_sub; [exact Hv|]. eapply w_extra; [exact (Hi _)|apply w_self].
    + destruct (assoc k d) as [x|] eqn:Ea; [|discriminate Hg]. destruct (upd_key _ k d) as [[b0 d0]|] eqn:Eu; [|discriminate Hp]. injection Hp as -> <-. cbn [snd].
      apply upd_key_spec in Eu as (d1 & y & d2 & x' & -> & -> & Hx' & Ha'). rewrite Ea in Ha'. injection Ha' as <-.
      assert (Hin : In (k, x) (d1 ++ (k, x) :: d2)%list) by (apply in_elt).
      assert (Hvx : valid_but free E x) by (eapply but_sub; [exact Hv|]; eapply w_dict; [exact Hin|apply w_self]).
      assert (Hvx' := IH _ _ _ _ Hvx Hg Ha Ho Hflow Hx').
      apply but_dict. intros k0 x0 Hi. apply at_mid in Hi as [Hi|Hi]; [injection Hi as -> ->; exact Hvx'|]. eapply but_sub; [exact Hv|]. eapply w_dict; [exact (Hi _)|apply w_self].
    + destruct (assoc k d) as [x|] eqn:Ea; [|discriminate Hg]. destruct (upd_key _ k d) as [[b0 d0]|] eqn:Eu; [|discriminate Hp]. injection Hp as -> <-. cbn [snd].
      apply upd_key_spec in Eu as (d1 & y & d2 & x' & -> & -> & Hx' & Ha'). rewrite Ea in Ha'. injection Ha' as <-.
      assert (Hin : In (k, x) (d1 ++ (k, x) :: d2)%list) by (apply in_elt).
      assert (Hvx : valid_but free E x) by (eapply but_sub; [exact Hv|]; eapply w_root; [exact Hin|apply w_self]).
      assert (Hvx' := IH _ _ _ _ Hvx Hg Ha Ho Hflow Hx').
      apply but_root.
      * cbn [node] in Hself. destruct Hself as (t & Ht & Hd). exists t. split; [exact Ht|]. intros key z Hi. assert (Hwt : wf_ty t = true) by exact (wf_all _ Ht).
        apply at_mid in Hi as [Hi|Hi]; [|exact (Hd _ _ (Hi _))]. injection Hi as -> ->. destruct (Hd _ _ Hin) as [H1 H2]. split; [exact H1|].
        exact (proj1 (at_path_typed free E p t x o o' _ _ (linked_root_sub _ _ (linked_all _ Ht)) Hwt Hg Ha Hno Hx' H2)).
      * intros k0 x0 Hi. apply at_mid in Hi as [Hi|Hi]; [injection Hi as -> ->; exact Hvx'|]. eapply but_sub; [exact Hv|]. eapply w_root; [exact (Hi _)|apply w_self].
    + destruct (nth_error l i) as [x|] eqn:Ea; [|discriminate Hg]. destruct (upd_idx _ i l) as [[b0 d0]|] eqn:Eu; [|discriminate Hp]. injection Hp as -> <-. cbn [snd].
      apply upd_idx_spec in Eu as (d1 & y & d2 & x' & -> & -> & Hx' & Ha'). rewrite Ea in Ha'. injection Ha' as <-.
      assert (Hin : In x (d1 ++ x :: d2)%list) by (apply in_elt).
      assert (Hvx : valid_but free E x) by (eapply but_sub; [exact Hv|]; eapply w_list; [exact Hin|apply w_self]).
      assert (Hvx' := IH _ _ _ _ Hvx Hg Ha Ho Hflow Hx').
      apply but_list. intros x0 Hi. apply at_mid in Hi as [Hi|Hi]; [subst x0; exact Hvx'|]. eapply but_sub; [exact Hv|]. eapply w_list; [exact (Hi _)|apply w_self].
Qed.

(** ** Single edits *)
Lemma inert_keeps E procs : inert procs -> keeps E procs.
Proof. intros H. split; [intros c fv ex; rewrite H; eauto|intros o Ho; rewrite H; exact Ho]. Qed.
Lemma store_contents E procs fs k c fv ex name y o' : inert procs -> store_in E procs fs k c fv ex name y = (true, o') ->
  exists fv' ex', o' = VObj c fv' ex' /\ after_ok E c k fv' ex' = true
    /\ (forall n x, In (n, x) fv' -> x = VNone \/ x = y \/ exists m, In (m, x) fv \/ In (m, x) ex)
    /\ (forall n x, In (n, x) ex' -> x = y \/ exists m, In (m, x) fv \/ In (m, x) ex).
Proof.
  intros Hin. unfold store_in. cbv zeta. set (new := dict_set name y (dict_update fv ex)).
  assert (Hset : forall k v d n x, In (n, x) (dict_set k v d) -> x = v \/ exists m, In (m, x) d).
  { intros k0 v0. induction d as [|[k' v'] d IH]; intros n x H; cbn [dict_set] in H; [destruct H as [H|[]]; injection H as _ <-; left; reflexivity|].
    destruct (str_eqb k0 k').
    - destruct H as [H|H]; [injection H as _ <-; left; reflexivity|right; exists n; right; exact H].
    - destruct H as [H|H]; [injection H as -> ->; right; exists n; left; reflexivity|]. destruct (IH _ _ H) as [->|(m & Hm)]; [left; reflexivity|right; exists m; right; exact Hm]. }
  assert (Hupd : forall e d n x, In (n, x) (dict_update d e) -> exists m, In (m, x) d \/ In (m, x) e).
  { unfold dict_update. induction e as [|[k0 v0] e IH]; intros d n x H; cbn [fold_left] in H; [eauto|]. destruct (IH _ _ _ H) as (m & [Hm|Hm]); [|exists m; right; right; exact Hm].
    destruct (Hset _ _ _ _ _ Hm) as [->|(m' & Hm')]; [exists k0; right; left; reflexivity|exists m'; left; exact Hm']. }
  assert (Hnew : forall n x, In (n, x) new -> x = y \/ exists m, In (m, x) fv \/ In (m, x) ex).
  { intros n x H. destruct (Hset _ _ _ _ _ H) as [->|(m & Hm)]; [left; reflexivity|right; exact (Hupd _ _ _ _ Hm)]. }
  destruct (after_ok E c k _ _) eqn:Eok; [|discriminate]. intros H.
  eexists _, _. split; [|split; [exact Eok|split]].
  - destruct (String.eqb c "AsyncAPI3"); [|injection H as <-; reflexivity]. change o' with (snd (true, o')). rewrite <- H. apply Hin.
  - intros n x Hi. apply in_map_iff in Hi as (ft & Hf & _). injection Hf as _ <-. unfold attr. destruct (assoc _ new) as [z|] eqn:Ez; [|left; reflexivity]. right. apply (Hnew (f_name (fst ft))). apply assoc_In. exact Ez.
  - intros n x Hi. apply filter_In in Hi as [Hi _]. exact (Hnew _ _ Hi).
Qed.
Lemma but_none free E : valid_but free E VNone.
Proof. intros x Hx. apply within_atom in Hx. subst x. exact I. Qed.
Lemma assign_valid free E procs o name x o' : inert procs -> valid_but free E o -> not_shadowed o -> valid_but free E x -> assign E procs o name x = (true, o') ->
  alike o o' /\ valid_but free E o'.
Proof.
  intros Hin Hv Hns Hx Ha. assert (Hself : node free E o) by (apply Hv; apply w_self). destruct o as [| | | | | | | |c fv ex|c d| |]; try discriminate Ha.
  - cbn [node] in Hself. assert (Hs0 := Hself). destruct Hself as (k & fs & Ht & Hwt & Hc & Hxv). assert (Hl := linked_all _ Ht). assert (Hw := wf_all _ Ht).
    assert (Hty := assign_wt E procs _ (inert_keeps E procs Hin) Hl Hw (VObj c fv ex) name x (but_typed free E c k fs fv ex Ht Hs0) Hns). rewrite Ha in Hty. cbn [snd] in Hty.
    assert (Hst : exists y, valid_but free E y /\ store_in E procs fs k c fv ex name y = (true, o')).
    { destruct (field_name_dec fs name) as [(fi & t & Hi & <-)|Hnew].
      - rewrite (assign_declared E procs c k fs fv ex fi t x Hl Hw Hi) in Ha. destruct (validate E t x) as [[y n]|] eqn:Ev; [|discriminate Ha]. destruct (fv_check E (f_val fi) y); [|discriminate Ha].
        exists y. split; [|exact Ha]. apply (parse_but free E t x y (linked_sub _ _ _ _ Hl Hi) (wf_sub _ _ _ _ Hw Hi) Hx). apply parse_some. eauto.
      - rewrite (assign_undeclared E procs c k fs fv ex name x Hl Hnew) in Ha. destruct k; try discriminate Ha; exists x; auto. }
    destruct Hst as (y & Hy & Hst). apply store_contents in Hst as (fv' & ex' & -> & Hok & H1 & H2); [|exact Hin]. split; [constructor|]. apply but_obj.
    + exists k, fs. split; [exact Ht|]. cbn [well_typed] in Hty. destruct Hty as (f0 & e0 & He & Hf0 & _). injection He as <- <-. split; [exact Hf0|]. split; [|eapply extras_valid_canon; eauto].
      intros _. unfold after_ok in Hok. apply andb_prop in Hok as [_ Hok]. apply hook_iff. exact Hok.
    + intros n z Hi. destruct (H1 _ _ Hi) as [->|[->|(m & [Hm|Hm])]]; [apply but_none|exact Hy| |]; (eapply but_sub; [exact Hv|]); [eapply w_field|eapply w_extra]; (exact Hm || apply w_self).
    + intros n z Hi. destruct (H2 _ _ Hi) as [->|(m & [Hm|Hm])]; [exact Hy| |]; (eapply but_sub; [exact Hv|]); [eapply w_field|eapply w_extra]; (exact Hm || apply w_self).
  - cbn [node] in Hself. destruct Hself as (t & Ht & Hd). destruct (str_eqb name (u "root")) eqn:En.
    2:{ rewrite c57_other_attribute in Ha; [discriminate Ha|]. intros ->. rewrite str_eqb_refl in En. discriminate En. }
    apply str_eqb_eq in En. subst name. destruct (proj1 (c57_root_assignment E procs c t d x o' Ht) Ha) as [[d0 Hd0] Hp]. subst x. split.
    + apply parse_some in Hp as (n & Hp). cbn [validate] in Hp. destruct (vdict (validate E) t d0) as [[d' n']|]; [|discriminate Hp]. destruct (root_keys_ok d'); [|discriminate Hp]. injection Hp as <- _. constructor.
    + exact (parse_but free E _ _ _ (linked_all _ Ht) (wf_all _ Ht) Hx Hp).
Qed.
Lemma edit_valid free E procs o o' : inert procs -> edit free E procs o o' -> valid_but free E o -> alike o o' /\ valid_but free E o'.
Proof.
  intros Hin He Hv. destruct He as [o name x o' Hns Hx Ha|c k fs fv ex fi t z z' fv' Ht Hi Hz Hs Hwz Hvz (Hm & Hy & Hoth)|c t d k x Ht Hk Hw Hx|c d k|c fv ex ex' Hk Hx].
  - exact (assign_valid free E procs o name x o' Hin Hv Hns Hx Ha).
  - split; [constructor|]. assert (Hself := Hv _ (w_self _)). cbn beta iota in Hself. destruct (but_model _ _ _ _ _ _ _ Ht Hself) as (Hwt & Hc & Hex). assert (Hnn := names_NoDup _ _ _ (wf_all _ Ht)).
    assert (Hnk : NoDup (map fst fv')). { rewrite Hm, (wt_fields_keys _ _ _ _ Hwt). exact Hnn. }
    assert (Hattr : forall n, (n = f_name fi /\ attr n fv = z /\ attr n fv' = z') \/ attr n fv' = attr n fv).
    { intros n. unfold attr. destruct (str_eqb n (f_name fi)) eqn:En; [apply str_eqb_eq in En; subst n; left; rewrite Hz, Hy; auto|right]. rewrite Hoth; [reflexivity|]. intros ->. rewrite str_eqb_refl in En. discriminate En. }
    apply but_obj.
    + exists k, fs. split; [exact Ht|]. split; [|split; [|exact Hex]].
      * apply wt_fields_iff; [exact Hnn|]. apply (wt_fields_iff E _ fs Hnn) in Hwt as [Hm0 Hwt]. split; [rewrite Hm; exact Hm0|]. intros gi s Hg.
        destruct (str_eqb (f_name gi) (f_name fi)) eqn:Ee.
        -- apply str_eqb_eq in Ee. assert (Heq : (gi, s) = (fi, t)).
           { assert (E1 := find_field_in _ _ _ Hg Hnn). assert (E2 := find_field_in _ _ _ Hi Hnn). rewrite Ee, E2 in E1. injection E1 as <- <-. reflexivity. }
           injection Heq as -> ->. exists z'. split; [exact Hy|]. split; [exact Hwz|]. destruct (Hwt fi t Hi) as (z0 & Hz0 & _ & Hr). rewrite Hz in Hz0. injection Hz0 as <-.
           destruct Hs; destruct (f_val fi); cbn [field_rule] in Hr |- *; try exact I; try (intros zz Hzz; discriminate Hzz); destruct Hr as (s0 & Hr); try discriminate Hr; destruct Hr as [Hr _]; discriminate Hr.
        -- destruct (Hwt gi s Hg) as (z0 & Hz0 & G1 & G2). exists z0. split; [|auto]. rewrite Hoth; [exact Hz0|]. intros Hq. rewrite Hq, str_eqb_refl in Ee. discriminate Ee.
      * intros Hfree. apply (cross_near c fv); [| |exact (Hc Hfree)].
        -- intros n. destruct (Hattr n) as [(_ & -> & ->)| ->]; [right; destruct Hs; split; exact I|left; reflexivity].
        -- intros _ n m. unfold get. destruct (Hattr (u n)) as [(_ & -> & ->)| ->]; [|auto]. destruct Hs; intros Hp; destruct (Hp eq_refl).
    + intros n x Hix. assert (Hax := In_assoc _ _ _ Hnk Hix). destruct (str_eqb n (f_name fi)) eqn:En.
      * apply str_eqb_eq in En. subst n. rewrite Hy in Hax. injection Hax as <-. exact Hvz.
      * rewrite Hoth in Hax by (intros ->; rewrite str_eqb_refl in En; discriminate En). eapply but_sub; [exact Hv|]. eapply w_field; [apply assoc_In; exact Hax|apply w_self].
    + intros n x Hix. eapply but_sub; [exact Hv|]. eapply w_extra; [exact Hix|apply w_self].
  - split; [constructor|]. assert (Hself := Hv _ (w_self _)). cbn beta iota in Hself. destruct Hself as (t' & Ht' & Hd).
    assert (G1 := linked_root _ _ (linked_all _ Ht)). assert (G2 := linked_root _ _ (linked_all _ Ht')). rewrite G1 in G2. injection G2 as <-.
    assert (Hset : forall n y, In (n, y) (dict_set k x d) -> (n = k /\ y = x) \/ In (n, y) d).
    { clear. induction d as [|[k' v'] d IH]; intros n y H; cbn [dict_set] in H; [destruct H as [H|[]]; injection H as <- <-; auto|]. destruct (str_eqb k k') eqn:Ek.
      - apply str_eqb_eq in Ek. subst k'. destruct H as [H|H]; [injection H as <- <-; auto|right; right; exact H].
      - destruct H as [H|H]; [injection H as <- <-; right; left; reflexivity|]. destruct (IH _ _ H) as [H0|H0]; [left; exact H0|right; right; exact H0]. }
    apply but_root.
    + exists t. split; [exact Ht|]. intros n y Hi. destruct (Hset _ _ Hi) as [[-> ->]|Hi']; [auto|exact (Hd _ _ Hi')].
    + intros n y Hi. destruct (Hset _ _ Hi) as [[-> ->]|Hi']; [exact Hx|]. eapply but_sub; [exact Hv|]. eapply w_root; [exact Hi'|apply w_self].
  - split; [constructor|]. assert (Hself := Hv _ (w_self _)). cbn beta iota in Hself. destruct Hself as (t & Ht & Hd).
    assert (Hdel : forall n y, In (n, y) (dict_del k d) -> In (n, y) d).
    { clear. induction d as [|[k' v'] d IH]; intros n y H; cbn [dict_del] in H; [exact H|]. destruct (str_eqb k k'); [right; exact H|]. destruct H as [H|H]; [left; exact H|right; exact (IH _ _ H)]. }
    apply but_root; [exists t; split; [exact Ht|]; intros n y Hi; exact (Hd _ _ (Hdel _ _ Hi))|].
    intros n y Hi. eapply but_sub; [exact Hv|]. eapply w_root; [exact (Hdel _ _ Hi)|apply w_self].
  - split; [constructor|]. assert (Hself := Hv _ (w_self _)). cbn beta iota in Hself. destruct Hself as (k & fs & Ht & Hwt & Hc & Hex). apply but_obj.
    + exists k, fs. split; [exact Ht|]. split; [exact Hwt|]. split; [exact Hc|]. destruct k; cbn [extras_valid] in *; [|subst ex; destruct ex'; [reflexivity|discriminate Hk]|exact I]. intros key Hi. apply Hex. rewrite <- Hk. exact Hi.
    + intros n x Hi. eapply but_sub; [exact Hv|]. eapply w_field; [exact Hi|apply w_self].
    + exact Hx.
Qed.
Lemma but_throughout E v : valid_but false E v <-> valid_throughout E v.
Proof.
  split; intros H x Hx; specialize (H x Hx); destruct x; try exact I; try exact H; destruct H as (k & fs0 & H1 & H2 & H3 & H4); exists k, fs0; (split; [exact H1|split; [exact H2|split; [|exact H4]]]).
  - apply H3. right. reflexivity.
  - intros _. exact H3.
Qed.
Lemma but_weaken E v : valid_throughout E v -> valid_but true E v.
Proof. intros H x Hx. specialize (H x Hx). destruct x; try exact I; try exact H. destruct H as (k & fs0 & H1 & H2 & H3 & H4). exists k, fs0. auto. Qed.
Lemma path_within p : forall v o, get_path p v = Some o -> within o v.
Proof.
  induction p as [|s p IH]; intros v o Hg; cbn [get_path] in Hg; [injection Hg as ->; apply w_self|].
  destruct s, v; try discriminate Hg; (destruct (assoc _ _) eqn:Ea in Hg || destruct (nth_error _ _) eqn:Ea in Hg; try discriminate Hg); apply IH in Hg;
    [eapply w_field; [apply assoc_In; exact Ea|exact Hg]|eapply w_extra; [apply assoc_In; exact Ea|exact Hg]|eapply w_dict; [apply assoc_In; exact Ea|exact Hg]|eapply w_root; [apply assoc_In; exact Ea|exact Hg]|eapply w_list; [eapply nth_error_In; exact Ea|exact Hg]].
Qed.
Lemma history_valid free E procs doc doc' : inert procs -> history free E procs doc doc' -> valid_but free E doc ->
  valid_but free E doc' /\ forall t, linked t = true -> wf_ty t = true -> well_typed E t doc -> well_typed E t doc'.
Proof.
  intros Hin H Hv. induction H as [doc|doc doc1 doc2 H IH He]; [auto|]. destruct (IH Hv) as [Hv1 Ht1]. destruct He as [p o o' Hg He Hp Hflow].
  assert (Ho : valid_but free E o) by (eapply but_sub; [exact Hv1|exact (path_within _ _ _ Hg)]).
  destruct (edit_valid free E procs o o' Hin He Ho) as [Ha Ho']. split.
  - exact (keep_valid free E p doc1 o o' doc2 Hv1 Hg Ha Ho' Hflow Hp).
  - intros t Hl Hw Hty. exact (proj1 (at_path_typed free E p t doc1 o o' _ _ Hl Hw Hg Ha (Ho' _ (w_self _)) Hp (Ht1 t Hl Hw Hty))).
Qed.

(** ** C89 *)
(** Edits that never go to a flow of an OAuth Flows object keep a document valid at every depth, however many and wherever. *)
Theorem c89_stays_valid_partial E procs doc doc' : inert procs -> valid_throughout E doc -> history false E procs doc doc' -> valid_throughout E doc'.
Proof. intros Hin Hv H. apply but_throughout. apply (history_valid false E procs doc doc' Hin H). apply but_throughout. exact Hv. Qed.
(** Any edits keep it valid at every depth but for the rule of OAuth Flows objects about their flows. *)
Theorem c89_any_partial E procs doc doc' : inert procs -> valid_throughout E doc -> history true E procs doc doc' -> valid_but true E doc'.
Proof. intros Hin Hv H. apply (history_valid true E procs doc doc' Hin H). apply but_weaken. exact Hv. Qed.
(** ... and of the type it had. *)
Theorem c89_stays_typed E procs free t doc doc' : inert procs -> In t all_types -> valid_but free E doc -> well_typed E t doc -> history free E procs doc doc' -> well_typed E t doc'.
Proof. intros Hin Hi Hv Ht H. exact (proj2 (history_valid free E procs doc doc' Hin H Hv) t (linked_all _ Hi) (wf_all _ Hi) Ht). Qed.
(** From loading on. *)
Theorem c89_loaded_partial E procs t v doc doc' : inert procs -> In t all_types -> is_json v -> parse E t v = Some doc ->
  (history false E procs doc doc' -> valid_throughout E doc' /\ well_typed E t doc') /\ (history true E procs doc doc' -> valid_but true E doc' /\ well_typed E t doc').
Proof.
  intros Hin Hi Hj Hp. assert (Hv := c52_parsed_valid E t v doc Hi Hj Hp). assert (Ht := parse_wt _ _ _ _ (wf_all _ Hi) Hp). split; intros H; split.
  - eapply c89_stays_valid_partial; eauto.
  - eapply c89_stays_typed; eauto. apply but_throughout. exact Hv.
  - eapply c89_any_partial; eauto.
  - eapply c89_stays_typed; eauto. apply but_weaken. exact Hv.
Qed.
(** Refuted: that any edits keep a valid document valid.  An OAuth Flows object is not told when one of its flows loses a URL. *)
Definition docF : pv := obj [("asyncapi", str "3.0.0"); ("info", obj [("title", str "t"); ("version", str "1")]);
  ("components", obj [("securitySchemes", obj [("s", obj [("type", str "oauth2");
     ("flows", obj [("implicit", obj [("authorizationUrl", str "https://e.org/a"); ("availableScopes", obj [("r", str "read")])])])])])])].
Definition flow_path : list pstep := [PField (u "components"); PField (u "security_schemes"); PKey (u "s"); PField (u "flows"); PField (u "implicit")].
Definition no_procs (o : pv) : bool * pv := (true, o).
Definition afterF : pv := match assign_at E0 no_procs {| as_path := flow_path; as_name := u "authorization_url"; as_value := VNone |} (load_doc docF) with Some (_, d) => d | None => VNone end.
Lemma atom_valid free E v : match v with VList _ | VDict _ | VObj _ _ _ | VRoot _ _ => False | _ => True end -> valid_but free E v.
Proof. intros H x Hx. apply within_atom in Hx. destruct v; try contradiction; subst x; exact I. Qed.
Lemma docF_valid : is_json docF /\ parse E0 T_AsyncAPI3 docF = Some (load_doc docF).
Proof. split; [apply json_dec; vm_compute; reflexivity|apply load_doc_ok; vm_compute; reflexivity]. Qed.
Theorem c89_nested_refuted : ~ (forall E procs t v doc doc', inert procs -> In t all_types -> is_json v -> parse E t v = Some doc -> history true E procs doc doc' -> valid_throughout E doc').
Proof.
  intros H. destruct docF_valid as [Hj Hp]. specialize (H E0 no_procs T_AsyncAPI3 docF (load_doc docF) afterF (fun o => eq_refl) ltac:(in_table) Hj Hp).
  assert (Hh : history true E0 no_procs (load_doc docF) afterF).
  { eapply h_more; [apply h_none|]. eapply (edited_at _ _ _ _ _ flow_path); [vm_compute; reflexivity| |vm_compute; reflexivity|discriminate].
    apply (ed_attr _ _ _ _ (u "authorization_url") VNone); [|apply atom_valid; exact I|vm_compute; reflexivity].
    intros c fv ex fi t Heq Hk. injection Heq as <- <- <-. vm_compute in Hk. discriminate Hk. }
  specialize (H Hh). clear Hh Hj Hp.
  assert (Hw : exists fv, within (VObj "OAuthFlows" fv []) afterF /\ present (get "implicit" fv) /\ get_in "authorization_url" (get "implicit" fv) = VNone).
  { eexists. split; [apply (path_within (removelast flow_path)); vm_compute; reflexivity|]. split; [vm_compute; discriminate|vm_compute; reflexivity]. }
  destruct Hw as (fv & Hw & Hi & Ha). specialize (H _ Hw). destruct H as (k & fs & _ & _ & Hc & _). destruct Hc as (_ & _ & Hc & _). destruct (Hc eq_refl) as [Hc' _]. apply (Hc' Hi). exact Ha.
Qed.
(** A history that meets the conditions: a title is assigned, a scheme is added to the map, the old one is deleted. *)
Definition titledF : pv := match assign_at E0 no_procs {| as_path := [PField (u "info")]; as_name := u "title"; as_value := str "new" |} (load_doc docF) with Some (_, d) => d | None => VNone end.
Definition schemes : list pstep := [PField (u "components"); PField (u "security_schemes")].
Definition on_root (g : fields -> fields) (o : pv) : bool * pv := match o with VRoot c d => (true, VRoot c (g d)) | _ => (false, o) end.
Definition key_apart : pv := VObj "Reference" [(u "ref", str "#/components/securitySchemes/x")] [].
Definition addedF : pv := match at_path schemes (on_root (dict_set (u "s2") key_apart)) titledF with Some (_, d) => d | None => VNone end.
Definition lastF : pv := match at_path schemes (on_root (dict_del (u "s"))) addedF with Some (_, d) => d | None => VNone end.
Lemma ref_parsed : parse E0 T_Reference (ref "#/components/securitySchemes/x") = Some key_apart.
Proof. vm_compute. reflexivity. Qed.
Lemma added_edit d : edit false E0 no_procs (VRoot "SecuritySchemes" d) (VRoot "SecuritySchemes" (dict_set (u "s2") key_apart d)).
Proof.
  assert (Ht : exists t, In (TRoot "SecuritySchemes" t) all_types /\ exists s, t = TUnion [s; T_Reference] \/ t = TUnion [T_Reference; s]).
  { eexists. split; [apply find_root_In; vm_compute; reflexivity|]. eexists. first [left; reflexivity|right; reflexivity]. }
  destruct Ht as (t & Ht & s & Hs).
  assert (Hwr : well_typed E0 T_Reference key_apart) by (eapply parse_wt; [|exact ref_parsed]; apply wf_all; in_table).
  apply (ed_set _ _ _ _ t _ (u "s2") key_apart Ht).
  + apply patterned_key_iff. vm_compute. reflexivity.
  + destruct Hs as [->| ->]; cbn [well_typed wt_one]; [right; left|left]; exact Hwr.
  + apply but_throughout. apply (c52_parsed_valid E0 T_Reference (ref "#/components/securitySchemes/x")); [in_table|apply json_dec; vm_compute; reflexivity|exact ref_parsed].
Qed.
Example c89_ex : history false E0 no_procs (load_doc docF) lastF /\ lastF <> load_doc docF
  /\ get_path (schemes ++ [PKey (u "s2")])%list lastF = Some key_apart /\ get_path (schemes ++ [PKey (u "s")])%list lastF = None.
Proof.
  split; [|split; [vm_compute; discriminate|split; vm_compute; reflexivity]].
  eapply h_more; [eapply h_more; [eapply h_more; [apply h_none|]|]|].
  - eapply (edited_at _ _ _ _ titledF [PField (u "info")]); [vm_compute; reflexivity| |vm_compute; reflexivity|intros _ fv ex; discriminate].
    apply (ed_attr _ _ _ _ (u "title") (str "new")); [|apply atom_valid; exact I|vm_compute; reflexivity].
    intros c fv ex fi t Heq Hk. injection Heq as <- <- <-. vm_compute in Hk. discriminate Hk.
  - eapply (edited_at _ _ _ _ addedF schemes); [vm_compute; reflexivity| | |intros _ fv ex; discriminate]; [apply added_edit|vm_compute; reflexivity].
  - eapply (edited_at _ _ _ _ lastF schemes); [vm_compute; reflexivity| | |intros _ fv ex; discriminate]; [apply (ed_del _ _ _ _ _ (u "s"))|vm_compute; reflexivity].
Qed.
Print Assumptions c89_stays_valid_partial. Print Assumptions c89_any_partial. Print Assumptions c89_loaded_partial. Print Assumptions c89_nested_refuted.
