(** C72: processors that modify the document they are given. *)
From Verif Require Import PyStr Value Types Rules Pydantic ClassTable Classes Linked State Resolve Unified Validators Pipeline Reentry
  SpecParse SpecState SpecResolve SpecPipeline SpecDeep SpecAssign SpecReentry ProofParse ProofRules ProofState ProofDump ProofValidators PropUnified PropValidators PropPipeline PropAssign PropDeep Sample.
Local Open Scope string_scope.

(** ** A processor that always assigns an attribute of the document never ends *)
Lemma never E (progs : pv -> prog) (P : pv -> Prop) p : (forall d, P d -> runs_first d p /\ assigns E P (progs p) d) ->
  (forall pr d tr ok d', plays E progs pr d tr ok d' -> assigns E P pr d -> False)
  /\ (forall l d tr ok d', each E progs l d tr ok d' -> (exists l', l = p :: l') -> P d -> False)
  /\ (forall d tr ok d', reruns E progs d tr ok d' -> P d -> False).
Proof.
  intros HP. apply exec_ind.
  - intros d H. inversion H.
  - intros d H. inversion H.
  - intros k d tr ok d' _ IH H. inversion H; subst. auto.
  - intros a k d b d1 tr ok d' Ho Hi _ IH H. inversion H; subst.
    + discriminate Ho.
    + rewrite Hi in *. match goal with h : (_, _) = (_, _) |- _ => injection h as <- <- end. auto.
    + discriminate Ho.
  - intros n v k d d1 tr ok d' Ha _ IH H. inversion H as [n0 v0 k0 d0 d2 Hx| |a k0 d0 b d2 Ho|n0 v0 k0 d0 d2 Hx]; subst.
    + rewrite Ha in Hx. discriminate Hx.
    + discriminate Ho.
    + rewrite Ha in Hx. injection Hx as <-. auto.
  - intros n v k d d1 tr1 b d2 tr2 ok d' Ha _ IH _ _ H. inversion H as [n0 v0 k0 d0 d3 Hx HP1| |a k0 d0 b0 d3 Ho|n0 v0 k0 d0 d3 Hx]; subst.
    + rewrite Ha in Hx. injection Hx as <-. auto.
    + discriminate Ho.
    + rewrite Ha in Hx. discriminate Hx.
  - intros d (l' & Hl). discriminate Hl.
  - intros q l d tr1 d1 tr2 ok d2 _ IH _ _ (l' & Hl) Hd. injection Hl as -> ->. apply IH. apply HP. exact Hd.
  - intros q l d tr1 d1 _ IH (l' & Hl) Hd. injection Hl as -> ->. apply IH. apply HP. exact Hd.
  - intros d l1 tr1 d1 l2 tr2 ok d2 H1 E1 IH1 H2 E2 IH2 Hd. destruct (proj1 (HP d Hd)) as (l & [Hf|[Hf Hg]]); rewrite Hf in H1; injection H1 as <-.
    + apply IH1; eauto.
    + inversion E1; subst. rewrite Hg in H2. injection H2 as <-. apply IH2; eauto.
  - intros d l1 tr1 d1 H1 E1 IH1 Hd. destruct (proj1 (HP d Hd)) as (l & [Hf|[Hf Hg]]); rewrite Hf in H1; injection H1 as <-; [apply IH1; eauto|inversion E1].
  - intros d H1 Hd. destruct (proj1 (HP d Hd)) as (l & [Hf|[Hf Hg]]); rewrite Hf in H1; discriminate H1.
  - intros d l1 tr1 d1 H1 E1 IH1 H2 Hd. destruct (proj1 (HP d Hd)) as (l & [Hf|[Hf Hg]]); rewrite Hf in H1; injection H1 as <-; [apply IH1; eauto|].
    inversion E1; subst. rewrite Hg in H2. discriminate H2.
Qed.
Theorem c72_no_end E (progs : pv -> prog) (P : pv -> Prop) p v doc : (forall d, P d -> runs_first d p /\ assigns E P (progs p) d) -> parse E T_AsyncAPI3 v = Some doc -> P doc ->
  ~ exists tr r, builds E progs v tr r.
Proof.
  intros HP Hp Hd (tr & r & H). destruct (never E progs P p HP) as (_ & _ & Hr). inversion H as [Hn|doc0 tr0 doc1 Hp' Hrun|doc0 tr0 doc1 Hp' Hrun]; subst; [congruence| |];
    rewrite Hp in Hp'; injection Hp' as <-; exact (Hr _ _ _ _ Hrun Hd).
Qed.
(** In particular (a document built from plain data): a first processor whose first act is an acceptable assignment to an attribute of the document
    other than the two processor lists. *)
Definition good (E : env) (d : pv) : Prop := exists fv ex, d = VObj "AsyncAPI3" fv ex /\ object_valid E "AsyncAPI3" fv ex /\ NoDup (map fst ex).
Lemma good_parsed E v doc : python_dicts v -> parse E T_AsyncAPI3 v = Some doc -> good E doc.
Proof.
  intros Hpd Hp. assert (Ht : In T_AsyncAPI3 all_types) by in_table. assert (Hwf := wf_all _ Ht). assert (Hw := parse_wt _ _ _ _ Hwf Hp).
  assert (Hd := parse_pd _ _ _ _ Hwf Hpd Hp). unfold T_AsyncAPI3 in *. apply obj_shape in Hw as (fv & ex & -> & _ & _). exists fv, ex. split; [reflexivity|]. split.
  - eapply parsed_object_valid; eauto.
  - exact (proj2 (pd_here _ Hd)).
Qed.
Lemma good_assign E d n v d1 : good E d -> assign E plain d n v = (true, d1) ->
  good E d1 /\ (forall f l, u f <> n -> listed d f l -> listed d1 f l) /\ forall d', good E d' -> exists d1', assign E plain d' n v = (true, d1').
Proof.
  intros (fv & ex & -> & Hv & Hnd) Ha.
  assert (Hv0 := Hv). destruct Hv0 as (k & fs & Ht & Hwt & _ & Hx). assert (Hl := linked_all _ Ht). assert (Hwf := wf_all _ Ht). assert (Hnn := names_NoDup _ _ _ Hwf).
  assert (Hk : k = KExt). { apply linked_class in Hl. vm_compute in Hl. injection Hl as <- _. reflexivity. } subst k.
  assert (Hnk : KExt <> KFree) by discriminate.
  assert (Hsame : forall fv' ex', (forall m, m <> n -> assoc m fv' = assoc m fv) -> forall f l, u f <> n -> listed (VObj "AsyncAPI3" fv ex) f l -> listed (VObj "AsyncAPI3" fv' ex') f l).
  { intros fv' ex' Hs f l Hn (c0 & f0 & e0 & Heq & Hl0). injection Heq as <- <- <-. exists "AsyncAPI3", fv', ex'. split; [reflexivity|]. rewrite (Hs _ Hn). exact Hl0. }
  destruct (field_name_dec fs n) as [(fi & t & Hin & <-)|Hnew].
  - rewrite (assign_declared E plain "AsyncAPI3" KExt fs fv ex fi t v Hl Hwf Hin) in Ha. destruct (validate E t v) as [[y q]|] eqn:Ev; [|discriminate Ha].
    destruct (fv_check E (f_val fi) y) eqn:Ef; [|discriminate Ha].
    destruct (valid_store E plain "AsyncAPI3" KExt fs fv ex fi t y Ht Hnk Hv Hnd Hin) as (fv' & (Hm & Hy & Ho) & Hxo & Hs). rewrite Hs in Ha. unfold after_ok in Ha. rewrite Hxo, no_hook in Ha.
    cbn in Ha. injection Ha as <-. split; [|split].
    + exists fv', ex. split; [reflexivity|]. split; [|exact Hnd]. exists KExt, fs. split; [exact Ht|]. split; [|split; [apply hook_iff; reflexivity|exact Hx]].
      apply wt_fields_iff; [exact Hnn|]. apply (wt_fields_iff E _ fs Hnn) in Hwt as [Hm0 Hwt]. split; [rewrite Hm; exact Hm0|]. intros gi s Hg.
      destruct (str_eqb (f_name gi) (f_name fi)) eqn:Ee.
      * apply str_eqb_eq in Ee. assert (Heq : (gi, s) = (fi, t)).
        { assert (E1 := find_field_in _ _ _ Hg Hnn). assert (E2 := find_field_in _ _ _ Hin Hnn). rewrite Ee, E2 in E1. injection E1 as <- <-. reflexivity. }
        injection Heq as -> ->. exists y. split; [exact Hy|]. split; [|apply fv_check_iff; exact Ef]. eapply parse_wt; [exact (wf_sub _ _ _ _ Hwf Hin)|]. unfold parse. rewrite Ev. reflexivity.
      * destruct (Hwt gi s Hg) as (z & Hz & H1 & H2). exists z. split; [|auto]. rewrite Ho; [exact Hz|]. intros Hq. rewrite Hq, str_eqb_refl in Ee. discriminate Ee.
    + intros f l. apply Hsame. exact Ho.
    + intros d' (fv2 & ex2 & -> & Hv2 & Hnd2). rewrite (assign_declared E plain "AsyncAPI3" KExt fs fv2 ex2 fi t v Hl Hwf Hin), Ev, Ef.
      destruct (valid_store E plain "AsyncAPI3" KExt fs fv2 ex2 fi t y Ht Hnk Hv2 Hnd2 Hin) as (fv3 & _ & Hxo2 & Hs2). rewrite Hs2. unfold after_ok. rewrite Hxo2, no_hook. cbn. eexists. reflexivity.
  - rewrite (assign_undeclared E plain "AsyncAPI3" KExt fs fv ex n v Hl Hnew) in Ha.
    assert (Hextra : forall fv ex, object_valid E "AsyncAPI3" fv ex -> NoDup (map fst ex) -> store_in E plain fs KExt "AsyncAPI3" fv ex n v
              = if after_ok E "AsyncAPI3" KExt fv (dict_set n v ex) then (true, VObj "AsyncAPI3" fv (dict_set n v ex)) else (false, VObj "AsyncAPI3" fv (dict_set n v ex))).
    { clear - Ht Hl Hwf Hnn Hnew. intros fv ex (k' & fs' & Ht' & Hwt & _ & Hx) Hnd. assert (H1 := linked_class _ _ _ Hl). assert (H2 := linked_class _ _ _ (linked_all _ Ht')).
      rewrite H1 in H2. injection H2 as <- <-. clear Ht' H1. assert (Hf := wt_fields_keys _ _ _ _ Hwt). assert (Hnf : NoDup (map fst fv)) by (rewrite Hf; exact Hnn).
      assert (Hdis : forall n, In n (map fst ex) -> ~ In n (map fst fv)).
      { intros m Hn Hi. rewrite Hf in Hi. apply in_map_iff in Hi as ([gi s] & Hg & Hi). cbn [fst] in Hg. destruct (Hx m Hn) as [_ Hd]. apply Hd. exists gi, s. auto. }
      rewrite (store_extra E plain "AsyncAPI3" fs KExt fv ex n v Hnew Hnf Hf Hnd Hdis). reflexivity. }
    rewrite (Hextra fv ex Hv Hnd) in Ha. destruct (after_ok E "AsyncAPI3" KExt fv (dict_set n v ex)) eqn:Eok; [|discriminate Ha]. injection Ha as <-.
    assert (Hok : forall fv2 ex2, object_valid E "AsyncAPI3" fv2 ex2 -> after_ok E "AsyncAPI3" KExt fv2 (dict_set n v ex2) = true).
    { intros fv2 ex2 (k' & fs' & Ht' & _ & _ & Hx2). assert (H1 := linked_class _ _ _ Hl). assert (H2 := linked_class _ _ _ (linked_all _ Ht')). rewrite H1 in H2. injection H2 as <- <-.
      unfold after_ok in *. rewrite no_hook in *. rewrite andb_true_r in *. cbn [extras_ok] in *. rewrite forallb_forall in *. intros kv Hkv.
      apply dict_set_In in Hkv as [Hkv|[Hkv _]].
      - apply ext_key_iff. apply (Hx2 (fst kv)). apply in_map. exact Hkv.
      - assert (Hi : In (n, v) (dict_set n v ex)). { assert (Hs := assoc_dict_set n v ex n). rewrite str_eqb_refl in Hs. apply assoc_In. exact Hs. }
        specialize (Eok _ Hi). cbn [fst] in Eok. rewrite Hkv. exact Eok. }
    split; [|split].
    + exists fv, (dict_set n v ex). split; [reflexivity|]. split.
      * exists KExt, fs. split; [exact Ht|]. split; [exact Hwt|]. split; [apply hook_iff; reflexivity|]. eapply extras_valid_canon; eauto.
      * apply dict_set_nodup. exact Hnd.
    + intros f l. apply Hsame. reflexivity.
    + intros d' (fv2 & ex2 & -> & Hv2 & Hnd2). rewrite (assign_undeclared E plain "AsyncAPI3" KExt fs fv2 ex2 n v Hl Hnew), (Hextra fv2 ex2 Hv2 Hnd2), (Hok fv2 ex2 Hv2). eexists. reflexivity.
Qed.
Theorem c72_unconditional E progs v doc conv vals p rest name x k doc1 : python_dicts v -> parse E T_AsyncAPI3 v = Some doc ->
  listed doc "extra_converters" conv -> listed doc "extra_validators" vals -> (conv ++ vals)%list = p :: rest ->
  progs p = Do (SetAttr [] name x) k -> name <> u "extra_converters" -> name <> u "extra_validators" -> assign E plain doc name x = (true, doc1) ->
  ~ exists tr r, builds E progs v tr r.
Proof.
  intros Hpd Hp Hc Hv Hl Hprog N1 N2 Ha. assert (Hg := good_parsed E v doc Hpd Hp). destruct (good_assign E doc name x doc1 Hg Ha) as (_ & _ & Hall).
  apply (c72_no_end E progs (fun d => good E d /\ listed d "extra_converters" conv /\ listed d "extra_validators" vals) p v doc); [|exact Hp|auto].
  intros d (Hd & Dc & Dv). split.
  - apply listed_processors in Dc, Dv. destruct conv as [|q conv]; cbn [app] in Hl.
    + exists rest. right. rewrite Dc, Dv, Hl. auto.
    + injection Hl as -> _. exists conv. left. exact Dc.
  - destruct (Hall d Hd) as (d1 & H1). rewrite Hprog. destruct (good_assign E d name x d1 Hd H1) as (G1 & L1 & _). eapply as_now; [exact H1|].
    split; [exact G1|]. split; apply L1; auto using not_eq_sym.
Qed.

(** ** Processors that only touch objects inside the document run exactly once, as in the sequential pipeline of C39 *)
Lemma plays_inner E progs pr : inner_only pr -> forall d tr ok d', plays E progs pr d tr ok d' <-> tr = [] /\ play E pr d = (ok, d').
Proof.
  induction 1 as [| |k _ IH|a k Ho _ IH]; intros d tr ok d'; cbn [play].
  - split; [intros H; inversion H; subst; auto|intros (-> & H); injection H as <- <-; constructor].
  - split; [intros H; inversion H; subst; auto|intros (-> & H); injection H as <- <-; constructor].
  - split; [intros H; inversion H; subst; apply IH; assumption|intros H; constructor; apply IH; exact H].
  - destruct (inside E a d) as [b d1] eqn:Ei. split.
    + intros H. inversion H as [| | |a0 k0 d0 b0 d2 tr0 ok0 d3 Ho0 Hi Hp|n v k0 d0 d2 tr0 ok0 d3 Hs|n v k0 d0 d2 tr1 b0 d3 tr2 ok0 d4 Hs]; subst; [|discriminate Ho|discriminate Ho].
      rewrite Ei in Hi. injection Hi as <- <-. apply (IH b). exact Hp.
    + intros H. eapply pl_inside; [exact Ho|exact Ei|]. apply IH. exact H.
Qed.
Definition seen (c : call) : pv * pv := (c_proc c, c_in c).
Lemma each_loop E progs : (forall p, inner_only (progs p)) -> forall live i d tr ok d',
  each E progs (skipn i live) d tr ok d' <-> exists calls, loop (acts_of E progs) i d live calls ok d' /\ tr = map seen calls.
Proof.
  intros Hi live i d tr ok d'. split.
  - intros H. remember (skipn i live) as l eqn:El. revert i El. induction H as [d|p l d tr1 d1 tr2 ok d2 Hp He IH|p l d tr1 d1 Hp]; intros i El.
    + exists []. split; [|reflexivity]. constructor. destruct (nth_error live i) eqn:En; [|reflexivity]. rewrite (skipn_cons _ _ _ En) in El. discriminate El.
    + destruct (nth_error live i) as [q|] eqn:En; [|rewrite (skipn_nth _ _ En) in El; discriminate El]. rewrite (skipn_cons _ _ _ En) in El. injection El as -> El.
      destruct (IH (S i) El) as (calls & Hl & ->). apply plays_inner in Hp as [-> Hp]; [|apply Hi]. exists (Call q d true d1 :: calls). split; [|reflexivity].
      eapply lp_next; [exact En| |exact Hl]. split; [exact Hp|reflexivity].
    + destruct (nth_error live i) as [q|] eqn:En; [|rewrite (skipn_nth _ _ En) in El; discriminate El]. rewrite (skipn_cons _ _ _ En) in El. injection El as -> El.
      apply plays_inner in Hp as [-> Hp]; [|apply Hi]. exists [Call q d false d1]. split; [|reflexivity]. eapply lp_stop; [exact En|]. split; [exact Hp|reflexivity].
  - intros (calls & H & ->). induction H as [i doc live Hn|i doc live p doc1 live1 calls ok doc2 Hn [Ha Hs] Hl IH|i doc live p doc1 live1 Hn [Ha Hs]].
    + rewrite (skipn_nth _ _ Hn). constructor.
    + cbn [fst snd] in *. subst live1. rewrite (skipn_cons _ _ _ Hn). cbn [map seen c_proc c_in]. change (map seen calls) with ([] ++ map seen calls)%list.
      eapply ea_next; [|exact IH]. apply plays_inner; [apply Hi|]. auto.
    + cbn [fst snd] in *. rewrite (skipn_cons _ _ _ Hn). cbn [map seen c_proc c_in]. apply (ea_stop E progs p _ doc [] doc1). apply plays_inner; [apply Hi|]. auto.
Qed.
Theorem c72_inside_partial E progs v tr r : (forall p, inner_only (progs p)) ->
  (builds E progs v tr r <-> exists calls, construct (acts_of E progs) E v calls r /\ tr = map seen calls).
Proof.
  intros Hi. assert (He := fun live => each_loop E progs Hi live 0).
  assert (Hr : forall d tr ok d', reruns E progs d tr ok d' <-> exists calls, run (acts_of E progs) d calls ok d' /\ tr = map seen calls).
  { clear - He. intros d tr ok d'. cbn [skipn] in He. split.
    - intros H. inversion H as [d0 l1 tr1 d1 l2 tr2 ok0 d2 H1 E1 H2 E2|d0 l1 tr1 d1 H1 E1|d0 H1|d0 l1 tr1 d1 H1 E1 H2]; subst.
      + apply He in E1 as (c1 & L1 & ->). apply He in E2 as (c2 & L2 & ->). exists (c1 ++ c2)%list. split; [eapply run_both; eauto|symmetry; apply map_app].
      + apply He in E1 as (c1 & L1 & ->). exists c1. split; [eapply run_converter; eauto|reflexivity].
      + exists []. split; [apply run_bad_converters; exact H1|reflexivity].
      + apply He in E1 as (c1 & L1 & ->). exists c1. split; [eapply run_bad_validators; eauto|reflexivity].
    - intros (calls & H & ->). inversion H as [l1 c1 d1 l2 c2 ok0 d2 H1 L1 H2 L2|l1 c1 d1 H1 L1|H1|l1 c1 d1 H1 L1 H2]; subst.
      + rewrite map_app. eapply rs_both; [exact H1|apply He; eauto|exact H2|apply He; eauto].
      + eapply rs_converter; [exact H1|apply He; eauto].
      + apply rs_bad_converters. exact H1.
      + eapply rs_bad_validators; [exact H1|apply He; eauto|exact H2]. }
  split.
  - intros H. inversion H as [Hn|doc0 tr0 doc1 Hp Hrun|doc0 tr0 doc1 Hp Hrun]; subst.
    + exists []. split; [apply cs_invalid; exact Hn|reflexivity].
    + apply Hr in Hrun as (c & Hc & ->). exists c. split; [eapply cs_done; eauto|reflexivity].
    + apply Hr in Hrun as (c & Hc & ->). exists c. split; [eapply cs_raise; eauto|reflexivity].
  - intros (calls & H & ->). inversion H as [Hn|doc0 c0 doc1 Hp Hrun|doc0 c0 doc1 Hp Hrun]; subst.
    + apply bs_invalid. exact Hn.
    + eapply bs_done; [exact Hp|]. apply Hr. eauto.
    + eapply bs_raise; [exact Hp|]. apply Hr. eauto.
Qed.
(** The lists of processors are not affected by what such processors do, so each processor the caller listed is called, in order, until one raises. *)
Definition inert (v : pv) : Prop := v = VNone \/ exists l, v = VList l /\ forall x, In x l -> exists n, x = VProc n.
Lemma inert_at f : (forall v, match v with VNone | VList _ | VProc _ => snd (f v) = v | _ => True end) -> forall p v r, inert v -> at_path p f v = Some r -> snd r = v.
Proof.
  intros Hf p v r [->|(l & -> & Hl)] H.
  - destruct p as [|[]]; cbn [at_path] in H; try discriminate H. injection H as <-. exact (Hf VNone).
  - destruct p as [|[] p]; cbn [at_path] in H; try discriminate H; [injection H as <-; exact (Hf (VList l))|].
    destruct (upd_idx (at_path p f) i l) as [[b l']|] eqn:Eu; [|discriminate H]. cbn [option_map fst snd] in H. injection H as <-. cbn [snd]. f_equal.
    revert i l' Eu. induction l as [|x l IH]; intros i l' Eu; [destruct i; discriminate Eu|]. destruct i as [|i]; cbn [upd_idx] in Eu.
    + destruct (at_path p f x) as [[b0 x']|] eqn:Ex; [|discriminate Eu]. cbn in Eu. injection Eu as <- <-. f_equal. destruct (Hl x (or_introl eq_refl)) as (n & ->).
      destruct p as [|[] p]; cbn [at_path] in Ex; try discriminate Ex. injection Ex as Hx. assert (Hq := Hf (VProc n)). rewrite Hx in Hq. exact Hq.
    + destruct (upd_idx (at_path p f) i l) as [[b0 l0]|] eqn:Ei; [|discriminate Eu]. cbn in Eu. injection Eu as <- <-. f_equal. eapply IH; [|exact Ei]. intros y Hy. apply Hl. right. exact Hy.
Qed.
(** A document whose processor list [f] reads [l]. *)
Definition holds (f : string) (l : list pv) (d : pv) : Prop :=
  exists fv ex a, d = VObj "AsyncAPI3" fv ex /\ assoc (u f) fv = Some a /\ inert a /\ ~ In (u f) (map fst ex) /\ (a = VList l \/ (a = VNone /\ l = [])).
Lemma holds_listed f l d : holds f l d -> listed d f l.
Proof. intros (fv & ex & a & -> & Ha & _ & _ & [->|[-> ->]]); exists "AsyncAPI3", fv, ex; auto. Qed.
Lemma parsed_holds E v doc f l : f = "extra_converters" \/ f = "extra_validators" -> parse E T_AsyncAPI3 v = Some doc -> listed doc f l -> holds f l doc.
Proof.
  intros Hf Hp Hc. assert (Hw := parsed_wt _ _ _ Hp). unfold T_AsyncAPI3 in Hw. cbn [well_typed] in Hw. destruct Hw as (fv & ex & -> & Hwt & _ & Hex).
  assert (Hx : exists fi, find_field (u f) (class_fields "AsyncAPI3") = Some (fi, TOpt TProcs)) by (destruct Hf as [->| ->]; eexists; vm_compute; reflexivity).
  destruct Hx as (fi & Hx). change (find_field (u f) (class_fields "AsyncAPI3")) with (find_field (u f) (match T_AsyncAPI3 with TModel _ _ fs => fs | _ => [] end)) in Hx.
  destruct (find_typed _ _ _ _ _ _ Hwt Hx) as (x & Ha & Ht). exists fv, ex, x. split; [reflexivity|]. split; [exact Ha|]. split; [|split].
  - destruct Ht as [->|(l0 & -> & Hl)]; [left; reflexivity|right]. exists l0. split; [reflexivity|]. rewrite Forall_forall in Hl. exact Hl.
  - destruct (find_field_spec _ _ _ _ Hx) as [Hi Hn]. rewrite <- Hn. exact (Hex eq_refl fi _ Hi).
  - destruct Hc as (c0 & f0 & e0 & Heq & Hl). injection Heq as <- <- <-. rewrite Ha in Hl. destruct Hl as [Hl|[Hl ->]]; injection Hl as ->; auto.
Qed.
Lemma assoc_replace (d1 d2 : fields) k x x' n a : assoc n (d1 ++ (k, x) :: d2)%list = Some a -> (n = k -> assoc k (d1 ++ (k, x) :: d2)%list = Some x -> x' = x) ->
  assoc n (d1 ++ (k, x') :: d2)%list = Some a.
Proof.
  rewrite !assoc_app. cbn [assoc]. intros H Hx. destruct (assoc n d1) as [y|] eqn:E1; [exact H|]. destruct (str_eqb n k) eqn:Ek; [|exact H].
  apply str_eqb_eq in Ek. subst n. rewrite <- H. f_equal. apply Hx; [reflexivity|]. rewrite E1, str_eqb_refl. reflexivity.
Qed.
Lemma upd_key_keys (f : pv -> option (bool * pv)) n d b d' : upd_key f n d = Some (b, d') -> map fst d' = map fst d.
Proof. intros H. destruct (upd_key_spec _ _ _ _ _ H) as (d1 & x & d2 & x' & -> & -> & _). rewrite !map_app. reflexivity. Qed.
Lemma path_holds f g l s p d r : (forall v, match v with VNone | VList _ | VProc _ => snd (f v) = v | _ => True end) -> holds g l d -> at_path (s :: p) f d = Some r -> holds g l (snd r).
Proof.
  intros Hf (fv & ex & a & -> & Ha & Ia & Hx & Hl) H. cbn [at_path] in H. destruct s as [n|n|n|i]; try discriminate H.
  - destruct (upd_key (at_path p f) n fv) as [[b0 fv']|] eqn:Eu; [|discriminate H]. cbn in H. injection H as <-. cbn [snd].
    destruct (upd_key_spec _ _ _ _ _ Eu) as (d1 & x & d2 & x' & -> & -> & Hu & Hn).
    eexists. exists ex, a. split; [reflexivity|]. split; [|auto]. eapply assoc_replace; [exact Ha|]. intros Hk Hm. subst n. rewrite Ha in Hm. injection Hm as <-. exact (inert_at f Hf p a _ Ia Hu).
  - destruct (upd_key (at_path p f) n ex) as [[b0 ex']|] eqn:Eu; [|discriminate H]. cbn in H. injection H as <-. cbn [snd].
    exists fv, ex', a. rewrite (upd_key_keys _ _ _ _ _ Eu). auto.
Qed.
Lemma item_inert op v : match v with VNone | VList _ | VProc _ => snd (item op v) = v | _ => True end.
Proof. destruct v; exact I || reflexivity. Qed.
Lemma inside_holds E a g l d b d1 : on_document a = false -> inside E a d = (b, d1) -> holds g l d -> holds g l d1.
Proof.
  intros Ho Hi Hd.
  assert (Hx : forall f p, (forall v, match v with VNone | VList _ | VProc _ => snd (f v) = v | _ => True end) -> (p = [] -> snd (f d) = d) ->
             or_missing d (at_path p f d) = (b, d1) -> holds g l d1).
  { intros f p Hf Hnil H. destruct p as [|s p].
    - cbn [at_path or_missing] in H. specialize (Hnil eq_refl). rewrite H in Hnil. cbn [snd] in Hnil. subst d1. exact Hd.
    - destruct (at_path (s :: p) f d) as [r|] eqn:Er; cbn [or_missing] in H; [|injection H as _ <-; exact Hd]. subst r. exact (path_holds f g l s p d _ Hf Hd Er). }
  destruct Hd as (fv & ex & x & -> & Hd). destruct a as [p n v|p k v|p k]; cbn [inside] in Hi.
  - apply (Hx (fun o => assign E plain o n v) p); [intros []; exact I || reflexivity| |exact Hi]. intros ->. discriminate Ho.
  - apply (Hx (item (RSet k v)) p); [apply item_inert|reflexivity|exact Hi].
  - apply (Hx (item (RDel k)) p); [apply item_inert|reflexivity|exact Hi].
Qed.
Lemma play_holds E g l pr : inner_only pr -> forall d ok d', play E pr d = (ok, d') -> holds g l d -> holds g l d'.
Proof.
  induction 1 as [| |k _ IH|a k Ho _ IH]; intros d ok d' H Hd; cbn [play] in H.
  - injection H as _ <-. exact Hd.
  - injection H as _ <-. exact Hd.
  - eapply IH; eauto.
  - destruct (inside E a d) as [b d1] eqn:Ei. eapply IH; [exact H|]. eapply inside_holds; eauto.
Qed.
Lemma each_inner E progs vals : (forall p, inner_only (progs p)) -> forall l d tr ok d', each E progs l d tr ok d' -> holds "extra_validators" vals d ->
  holds "extra_validators" vals d' /\ exists rest, l = (map fst tr ++ rest)%list /\ (ok = true -> rest = []).
Proof.
  intros Hi. induction 1 as [d|p l d tr1 d1 tr2 ok d2 Hp He IH|p l d tr1 d1 Hp]; intros Hd.
  - split; [exact Hd|]. exists []. auto.
  - apply plays_inner in Hp as [-> Hp]; [|apply Hi]. destruct (IH (play_holds E _ vals _ (Hi p) _ _ _ Hp Hd)) as (Hd2 & rest & Hl & Hr).
    split; [exact Hd2|]. exists rest. split; [|exact Hr]. cbn [app map fst]. f_equal. exact Hl.
  - apply plays_inner in Hp as [-> Hp]; [|apply Hi]. split; [exact (play_holds E _ vals _ (Hi p) _ _ _ Hp Hd)|]. exists l. split; [reflexivity|discriminate].
Qed.
Theorem c72_once_partial E progs v doc conv vals tr r : (forall p, inner_only (progs p)) -> parse E T_AsyncAPI3 v = Some doc ->
  listed doc "extra_converters" conv -> listed doc "extra_validators" vals -> builds E progs v tr r ->
  exists rest, (conv ++ vals = map fst tr ++ rest)%list /\ (r <> None -> rest = []).
Proof.
  intros Hi Hp Hc Hv H. assert (Hd := parsed_holds E v doc "extra_validators" vals (or_intror eq_refl) Hp Hv).
  assert (Hr : forall tr ok d', reruns E progs doc tr ok d' -> exists rest, (conv ++ vals = map fst tr ++ rest)%list /\ (ok = true -> rest = [])).
  { clear H. intros tr0 ok d' H. inversion H as [d0 l1 tr1 d1 l2 tr2 ok0 d2 H1 E1 H2 E2|d0 l1 tr1 d1 H1 E1|d0 H1|d0 l1 tr1 d1 H1 E1 H2]; subst;
      rewrite (listed_processors _ _ _ Hc) in H1; try discriminate H1; injection H1 as <-; destruct (each_inner E progs vals Hi _ _ _ _ _ E1 Hd) as (Hd1 & rest & Hl & Hx).
    - specialize (Hx eq_refl). subst rest. rewrite app_nil_r in Hl. rewrite (listed_processors _ _ _ (holds_listed _ _ _ Hd1)) in H2. injection H2 as <-.
      destruct (each_inner E progs vals Hi _ _ _ _ _ E2 Hd1) as (_ & rest & Hl2 & Hx2). exists rest. split; [|exact Hx2]. rewrite map_app, <- app_assoc, <- Hl2, <- Hl. reflexivity.
    - exists (rest ++ vals)%list. split; [rewrite Hl at 1; symmetry; apply app_assoc|discriminate].
    - rewrite (listed_processors _ _ _ (holds_listed _ _ _ Hd1)) in H2. discriminate H2. }
  inversion H as [Hn|doc0 tr0 doc1 Hp' Hrun|doc0 tr0 doc1 Hp' Hrun]; subst; [congruence| |]; rewrite Hp in Hp'; injection Hp' as <-; destruct (Hr _ _ _ Hrun) as (rest & Hl & Hx); exists rest; split; auto.
Qed.


(** ** Termination *)
(** Programs are deterministic. *)
Lemma exec_det E progs :
  (forall pr d tr ok d', plays E progs pr d tr ok d' -> forall tr2 ok2 d2, plays E progs pr d tr2 ok2 d2 -> tr2 = tr /\ ok2 = ok /\ d2 = d')
  /\ (forall l d tr ok d', each E progs l d tr ok d' -> forall tr2 ok2 d2, each E progs l d tr2 ok2 d2 -> tr2 = tr /\ ok2 = ok /\ d2 = d')
  /\ (forall d tr ok d', reruns E progs d tr ok d' -> forall tr2 ok2 d2, reruns E progs d tr2 ok2 d2 -> tr2 = tr /\ ok2 = ok /\ d2 = d').
Proof.
  apply exec_ind.
  - intros d tr2 ok2 d2 H. inversion H; auto.
  - intros d tr2 ok2 d2 H. inversion H; auto.
  - intros k d tr ok d' _ IH tr2 ok2 d2 H. inversion H; subst. auto.
  - intros a k d b d1 tr ok d' Ho Hi _ IH tr2 ok2 d2 H. inversion H as [| | |a0 k0 d0 b0 d3 tr0 ok0 d4 Ho0 Hi0 Hp|n v k0 d0 d3 tr0 ok0 d4 Hs|n v k0 d0 d3 tr1 b0 d4 tr3 ok0 d5 Hs]; subst; try discriminate Ho.
    rewrite Hi in Hi0. injection Hi0 as <- <-. auto.
  - intros n v k d d1 tr ok d' Ha _ IH tr2 ok2 d2 H. inversion H as [| | |a0 k0 d0 b0 d3 tr0 ok0 d4 Ho0 Hi0 Hp|n0 v0 k0 d0 d3 tr0 ok0 d4 Hs|n0 v0 k0 d0 d3 tr1 b0 d4 tr3 ok0 d5 Hs]; subst; try discriminate Ho0; rewrite Ha in Hs; [|discriminate Hs].
    injection Hs as <-. auto.
  - intros n v k d d1 tr1 b d2 tr2 ok d' Ha _ IH1 _ IH2 tr3 ok2 d3 H. inversion H as [| | |a0 k0 d0 b0 d4 tr0 ok0 d5 Ho0 Hi0 Hp|n0 v0 k0 d0 d4 tr0 ok0 d5 Hs|n0 v0 k0 d0 d4 tr4 b0 d5 tr5 ok0 d6 Hs Hr Hp]; subst; try discriminate Ho0; rewrite Ha in Hs; [discriminate Hs|].
    injection Hs as <-. destruct (IH1 _ _ _ Hr) as (-> & -> & ->). destruct (IH2 _ _ _ Hp) as (-> & -> & ->). auto.
  - intros d tr2 ok2 d2 H. inversion H; auto.
  - intros p l d tr1 d1 tr2 ok d2 _ IH1 _ IH2 tr3 ok2 d3 H. inversion H as [|p0 l0 d0 tr4 d4 tr5 ok5 d5 Hp He|p0 l0 d0 tr4 d4 Hp]; subst; destruct (IH1 _ _ _ Hp) as (-> & Hk & ->); [|discriminate Hk].
    destruct (IH2 _ _ _ He) as (-> & -> & ->). auto.
  - intros p l d tr1 d1 _ IH1 tr3 ok2 d3 H. inversion H as [|p0 l0 d0 tr4 d4 tr5 ok5 d5 Hp He|p0 l0 d0 tr4 d4 Hp]; subst; destruct (IH1 _ _ _ Hp) as (-> & Hk & ->); [discriminate Hk|auto].
  - intros d l1 tr1 d1 l2 tr2 ok d2 H1 _ IH1 H2 _ IH2 tr3 ok2 d3 H.
    inversion H as [d0 l3 tr4 d4 l4 tr5 ok5 d5 G1 E1 G2 E2|d0 l3 tr4 d4 G1 E1|d0 G1|d0 l3 tr4 d4 G1 E1 G2]; subst; rewrite H1 in G1; try discriminate G1; injection G1 as <-;
      destruct (IH1 _ _ _ E1) as (-> & Hk & ->); try discriminate Hk; rewrite H2 in G2; try discriminate G2. injection G2 as <-. destruct (IH2 _ _ _ E2) as (-> & -> & ->). auto.
  - intros d l1 tr1 d1 H1 _ IH1 tr3 ok2 d3 H.
    inversion H as [d0 l3 tr4 d4 l4 tr5 ok5 d5 G1 E1 G2 E2|d0 l3 tr4 d4 G1 E1|d0 G1|d0 l3 tr4 d4 G1 E1 G2]; subst; rewrite H1 in G1; try discriminate G1; injection G1 as <-;
      destruct (IH1 _ _ _ E1) as (-> & Hk & ->); try discriminate Hk. auto.
  - intros d H1 tr3 ok2 d3 H. inversion H as [d0 l3 tr4 d4 l4 tr5 ok5 d5 G1 E1 G2 E2|d0 l3 tr4 d4 G1 E1|d0 G1|d0 l3 tr4 d4 G1 E1 G2]; subst; try (rewrite H1 in G1; discriminate G1). auto.
  - intros d l1 tr1 d1 H1 _ IH1 H2 tr3 ok2 d3 H.
    inversion H as [d0 l3 tr4 d4 l4 tr5 ok5 d5 G1 E1 G2 E2|d0 l3 tr4 d4 G1 E1|d0 G1|d0 l3 tr4 d4 G1 E1 G2]; subst; rewrite H1 in G1; try discriminate G1; injection G1 as <-;
      destruct (IH1 _ _ _ E1) as (-> & Hk & ->); try discriminate Hk; [rewrite H2 in G2; discriminate G2|auto].
Qed.
Theorem c72_deterministic E progs v tr r : builds E progs v tr r -> forall tr2 r2, builds E progs v tr2 r2 -> tr2 = tr /\ r2 = r.
Proof.
  intros H tr2 r2 H2. destruct (exec_det E progs) as (_ & _ & Hd).
  destruct H as [Hn|doc tr doc1 Hp Hr|doc tr doc1 Hp Hr]; inversion H2 as [Hn'|doc' tr' doc1' Hp' Hr'|doc' tr' doc1' Hp' Hr']; subst; try congruence; auto;
    rewrite Hp in Hp'; injection Hp' as <-; destruct (Hd _ _ _ _ Hr _ _ _ Hr') as (-> & Hk & ->); try discriminate Hk; auto.
Qed.
(** If every assignment to the document makes some measure of it smaller, construction ends. *)
Section Measure.
  Context (E : env) (progs : pv -> prog) (P : pv -> Prop) (m : pv -> nat) (Hall : forall p d, P d -> descends E P m (progs p) d).
  Lemma plays_end n : (forall d, P d -> m d < n -> exists tr ok d', reruns E progs d tr ok d' /\ P d' /\ m d' <= m d) ->
    forall pr d, descends E P m pr d -> P d -> m d <= n -> exists tr ok d', plays E progs pr d tr ok d' /\ P d' /\ m d' <= m d.
  Proof.
    intros Hn. induction 1 as [d|d|k d _ IH|a k d b d1 Ho Hi Hm HP _ IH|n0 v k d d1 Ha Hm HP _ IH|n0 v k d d1 Ha Hm HP _ IH]; intros Hd Hle.
    - exists [], true, d. split; [constructor|auto].
    - exists [], false, d. split; [constructor|auto].
    - destruct (IH Hd Hle) as (tr & ok & d' & H & H'). exists tr, ok, d'. split; [constructor; exact H|exact H'].
    - destruct IH as (tr & ok & d' & H & H' & Hm'); [exact HP|lia|]. exists tr, ok, d'. split; [eapply pl_inside; eauto|split; [exact H'|lia]].
    - destruct IH as (tr & ok & d' & H & H' & Hm'); [exact HP|lia|]. exists tr, ok, d'. split; [eapply pl_refused; eauto|split; [exact H'|lia]].
    - destruct (Hn d1 HP ltac:(lia)) as (tr1 & b & d2 & Hr & Hd2 & Hm2). destruct (IH b d2 Hd2 Hm2 Hd2 ltac:(lia)) as (tr & ok & d' & H & H' & Hm').
      exists (tr1 ++ tr)%list, ok, d'. split; [eapply pl_stored; eauto|split; [exact H'|lia]].
  Qed.
  Lemma each_end n : (forall d, P d -> m d < n -> exists tr ok d', reruns E progs d tr ok d' /\ P d' /\ m d' <= m d) ->
    forall l d, P d -> m d <= n -> exists tr ok d', each E progs l d tr ok d' /\ P d' /\ m d' <= m d.
  Proof.
    intros Hn. induction l as [|p l IH]; intros d Hd Hle; [exists [], true, d; split; [constructor|auto]|].
    destruct (plays_end n Hn _ _ (Hall p d Hd) Hd Hle) as (tr & [] & d' & H & H' & Hm).
    - destruct (IH d' H' ltac:(lia)) as (tr2 & ok & d2 & H2 & H2' & Hm2). eexists. exists ok, d2. split; [eapply ea_next; eauto|split; [exact H2'|lia]].
    - eexists. exists false, d'. split; [eapply ea_stop; eauto|auto].
  Qed.
  Lemma reruns_end : forall n d, P d -> m d < n -> exists tr ok d', reruns E progs d tr ok d' /\ P d' /\ m d' <= m d.
  Proof.
    induction n as [|n IH]; intros d Hd Hle; [lia|]. destruct (processors d "extra_converters") as [l1|] eqn:E1.
    - destruct (each_end n IH l1 d Hd ltac:(lia)) as (tr1 & [] & d1 & H1 & Hd1 & Hm1).
      + destruct (processors d1 "extra_validators") as [l2|] eqn:E2.
        * destruct (each_end n IH l2 d1 Hd1 ltac:(lia)) as (tr2 & ok & d2 & H2 & Hd2 & Hm2). eexists. exists ok, d2. split; [eapply rs_both; eauto|split; [exact Hd2|lia]].
        * eexists. exists false, d1. split; [eapply rs_bad_validators; eauto|auto].
      + eexists. exists false, d1. split; [eapply rs_converter; eauto|auto].
    - exists [], false, d. split; [apply rs_bad_converters; exact E1|auto].
  Qed.
End Measure.
Theorem c72_measure E progs (P : pv -> Prop) (m : pv -> nat) v : (forall p d, P d -> descends E P m (progs p) d) -> (forall doc, parse E T_AsyncAPI3 v = Some doc -> P doc) ->
  exists tr r, builds E progs v tr r /\ forall d, r = Some d -> P d.
Proof.
  intros Hall HP. destruct (parse E T_AsyncAPI3 v) as [doc|] eqn:Ep.
  - destruct (reruns_end E progs P m Hall (S (m doc)) doc (HP doc eq_refl) (le_n _)) as (tr & [] & d' & H & Hd & _).
    + exists tr, (Some d'). split; [eapply bs_done; eauto|]. intros d Heq. injection Heq as <-. exact Hd.
    + exists tr, None. split; [eapply bs_raise; eauto|discriminate].
  - exists [], None. split; [apply bs_invalid; exact Ep|discriminate].
Qed.
Theorem c72_inside_ends E progs v : (forall p, inner_only (progs p)) -> exists tr r, builds E progs v tr r.
Proof.
  intros Hi. destruct (c72_measure E progs (fun _ => True) (fun _ => 0) v) as (tr & r & H & _); [|auto|eauto].
  intros p d _. revert d. generalize (Hi p). generalize (progs p). induction 1 as [| |k _ IH|a k Ho _ IH]; intros d; [constructor|constructor|constructor; apply IH|].
  destruct (inside E a d) as [b d1] eqn:Ei. eapply de_inside; eauto.
Qed.

(** ** The bundled validators see the final document, whatever the converters did and however often everything was run again *)
Lemma assoc_names (fs : list (finfo * ty)) (h : pystr -> pv) n : In n (map (fun ft => f_name (fst ft)) fs) -> assoc n (map (fun ft => (f_name (fst ft), h (f_name (fst ft)))) fs) = Some (h n).
Proof.
  induction fs as [|ft fs IH]; intros H; [destruct H|]. cbn [map assoc]. destruct (str_eqb n (f_name (fst ft))) eqn:Ee; [apply str_eqb_eq in Ee; rewrite Ee; reflexivity|].
  apply IH. destruct H as [H|H]; [|exact H]. rewrite H, str_eqb_refl in Ee. discriminate Ee.
Qed.
Lemma store_holds E fs k g l fv ex n v b d1 : In (u g) (map (fun ft => f_name (fst ft)) fs) -> n <> u g -> holds g l (VObj "AsyncAPI3" fv ex) ->
  store_in E plain fs k "AsyncAPI3" fv ex n v = (b, d1) -> holds g l d1.
Proof.
  intros Hin Hn (fv0 & ex0 & a & Heq & Ha & Ia & Hx & Hl) H. injection Heq as <- <-. unfold store_in in H. cbv zeta in H.
  match type of H with (if _ then (if _ then plain ?o else _) else _) = _ => assert (Hd : d1 = o) by (destruct (after_ok E "AsyncAPI3" k _ _); cbn in H; injection H as _ <-; reflexivity) end.
  subst d1. eexists. eexists. exists a. split; [reflexivity|]. split; [|split; [exact Ia|split; [|exact Hl]]].
  - rewrite (assoc_names fs (fun m => attr m (dict_set n v (dict_update fv ex))) (u g) Hin). unfold attr. rewrite assoc_dict_set.
    destruct (str_eqb (u g) n) eqn:Ee; [apply str_eqb_eq in Ee; congruence|]. rewrite assoc_dict_update by exact Hx. rewrite Ha. reflexivity.
  - intros Hi. apply in_map_iff in Hi as ([k0 x0] & Hk & Hi). cbn [fst] in Hk. subst k0. apply filter_In in Hi as [_ Hi]. apply negb_true_iff in Hi. cbn [fst] in Hi.
    apply mem_str_In in Hin. rewrite Hin in Hi. discriminate Hi.
Qed.
Lemma assign_holds E g l d n v b d1 : g = "extra_converters" \/ g = "extra_validators" -> n <> u g -> holds g l d -> assign E plain d n v = (b, d1) -> holds g l d1.
Proof.
  intros Hg Hn Hd H. assert (Hd0 := Hd). destruct Hd0 as (fv & ex & a & -> & _).
  assert (Hin : In (u g) (map (fun ft => f_name (fst ft)) (class_fields "AsyncAPI3"))) by (apply mem_str_In; destruct Hg as [->| ->]; vm_compute; reflexivity).
  unfold assign, store in H. revert H Hin. generalize (class_fields "AsyncAPI3"), (class_kind "AsyncAPI3"). intros fs k H Hin.
  destruct (find_field n fs) as [[fi t]|].
  - destruct (validate E t v) as [[y q]|]; [|injection H as _ <-; exact Hd]. destruct (fv_check E (f_val fi) y); [|injection H as _ <-; exact Hd]. eapply store_holds; eauto.
  - destruct k; try (injection H as _ <-; exact Hd); eapply store_holds; eauto.
Qed.
Lemma exec_holds E progs g l : g = "extra_converters" \/ g = "extra_validators" -> (forall p, leaves g (progs p)) ->
  (forall pr d tr ok d', plays E progs pr d tr ok d' -> leaves g pr -> holds g l d -> holds g l d')
  /\ (forall ps d tr ok d', each E progs ps d tr ok d' -> holds g l d -> holds g l d')
  /\ (forall d tr ok d', reruns E progs d tr ok d' -> holds g l d -> holds g l d').
Proof.
  intros Hg Hall. apply exec_ind; auto.
  - intros k d tr ok d' _ IH H. inversion H; subst. auto.
  - intros a k d b d1 tr ok d' Ho Hi _ IH H Hd. inversion H as [| | |a0 k0 Ha Hk]; subst. apply IH; [apply Hk|]. eapply inside_holds; eauto.
  - intros n v k d d1 tr ok d' Ha _ IH H Hd. inversion H as [| | |a0 k0 Hn Hk]; subst. apply IH; [apply Hk|]. eapply assign_holds; [exact Hg| |exact Hd|exact Ha]. eapply Hn. reflexivity.
  - intros n v k d d1 tr1 b d2 tr2 ok d' Ha _ IH1 _ IH2 H Hd. inversion H as [| | |a0 k0 Hn Hk]; subst. apply IH2; [apply Hk|]. apply IH1. eapply assign_holds; [exact Hg| |exact Hd|exact Ha]. eapply Hn. reflexivity.
Qed.
Lemma bundled_each E progs : standard_progs E progs -> forall l d tr d', all_bundled E l -> each E progs l d tr true d' -> d' = d /\ forall p, In p l -> accepts E d p.
Proof.
  intros Hs. induction l as [|p l IH]; intros d tr d' Hb H; [inversion H; subst; split; [reflexivity|intros p []]|].
  inversion H as [|p0 l0 d0 tr1 d1 tr2 ok d2 Hp He|]; subst. destruct (Hb p (or_introl eq_refl)) as (n & -> & Hn). rewrite (Hs n Hn) in Hp.
  inversion Hp as [| |k0 d0 tr0 ok0 d2 Hp'| | |]; subst. destruct (bundled E n d) as [[]|] eqn:Eb; inversion Hp'; subst.
  destruct (IH d1 _ _ (fun q Hq => Hb q (or_intror Hq)) He) as [-> Ha]. split; [reflexivity|]. intros q [<-|Hq]; [exists n; auto|auto].
Qed.
Theorem c72_final E progs v doc vals tr d' : standard_progs E progs -> (forall p, leaves "extra_validators" (progs p)) ->
  parse E T_AsyncAPI3 v = Some doc -> listed doc "extra_validators" vals -> all_bundled E vals -> builds E progs v tr (Some d') ->
  listed d' "extra_validators" vals /\ forall p, In p vals -> accepts E d' p.
Proof.
  intros Hs Hl Hp Hv Hb H. inversion H as [|doc0 tr0 doc1 Hp' Hr|]; subst. rewrite Hp in Hp'. injection Hp' as <-.
  assert (Hd := parsed_holds E v doc "extra_validators" vals (or_intror eq_refl) Hp Hv).
  destruct (exec_holds E progs "extra_validators" vals (or_intror eq_refl) Hl) as (_ & He & _).
  inversion Hr as [d0 l1 tr1 d1 l2 tr2 ok0 d2 H1 E1 H2 E2| | |]; subst. assert (Hd1 := He _ _ _ _ _ E1 Hd). rewrite (listed_processors _ _ _ (holds_listed _ _ _ Hd1)) in H2. injection H2 as <-.
  destruct (bundled_each E progs Hs vals d1 tr2 d' Hb E2) as [-> Ha]. split; [apply holds_listed; exact Hd1|exact Ha].
Qed.

(** ** What fails *)
Definition dct : pystr := u "default_content_type".
Definition missing (n : pystr) (d : pv) : bool := match d with VObj _ fv _ => match assoc n fv with Some VNone => true | _ => false end | _ => false end.
(** Fill the default content type if there is none; Second and Check do nothing; AddOps adds an operation, then the channel it names. *)
Definition fill : prog := Look (fun d => if missing dct d then Do (SetAttr [] dct (str "application/json")) (fun b => if b then Return else Raise) else Return).
Definition add_ops : prog := Look (fun d => if missing (u "operations") d then
    Do (SetAttr [] (u "operations") (obj [("op", obj [("action", str "send"); ("channel", ref "#/channels/c")])])) (fun b => if b then
      Do (SetAttr [] (u "channels") (obj [("c", obj [])])) (fun b => if b then Return else Raise) else Raise) else Return).
(** The same work, the channel first. *)
Definition add_ops_ok : prog := Look (fun d => if missing (u "channels") d then
    Do (SetAttr [] (u "channels") (obj [("c", obj [])])) (fun b => if b then
      Do (SetAttr [] (u "operations") (obj [("op", obj [("action", str "send"); ("channel", ref "#/channels/c")])])) (fun b => if b then Return else Raise) else Raise) else Return).
Definition touch : prog := Do (SetAttr [PField (u "info")] (u "description") (str "text")) (fun b => if b then Return else Raise).
Definition always : prog := Do (SetAttr [] dct (str "application/json")) (fun _ => Return).
Definition sample_progs (p : pv) : prog :=
  match p with
  | VProc n => if str_eqb n (u "Fill") then fill else if str_eqb n (u "AddOps") then add_ops else if str_eqb n (u "AddOpsOk") then add_ops_ok
               else if str_eqb n (u "Touch") then touch else if str_eqb n (u "Always") then always
               else Look (fun d => match bundled E0 n d with Some false => Raise | _ => Return end)
  | _ => Return
  end.
Definition docR (conv vals : list string) : pv := spec [("extra_converters", proc_names conv); ("extra_validators", proc_names vals)].
Definition named (l : list string) : list pv := map (fun n => VProc (u n)) l.
Definition set_to (d : pv) (n : string) (v : pv) : pv := snd (assign E0 plain d (u n) v).
(** Executions are computed (with a bound on the nesting depth) by: *)
Section Eval.
  Context (E : env) (progs : pv -> prog).
  Definition outcome := option (list (pv * pv) * bool * pv).
  Definition before (tr : list (pv * pv)) (r : outcome) : outcome := match r with Some (tr2, ok, d) => Some (tr ++ tr2, ok, d)%list | None => None end.
  Fixpoint ev_plays (rr : pv -> outcome) (p : prog) (d : pv) : outcome :=
    match p with
    | Return => Some ([], true, d)
    | Raise => Some ([], false, d)
    | Look k => ev_plays rr (k d) d
    | Do (SetAttr [] n v) k =>
        match assign E plain d n v with
        | (false, d1) => ev_plays rr (k false) d1
        | (true, d1) => match rr d1 with Some (tr, b, d2) => before tr (ev_plays rr (k b) d2) | None => None end
        end
    | Do a k => let (b, d1) := inside E a d in ev_plays rr (k b) d1
    end.
  Fixpoint ev_each (rr : pv -> outcome) (l : list pv) (d : pv) : outcome :=
    match l with
    | [] => Some ([], true, d)
    | p :: l => match ev_plays rr (progs p) d with
                | Some (tr, true, d1) => before ((p, d) :: tr) (ev_each rr l d1)
                | Some (tr, false, d1) => Some ((p, d) :: tr, false, d1)
                | None => None
                end
    end.
  Fixpoint ev_reruns (n : nat) (d : pv) : outcome :=
    match n with
    | 0 => None
    | S n => match processors d "extra_converters" with
             | None => Some ([], false, d)
             | Some l1 => match ev_each (ev_reruns n) l1 d with
                          | Some (tr, true, d1) => match processors d1 "extra_validators" with Some l2 => before tr (ev_each (ev_reruns n) l2 d1) | None => Some (tr, false, d1) end
                          | r => r
                          end
             end
    end.
  Definition ev_builds (n : nat) (v : pv) : option (list (pv * pv) * option pv) :=
    match parse E T_AsyncAPI3 v with
    | None => Some ([], None)
    | Some doc => match ev_reruns n doc with Some (tr, true, d) => Some (tr, Some d) | Some (tr, false, d) => Some (tr, None) | None => None end
    end.
  Lemma ev_plays_sound rr : (forall d tr ok d', rr d = Some (tr, ok, d') -> reruns E progs d tr ok d') -> forall p d tr ok d', ev_plays rr p d = Some (tr, ok, d') -> plays E progs p d tr ok d'.
  Proof.
    intros Hr. induction p as [| |k IH|a k IH]; intros d tr ok d' H; cbn [ev_plays] in H.
    - injection H as <- <- <-. constructor.
    - injection H as <- <- <-. constructor.
    - constructor. apply IH. exact H.
    - assert (Hin : forall b d1, on_document a = false -> inside E a d = (b, d1) -> ev_plays rr (k b) d1 = Some (tr, ok, d') -> plays E progs (Do a k) d tr ok d').
      { intros b d1 Ho Hi He. eapply pl_inside; [exact Ho|exact Hi|]. apply IH. exact He. }
      destruct a as [[|s q] n v|q n v|q n].
      + destruct (assign E plain d n v) as [[] d1] eqn:Ea.
        * destruct (rr d1) as [[[tr1 b] d2]|] eqn:Er; [|discriminate H]. destruct (ev_plays rr (k b) d2) as [[[tr2 ok2] d3]|] eqn:Ep; [|discriminate H]. cbn [before] in H. injection H as <- <- <-.
          eapply pl_stored; [exact Ea|apply Hr; exact Er|apply IH; exact Ep].
        * eapply pl_refused; [exact Ea|]. apply IH. exact H.
      + destruct (inside E (SetAttr (s :: q) n v) d) as [b d1] eqn:Ei. exact (Hin b d1 eq_refl eq_refl H).
      + destruct (inside E (SetItem q n v) d) as [b d1] eqn:Ei. exact (Hin b d1 eq_refl eq_refl H).
      + destruct (inside E (DelItem q n) d) as [b d1] eqn:Ei. exact (Hin b d1 eq_refl eq_refl H).
  Qed.
  Lemma ev_each_sound rr : (forall d tr ok d', rr d = Some (tr, ok, d') -> reruns E progs d tr ok d') -> forall l d tr ok d', ev_each rr l d = Some (tr, ok, d') -> each E progs l d tr ok d'.
  Proof.
    intros Hr. induction l as [|p l IH]; intros d tr ok d' H; cbn [ev_each] in H; [injection H as <- <- <-; constructor|].
    destruct (ev_plays rr (progs p) d) as [[[tr1 []] d1]|] eqn:Ep; [| |discriminate H]; apply (ev_plays_sound rr Hr) in Ep.
    - destruct (ev_each rr l d1) as [[[tr2 ok2] d2]|] eqn:Ee; [|discriminate H]. cbn [before] in H. injection H as <- <- <-. eapply ea_next; [exact Ep|]. apply IH. exact Ee.
    - injection H as <- <- <-. eapply ea_stop. exact Ep.
  Qed.
  Lemma ev_reruns_sound n : forall d tr ok d', ev_reruns n d = Some (tr, ok, d') -> reruns E progs d tr ok d'.
  Proof.
    induction n as [|n IH]; intros d tr ok d' H; [discriminate H|]. cbn [ev_reruns] in H. destruct (processors d "extra_converters") as [l1|] eqn:E1.
    - destruct (ev_each (ev_reruns n) l1 d) as [[[tr1 []] d1]|] eqn:Ee; [| |discriminate H]; apply (ev_each_sound _ IH) in Ee.
      + destruct (processors d1 "extra_validators") as [l2|] eqn:E2.
        * destruct (ev_each (ev_reruns n) l2 d1) as [[[tr2 ok2] d2]|] eqn:Ee2; [|discriminate H]. cbn [before] in H. injection H as <- <- <-. apply (ev_each_sound _ IH) in Ee2. eapply rs_both; eauto.
        * injection H as <- <- <-. eapply rs_bad_validators; eauto.
      + injection H as <- <- <-. eapply rs_converter; eauto.
    - injection H as <- <- <-. apply rs_bad_converters. exact E1.
  Qed.
  Lemma ev_builds_sound n v tr r : ev_builds n v = Some (tr, r) -> builds E progs v tr r.
  Proof.
    unfold ev_builds. destruct (parse E T_AsyncAPI3 v) as [doc|] eqn:Ep; intros H; [|injection H as <- <-; apply bs_invalid; exact Ep].
    destruct (ev_reruns n doc) as [[[tr1 []] d]|] eqn:Er; [| |discriminate H]; injection H as <- <-; apply ev_reruns_sound in Er; [eapply bs_done|eapply bs_raise]; eauto.
  Qed.
End Eval.
Definition computed {X} (r : option X) (d : X) : X := match r with Some x => x | None => d end.
Lemma sample_builds n v : ev_builds E0 sample_progs n v <> None -> builds E0 sample_progs v (fst (computed (ev_builds E0 sample_progs n v) ([], None))) (snd (computed (ev_builds E0 sample_progs n v) ([], None))).
Proof. intros H. apply (ev_builds_sound _ _ n). destruct (ev_builds E0 sample_progs n v) as [[tr r]|]; [reflexivity|congruence]. Qed.
Definition result (conv vals : list string) : list (pv * pv) * option pv := computed (ev_builds E0 sample_progs 5 (docR conv vals)) ([], None).

(** "Validators run after all converters": a converter that assigns an attribute of the document makes the validators run
    before the converters listed after it. *)
Theorem c72_validators_after_refuted : ~ (forall E progs v doc conv vals tr r, parse E T_AsyncAPI3 v = Some doc -> listed doc "extra_converters" conv -> listed doc "extra_validators" vals ->
  (forall p, In p conv -> ~ In p vals) -> builds E progs v tr r ->
  forall before p after, tr = (before ++ p :: after)%list -> In (fst p) vals -> forall q, In q after -> ~ In (fst q) conv).
Proof.
  intros H. specialize (H E0 sample_progs (docR ["Fill"; "Second"] ["Check"]) (load_doc (docR ["Fill"; "Second"] ["Check"])) (named ["Fill"; "Second"]) (named ["Check"])
    (fst (result ["Fill"; "Second"] ["Check"])) (snd (result ["Fill"; "Second"] ["Check"]))).
  assert (Hb : builds E0 sample_progs (docR ["Fill"; "Second"] ["Check"]) (fst (result ["Fill"; "Second"] ["Check"])) (snd (result ["Fill"; "Second"] ["Check"]))) by (apply sample_builds; vm_compute; discriminate).
  assert (Hx := H ltac:(apply load_doc_ok; vm_compute; reflexivity) ltac:(eexists _, _, _; split; [vm_compute; reflexivity|left; vm_compute; reflexivity])
    ltac:(eexists _, _, _; split; [vm_compute; reflexivity|left; vm_compute; reflexivity])). clear H.
  assert (Hdis : forall p, In p (named ["Fill"; "Second"]) -> ~ In p (named ["Check"])) by (intros p [<-|[<-|[]]] [Hc|[]]; vm_compute in Hc; discriminate Hc).
  specialize (Hx Hdis Hb). clear Hb Hdis. specialize (Hx (firstn 3 (fst (result ["Fill"; "Second"] ["Check"])))).
  set (t := fst (result ["Fill"; "Second"] ["Check"])) in *. specialize (Hx (nth 3 t (VNone, VNone)) (skipn 4 t)).
  assert (Hq : In (nth 4 t (VNone, VNone)) (skipn 4 t)) by (subst t; vm_compute; left; reflexivity).
  refine (Hx _ _ _ Hq _); subst t; vm_compute; auto.
Qed.
(** "A converter's effect is judged when it has finished": the validators see the document between two of its assignments. *)
Theorem c72_half_converted_refuted : ~ (forall E progs v calls d tr r, construct (acts_of E progs) E v calls (Some d) -> builds E progs v tr r -> r <> None).
Proof.
  intros H. set (v := docR ["AddOps"] ["UnifiedReferencesValidator"]).
  assert (Hb : builds E0 sample_progs v (fst (result ["AddOps"] ["UnifiedReferencesValidator"])) (snd (result ["AddOps"] ["UnifiedReferencesValidator"]))) by (apply sample_builds; vm_compute; discriminate).
  set (d0 := load_doc v). set (d1 := snd (play E0 (sample_progs (VProc (u "AddOps"))) d0)).
  assert (Hc : construct (acts_of E0 sample_progs) E0 v ([Call (VProc (u "AddOps")) d0 true d1] ++ [Call (VProc (u "UnifiedReferencesValidator")) d1 true d1]) (Some d1)).
  { apply (cs_done _ _ _ d0); [apply load_doc_ok; vm_compute; reflexivity|]. eapply (run_both _ _ (named ["AddOps"]) _ d1 (named ["UnifiedReferencesValidator"])); [vm_compute; reflexivity| |vm_compute; reflexivity|].
    - eapply (lp_next _ _ _ _ _ _ (named ["AddOps"])); [reflexivity|split; [vm_compute; reflexivity|reflexivity]|]. apply lp_end. reflexivity.
    - eapply (lp_next _ _ _ _ _ _ (named ["UnifiedReferencesValidator"])); [reflexivity|split; [vm_compute; reflexivity|reflexivity]|]. apply lp_end. reflexivity. }
  apply (H _ _ _ _ _ _ _ Hc Hb). vm_compute. reflexivity.
Qed.

(** ** Examples *)
(** c72_no_end, c72_unconditional *)
Example c72_ex_no_end : ~ exists tr r, builds E0 sample_progs (docR ["Always"] ["Check"]) tr r.
Proof.
  assert (Hpd : python_dicts (docR ["Always"] ["Check"])) by (apply python_dicts_dec; vm_compute; reflexivity).
  eapply (c72_unconditional E0 sample_progs (docR ["Always"] ["Check"]) (load_doc (docR ["Always"] ["Check"])) (named ["Always"]) (named ["Check"]) (VProc (u "Always")) (named ["Check"]) dct (str "application/json") (fun _ => Return));
    [exact Hpd|apply load_doc_ok; vm_compute; reflexivity|eexists _, _, _; split; [vm_compute; reflexivity|left; vm_compute; reflexivity]|
     eexists _, _, _; split; [vm_compute; reflexivity|left; vm_compute; reflexivity]|reflexivity|reflexivity|vm_compute; discriminate|vm_compute; discriminate|vm_compute; reflexivity].
Qed.
(** c72_inside_partial, c72_once_partial, c72_inside_ends: the converter changes the description of the info object. *)
Definition touch_progs (p : pv) : prog := match p with VProc n => if str_eqb n (u "Touch") then touch else Return | _ => Return end.
Example c72_ex_inside : (forall p, inner_only (touch_progs p))
  /\ exists tr d, builds E0 touch_progs (docR ["Touch"; "Second"] ["Check"]) tr (Some d) /\ map fst tr = named ["Touch"; "Second"; "Check"] /\ d <> load_doc (docR ["Touch"; "Second"] ["Check"]).
Proof.
  split.
  - intros p; destruct p as [| | | | | | | | | |pn|]; try constructor. cbn [touch_progs]. destruct (str_eqb pn (u "Touch")); [|constructor]. constructor; [reflexivity|]. intros []; constructor.
  - exists (fst (computed (ev_builds E0 touch_progs 2 (docR ["Touch"; "Second"] ["Check"])) ([], None))). eexists. split; [|split].
    + apply (ev_builds_sound _ _ 2). vm_compute. reflexivity.
    + vm_compute. reflexivity.
    + vm_compute. discriminate.
Qed.
(** c72_measure: filling in what is missing. *)
Definition lacking (d : pv) : nat := if missing dct d then 1 else 0.
Definition fill_progs (p : pv) : prog := match p with VProc n => if str_eqb n (u "Fill") then fill else Return | _ => Return end.
Definition fill0 : pv := load_doc (docR ["Fill"] ["Check"]).
Example c72_ex_measure : (forall p d, (d = fill0 \/ d = set_to fill0 "default_content_type" (str "application/json")) ->
    descends E0 (fun d => d = fill0 \/ d = set_to fill0 "default_content_type" (str "application/json")) lacking (fill_progs p) d)
  /\ parse E0 T_AsyncAPI3 (docR ["Fill"] ["Check"]) = Some fill0 /\ lacking fill0 = 1.
Proof.
  split; [|split; [apply load_doc_ok; vm_compute; reflexivity|vm_compute; reflexivity]]. intros p d Hd. destruct p as [| | | | | | | | | |pn|]; try apply de_return. cbn [fill_progs]. destruct (str_eqb pn (u "Fill")); [|apply de_return].
  apply de_look. destruct Hd as [->| ->].
  - replace (missing dct fill0) with true by (vm_compute; reflexivity). eapply (de_stored _ _ _ _ _ _ _ (set_to fill0 "default_content_type" (str "application/json"))).
    + vm_compute. reflexivity.
    + replace (lacking (set_to fill0 "default_content_type" (str "application/json"))) with 0 by (vm_compute; reflexivity). replace (lacking fill0) with 1 by (vm_compute; reflexivity). constructor.
    + right. reflexivity.
    + intros [] d2 _ _; constructor.
  - replace (missing dct (set_to fill0 "default_content_type" (str "application/json"))) with false by (vm_compute; reflexivity). constructor.
Qed.
(** c72_final, c72_deterministic: the converter assigns twice, everything runs again twice, the validator accepts the final document. *)
Definition final_progs (p : pv) : prog :=
  match p with VProc n => if str_eqb n (u "AddOpsOk") then add_ops_ok else Look (fun d => match bundled E0 n d with Some true => Return | _ => Raise end) | _ => Return end.
Example c72_ex_final : standard_progs E0 final_progs /\ (forall p, leaves "extra_validators" (final_progs p)) /\ all_bundled E0 (named ["UnifiedReferencesValidator"])
  /\ listed (load_doc (docR ["AddOpsOk"] ["UnifiedReferencesValidator"])) "extra_validators" (named ["UnifiedReferencesValidator"])
  /\ exists tr d, builds E0 final_progs (docR ["AddOpsOk"] ["UnifiedReferencesValidator"]) tr (Some d) /\ length tr = 6.
Proof.
  split; [|split; [|split; [|split]]].
  - intros n Hn. cbn [final_progs]. destruct (str_eqb n (u "AddOpsOk")) eqn:Ee; [|reflexivity]. apply str_eqb_eq in Ee. subst n. exfalso. apply (Hn VNone). vm_compute. reflexivity.
  - intros p; destruct p as [| | | | | | | | | |pn|]; try constructor. cbn [final_progs]. destruct (str_eqb pn (u "AddOpsOk")).
    + constructor. intros d. destruct (missing (u "channels") d); [|constructor]. constructor; [intros n v Hn; injection Hn as <- _; vm_compute; discriminate|]. intros []; [|constructor].
      constructor; [intros n v Hn; injection Hn as <- _; vm_compute; discriminate|]. intros []; constructor.
    + constructor. intros d. destruct (bundled E0 pn d) as [[]|]; constructor.
  - intros p [<-|[]]. eexists. split; [reflexivity|]. intros doc. apply c41_bundled_names. left. reflexivity.
  - eexists _, _, _. split; [vm_compute; reflexivity|]. left. vm_compute. reflexivity.
  - exists (fst (computed (ev_builds E0 final_progs 5 (docR ["AddOpsOk"] ["UnifiedReferencesValidator"])) ([], None))). eexists. split; [|vm_compute; reflexivity].
    apply (ev_builds_sound _ _ 5). vm_compute. reflexivity.
Qed.
