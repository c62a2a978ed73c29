(** C101: what is loaded from data carries no code: it lists no processors, and loading it calls none. *)
From Verif Require Import PyStr Value Types Rules Pydantic ClassTable Classes Canon Fix Linked SpecParse Sample ProofRules ProofParse
  State SpecState ProofState PropState Resolve SpecResolve ProofResolve PropResolve Unified SpecUnified ProofUnified ProofCheck PropUnified
  ProofDump Validators SpecValidators ProofValidators PropValidators Pipeline SpecPipeline PropPipeline Dump SpecDump PropDump
  JsonText SpecJsonText PropJsonText SpecInert.
Local Open Scope string_scope.

Lemma inert_list l : Forall inert l -> inert (VList l).
Proof. rewrite Forall_forall. intros H x Hw. inversion Hw; subst; [exact I|eapply H; eauto]. Qed.
Lemma inert_dict d : Forall (fun kv => inert (snd kv)) d -> inert (VDict d).
Proof. rewrite Forall_forall. intros H x Hw. inversion Hw; subst; [exact I|]. eapply (H (k, y)); eauto. Qed.
Lemma inert_root c d : Forall (fun kv => inert (snd kv)) d -> inert (VRoot c d).
Proof. rewrite Forall_forall. intros H x Hw. inversion Hw; subst; [exact I|]. eapply (H (k, y)); eauto. Qed.
Lemma inert_obj c fv ex : Forall (fun kv => inert (snd kv)) fv -> Forall (fun kv => inert (snd kv)) ex -> inert (VObj c fv ex).
Proof.
  rewrite !Forall_forall. intros Hf He x Hw. inversion Hw; subst; [exact I|eapply (Hf (k, y)); eauto|eapply (He (k, y)); eauto].
Qed.
Lemma inert_closed : closed inert.
Proof.
  constructor; intros.
  - apply Forall_forall. intros y Hy x Hx. apply H. econstructor; eauto.
  - apply Forall_forall. intros [k y] Hy x Hx. apply H. eapply w_dict; eauto.
  - split; apply Forall_forall; intros [k y] Hy x Hx; apply H; [eapply w_field|eapply w_extra]; eauto.
  - apply Forall_forall. intros [k y] Hy x Hx. apply H. eapply w_root; eauto.
Qed.
Lemma def_inert fi t d : default_ok fi t = true -> f_def fi = Some d -> inert d.
Proof.
  unfold default_ok. intros H Hd. rewrite Hd in H. destruct d; try discriminate;
    intros x Hx; inversion Hx; subst; exact I.
Qed.
Lemma validate_inert E t : wf_ty t = true -> forall v r n, inert v -> validate E t v = Some (r, n) -> inert r.
Proof.
  assert (Hat : forall v, match v with VList _ | VDict _ | VObj _ _ _ | VRoot _ _ | VProc _ | VOpaque _ => False | _ => True end -> inert v).
  { intros v Hv x Hx. inversion Hx; subst; simpl in Hv; try contradiction. destruct v; simpl in *; try contradiction; exact I. }
  assert (Hdict : forall t, (forall v r n, inert v -> validate E t v = Some (r, n) -> inert r) ->
     forall d r n, Forall (fun kv => inert (snd kv)) d -> vdict (validate E) t d = Some (r, n) -> Forall (fun kv => inert (snd kv)) r).
  { intros t0 IH. induction d as [|[k x] d IHd]; simpl; intros r n HF H; [inversion H; constructor|].
    inversion HF; subst. destruct (validate E t0 x) as [[x' p]|] eqn:Ex; [|discriminate].
    change ((fix go (d : fields) : option (fields * nat) := _) d) with (vdict (validate E) t0 d) in H.
    destruct (vdict (validate E) t0 d) as [[r' m]|] eqn:Ed; inversion H; subst. constructor; [eapply IH; eauto|eapply IHd; eauto]. }
  induction t using ty_ind'; intros Hwf v r n Hv H1; cbn [validate] in *.
  - inversion H1; subst; exact Hv.
  - destruct v; try discriminate. destruct (len_ok m s); inversion H1; subst; apply Hat; exact I.
  - destruct v; try discriminate. destruct (email_ok s); inversion H1; subst; apply Hat; exact I.
  - destruct v; try discriminate; try (destruct (e_int E _)); inversion H1; subst; apply Hat; exact I.
  - destruct v; try discriminate; try (destruct (e_bool E _)); inversion H1; subst; apply Hat; exact I.
  - destruct v; try discriminate; (destruct (e_url E b s) eqn:Eu; inversion H1; subst; apply Hat; exact I).
  - destruct v; try discriminate. destruct (mem_str s l); inversion H1; subst; apply Hat; exact I.
  - destruct v; try discriminate. destruct (mem_Z z l); inversion H1; subst; apply Hat; exact I.
  - destruct v; try discriminate. apply (cl_list _ inert_closed) in Hv.
    destruct (vlist (validate E) t l) as [[l' m]|] eqn:El; inversion H1; subst. apply inert_list.
    clear H1. revert l' n El. induction l as [|x l IHl]; simpl; intros l' n El; [inversion El; constructor|].
    inversion Hv; subst. destruct (validate E t x) as [[x' p]|] eqn:Ex; [|discriminate].
    change ((fix go (l0 : list pv) : option (list pv * nat) := _) l) with (vlist (validate E) t l) in El.
    destruct (vlist (validate E) t l) as [[l2 q]|] eqn:El2; inversion El; subst. constructor; [eapply IHt; eauto|eapply IHl; eauto].
  - destruct v; try discriminate. destruct (vdict (validate E) t d) as [[d' m]|] eqn:El; inversion H1; subst. apply inert_dict.
    apply (cl_dict _ inert_closed) in Hv. eapply Hdict; eauto.
  - destruct v; try (eapply IHt; eauto; fail). inversion H1; subst; apply Hat; exact I.
  - simpl in Hwf. apply andb_prop in Hwf as [_ Hwf]. rewrite forallb_forall in Hwf. rewrite Forall_forall in H.
    apply best_of_spec in H1 as (pre & post & Heq & _ & _).
    assert (Hin : In (Some (r, n)) (map (fun t' => validate E t' v) ts)) by (rewrite Heq; apply in_or_app; right; left; reflexivity).
    apply in_map_iff in Hin as (t' & Ht' & Hin). eapply H; eauto.
  - destruct v; try discriminate. destruct (forallb is_proc l); inversion H1; subst. exact Hv.
  - cbn [wf_ty] in Hwf. apply andb_prop in Hwf as [Hm Hall]. unfold model_ok in Hm.
    assert (Hg : forall kvs, Forall (fun kv => inert (snd kv)) kvs -> vmodel E (validate E) c k fs kvs = Some (r, n) -> inert r).
    { intros kvs HF Hvm. apply vmodel_obj in Hvm as (fv & Hfv & -> & Ha).
      apply inert_obj.
      - repeat (apply andb_prop in Hm as [Hm ?Hm]). clear Ha H1 Hm Hm0 Hm1 Hm3. rename Hm2 into Hdef.
        revert fv n Hfv H Hall Hdef. induction fs as [|[fi t] fs IHfs]; intros fv n Hfv HIH Hall Hdef.
        + simpl in Hfv. inversion Hfv; subst. constructor.
        + cbn [forallb snd fst] in *. apply andb_prop in Hall as [Hwt Hall]. apply andb_prop in Hdef as [Hd Hdef].
          inversion HIH as [|? ? HIHt HIHr]; subst. simpl in Hfv.
          change ((fix go (l0 : list (finfo * ty)) : option (fields * nat) := _) fs) with (vfields E (validate E) kvs fs) in Hfv.
          destruct (lookup_field fi kvs) as [x|] eqn:Elk.
          * destruct (validate E t x) as [[x' p]|] eqn:Ex; [|discriminate].
            destruct (fv_check E (f_val fi) x') eqn:Ef; [|discriminate].
            destruct (vfields E (validate E) kvs fs) as [[r' m]|] eqn:Er; inversion Hfv; subst.
            constructor; [|eapply IHfs; eauto]. apply (HIHt Hwt x x' p); [|exact Ex]. unfold lookup_field in Elk.
            destruct (assoc (f_alias fi) kvs) eqn:Ea; [inversion Elk; subst|]; eapply assoc_Forall; eauto.
          * destruct (f_def fi) as [d|] eqn:Ed; [|discriminate].
            destruct (vfields E (validate E) kvs fs) as [[r' m]|] eqn:Er; inversion Hfv; subst.
            constructor; [eapply def_inert; eauto|eapply IHfs; eauto].
      - apply filter_Forall. exact HF. }
    destruct v; try discriminate.
    + eapply Hg; [apply (cl_dict _ inert_closed); exact Hv|exact H1].
    + destruct (String.eqb c c0); [|discriminate]. apply (cl_obj _ inert_closed) in Hv as [Hv1 Hv2].
      eapply Hg; [|exact H1]; apply dict_update_Forall; assumption.
  - assert (Hg : forall d, Forall (fun kv => inert (snd kv)) d ->
              match vdict (validate E) t d with
              | Some (d', n) => if root_keys_ok d' then Some (VRoot c d', n) else None
              | None => None end = Some (r, n) -> inert r).
    { intros d HF Hd. destruct (vdict (validate E) t d) as [[d' m]|] eqn:El; [|discriminate].
      destruct (root_keys_ok d'); inversion Hd; subst. apply inert_root; eapply Hdict; eauto. }
    destruct v; try discriminate.
    + eapply Hg; [apply (cl_dict _ inert_closed); exact Hv|exact H1].
    + destruct (String.eqb c c0); [|discriminate]. eapply Hg; [eapply (cl_root _ inert_closed); exact Hv|exact H1].
Qed.

(** ** C101 *)
(** No code in, no code out: anywhere in what any class of the library loads from such data. *)
Theorem c101_no_code E t v o : In t all_types -> inert v -> parse E t v = Some o -> inert o.
Proof. intros Hi Hv Hp. apply parse_some in Hp as [n Hp]. eapply validate_inert; [exact (wf_all _ Hi)|exact Hv|exact Hp]. Qed.
Theorem c101_json_is_inert v : is_json v -> inert v.
Proof. intros Hj x Hx. specialize (Hj x Hx). destruct x; auto. Qed.

(** A document loaded from data lists no converters and no validators... *)
Lemma inert_listed E doc f l : well_typed E T_AsyncAPI3 doc -> f = "extra_converters" \/ f = "extra_validators" -> inert doc -> listed doc f l -> l = [].
Proof.
  intros Hwt Hf Hi (c & fv & ex & -> & Hl). destruct Hl as [Ha|[_ ->]]; [|reflexivity].
  unfold T_AsyncAPI3 in Hwt. apply obj_shape in Hwt as (fv0 & ex0 & Heq & Hwt & _). injection Heq as -> <- <-.
  assert (Hx : exists fi, find_field (u f) (class_fields "AsyncAPI3") = Some (fi, TOpt TProcs)) by (destruct Hf as [->| ->]; eexists; vm_compute; reflexivity).
  destruct Hx as (fi & Hx). change (find_field (u f) (class_fields "AsyncAPI3")) with (find_field (u f) (match T_AsyncAPI3 with TModel _ _ fs => fs | _ => [] end)) in Hx.
  destruct (find_typed _ _ _ _ _ _ Hwt Hx) as (x & Hax & Ht). rewrite Ha in Hax. injection Hax as <-.
  destruct Ht as [Hn|(l' & Hl' & Hp)]; [discriminate Hn|]. injection Hl' as <-. destruct l as [|p l]; [reflexivity|exfalso].
  apply assoc_In in Ha.
  assert (Hw : within p (VObj "AsyncAPI3" fv ex)) by (eapply w_field; [exact Ha|]; eapply w_list; [left; reflexivity|apply w_self]).
  specialize (Hi p Hw). revert Hp Hi. clear. intros Hp Hi. rewrite Forall_forall in Hp. destruct (Hp p (or_introl eq_refl)) as [s ->]. exact Hi.
Qed.
Theorem c101_no_processors E v doc : inert v -> parse E T_AsyncAPI3 v = Some doc -> listed doc "extra_converters" [] /\ listed doc "extra_validators" [].
Proof.
  intros Hv Hp. assert (Hwt := parse_wt _ _ _ _ (wf_all _ in_root) Hp). assert (Hi := c101_no_code E _ v doc in_root Hv Hp).
  assert (Hl : forall f, f = "extra_converters" \/ f = "extra_validators" -> listed doc f []).
  { intros f Hf. destruct (typed_listed E doc f Hwt Hf) as (l & Hl & _). rewrite (inert_listed E doc f l Hwt Hf Hi Hl) in Hl. exact Hl. }
  split; apply Hl; [left|right]; reflexivity.
Qed.
(** ... and loading it calls no processor, whatever the classes in the program do: the result is the validated data. *)
Theorem c101_no_calls E acts v calls r : inert v -> (construct acts E v calls r <-> calls = [] /\ r = parse E T_AsyncAPI3 v).
Proof.
  intros Hv. destruct (parse E T_AsyncAPI3 v) as [doc|] eqn:Hp.
  - destruct (c101_no_processors E v doc Hv Hp) as [Hc Hx]. exact (c39_none E acts v doc calls r Hp Hc Hx).
  - split; [apply c39_invalid; exact Hp|]. intros [-> ->]. apply cs_invalid. exact Hp.
Qed.
(** The same for every JSON text. *)
Theorem c101_text E acts F n s v calls r : read F n s = Some v -> (construct acts E v calls r <-> calls = [] /\ r = parse E T_AsyncAPI3 v).
Proof. intros Hr. apply c101_no_calls, c101_json_is_inert. exact (proj1 (c91_plain_data _ _ _ _ Hr)). Qed.
(** Data can name no processor: any non-empty list under either key is refused. *)
Theorem c101_names_refused E kvs f x l : inert (VDict kvs) -> f = "extra_converters" \/ f = "extra_validators" -> assoc (u f) kvs = Some (VList (x :: l)) ->
  parse E T_AsyncAPI3 (VDict kvs) = None.
Proof.
  intros Hv Hf Ha. destruct (parse E T_AsyncAPI3 (VDict kvs)) as [doc|] eqn:Hp; [exfalso|reflexivity].
  unfold T_AsyncAPI3 in Hp. apply model_parse_iff in Hp as (fv & -> & Ht & _).
  assert (Hx : exists fi, In (fi, TOpt TProcs) (match T_AsyncAPI3 with TModel _ _ fs => fs | _ => [] end) /\ f_name fi = u f /\ f_alias fi = u f).
  { exists (fld f f (Some VNone) false true FvNone). split; [|split; reflexivity]. destruct Hf as [->| ->]; [apply (nth_error_In _ 8)|apply (nth_error_In _ 9)]; reflexivity. }
  destruct Hx as (fi & Hin & Hn & Hal).
  assert (Hnd0 : NoDup (map (fun ft => f_name (fst ft)) (match T_AsyncAPI3 with TModel _ _ fs => fs | _ => [] end))) by (apply (names_NoDup "AsyncAPI3" KExt); exact (wf_all _ in_root)).
  unfold T_AsyncAPI3 in Hin, Hnd0. match type of Ht with typed_fields _ _ ?fs _ => set (fs0 := fs) in * end. clearbody fs0.
  destruct (typed_find E _ fs0 fv fi _ Ht Hnd0 Hin) as (y & _ & Hy).
  destruct Hy as [(z & Hg & Hz & _)|(Hno & _)]; [|rewrite Hal in Hno; congruence].
  destruct Hg as [Hg|[Hg _]]; [|rewrite Hal in Hg; congruence]. rewrite Hal, Ha in Hg. injection Hg as <-.
  apply parse_some in Hz as [m Hz]. cbn [validate] in Hz. destruct (forallb is_proc (x :: l)) eqn:Hb; [|discriminate]. cbn [forallb] in Hb. apply andb_prop in Hb as [Hb _].
  assert (Hw : within x (VDict kvs)) by (apply assoc_In in Ha; eapply w_dict; [exact Ha|]; eapply w_list; [left; reflexivity|apply w_self]).
  specialize (Hv x Hw). destruct x; try discriminate Hb. exact Hv.
Qed.

(** A document whose channel refers to a server that does not exist: loaded from data without complaint and without a check, although the
    reference validator, had it been listed, raises; and the same data that names that validator is refused. *)
Definition docI := spec [("channels", obj [("c", obj [("servers", VList [ref "#/servers/none"])])])].
Definition docI_named := spec [("channels", obj [("c", obj [("servers", VList [ref "#/servers/none"])])]); ("extra_validators", VList [str "UnifiedReferencesValidator"])].
Example c101_example :
  inert docI /\ parse E0 T_AsyncAPI3 docI = Some (load_doc docI)
  /\ (forall acts calls r, construct acts E0 docI calls r <-> calls = [] /\ r = Some (load_doc docI))
  /\ unified E0 (load_doc docI) <> None
  /\ parse E0 T_AsyncAPI3 docI_named = None.
Proof.
  assert (Hi : inert docI) by (apply c101_json_is_inert, json_dec; vm_compute; reflexivity).
  assert (Hp : parse E0 T_AsyncAPI3 docI = Some (load_doc docI)) by (apply load_doc_ok; vm_compute; reflexivity).
  split; [exact Hi|]. split; [exact Hp|]. split; [intros acts calls r; rewrite (c101_no_calls E0 acts docI calls r Hi), Hp; reflexivity|]. split.
  - assert (Hb : match unified E0 (load_doc docI) with None => false | Some _ => true end = true) by (vm_compute; reflexivity). intros Hn. rewrite Hn in Hb. discriminate Hb.
  - apply (c101_names_refused E0 _ "extra_validators" (str "UnifiedReferencesValidator") []); [apply c101_json_is_inert, json_dec; vm_compute; reflexivity|right; reflexivity|vm_compute; reflexivity].
Qed.
Print Assumptions c101_no_code.
Print Assumptions c101_json_is_inert.
Print Assumptions c101_no_processors.
Print Assumptions c101_no_calls.
Print Assumptions c101_text.
Print Assumptions c101_names_refused.
