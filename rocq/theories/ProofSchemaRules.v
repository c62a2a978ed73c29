(** Proofs for C97. *)
From Verif Require Import PyStr Value Types Rules Pydantic ClassTable Classes Canon Linked Fix Dump SpecDump ProofDump SpecParse ProofRules ProofParse SpecState ProofState PropLayout JsonSchema SpecJsonSchema ProofJsonSchema PropJsonSchema SpecSchemaRules.
Local Open Scope string_scope.

Lemma best_of_none l : best_of l = None -> forall x, In x l -> x = None.
Proof.
  induction l as [|[[v n]|] l IH]; intros H x Hx; [contradiction| |].
  - cbn [best_of] in H. destruct (best_of l) as [[w m]|]; [destruct (Nat.ltb n m)|]; discriminate.
  - destruct Hx as [<-|Hx]; auto.
Qed.
Lemma one_of_them_inv root l v : meets root (one_of_them l) v -> exists s, In s l /\ meets root s v.
Proof.
  unfold one_of_them. destruct l as [|a [|b r]]; intros H; [|exists a; split; [left; reflexivity|exact H]|];
    (inversion H as [|? ? G1 G2 G3 G4 G5 G6 G7 G8 G9 G10 G11]; subst; exact (G10 _ eq_refl)).
Qed.
Lemma has_type_inv name v : has_type (u name) v ->
  (name = "string" -> exists s, v = VStr s) /\ (name = "integer" -> exists z, v = VInt z) /\ (name = "boolean" -> exists b, v = VBool b)
  /\ (name = "null" -> v = VNone) /\ (name = "array" -> exists l, v = VList l) /\ (name = "object" -> exists d, v = VDict d).
Proof.
  unfold has_type. intros H. repeat split; intros ->; repeat match goal with H : _ \/ _ |- _ => destruct H | H : _ /\ _ |- _ => destruct H end; try assumption; discriminate.
Qed.
Lemma typed_inv root name more v : meets root (typed name more) v -> has_type (u name) v.
Proof. intros H. inversion H as [|? ? G1 G2 G3 G4 G5 G6 G7 G8 G9 G10 G11]; subst. apply G1. reflexivity. Qed.
Lemma string_inv root more v : meets root (typed "string" more) v -> exists s, v = VStr s.
Proof. intros H. apply typed_inv in H. apply (proj1 (has_type_inv _ _ H)). reflexivity. Qed.
Lemma literals_inv root name l v : meets root (typed name (literals l)) v -> In v l.
Proof.
  intros H. unfold typed in H. inversion H as [|? ? G1 G2 G3 G4 G5 G6 G7 G8 G9 G10 G11]; subst. destruct l as [|a [|b r]]; cbn [literals] in *.
  - exact (G3 _ eq_refl).
  - rewrite (G2 _ eq_refl). left. reflexivity.
  - exact (G3 _ eq_refl).
Qed.
Lemma map_inv root a d : meets root (typed "object" [kw "additionalProperties" a]) (VDict d) -> forall k x, In (k, x) d -> meets root a x.
Proof.
  intros H k x Hi. unfold typed in H. inversion H as [|? ? G1 G2 G3 G4 G5 G6 G7 G8 G9 G10 G11]; subst. eapply G8; [reflexivity|exact Hi| |reflexivity]. intros s (ps & Hp & _). discriminate Hp.
Qed.
Lemma any_or_inv root t v : meets root (any_or t (one_of_them (alternatives t))) v -> exists s, In s (alternatives t) /\ meets root s v.
Proof. destruct t; cbn [any_or]; try (apply one_of_them_inv). intros _. exists (VDict []). split; [left; reflexivity|apply meets_any]. Qed.
Lemma object_inv root c k fs v : meets root (VDict (definition (TModel c k fs))) v -> NoDup (map (fun ft => f_alias (fst ft)) (shown fs)) -> exists d, v = VDict d
  /\ (forall fi t, In (fi, t) (needed fs) -> In (f_alias fi) (map fst d))
  /\ (forall fi t x, In (fi, t) (shown fs) -> In (f_alias fi, x) d -> exists s, In s (alternatives t) /\ meets root s x)
  /\ (k = KForbid -> forall key, In key (map fst d) -> In key (map (fun ft => f_alias (fst ft)) (shown fs))).
Proof.
  intros H Hn. cbn [definition] in H. inversion H as [|? ? G1 G2 G3 G4 G5 G6 G7 G8 G9 G10 G11]; subst. specialize (G1 (u "object") eq_refl). apply (has_type_inv "object") in G1 as (_ & _ & _ & _ & _ & G1).
  destruct (G1 eq_refl) as [d ->]. exists d. split; [reflexivity|]. split; [|split].
  - intros fi t Hi. eapply G6; [reflexivity| |reflexivity]. apply in_map_iff. exists (fi, t). auto.
  - intros fi t x Hi Hx. apply one_of_them_inv. eapply G7; [reflexivity|exact Hx|]. eexists. split; [reflexivity|]. apply assoc_in_nodup; [rewrite map_map; exact Hn|]. apply in_map_iff. exists (fi, t). auto.
  - intros -> key Hk. destruct (mem_str key (map (fun ft => f_alias (fst ft)) (shown fs))) eqn:Em; [apply mem_str_In; exact Em|]. apply mem_str_not_In in Em.
    exfalso. apply in_map_iff in Hk as ([a x] & <- & Hk). assert (Hx : meets root (VBool false) x); [|inversion Hx]. eapply G8; [reflexivity|exact Hk| |reflexivity].
    intros s (ps & Hp & Ha). change (Some (VDict (map (fun ft => (f_alias (fst ft), schema_at (snd ft))) (shown fs))) = Some (VDict ps)) in Hp. injection Hp as <-.
    apply assoc_In in Ha. apply in_map with (f := fst) in Ha. rewrite map_map in Ha. exact (Em Ha).
Qed.
(** all fields, or one that is broken *)
Lemma all_fields E d (bad : Prop) fs : (forall fi t, In (fi, t) fs -> (exists v, field_value E d fi t v) \/ bad) -> (exists fv, typed_fields E d fs fv) \/ bad.
Proof.
  unfold typed_fields. induction fs as [|[fi t] fs IH]; intros H; [left; exists []; constructor|].
  destruct (H fi t (or_introl eq_refl)) as [[v Hv]|Hb]; [|auto]. destruct (IH (fun f t' Hi => H f t' (or_intror Hi))) as [[fv Hf]|Hb]; [|auto].
  left. exists ((f_name fi, v) :: fv). constructor; [cbn [fst snd]; auto|exact Hf].
Qed.
Lemma vlist_all (val : ty -> pv -> option (pv * nat)) t l : (forall x, In x l -> exists r, val t x = Some r) -> exists r, vlist val t l = Some r.
Proof.
  induction l as [|x l IH]; intros H; [eexists; reflexivity|]. cbn [vlist]. destruct (H x (or_introl eq_refl)) as [[y n] ->]. destruct IH as [[r m] ->]; [intros; apply H; right; assumption|]. eexists. reflexivity.
Qed.
Lemma vdict_all (val : ty -> pv -> option (pv * nat)) t d : (forall k x, In (k, x) d -> exists r, val t x = Some r) -> exists r, vdict val t d = Some r.
Proof.
  induction d as [|[k x] l IH]; intros H; [eexists; reflexivity|]. cbn [vdict]. destruct (H k x (or_introl eq_refl)) as [[y n] ->]. destruct IH as [[r m] ->]; [intros; eapply H; right; eassumption|]. eexists. reflexivity.
Qed.
Lemma vdict_keys (val : ty -> pv -> option (pv * nat)) t d r n : vdict val t d = Some (r, n) -> map fst r = map fst d.
Proof.
  revert r n. induction d as [|[k x] d IH]; intros r n H; cbn [vdict] in H; [injection H as <- _; reflexivity|]. destruct (val t x) as [[y a]|]; [|discriminate].
  destruct (vdict val t d) as [[q b]|] eqn:Eq; [|discriminate]. injection H as <- _. cbn [map fst]. f_equal. eapply IH; reflexivity.
Qed.
Lemma or_each {X} (P Q : X -> Prop) (l : list X) : (forall x, In x l -> P x \/ Q x) -> (forall x, In x l -> P x) \/ exists x, In x l /\ Q x.
Proof.
  induction l as [|x l IH]; intros H; [left; intros ? []|]. destruct (H x (or_introl eq_refl)) as [Hp|Hq]; [|right; exists x; split; [left; reflexivity|exact Hq]].
  destruct (IH (fun y Hy => H y (or_intror Hy))) as [Hl|(y & Hy & Hq)]; [left; intros y [<-|Hy]; auto|right; exists y; split; [right; exact Hy|exact Hq]].
Qed.

Lemma integer_inv root more v : meets root (typed "integer" more) v -> exists z, v = VInt z.
Proof. intros H. apply typed_inv in H. apply has_type_inv in H as (_ & H & _). auto. Qed.
Lemma procs_decide E root v : (exists r, validate E (TOpt TProcs) v = Some r) \/ broken E root (TOpt TProcs) v.
Proof.
  destruct v; try (left; eexists; reflexivity); try (right; apply b_opt; [discriminate|]; apply b_procs; intros l' He; discriminate He).
  cbn [validate]. destruct (forallb is_proc l) eqn:Ef; [left; eexists; reflexivity|]. right. apply b_opt; [discriminate|]. apply b_procs. intros l' He Hf. injection He as <-.
  assert (forallb is_proc l = true); [|congruence]. apply forallb_forall. rewrite Forall_forall in Hf. intros x Hx. destruct (Hf x Hx) as [n ->]. reflexivity.
Qed.
Lemma skipped_eq t : skipped t = true -> t = TOpt TProcs.
Proof. destruct t; try discriminate. destruct t; try discriminate. reflexivity. Qed.
(** ** A value that meets the schema is accepted or breaks a rule *)
Theorem meets_decides E root : assoc (u "$defs") root = Some (VDict (definitions all_types)) ->
  forall t, linked t = true -> wf_ty t = true -> has_procs t = false -> forall v, is_json v -> python_dicts v -> spec_spelling t v ->
  (exists s, In s (alternatives t) /\ meets root s v) -> (exists r, validate E t v = Some r) \/ broken E root t v.
Proof.
  intros Hr t. induction t using ty_ind'; intros Hl Hw Hp v Hj Hpd Hs (s & Hi & Hm).
  - left. eexists. reflexivity.
  - left. destruct m as [n|]; destruct Hi as [<-|[]]; destruct (string_inv _ _ _ Hm) as [w ->]; cbn [validate len_ok]; [|eexists; reflexivity].
    unfold typed in Hm. inversion Hm as [|? ? G1 G2 G3 G4 G5 G6 G7 G8 G9 G10 G11]; subst. specialize (G4 _ _ eq_refl eq_refl). assert (Hlen : (N.of_nat (List.length w) <= n)%N) by lia. apply N.leb_le in Hlen. rewrite Hlen. eexists. reflexivity.
  - destruct Hi as [<-|[]]. destruct (string_inv _ _ _ Hm) as [w ->]. cbn [validate]. destruct (email_ok w) eqn:Ee; [left; eexists; reflexivity|]. right. apply b_email. intros Hc. apply email_ok_iff in Hc. congruence.
  - destruct Hi as [<-|[]]. destruct (integer_inv _ _ _ Hm) as [z ->]. left. eexists. reflexivity.
  - destruct Hi as [<-|[]]. apply typed_inv in Hm. apply has_type_inv in Hm as (_ & _ & Hm & _). destruct (Hm eq_refl) as [z ->]. left. eexists. reflexivity.
  - assert (Hv : exists w, v = VStr w) by (destruct b; destruct Hi as [<-|[]]; eapply string_inv; eauto). destruct Hv as [w ->]. cbn [validate]. destruct (e_url E b w) eqn:Eu; [left; eexists; reflexivity|]. right. apply b_url. exact Eu.
  - destruct Hi as [<-|[]]. assert (Hv := literals_inv _ _ _ _ Hm). apply in_map_iff in Hv as (w & <- & Hv). left. apply mem_str_In in Hv. cbn [validate]. rewrite Hv. eexists. reflexivity.
  - destruct Hi as [<-|[]]. assert (Hv := literals_inv _ _ _ _ Hm). apply in_map_iff in Hv as (w & <- & Hv). left. cbn [validate]. assert (mem_Z w l = true) as -> by (apply existsb_exists; exists w; split; [exact Hv|apply Z.eqb_refl]). eexists. reflexivity.
  - destruct Hi as [<-|[]]. assert (Ht := typed_inv _ _ _ _ Hm). apply has_type_inv in Ht as (_ & _ & _ & _ & Ht & _). destruct (Ht eq_refl) as [l ->].
    unfold typed in Hm. inversion Hm as [|? ? G1 G2 G3 G4 G5 G6 G7 G8 G9 G10 G11]; subst. cbn [spec_spelling] in Hs. rewrite Forall_forall in Hs.
    destruct (or_each (fun x => exists r, validate E t x = Some r) (broken E root t) l) as [Ha|(x & Hx & Hb)].
    + intros x Hx. apply (IHt Hl Hw Hp); [intros y Hy; apply Hj; econstructor; eauto|intros y Hy; apply Hpd; econstructor; eauto|auto|]. apply one_of_them_inv. eapply G9; [reflexivity|exact Hx|reflexivity].
    + left. cbn [validate]. destruct (vlist_all _ _ _ Ha) as [[r n] ->]. eexists. reflexivity.
    + right. eapply b_item; eauto.
  - destruct Hi as [<-|[]]. assert (Ht := typed_inv _ _ _ _ Hm). apply has_type_inv in Ht as (_ & _ & _ & _ & _ & Ht). destruct (Ht eq_refl) as [d ->]. assert (Hmi := map_inv _ _ _ Hm). cbn [spec_spelling] in Hs. rewrite Forall_forall in Hs.
    destruct (or_each (fun kx : pystr * pv => exists r, validate E t (snd kx) = Some r) (fun kx => broken E root t (snd kx)) d) as [Ha|([k x] & Hx & Hb)].
    + intros [k x] Hx. apply (IHt Hl Hw Hp); [intros y Hy; apply Hj; eapply w_dict; eauto|intros y Hy; apply Hpd; eapply w_dict; eauto|apply (Hs _ Hx)|]. apply any_or_inv. eapply Hmi; eauto.
    + left. cbn [validate]. destruct (vdict_all (validate E) t d (fun k x Hx => Ha (k, x) Hx)) as [[r n] ->]. eexists. reflexivity.
    + right. eapply b_entry; eauto.
  - cbn [linked wf_ty has_procs alternatives spec_spelling] in *. assert (Hc : v = VNone \/ v <> VNone) by (destruct v; auto; right; discriminate). destruct Hc as [->|Hc]; [left; eexists; reflexivity|].
    apply in_app_or in Hi as [Hi|[<-|[]]].
    + destruct (IHt Hl Hw Hp v Hj Hpd Hs) as [[r Hv]|Hb]; [eauto| |right; apply b_opt; assumption]. left. exists r. destruct v; try exact Hv. congruence.
    + exfalso. apply typed_inv in Hm. apply has_type_inv in Hm as (_ & _ & _ & Hm & _). exact (Hc (Hm eq_refl)).
  - cbn [alternatives] in Hi. rewrite Forall_forall in H. cbn [validate]. destruct (best_of (map (fun t' => validate E t' v) ts)) as [r|] eqn:Eb; [left; eauto|right].
    apply b_union. intros t Ht Hmt. assert (Hpt : has_procs t = false).
    { cbn [has_procs] in Hp. destruct (has_procs t) eqn:Et; [|reflexivity]. rewrite <- Hp. symmetry. apply existsb_exists. eauto. }
    assert (Hst : spec_spelling t v). { cbn [spec_spelling] in Hs. clear -Hs Ht. induction ts as [|a ts IH]; [contradiction|]. destruct Ht as [->|Hi]; [exact (proj1 Hs)|exact (IH (proj2 Hs) Hi)]. }
    destruct (H t Ht (linked_union _ _ Hl Ht) (wf_union _ _ Hw Ht) Hpt v Hj Hpd Hst (one_of_them_inv _ _ _ Hmt)) as [[r Hv]|Hb]; [|exact Hb].
    assert (Hn := best_of_none _ Eb (validate E t v)). rewrite Hn in Hv; [discriminate Hv|]. apply in_map_iff. eauto.
  - discriminate Hp.
  - assert (Hin := linked_In _ _ _ Hl). assert (Hrow := rows_ok _ Hin). cbn [row_ok] in Hrow. apply andb_prop in Hrow as [_ Hrow]. rewrite forallb_forall in Hrow. rewrite Forall_forall in H.
    destruct Hi as [<-|[]]. apply (meets_ref root c (TModel c k fs)) in Hm; [|exact Hin|reflexivity|exact Hr]. assert (Ha := aliases_distinct _ _ _ Hw).
    apply object_inv in Hm as (d & -> & Hq & Hf & Hk); [|apply shown_distinct; exact Ha]. assert (Hd : NoDup (map fst d)) by exact (Hpd _ (w_self _)). assert (Hsf := spelling_fields fs d Hs).
    destruct (all_fields E d (broken E root (TModel c k fs) (VDict d)) fs) as [[fv Hfv]|Hb]; [| |auto].
    + intros fi t Hft. assert (Hrf := Hrow _ Hft). cbn [fst snd] in Hrf. destruct (assoc (f_alias fi) d) as [x|] eqn:Eg.
      * assert (Hix := assoc_In _ _ _ Eg). assert (Hx : (exists r, validate E t x = Some r) \/ broken E root t x).
        { destruct (skipped t) eqn:Es; [apply skipped_eq in Es; subst t; apply procs_decide|]. apply andb_prop in Hrf as [Hpf _]. apply negb_true_iff in Hpf.
          apply (H _ Hft (linked_sub _ _ _ _ Hl Hft) (wf_sub _ _ _ _ Hw Hft) Hpf); [intros y Hy; apply Hj; eapply w_dict; eauto|intros y Hy; apply Hpd; eapply w_dict; eauto|exact (proj2 (Hsf _ _ Hft) x Hix)|].
          apply (Hf fi t x); [apply filter_In; split; [exact Hft|cbn [snd]; rewrite Es; reflexivity]|exact Hix]. }
        destruct Hx as [[[y n] Hx]|Hb]; [|right; eapply b_field; eauto]. assert (Hy : parse E t x = Some y) by (apply parse_some; eauto).
        destruct (fv_check E (f_val fi) y) eqn:Ec; [left; exists y; left; exists x; split; [left; exact Eg|]; split; [exact Hy|apply fv_check_iff; exact Ec]|].
        right. eapply b_rule; [exact Hft|exact Hix|exact Hy|]. intros Hc. apply fv_check_iff in Hc. congruence.
      * assert (Hname : assoc (f_name fi) d = None).
        { destruct (assoc (f_name fi) d) as [x|] eqn:En; [|reflexivity]. exfalso. destruct (str_eqb (f_name fi) (f_alias fi)) eqn:Ee; [apply str_eqb_eq in Ee; congruence|].
          apply (proj1 (Hsf _ _ Hft)); [intros Heq; rewrite Heq, str_eqb_refl in Ee; discriminate|]. apply assoc_In in En. apply in_map with (f := fst) in En. exact En. }
        destruct (f_def fi) as [y|] eqn:Ed; [left; exists y; right; auto|]. exfalso. destruct (skipped t) eqn:Es; [rewrite andb_false_r in Hrf; discriminate Hrf|].
        assert (Hin2 : In (f_alias fi) (map fst d)). { apply (Hq fi t). apply filter_In. cbn [fst]. rewrite Ed. split; [|reflexivity]. apply filter_In. split; [exact Hft|cbn [snd]; rewrite Es; reflexivity]. }
        apply in_map_iff in Hin2 as ([a x] & He & Hin2). cbn [fst] in He. subst a. rewrite (assoc_in_nodup _ _ _ Hd Hin2) in Eg. discriminate Eg.
    + destruct (extras_ok E k (extras fs d)) eqn:Ex.
      * destruct (hook c fv) eqn:Eh.
        -- left. assert (Hpar : parse E (TModel c k fs) (VDict d) = Some (VObj c fv (extras fs d))).
           { apply model_parse_iff. exists fv. split; [reflexivity|]. split; [exact Hfv|]. split; [apply extras_ok_iff; exact Ex|apply hook_iff; exact Eh]. }
           apply parse_some in Hpar as [n Hpar]. eauto.
        -- right. eapply b_cross; [exact Hfv|]. intros Hc. apply hook_iff in Hc. congruence.
      * right. destruct k; cbn [extras_ok] in Ex.
        -- assert (Hex : exists kv, In kv (extras fs d) /\ ext_key_ok E (fst kv) = false).
           { clear -Ex. induction (extras fs d) as [|kv l IH]; [discriminate|]. cbn [forallb] in Ex. destruct (ext_key_ok E (fst kv)) eqn:Ek; [|exists kv; split; [left; reflexivity|exact Ek]].
             destruct (IH Ex) as (kv' & Hi & Hk). exists kv'. split; [right; exact Hi|exact Hk]. }
           destruct Hex as (kv & Hkv & Ek). apply extras_unclaimed in Hkv as [_ Hun]. eapply b_extension; [exact Hun|]. intros Hc. apply ext_key_iff in Hc. congruence.
        -- exfalso. destruct (extras fs d) as [|kv l] eqn:Ee; [discriminate Ex|]. assert (Hkv : In kv (extras fs d)) by (rewrite Ee; left; reflexivity). apply extras_unclaimed in Hkv as [Hkv [_ Hun]].
           assert (Hal := Hk eq_refl (fst kv) (in_map fst _ _ Hkv)). apply in_map_iff in Hal as ([fi t] & He & Hal). apply filter_In in Hal as [Hal _]. exact (proj1 (Hun fi t Hal) (eq_sym He)).
        -- discriminate Ex.
  - assert (Hin := linked_root_In _ _ Hl). assert (Hrow := rows_ok _ Hin). cbn [row_ok] in Hrow. apply negb_true_iff in Hrow.
    destruct Hi as [<-|[]]. apply (meets_ref root c (TRoot c t)) in Hm; [|exact Hin|reflexivity|exact Hr]. cbn [definition] in Hm. change (meets root (typed "object" [kw "additionalProperties" (any_or t (schema_at t))]) v) in Hm.
    assert (Ht := typed_inv _ _ _ _ Hm). apply has_type_inv in Ht as (_ & _ & _ & _ & _ & Ht). destruct (Ht eq_refl) as [d ->]. assert (Hmi := map_inv _ _ _ Hm). cbn [spec_spelling] in Hs. rewrite Forall_forall in Hs.
    destruct (or_each (fun kx : pystr * pv => exists r, validate E t (snd kx) = Some r) (fun kx => broken E root t (snd kx)) d) as [Ha|([k x] & Hx & Hb)].
    + intros [k x] Hx. apply (IHt (linked_root_sub _ _ Hl) Hw Hrow); [intros y Hy; apply Hj; eapply w_dict; eauto|intros y Hy; apply Hpd; eapply w_dict; eauto|apply (Hs _ Hx)|]. apply any_or_inv. eapply Hmi; eauto.
    + cbn [validate]. destruct (vdict_all (validate E) t d (fun k x Hx => Ha (k, x) Hx)) as [[r n] Er]. rewrite Er. destruct (root_keys_ok r) eqn:Ek; [left; eexists; reflexivity|right].
      assert (Hbad : exists key, In key (map fst r) /\ patterned_key_ok key = false).
      { clear -Ek. unfold root_keys_ok in Ek. induction r as [|[key y] r IH]; [discriminate|]. cbn [forallb fst] in Ek. destruct (patterned_key_ok key) eqn:Ep; [|exists key; split; [left; reflexivity|exact Ep]].
        destruct (IH Ek) as (k' & Hi & Hk). exists k'. split; [right; exact Hi|exact Hk]. }
      destruct Hbad as (key & Hkey & Ep). rewrite (vdict_keys _ _ _ _ _ Er) in Hkey. eapply b_key; [exact Hkey|]. intros Hc. apply patterned_key_iff in Hc. congruence.
    + right. eapply b_value; eauto.
Qed.

(** ** A value that breaks a rule is refused *)
Theorem broken_refused E root : (forall h s s', e_url E h s = Some s' -> url_size h s) -> assoc (u "$defs") root = Some (VDict (definitions all_types)) ->
  forall t v, broken (strictly E) root t v -> linked t = true -> wf_ty t = true -> has_procs t = false \/ t = TOpt TProcs \/ t = TProcs -> is_json v -> python_dicts v -> spec_spelling t v -> validate (strictly E) t v = None.
Proof.
  intros Hu Hr t v Hb. induction Hb as [s Hn|h s Hn|t l x Hi Hb IH|t d k x Hi Hb IH|c t d k x Hi Hb IH|c k fs d fi t x Hf Hi Hb IH|t v Hv Hb IH|ts v Hall IH|c k fs d fi t x y Hf Hi Hy Hn|c k fs d fv Hf Hn|c fs d key Hun Hn|c t d key Hk Hn|v Hn];
    intros Hl Hw Hp Hj Hpd Hs.
  - cbn [validate]. destruct (email_ok s) eqn:Ee; [|reflexivity]. apply email_ok_iff in Ee. contradiction.
  - cbn [validate]. rewrite Hn. reflexivity.
  - cbn [validate]. destruct (vlist (validate (strictly E)) t l) as [r|] eqn:Er; [|reflexivity]. exfalso. destruct (vlist_each _ _ _ _ Er x Hi) as [y Hy]. cbn [spec_spelling] in Hs. rewrite Forall_forall in Hs.
    assert (Hpt : has_procs t = false) by (destruct Hp as [Hp|[Hp|Hp]]; [exact Hp|discriminate Hp|discriminate Hp]).
    rewrite IH in Hy; [discriminate Hy|exact Hl|exact Hw|auto|intros z Hz; apply Hj; econstructor; eauto|intros z Hz; apply Hpd; econstructor; eauto|auto].
  - cbn [validate]. destruct (vdict (validate (strictly E)) t d) as [r|] eqn:Er; [|reflexivity]. exfalso. destruct (vdict_each _ _ _ _ Er k x Hi) as [y Hy]. cbn [spec_spelling] in Hs. rewrite Forall_forall in Hs.
    assert (Hpt : has_procs t = false) by (destruct Hp as [Hp|[Hp|Hp]]; [exact Hp|discriminate Hp|discriminate Hp]).
    rewrite IH in Hy; [discriminate Hy|exact Hl|exact Hw|auto|intros z Hz; apply Hj; eapply w_dict; eauto|intros z Hz; apply Hpd; eapply w_dict; eauto|apply (Hs _ Hi)].
  - cbn [validate]. destruct (vdict (validate (strictly E)) t d) as [r|] eqn:Er; [|reflexivity]. exfalso. destruct (vdict_each _ _ _ _ Er k x Hi) as [y Hy]. cbn [spec_spelling] in Hs. rewrite Forall_forall in Hs.
    assert (Hrow := rows_ok _ (linked_root_In _ _ Hl)). cbn [row_ok] in Hrow. apply negb_true_iff in Hrow.
    rewrite IH in Hy; [discriminate Hy|exact (linked_root_sub _ _ Hl)|exact Hw|auto|intros z Hz; apply Hj; eapply w_dict; eauto|intros z Hz; apply Hpd; eapply w_dict; eauto|apply (Hs _ Hi)].
  - destruct (validate (strictly E) (TModel c k fs) (VDict d)) as [[o n]|] eqn:Eo; [|reflexivity]. exfalso. assert (Hpar : parse (strictly E) (TModel c k fs) (VDict d) = Some o) by (apply parse_some; eauto).
    apply model_parse_iff in Hpar as (fv & _ & Hfv & _). assert (Hd : NoDup (map fst d)) by exact (Hpd _ (w_self _)). assert (Hg := assoc_in_nodup _ _ _ Hd Hi).
    destruct (field_given _ _ _ _ Hfv _ _ Hf) as [y [(x' & Hg' & Hy & _)|(Hg' & _)]]; [|congruence]. destruct Hg' as [Hg'|[Hg' _]]; [|congruence]. assert (x' = x) by congruence. subst x'.
    apply parse_some in Hy as [m Hy]. assert (Hrow := rows_ok _ (linked_In _ _ _ Hl)). cbn [row_ok] in Hrow. apply andb_prop in Hrow as [_ Hrow]. rewrite forallb_forall in Hrow. specialize (Hrow _ Hf). cbn [fst snd] in Hrow.
    rewrite IH in Hy; [discriminate Hy|exact (linked_sub _ _ _ _ Hl Hf)|exact (wf_sub _ _ _ _ Hw Hf)| |intros z Hz; apply Hj; eapply w_dict; eauto|intros z Hz; apply Hpd; eapply w_dict; eauto|exact (proj2 (spelling_fields fs d Hs _ _ Hf) x Hi)].
    destruct (skipped t) eqn:Es; [right; left; apply skipped_eq; exact Es|left]. apply andb_prop in Hrow as [Hrow _]. apply negb_true_iff in Hrow. exact Hrow.
  - assert (Hx : validate (strictly E) t v = None). { apply IH; auto. destruct Hp as [Hp|[Hp|Hp]]; [left; exact Hp|right; right; congruence|discriminate Hp]. } cbn [validate]. destruct v; try exact Hx. congruence.
  - cbn [validate]. destruct (best_of (map (fun t' => validate (strictly E) t' v) ts)) as [[o n]|] eqn:Eb; [|reflexivity]. exfalso. apply best_of_some in Eb. apply in_map_iff in Eb as (t & Ht & Hi).
    assert (Hpt : has_procs t = false).
    { destruct Hp as [Hp|[Hp|Hp]]; try discriminate Hp. cbn [has_procs] in Hp. destruct (has_procs t) eqn:Et; [|reflexivity]. rewrite <- Hp. symmetry. apply existsb_exists. eauto. }
    assert (Hst : spec_spelling t v). { cbn [spec_spelling] in Hs. clear -Hs Hi. induction ts as [|a ts IH]; [contradiction|]. destruct Hi as [->|Hi]; [exact (proj1 Hs)|exact (IH (proj2 Hs) Hi)]. }
    assert (Hlt := linked_union _ _ Hl Hi). assert (Hwt := wf_union _ _ Hw Hi).
    assert (Hm : meets root (schema_at t) v) by (apply one_of_them_meets; apply (accepted_meets E root Hu Hr t Hlt Hwt Hpt v Hj Hpd Hst); eauto).
    rewrite (IH t Hi Hm Hlt Hwt (or_introl Hpt) Hj Hpd Hst) in Ht. discriminate Ht.
  - destruct (validate (strictly E) (TModel c k fs) (VDict d)) as [[o n]|] eqn:Eo; [|reflexivity]. exfalso. assert (Hpar : parse (strictly E) (TModel c k fs) (VDict d) = Some o) by (apply parse_some; eauto).
    apply model_parse_iff in Hpar as (fv & _ & Hfv & _). assert (Hd : NoDup (map fst d)) by exact (Hpd _ (w_self _)). assert (Hg := assoc_in_nodup _ _ _ Hd Hi).
    destruct (field_given _ _ _ _ Hfv _ _ Hf) as [y' [(x' & Hg' & Hy' & Hok)|(Hg' & _)]]; [|congruence]. destruct Hg' as [Hg'|[Hg' _]]; [|congruence]. assert (x' = x) by congruence. subst x'.
    assert (y' = y) by congruence. subst y'. contradiction.
  - destruct (validate (strictly E) (TModel c k fs) (VDict d)) as [[o n]|] eqn:Eo; [|reflexivity]. exfalso. assert (Hpar : parse (strictly E) (TModel c k fs) (VDict d) = Some o) by (apply parse_some; eauto).
    apply model_parse_iff in Hpar as (fv' & _ & Hfv & _ & Hc). apply vfields_typed in Hfv as [n1 H1]. apply vfields_typed in Hf as [n2 H2]. assert (fv' = fv) by congruence. subst fv'. contradiction.
  - destruct (validate (strictly E) (TModel c KExt fs) (VDict d)) as [[o n]|] eqn:Eo; [|reflexivity]. exfalso. assert (Hpar : parse (strictly E) (TModel c KExt fs) (VDict d) = Some o) by (apply parse_some; eauto).
    apply model_parse_iff in Hpar as (fv & _ & _ & Hx & _). exact (Hn (Hx key Hun)).
  - destruct (validate (strictly E) (TRoot c t) (VDict d)) as [[o n]|] eqn:Eo; [|reflexivity]. exfalso. assert (Hpar : parse (strictly E) (TRoot c t) (VDict d) = Some o) by (apply parse_some; eauto).
    apply root_parse_iff in Hpar as (r & _ & Hx & _). exact (Hn (Hx key Hk)).
  - cbn [validate]. destruct v; try reflexivity. destruct (forallb is_proc l) eqn:Ef; [|reflexivity]. exfalso. apply (Hn l eq_refl). rewrite forallb_forall in Ef. apply Forall_forall. intros x Hx. specialize (Ef x Hx). destruct x; try discriminate Ef. eauto.
Qed.
