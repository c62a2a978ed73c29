(** What a validated value looks like ([canon]), that validation only produces such values,
    and that they are fixed points of validation. *)
From Verif Require Import PyStr Regex Value Types Rules Pydantic ClassTable Classes.

(** The URL oracle normalises: parsing a normalised URL gives it back. *)
Definition url_idem (E : env) : Prop := forall h s s', e_url E h s = Some s' -> e_url E h s' = Some s'.

Section Canon.
  Context (A : pv -> Prop) (E : env).

  Definition canon_fields (can : ty -> pv -> Prop) : list (finfo * ty) -> fields -> Prop :=
    fix go fs fv := match fs, fv with
      | [], [] => True
      | (fi, t) :: fs', (k, v) :: fv' =>
          (k = f_name fi /\ can t v /\ fv_check E (f_val fi) v = true) /\ go fs' fv'
      | _, _ => False
      end.
  Definition canon_union (can : ty -> Prop) (rej : ty -> Prop) : list ty -> Prop :=
    fix go ts := match ts with
      | [] => False
      | t :: r => (can t /\ Forall rej r) \/ (rej t /\ go r)
      end.

  (** [A] is required of data under [Any] and of extra data. *)
  Fixpoint canon (t : ty) (v : pv) {struct t} : Prop :=
    match t with
    | TAny => A v
    | TStr m => exists s, v = VStr s /\ len_ok m s = true
    | TEmail => exists s, v = VStr s /\ email_ok s = true
    | TInt => exists z, v = VInt z
    | TBool => exists b, v = VBool b
    | TUrl h => exists s, v = VUrl s /\ exists s0, e_url E h s0 = Some s
    | TLitS l => exists s, v = VStr s /\ mem_str s l = true
    | TLitI l => exists z, v = VInt z /\ mem_Z z l = true
    | TList t' => exists l, v = VList l /\ Forall (canon t') l
    | TDict t' => exists d, v = VDict d /\ Forall (fun kv => canon t' (snd kv)) d
    | TOpt t' => v = VNone \/ canon t' v
    | TUnion ts => canon_union (fun t' => canon t' v) (fun t' => validate E t' v = None) ts
    | TProcs => exists l, v = VList l /\ forallb is_proc l = true
    | TModel c k fs => exists fv ex, v = VObj c fv ex /\ canon_fields canon fs fv
                        /\ Forall (fun kv => A (snd kv)) ex /\ after_ok E c k fv ex = true
    | TRoot c t' => exists d, v = VRoot c d /\ Forall (fun kv => canon t' (snd kv)) d /\ root_keys_ok d = true
    end.
End Canon.

(** ** best_of *)
Lemma best_of_spec l v n : best_of l = Some (v, n) ->
  exists pre post, l = pre ++ Some (v, n) :: post
    /\ (forall v1 n1, In (Some (v1, n1)) pre -> n1 < n)
    /\ (forall v1 n1, In (Some (v1, n1)) post -> n1 <= n).
Proof.
  revert v n; induction l as [|[[w m]|] l IH]; intros v n H; simpl in H; [discriminate| |].
  - destruct (best_of l) as [[v' n']|] eqn:Eb.
    + destruct (Nat.ltb m n') eqn:El.
      * inversion H; subst. destruct (IH _ _ eq_refl) as (pre & post & -> & H1 & H2).
        exists (Some (w, m) :: pre), post. split; [reflexivity|]. split; [|exact H2].
        intros v1 n1 [Heq|Hin]; [inversion Heq; subst; apply Nat.ltb_lt; exact El|eapply H1; exact Hin].
      * inversion H; subst. exists [], l. split; [reflexivity|]. split; [intros ? ? []|].
        intros v1 n1 Hin. apply Nat.ltb_ge in El. clear -IH Hin El.
        destruct (IH _ _ eq_refl) as (pre & post & -> & H1 & H2).
        apply in_app_or in Hin as [Hin|[Heq|Hin]].
        -- apply H1 in Hin. lia.
        -- inversion Heq; subst. exact El.
        -- apply H2 in Hin. lia.
    + inversion H; subst. exists [], l. split; [reflexivity|]. split; [intros ? ? []|].
      intros v1 n1 Hin. exfalso. clear -Eb Hin.
      induction l as [|[[a b]|] l IH]; simpl in *; [contradiction| |].
      * destruct (best_of l) as [[? q]|]; [destruct (Nat.ltb b q)|]; discriminate.
      * destruct Hin as [Heq|Hin]; [discriminate|auto].
  - destruct (IH _ _ H) as (pre & post & -> & H1 & H2).
    exists (None :: pre), post. split; [reflexivity|]. split; [|exact H2].
    intros v1 n1 [Heq|Hin]; [discriminate|eapply H1; exact Hin].
Qed.

Lemma best_of_none l : (forall x, In x l -> x = None) -> best_of l = None.
Proof.
  induction l as [|x l IH]; intros H; simpl; [reflexivity|].
  rewrite (H x (or_introl eq_refl)). apply IH. intros y Hy. apply H. right; exact Hy.
Qed.
Lemma best_of_none_inv l : best_of l = None -> forall x, In x l -> x = None.
Proof.
  induction l as [|[[v n]|] l IH]; simpl; intros H x Hin; [contradiction| |].
  - destruct (best_of l) as [[? q]|]; [destruct (Nat.ltb n q)|]; discriminate.
  - destruct Hin as [<-|Hin]; [reflexivity|apply IH; assumption].
Qed.

(** ** Shapes *)
Lemma validate_in_ok E t v r : validate E t v = Some r -> in_ok t (vshape v) = true.
Proof.
  revert v r. induction t using ty_ind'; intros v r H1; simpl in *; try reflexivity;
    try (destruct v; simpl in *; try discriminate; reflexivity).
  - destruct v; simpl in *; try reflexivity; apply IHt in H1; exact H1.
  - destruct r as [r n]. apply best_of_spec in H1 as (pre & post & Heq & _ & _).
    rewrite Forall_forall in H. apply existsb_exists.
    assert (Hin : In (Some (r, n)) (map (fun t' => validate E t' v) ts)).
    { rewrite Heq. apply in_or_app. right. left. reflexivity. }
    apply in_map_iff in Hin as (t' & Ht' & Hin). exists t'. split; [exact Hin|]. eapply H; eauto.
  - destruct v; simpl in *; try discriminate; try reflexivity.
    destruct (String.eqb c c0); [reflexivity|discriminate].
  - destruct v; simpl in *; try discriminate; try reflexivity.
    destruct (String.eqb c c0); [reflexivity|discriminate].
Qed.

Lemma vmodel_obj E val c k fs kvs r n : vmodel E val c k fs kvs = Some (r, n) ->
  exists fv, vfields E val kvs fs = Some (fv, n) /\ r = VObj c fv (extras fs kvs)
             /\ after_ok E c k fv (extras fs kvs) = true.
Proof.
  unfold vmodel. destruct (vfields E val kvs fs) as [[fv m]|]; [|discriminate].
  destruct (after_ok E c k fv (extras fs kvs)) eqn:Ea; [|discriminate].
  intros H; inversion H; subst. exists fv; auto.
Qed.

Lemma validate_out_shape E t v r n s : out_shape t = Some s ->
  validate E t v = Some (r, n) -> vshape r = s.
Proof.
  destruct t; simpl; intros Hs; inversion Hs; subst; intros H.
  - destruct v; try discriminate. destruct (len_ok maxlen s); inversion H; reflexivity.
  - destruct v; try discriminate; try (inversion H; reflexivity);
      (destruct (e_int E _); [inversion H; reflexivity|discriminate]).
  - destruct v; try discriminate. destruct (vlist _ _ _) as [[? ?]|]; inversion H; reflexivity.
  - destruct v; try discriminate. destruct (vdict _ _ _) as [[? ?]|]; inversion H; reflexivity.
  - destruct v; try discriminate.
    + apply vmodel_obj in H as (fv & _ & -> & _). reflexivity.
    + destruct (String.eqb c c0); [|discriminate].
      apply vmodel_obj in H as (fv & _ & -> & _). reflexivity.
Qed.

Lemma rejects_None E tj ti v r n : rejects tj ti = true -> validate E ti v = Some (r, n) ->
  validate E tj r = None.
Proof.
  unfold rejects. destruct (out_shape ti) as [s|] eqn:Es; [|discriminate].
  intros Hr H. apply (validate_out_shape _ _ _ _ _ _ Es) in H. subst.
  destruct (validate E tj r) eqn:Ev; [|reflexivity].
  apply validate_in_ok in Ev. rewrite Ev in Hr. discriminate.
Qed.

Lemma vdict_any E d : vdict (validate E) TAny d = Some (d, 0).
Proof.
  induction d as [|[k v] d IH]; simpl; [reflexivity|].
  change ((fix go (d : fields) : option (fields * nat) := _) d) with (vdict (validate E) TAny d).
  rewrite IH. reflexivity.
Qed.

(** Where a union's result comes from: the other members reject it. *)
Lemma union_ok_canon E ts v r n (can : ty -> Prop) :
  union_ok ts = true ->
  (forall t m, In t ts -> validate E t v = Some (r, m) -> can t) ->
  best_of (map (fun t' => validate E t' v) ts) = Some (r, n) ->
  canon_union can (fun t' => validate E t' r = None) ts.
Proof.
  intros Hok Hcan Hb. apply best_of_spec in Hb as (pre & post & Heq & Hpre & _).
  revert pre Heq Hpre. induction ts as [|t ts IH]; intros pre Heq Hpre; simpl in *.
  - destruct pre; discriminate.
  - apply andb_prop in Hok as [Hall Hok]. rewrite forallb_forall in Hall.
    destruct pre as [|x pre]; simpl in Heq; inversion Heq as [[Hx Hrest]].
    + left. split; [eapply Hcan; [left; reflexivity|exact Hx]|].
      apply Forall_forall. intros t' Hin. specialize (Hall t' Hin). apply andb_prop in Hall as [Hr _].
      eapply rejects_None; eauto.
    + right. assert (Hin : In (Some (r, n)) (map (fun t' => validate E t' v) ts)).
      { rewrite Hrest. apply in_or_app. right. left. reflexivity. }
      apply in_map_iff in Hin as (t' & Ht' & Hin).
      split.
      * specialize (Hall t' Hin). apply andb_prop in Hall as [_ Hr]. apply orb_prop in Hr as [Hr|Hr].
        -- eapply rejects_None; eauto.
        -- unfold is_dict_any in Hr. destruct t'; try discriminate. destruct t'; try discriminate.
           simpl in Ht'. destruct v; try discriminate.
           rewrite vdict_any in Ht'. inversion Ht'; subst.
           destruct (validate E t (VDict d)) as [[r1 n1]|] eqn:Ev; [|reflexivity].
           exfalso. assert (H1 := Hpre r1 n1 (or_introl eq_refl)). lia.
      * apply (IH Hok) with (pre := pre).
        -- intros t0 m Hin0 Hv0. eapply Hcan; [right; exact Hin0|exact Hv0].
        -- exact Hrest.
        -- intros v1 n1 Hin1. apply (Hpre v1 n1). right; exact Hin1.
Qed.

(** ** Validation produces canonical values *)
(** Component-closed conditions on inputs. *)
Record closed (Q : pv -> Prop) : Prop := {
  cl_list : forall l, Q (VList l) -> Forall Q l;
  cl_dict : forall d, Q (VDict d) -> Forall (fun kv => Q (snd kv)) d;
  cl_obj : forall c fv ex, Q (VObj c fv ex) -> Forall (fun kv => Q (snd kv)) fv /\ Forall (fun kv => Q (snd kv)) ex;
  cl_root : forall c d, Q (VRoot c d) -> Forall (fun kv => Q (snd kv)) d }.

Lemma default_ok_canon A E fi t d : default_ok fi t = true -> f_def fi = Some d ->
  canon A E t d /\ fv_check E (f_val fi) d = true.
Proof.
  unfold default_ok. intros H Hd. rewrite Hd in H.
  destruct d; try discriminate.
  - apply andb_prop in H as [H H3]. apply andb_prop in H as [H1 H2].
    destruct t; try discriminate. split; [left; reflexivity|].
    destruct (f_val fi); simpl in *; try reflexivity; discriminate.
  - destruct t; try discriminate. split; [simpl; eauto|].
    destruct (f_val fi); simpl in *; try reflexivity; discriminate.
  - destruct t; try discriminate.
    + split; [simpl; eauto|]. destruct (f_val fi); simpl in *; try reflexivity; discriminate.
    + destruct t; try discriminate. split; [right; simpl; eauto|].
      destruct (f_val fi); simpl in *; try reflexivity; discriminate.
  - destruct t; try discriminate.
    + destruct maxlen; [discriminate|]. split; [simpl; eauto|].
      apply orb_prop in H as [H|H].
      * destruct (f_val fi); simpl in *; try reflexivity; discriminate.
      * apply andb_prop in H as [H1 H2]. apply str_eqb_eq in H2; subst.
        destruct (f_val fi); simpl in *; try discriminate. vm_compute. reflexivity.
    + apply andb_prop in H as [H1 H2]. split; [simpl; eauto|].
      destruct (f_val fi); simpl in *; try reflexivity; discriminate.
    + destruct t; try discriminate. apply andb_prop in H as [H1 H2]. split; [right; simpl; eauto|].
      destruct (f_val fi); simpl in *; try reflexivity; discriminate.
Qed.

Lemma assoc_Forall (Q : pv -> Prop) k d v : Forall (fun kv => Q (snd kv)) d -> assoc k d = Some v -> Q v.
Proof. intros HF Ha. apply assoc_In in Ha. rewrite Forall_forall in HF. exact (HF _ Ha). Qed.

Lemma dict_set_Forall (Q : pv -> Prop) k v d : Forall (fun kv => Q (snd kv)) d -> Q v ->
  Forall (fun kv => Q (snd kv)) (dict_set k v d).
Proof.
  induction d as [|[k' v'] d IH]; simpl; intros HF Hv; [constructor; auto|].
  inversion HF; subst. destruct (str_eqb k k'); constructor; auto.
Qed.
Lemma dict_update_Forall (Q : pv -> Prop) e : forall d, Forall (fun kv => Q (snd kv)) d ->
  Forall (fun kv => Q (snd kv)) e -> Forall (fun kv => Q (snd kv)) (dict_update d e).
Proof.
  unfold dict_update. induction e as [|[k v] e IH]; simpl; intros d Hd He; [exact Hd|].
  inversion He; subst. apply IH; [apply dict_set_Forall; assumption|assumption].
Qed.

Lemma filter_Forall {X} (P : X -> Prop) f l : Forall P l -> Forall P (filter f l).
Proof.
  rewrite !Forall_forall. intros H x Hin. apply filter_In in Hin as [Hin _]. apply H; exact Hin.
Qed.

Theorem validate_canon (A Q : pv -> Prop) E t : closed Q -> (forall v, Q v -> A v) ->
  wf_ty t = true -> forall v r n, Q v -> validate E t v = Some (r, n) -> canon A E t r.
Proof.
  intros HQ HQA. induction t using ty_ind'; intros Hwf v r n Hv H1; cbn [validate canon] in *.
  - inversion H1; subst. auto.
  - destruct v; try discriminate. destruct (len_ok m s) eqn:E1; inversion H1; subst; eauto.
  - destruct v; try discriminate. destruct (email_ok s) eqn:E1; inversion H1; subst; eauto.
  - destruct v; try discriminate; try (inversion H1; subst; eauto; fail);
      (destruct (e_int E _); inversion H1; subst; eauto).
  - destruct v; try discriminate; try (inversion H1; subst; eauto; fail);
      (destruct (e_bool E _); inversion H1; subst; eauto).
  - destruct v; try discriminate; (destruct (e_url E b s) as [s'|] eqn:Eu; inversion H1; subst; eauto).
  - destruct v; try discriminate. destruct (mem_str s l) eqn:E1; inversion H1; subst; eauto.
  - destruct v; try discriminate. destruct (mem_Z z l) eqn:E1; inversion H1; subst; eauto.
  - destruct v; try discriminate. apply (cl_list Q HQ) in Hv.
    destruct (vlist (validate E) t l) as [[l' m]|] eqn:El; inversion H1; subst. clear H1.
    exists l'. split; [reflexivity|].
    revert l' n El. induction l as [|x l IHl]; simpl; intros l' n El.
    + inversion El; subst. constructor.
    + inversion Hv; subst. destruct (validate E t x) as [[x' p]|] eqn:Ex; [|discriminate].
      change ((fix go (l0 : list pv) : option (list pv * nat) := _) l) with (vlist (validate E) t l) in El.
      destruct (vlist (validate E) t l) as [[l2 q]|] eqn:El2; inversion El; subst.
      constructor; [eapply IHt; eauto|eapply IHl; eauto].
  - destruct v; try discriminate. apply (cl_dict Q HQ) in Hv.
    destruct (vdict (validate E) t d) as [[d' m]|] eqn:El; inversion H1; subst. clear H1.
    exists d'. split; [reflexivity|].
    revert d' n El. induction d as [|[k x] d IHd]; simpl; intros d' n El.
    + inversion El; subst. constructor.
    + inversion Hv; subst. destruct (validate E t x) as [[x' p]|] eqn:Ex; [|discriminate].
      change ((fix go (l0 : fields) : option (fields * nat) := _) d) with (vdict (validate E) t d) in El.
      destruct (vdict (validate E) t d) as [[l2 q]|] eqn:El2; inversion El; subst.
      constructor; [eapply (IHt Hwf x); eauto|eapply IHd; eauto].
  - destruct v; try (right; eapply IHt; eauto; fail). inversion H1; subst. left; reflexivity.
  - simpl in Hwf. apply andb_prop in Hwf as [Hok Hall]. rewrite forallb_forall in Hall.
    rewrite Forall_forall in H. eapply union_ok_canon; eauto.
  - destruct v; try discriminate. destruct (forallb is_proc l) eqn:E1; inversion H1; subst; eauto.
  - (* model *)
    cbn [wf_ty] in Hwf. apply andb_prop in Hwf as [Hm Hall]. unfold model_ok in Hm.
    repeat (apply andb_prop in Hm as [Hm ?Hm]).
    assert (Hgoal : forall kvs, Forall (fun kv => Q (snd kv)) kvs ->
              vmodel E (validate E) c k fs kvs = Some (r, n) ->
              exists fv ex, r = VObj c fv ex /\ canon_fields E (canon A E) fs fv
                            /\ Forall (fun kv => A (snd kv)) ex /\ after_ok E c k fv ex = true).
    { intros kvs HF Hvm. apply vmodel_obj in Hvm as (fv & Hfv & -> & Ha).
      exists fv, (extras fs kvs). split; [reflexivity|]. split; [|split; [|exact Ha]].
      2:{ unfold extras. apply filter_Forall. rewrite Forall_forall in *. intros kv Hin. apply HQA. apply HF. exact Hin. }
      clear Ha H1 Hm Hm0 Hm1 Hm3. rename Hm2 into Hdef.
      revert fv n Hfv H Hall Hdef. induction fs as [|[fi t] fs IHfs]; intros fv n Hfv HIH Hall Hdef.
      - simpl in Hfv. inversion Hfv; subst. exact I.
      - cbn [forallb snd fst] in *. apply andb_prop in Hall as [Hwt Hall]. apply andb_prop in Hdef as [Hd Hdef].
        inversion HIH as [|? ? HIHt HIHr]; subst.
        simpl in Hfv.
        change ((fix go (l0 : list (finfo * ty)) : option (fields * nat) := _) fs) with (vfields E (validate E) kvs fs) in Hfv.
        destruct (lookup_field fi kvs) as [x|] eqn:Elk.
        + destruct (validate E t x) as [[x' p]|] eqn:Ex; [|discriminate].
          destruct (fv_check E (f_val fi) x') eqn:Ef; [|discriminate].
          destruct (vfields E (validate E) kvs fs) as [[r' m]|] eqn:Er; inversion Hfv; subst.
          cbn [canon_fields]. split; [|eapply IHfs; eauto]. split; [reflexivity|]. split; [|exact Ef].
          apply (HIHt Hwt x x' p); [|exact Ex]. unfold lookup_field in Elk.
          destruct (assoc (f_alias fi) kvs) eqn:Ea; [inversion Elk; subst|]; eapply assoc_Forall; eauto.
        + destruct (f_def fi) as [d|] eqn:Ed; [|discriminate].
          destruct (vfields E (validate E) kvs fs) as [[r' m]|] eqn:Er; inversion Hfv; subst.
          cbn [canon_fields]. destruct (default_ok_canon A E fi t d Hd Ed) as [Hc Hf].
          split; [auto|eapply IHfs; eauto]. }
    destruct v; try discriminate.
    + eapply Hgoal; [apply (cl_dict Q HQ); exact Hv|exact H1].
    + destruct (String.eqb c c0); [|discriminate].
      apply (cl_obj Q HQ) in Hv as [Hv1 Hv2]. eapply Hgoal; [|exact H1].
      apply dict_update_Forall; assumption.
  - assert (Hgoal : forall d, Forall (fun kv => Q (snd kv)) d ->
              match vdict (validate E) t d with
              | Some (d', n) => if root_keys_ok d' then Some (VRoot c d', n) else None
              | None => None end = Some (r, n) ->
              exists d0, r = VRoot c d0 /\ Forall (fun kv => canon A E t (snd kv)) d0 /\ root_keys_ok d0 = true).
    { intros d HF Hd. destruct (vdict (validate E) t d) as [[d' m]|] eqn:El; [|discriminate].
      destruct (root_keys_ok d') eqn:Ek; inversion Hd; subst. exists d'. split; [reflexivity|]. split; [|exact Ek].
      clear Hd Ek H1. revert d' n El. induction d as [|[k x] d IHd]; simpl; intros d' n El.
      - inversion El; subst. constructor.
      - inversion HF; subst. destruct (validate E t x) as [[x' p]|] eqn:Ex; [|discriminate].
        change ((fix go (l0 : fields) : option (fields * nat) := _) d) with (vdict (validate E) t d) in El.
        destruct (vdict (validate E) t d) as [[l2 q]|] eqn:El2; inversion El; subst.
        constructor; [eapply (IHt Hwf x); eauto|eapply IHd; eauto]. }
    destruct v; try discriminate.
    + eapply Hgoal; [apply (cl_dict Q HQ); exact Hv|exact H1].
    + destruct (String.eqb c c0); [|discriminate]. eapply Hgoal; [eapply (cl_root Q HQ); exact Hv|exact H1].
Qed.

Lemma closed_True : closed (fun _ => True).
Proof. constructor; intros; try split; apply Forall_forall; auto. Qed.
