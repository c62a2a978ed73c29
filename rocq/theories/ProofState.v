(** Proofs of the mutation properties. *)
From Verif Require Import PyStr Regex Value Types Rules Pydantic ClassTable Classes Canon Fix Linked SpecParse ProofRules ProofParse State SpecState.
From Coq Require Import Sorted.

(** ** C12 *)
Lemma about_dec k e : {about k e} + {~ about k e}.
Proof.
  destruct e as [k' v|k']; simpl; (destruct (str_eqb k' k) eqn:E; [left; apply str_eqb_eq; exact E|right; intros H; apply str_eqb_eq in H; congruence]).
Qed.
Lemma holds_snoc h e k v : holds (h ++ [e]) k v <-> e = Wrote k v \/ (~ about k e /\ holds h k v).
Proof.
  split.
  - intros (h1 & h2 & Heq & HF). destruct h2 as [|x h2 _] using rev_ind.
    + apply app_inj_tail in Heq as [_ <-]. left; reflexivity.
    + rewrite app_comm_cons, app_assoc in Heq. apply app_inj_tail in Heq as [-> ->].
      apply Forall_app in HF as [HF Hx]. inversion Hx; subst. right. split; [assumption|]. exists h1, h2. auto.
  - intros [->|[Hn (h1 & h2 & -> & HF)]].
    + exists h, []. auto.
    + exists h1, (h2 ++ [e]). split; [rewrite <- app_assoc; reflexivity|]. apply Forall_app. auto.
Qed.
Lemma holds_fun h k v w : holds h k v -> holds h k w -> v = w.
Proof.
  revert v w. induction h as [|e h IH] using rev_ind; intros v w H1 H2.
  - destruct H1 as ([|? ?] & h2 & Heq & _); discriminate.
  - apply holds_snoc in H1, H2. destruct H1 as [->|[Hn H1]], H2 as [H2|[Hm H2]].
    + congruence.
    + exfalso; apply Hm; reflexivity.
    + subst. exfalso; apply Hn; reflexivity.
    + eauto.
Qed.
Lemma absent_nil k : absent [] k.
Proof. intros v ([|? ?] & h2 & Heq & _); discriminate. Qed.
Lemma still_there h1 k v mid : ~ In (Deleted k) mid -> exists w, holds (h1 ++ Wrote k v :: mid) k w.
Proof.
  induction mid as [|e mid IH] using rev_ind; intros Hn.
  - exists v. exists h1, []. auto.
  - destruct IH as [w Hw]; [intros H; apply Hn, in_or_app; auto|].
    rewrite app_comm_cons, app_assoc. destruct (about_dec k e) as [Ha|Ha].
    + destruct e as [k' v'|k']; simpl in Ha; subst; [exists v'; apply holds_snoc; auto|].
      exfalso. apply Hn, in_or_app. right; left; reflexivity.
    + exists w. apply holds_snoc. auto.
Qed.
Lemma app_split {X} (a b c d : list X) : a ++ b = c ++ d -> length a < length c -> exists m, c = a ++ m /\ b = m ++ d.
Proof.
  revert c; induction a as [|x a IH]; intros c H Hl; simpl in *; [exists c; auto|].
  destruct c as [|y c]; simpl in *; [lia|]. inversion H; subst. destruct (IH c H2) as (m & -> & ->); [lia|]. eauto.
Qed.
Lemma since_fun h k n m : since h k n -> since h k m -> n = m.
Proof.
  assert (Hw : forall n m, since h k n -> since h k m -> ~ n < m).
  { clear. intros n m (h1 & h2 & v & Heq & Hl & Ha & Hd) (h1' & h2' & v' & Heq' & Hl' & Ha' & Hd') Hlt.
    rewrite Heq in Heq'. apply app_split in Heq' as (mid & -> & Hm); [|lia].
    destruct mid as [|e mid]; [rewrite app_nil_r in *; lia|]. simpl in Hm. inversion Hm; subst.
    destruct (still_there h1 k v mid) as [w Hw].
    - intros Hin. apply Hd. apply in_or_app. auto.
    - exact (Ha' _ Hw). }
  intros H1 H2. destruct (Nat.lt_total n m) as [H|[H|H]]; [exfalso; eapply Hw; [exact H1|exact H2|exact H]|exact H|exfalso; eapply Hw; [exact H2|exact H1|exact H]].
Qed.
Lemma since_snoc h e k n : since h k n -> e <> Deleted k -> since (h ++ [e]) k n.
Proof.
  intros (h1 & h2 & v & -> & Hl & Ha & Hd) Hn. exists h1, (h2 ++ [e]), v. split; [rewrite <- app_assoc; reflexivity|].
  repeat split; auto. intros Hin. apply in_app_or in Hin as [H|[H|[]]]; [auto|congruence].
Qed.
Lemma since_new h k v : absent h k -> since (h ++ [Wrote k v]) k (length h).
Proof. intros H. exists h, [], v. repeat split; auto. Qed.
Lemma since_bound h k n : since h k n -> n < length h.
Proof. intros (h1 & h2 & v & -> & Hl & _). rewrite app_length. simpl. lia. Qed.

Definition Inv (h : list event) (d : fields) : Prop :=
  NoDup (map fst d) /\ (forall k v, assoc k d = Some v <-> holds h k v)
  /\ exists ts, Forall2 (fun k n => since h k n) (map fst d) ts /\ StronglySorted lt ts.

Lemma inv_absent h d k : Inv h d -> assoc k d = None <-> absent h k.
Proof.
  intros (_ & Ha & _). split.
  - intros H v Hv. apply Ha in Hv. congruence.
  - intros H. destruct (assoc k d) as [v|] eqn:E; [|reflexivity]. apply Ha in E. exfalso. exact (H _ E).
Qed.
Lemma inv_keys h d k : Inv h d -> In k (map fst d) <-> exists v, holds h k v.
Proof.
  intros (_ & Ha & _). split.
  - intros H. destruct (assoc k d) as [v|] eqn:E.
    + exists v. apply Ha. exact E.
    + exfalso. apply assoc_None in E. contradiction.
  - intros [v Hv]. apply Ha in Hv. eapply assoc_Some_key; exact Hv.
Qed.
Lemma inv_order h d : Inv h d -> keys_in_order h (map fst d).
Proof.
  intros HI. assert (HI' := HI). destruct HI' as (Hnd & Ha & ts & HF & HS). split; [exact Hnd|].
  split; [intros k; apply inv_keys; exact HI|]. split.
  - intros l1 a l2 b l3 i j Heq Hi Hj. rewrite Heq in HF. clear -HF HS Hi Hj.
    apply Forall2_app_inv_l in HF as (t1 & t2 & _ & HF & ->). inversion HF as [|? x ? t3 Hx HF2]; subst.
    apply Forall2_app_inv_l in HF2 as (t4 & t5 & _ & HF2 & ->). inversion HF2 as [|? y ? t6 Hy _]; subst.
    rewrite <- (since_fun _ _ _ _ Hx Hi), <- (since_fun _ _ _ _ Hy Hj).
    clear -HS. induction t1 as [|z t1 IH]; simpl in HS.
    + inversion HS as [|? ? _ HF]; subst. rewrite Forall_forall in HF. apply HF. apply in_or_app. right; left; reflexivity.
    + inversion HS; subst. apply IH; assumption.
  - intros k Hk. clear -HF Hk. induction HF as [|x n l ts Hx HF IH]; [contradiction|].
    destruct Hk as [->|Hk]; [eauto|auto].
Qed.

Lemma assoc_dict_set k v d k' : assoc k' (dict_set k v d) = if str_eqb k' k then Some v else assoc k' d.
Proof.
  induction d as [|[k0 v0] d IH]; simpl.
  - reflexivity.
  - destruct (str_eqb k k0) eqn:E; simpl.
    + apply str_eqb_eq in E; subst. destruct (str_eqb k' k0); reflexivity.
    + rewrite IH. destruct (str_eqb k' k0) eqn:E1; [|reflexivity]. apply str_eqb_eq in E1; subst.
      rewrite (str_eqb_sym k0 k), E. reflexivity.
Qed.
Lemma dict_set_keys k v d : map fst (dict_set k v d) = if has_key k d then map fst d else map fst d ++ [k].
Proof.
  unfold has_key. induction d as [|[k0 v0] d IH]; simpl; [reflexivity|].
  destruct (str_eqb k k0) eqn:E; simpl; [reflexivity|]. rewrite IH. destruct (mem_str k (map fst d)); reflexivity.
Qed.
Lemma dict_del_keys_in k d x : In x (map fst (dict_del k d)) -> In x (map fst d).
Proof.
  induction d as [|[k0 v0] d IH]; simpl; [tauto|]. destruct (str_eqb k k0); simpl; tauto.
Qed.
Lemma dict_del_nodup k d : NoDup (map fst d) -> NoDup (map fst (dict_del k d)).
Proof.
  induction d as [|[k0 v0] d IH]; simpl; intros H; [constructor|]. inversion H; subst.
  destruct (str_eqb k k0); [assumption|]. simpl. constructor; [|auto]. intros Hin. apply dict_del_keys_in in Hin. contradiction.
Qed.
Lemma assoc_dict_del k d k' : NoDup (map fst d) -> assoc k' (dict_del k d) = if str_eqb k' k then None else assoc k' d.
Proof.
  induction d as [|[k0 v0] d IH]; simpl; intros H.
  - destruct (str_eqb k' k); reflexivity.
  - inversion H as [|? ? Hni Hnd]; subst. destruct (str_eqb k k0) eqn:E.
    + apply str_eqb_eq in E; subst. destruct (str_eqb k' k0) eqn:E1; [|reflexivity]. apply str_eqb_eq in E1; subst.
      apply assoc_None. exact Hni.
    + simpl. rewrite (IH Hnd). destruct (str_eqb k' k0) eqn:E1; [|reflexivity].
      apply str_eqb_eq in E1; subst. rewrite str_eqb_sym, E. reflexivity.
Qed.
Lemma sorted_sub (R : nat -> nat -> Prop) a x b : StronglySorted R (a ++ x :: b) -> StronglySorted R (a ++ b).
Proof.
  induction a as [|y a IH]; simpl; intros H.
  - inversion H; assumption.
  - inversion H; subst. constructor; [auto|]. rewrite Forall_forall in *. intros z Hz. apply H3.
    apply in_app_or in Hz as [Hz|Hz]; apply in_or_app; [auto|right; right; exact Hz].
Qed.
Lemma sorted_snoc ts n : StronglySorted lt ts -> Forall (fun x => x < n) ts -> StronglySorted lt (ts ++ [n]).
Proof.
  induction ts as [|x ts IH]; simpl; intros H HF; [repeat constructor|].
  inversion H; subst. inversion HF; subst. constructor; [auto|]. rewrite Forall_forall in *. intros z Hz.
  apply in_app_or in Hz as [Hz|[<-|[]]]; auto.
Qed.
Lemma since_keep h e l ts : Forall2 (fun k n => since h k n) l ts -> (forall k, In k l -> e <> Deleted k) ->
  Forall2 (fun k n => since (h ++ [e]) k n) l ts.
Proof.
  induction 1 as [|k n l ts H HF IH]; intros He; constructor.
  - apply since_snoc; [exact H|]. apply He; left; reflexivity.
  - apply IH. intros; apply He; right; assumption.
Qed.
Lemma inv_set h d k v : Inv h d -> Inv (h ++ [Wrote k v]) (dict_set k v d).
Proof.
  intros HI. assert (HI' := HI). destruct HI' as (Hnd & Ha & ts & HF & HS).
  assert (Hk : has_key k d = true <-> In k (map fst d)) by apply has_key_iff.
  split; [|split].
  - rewrite dict_set_keys. destruct (has_key k d) eqn:E; [exact Hnd|].
    apply NoDup_Add with (a := k) (l := map fst d); [rewrite <- (app_nil_r (map fst d)) at 1; apply Add_app|].
    split; [exact Hnd|]. intros Hin. apply Hk in Hin. congruence.
  - intros k' w. rewrite assoc_dict_set, holds_snoc, <- Ha. destruct (str_eqb k' k) eqn:E.
    + apply str_eqb_eq in E; subst. split.
      * intros H; inversion H; subst. auto.
      * intros [H|[H _]]; [congruence|exfalso; apply H; reflexivity].
    + assert (k' <> k) by (intros ->; rewrite str_eqb_refl in E; discriminate). split.
      * intros H1. right. split; [simpl; congruence|exact H1].
      * intros [H1|[_ H1]]; [congruence|exact H1].
  - rewrite dict_set_keys. destruct (has_key k d) eqn:E.
    + exists ts. split; [|exact HS]. apply since_keep; [exact HF|]. discriminate.
    + exists (ts ++ [length h]). split.
      * apply Forall2_app; [apply since_keep; [exact HF|discriminate]|]. constructor; [|constructor].
        apply since_new. apply (inv_absent h d k HI). apply assoc_None. intros Hin. apply Hk in Hin. congruence.
      * apply sorted_snoc; [exact HS|]. clear -HF. induction HF; constructor; auto. eapply since_bound; eauto.
Qed.
Lemma dict_del_split k d : In k (map fst d) -> NoDup (map fst d) ->
  exists l1 l2, map fst d = l1 ++ k :: l2 /\ map fst (dict_del k d) = l1 ++ l2 /\ ~ In k (l1 ++ l2).
Proof.
  induction d as [|[k0 v0] d IH]; simpl; intros Hin Hnd; [contradiction|]. inversion Hnd; subst.
  destruct (str_eqb k k0) eqn:E.
  - apply str_eqb_eq in E; subst. exists [], (map fst d). auto.
  - assert (k <> k0) by (intros ->; rewrite str_eqb_refl in E; discriminate).
    destruct Hin as [Heq|Hin]; [congruence|].
    destruct (IH Hin H2) as (l1 & l2 & E1 & E2 & E3). exists (k0 :: l1), l2. simpl. rewrite E1, E2. repeat split; auto.
    intros [Hx|Hx]; [congruence|contradiction].
Qed.
Lemma inv_del_present h d k : Inv h d -> In k (map fst d) -> Inv (h ++ [Deleted k]) (dict_del k d).
Proof.
  intros HI Hin. assert (HI' := HI). destruct HI' as (Hnd & Ha & ts & HF & HS). split; [|split].
  - apply dict_del_nodup; exact Hnd.
  - intros k' w. rewrite (assoc_dict_del _ _ _ Hnd), holds_snoc, <- Ha. destruct (str_eqb k' k) eqn:E.
    + apply str_eqb_eq in E; subst. split; [discriminate|]. intros [H|[H _]]; [discriminate|exfalso; apply H; reflexivity].
    + assert (k' <> k) by (intros ->; rewrite str_eqb_refl in E; discriminate). split.
      * intros H1. right. split; [simpl; congruence|exact H1].
      * intros [H1|[_ H1]]; [congruence|exact H1].
  - destruct (dict_del_split k d Hin Hnd) as (l1 & l2 & E1 & E2 & E3). rewrite E1 in HF. rewrite E2.
    apply Forall2_app_inv_l in HF as (t1 & t2 & HF1 & HF & ->). inversion HF as [|? x ? t3 Hx HF2]; subst.
    exists (t1 ++ t3). split; [|eapply sorted_sub; exact HS].
    apply since_keep; [apply Forall2_app; assumption|]. intros k' Hk' Heq. inversion Heq; subst. contradiction.
Qed.
Lemma inv_del_absent h d k : Inv h d -> assoc k d = None -> Inv (h ++ [Deleted k]) d.
Proof.
  intros HI Hn. assert (HI' := HI). destruct HI' as (Hnd & Ha & ts & HF & HS). split; [exact Hnd|split].
  - intros k' w. rewrite holds_snoc, <- Ha. split.
    + intros H. right. split; [|exact H]. simpl. intros ->. congruence.
    + intros [H|[_ H]]; [discriminate|exact H].
  - exists ts. split; [|exact HS]. apply since_keep; [exact HF|]. intros k' Hk' Heq. inversion Heq; subst.
    apply assoc_None in Hn. contradiction.
Qed.
Lemma root_step_ok h d o r d' : Inv h d -> root_step d o = (r, d') -> observes h o r /\ Inv (record h o) d'.
Proof.
  intros HI H. assert (Ha := proj1 (proj2 HI)). destruct o; simpl in *.
  - destruct (assoc k d) as [v|] eqn:E; inversion H; subst; (split; [|exact HI]).
    + left. exists v. split; [apply Ha; exact E|reflexivity].
    + right. split; [apply (inv_absent h d' k HI); exact E|reflexivity].
  - inversion H; subst. split; [reflexivity|apply inv_set; exact HI].
  - destruct (has_key k d) eqn:E; inversion H; subst.
    + apply has_key_iff in E. split; [left; split; [apply (inv_keys h d k HI); exact E|reflexivity]|].
      apply inv_del_present; assumption.
    + assert (En : assoc k d' = None). { apply assoc_None. intros Hin. apply has_key_iff in Hin. congruence. }
      split; [right; split; [apply (inv_absent h d' k HI); exact En|reflexivity]|]. apply inv_del_absent; assumption.
  - inversion H; subst. split; [|exact HI]. exists (has_key k d'). split; [reflexivity|].
    rewrite has_key_iff. apply inv_keys; exact HI.
  - inversion H; subst. split; [|exact HI]. exists (map fst d'). split; [apply inv_order; exact HI|]. rewrite map_length. reflexivity.
  - inversion H; subst. split; [|exact HI]. exists (map fst d'). split; [apply inv_order; exact HI|reflexivity].
Qed.
Lemma root_run_ok ops : forall h d rs d', Inv h d -> root_run d ops = (rs, d') -> observations h ops rs /\ Inv (fold_left record ops h) d'.
Proof.
  induction ops as [|o ops IH]; intros h d rs d' HI H; simpl in H.
  - inversion H; subst. simpl. auto.
  - destruct (root_step d o) as [r d1] eqn:Es. destruct (root_run d1 ops) as [rs1 d2] eqn:Er. inversion H; subst.
    destruct (root_step_ok _ _ _ _ _ HI Es) as [Ho HI1]. destruct (IH _ _ _ _ HI1 Er) as [Hr HI2]. simpl. auto.
Qed.
Lemma inv_initial d : NoDup (map fst d) -> Inv (map (fun kv => Wrote (fst kv) (snd kv)) d) d.
Proof.
  intros H. assert (Hg : forall a b, NoDup (map fst (a ++ b)) -> Inv (map (fun kv => Wrote (fst kv) (snd kv)) a) a ->
     Inv (map (fun kv => Wrote (fst kv) (snd kv)) (a ++ b)) (a ++ b)).
  { intros a b. revert a. induction b as [|[k v] b IH]; intros a Hn HI; [rewrite app_nil_r; exact HI|].
    assert (Heq : a ++ (k, v) :: b = (a ++ [(k, v)]) ++ b) by (rewrite <- app_assoc; reflexivity).
    rewrite Heq in *. apply IH; [exact Hn|].
    rewrite map_app. simpl. assert (Hset : dict_set k v a = a ++ [(k, v)]).
    { apply dict_set_new. rewrite !map_app in Hn. apply NoDup_app_inv in Hn as (Hn & _ & _).
      apply NoDup_app_inv in Hn as (_ & _ & Hd). intros Hin. apply (Hd k Hin). left; reflexivity. }
    rewrite <- Hset. apply inv_set. exact HI. }
  apply (Hg [] d H). split; [constructor|]. split.
  - intros k v. simpl. split; [discriminate|]. intros Hh. exfalso. eapply absent_nil; exact Hh.
  - exists []. split; constructor.
Qed.
Lemma root_step_error d o d' : root_step d o = (RKeyError, d') -> d' = d.
Proof.
  destruct o; simpl; try (intros H; inversion H; reflexivity).
  - destruct (assoc k d); intros H; inversion H; reflexivity.
  - destruct (has_key k d); intros H; inversion H; reflexivity.
Qed.

(** ** Typing *)
Lemma len_ok_iff m s : len_ok m s = true <-> forall n, m = Some n -> (N.of_nat (length s) <= n)%N.
Proof.
  destruct m as [n|]; simpl; [rewrite N.leb_le; split; [intros H n' Hn; inversion Hn; subst; exact H|auto]|].
  split; [discriminate|reflexivity].
Qed.
Lemma mem_Z_In z l : mem_Z z l = true <-> In z l.
Proof.
  unfold mem_Z. rewrite existsb_exists. split; [intros (x & Hx & He); apply Z.eqb_eq in He; subst; exact Hx|].
  intros H. exists z. split; [exact H|apply Z.eqb_refl].
Qed.
Lemma canon_wt A E t : wf_ty t = true -> forall v, canon A E t v -> well_typed E t v.
Proof.
  induction t using ty_ind'; intros Hwf v Hc; cbn [canon well_typed] in *.
  - exact I.
  - destruct Hc as (s & -> & Hl). exists s. split; [reflexivity|apply len_ok_iff; exact Hl].
  - destruct Hc as (s & -> & Hl). exists s. split; [reflexivity|apply email_ok_iff; exact Hl].
  - exact Hc.
  - exact Hc.
  - destruct Hc as (s & -> & s0 & Hs). eauto.
  - destruct Hc as (s & -> & Hl). exists s. split; [reflexivity|apply mem_str_In; exact Hl].
  - destruct Hc as (s & -> & Hl). exists s. split; [reflexivity|apply mem_Z_In; exact Hl].
  - destruct Hc as (l & -> & Hl). exists l. split; [reflexivity|]. eapply Forall_impl; [|exact Hl]. apply IHt; exact Hwf.
  - destruct Hc as (l & -> & Hl). exists l. split; [reflexivity|]. eapply Forall_impl; [|exact Hl]. intros kv; apply IHt; exact Hwf.
  - destruct Hc as [->|Hc]; [left; reflexivity|right; apply IHt; assumption].
  - cbn [wf_ty] in Hwf. apply andb_prop in Hwf as [_ Hwf]. rewrite forallb_forall in Hwf. rewrite Forall_forall in H.
    induction ts as [|t ts IH]; simpl in *; [exact Hc|]. destruct Hc as [[Hc _]|[_ Hc]].
    + left. apply H; auto.
    + right. apply IH; auto.
  - destruct Hc as (l & -> & Hl). exists l. split; [reflexivity|]. rewrite forallb_forall in Hl. apply Forall_forall.
    intros x Hx. apply Hl in Hx. destruct x; try discriminate. eauto.
  - destruct Hc as (fv & ex & -> & Hf & _ & Ha). exists fv, ex. split; [reflexivity|].
    cbn [wf_ty] in Hwf. apply andb_prop in Hwf as [Hm Hall]. unfold model_ok in Hm.
    apply andb_prop in Hm as [Hm _]. apply andb_prop in Hm as [Hm _]. apply andb_prop in Hm as [Hm _].
    apply andb_prop in Hm as [_ Hx]. unfold after_ok in Ha. apply andb_prop in Ha as [Ha _].
    split; [|split].
    + clear Hx Ha. revert fv Hf H Hall. induction fs as [|[fi t] fs IH]; intros [|[k0 v0] fv] Hf HIH Hall; cbn [canon_fields wt_fields] in *; try tauto.
      destruct Hf as [(-> & Hc & Hk) Hf]. cbn [forallb snd] in Hall. apply andb_prop in Hall as [Hw Hall]. inversion HIH; subst.
      split; [reflexivity|]. split; [auto|]. split; [apply fv_check_iff; exact Hk|]. apply IH; auto.
    + intros ->. simpl in Ha. destruct ex; [reflexivity|discriminate].
    + intros -> fi t Hin Hex. simpl in Ha. rewrite forallb_forall in Ha, Hx.
      apply in_map_iff in Hex as (kv & Hk & Hex). apply Ha in Hex. rewrite Hk in Hex. apply ext_key_iff in Hex.
      assert (Hs : starts_with (u "x-") (f_name fi) = true).
      { apply starts_with_iff. destruct Hex as (w & (w' & -> & _) & [->| ->]); [eauto|].
        exists (w' ++ nl). rewrite <- app_assoc. reflexivity. }
      specialize (Hx (f_name fi)). rewrite Hs in Hx. simpl in Hx. discriminate Hx.
      apply (all_keys_in fi); [change fi with (fst (fi, t)); apply in_map; exact Hin|apply field_keys_name].
  - destruct Hc as (d & -> & Hd & _). exists d. split; [reflexivity|]. eapply Forall_impl; [|exact Hd]. intros kv; apply IHt; exact Hwf.
Qed.
Lemma parse_wt E t v r : wf_ty t = true -> parse E t v = Some r -> well_typed E t r.
Proof. intros Hwf H. eapply canon_wt; [exact Hwf|]. eapply parse_canon; eauto. Qed.

(** ** Assignment *)
Lemma find_field_spec n fs fi t : find_field n fs = Some (fi, t) -> In (fi, t) fs /\ f_name fi = n.
Proof.
  induction fs as [|[gi s] fs IH]; simpl; [discriminate|]. destruct (str_eqb n (f_name gi)) eqn:E.
  - intros H; inversion H; subst. apply str_eqb_eq in E. auto.
  - intros H. destruct (IH H). auto.
Qed.
Lemma find_field_None n fs : find_field n fs = None <-> forall fi t, In (fi, t) fs -> f_name fi <> n.
Proof.
  induction fs as [|[gi s] fs IH]; simpl; [split; [tauto|reflexivity]|].
  destruct (str_eqb n (f_name gi)) eqn:E; split.
  - discriminate.
  - intros H. apply str_eqb_eq in E. exfalso. apply (H gi s); [auto|congruence].
  - intros H fi t [Heq|Hin]; [inversion Heq; subst; intros He; rewrite He, str_eqb_refl in E; discriminate|].
    eapply IH; eauto.
  - intros H. apply IH. intros fi t Hin. apply (H fi t). auto.
Qed.
Lemma find_field_in fi t fs : In (fi, t) fs -> NoDup (map (fun ft => f_name (fst ft)) fs) -> find_field (f_name fi) fs = Some (fi, t).
Proof.
  induction fs as [|[gi s] fs IH]; simpl; intros Hin Hnd; [contradiction|]. inversion Hnd; subst.
  destruct Hin as [Heq|Hin]; [inversion Heq; subst; rewrite str_eqb_refl; reflexivity|].
  destruct (str_eqb (f_name fi) (f_name gi)) eqn:E; [|apply IH; assumption].
  apply str_eqb_eq in E. exfalso. apply H1. rewrite <- E. change (f_name fi) with (f_name (fst (fi, t))).
  apply in_map with (f := fun ft => f_name (fst ft)). exact Hin.
Qed.
Lemma assoc_dict_update e : forall d k, ~ In k (map fst e) -> assoc k (dict_update d e) = assoc k d.
Proof.
  unfold dict_update. induction e as [|[k0 v0] e IH]; simpl; intros d k H; [reflexivity|].
  rewrite IH by tauto. rewrite assoc_dict_set. destruct (str_eqb k k0) eqn:E; [|reflexivity].
  apply str_eqb_eq in E; subst. tauto.
Qed.
Lemma wt_fields_names E wt fs : forall fv, wt_fields E wt fs fv -> map fst fv = map (fun ft => f_name (fst ft)) fs.
Proof.
  induction fs as [|[fi t] fs IH]; intros [|[k v] fv]; cbn [wt_fields]; try tauto; intros H.
  destruct H as (-> & _ & _ & H). simpl. rewrite (IH _ H). reflexivity.
Qed.
Lemma wt_fields_map E wt fs (g : pystr -> pv) : (forall fi t, In (fi, t) fs -> wt t (g (f_name fi)) /\ field_rule E (f_val fi) (g (f_name fi))) ->
  wt_fields E wt fs (map (fun ft => (f_name (fst ft), g (f_name (fst ft)))) fs).
Proof.
  induction fs as [|[fi t] fs IH]; intros H; cbn [map wt_fields fst]; [exact I|].
  destruct (H fi t (or_introl eq_refl)). repeat split; auto. apply IH. intros; apply H; right; assumption.
Qed.
Lemma wt_fields_attr E wt fs : forall fv fi t, wt_fields E wt fs fv -> NoDup (map (fun ft => f_name (fst ft)) fs) -> In (fi, t) fs ->
  wt t (attr (f_name fi) fv) /\ field_rule E (f_val fi) (attr (f_name fi) fv).
Proof.
  induction fs as [|[gi s] fs IH]; intros [|[k v] fv] fi t H Hnd Hin; cbn [wt_fields] in H; try contradiction.
  destruct H as (-> & Hw & Hr & H). cbn [map fst] in Hnd. inversion Hnd; subst. unfold attr. simpl. destruct Hin as [Heq|Hin].
  - inversion Heq; subst. rewrite str_eqb_refl. auto.
  - destruct (str_eqb (f_name fi) (f_name gi)) eqn:En; [|apply (IH fv fi t); assumption].
    apply str_eqb_eq in En. exfalso. apply H2. rewrite <- En.
    change (f_name fi) with ((fun ft : finfo * ty => f_name (fst ft)) (fi, t)). apply in_map. exact Hin.
Qed.

Lemma names_NoDup c k fs : wf_ty (TModel c k fs) = true -> NoDup (map (fun ft => f_name (fst ft)) fs).
Proof.
  intros Hwf. cbn [wf_ty] in Hwf. apply andb_prop in Hwf as [Hm _]. unfold model_ok in Hm.
  repeat (apply andb_prop in Hm as [Hm _]). apply nodupb_NoDup in Hm. apply all_keys_names in Hm.
  rewrite map_map in Hm. exact Hm.
Qed.

Lemma store_wt E procs c k fs fv ex name v : keeps E procs -> linked (TModel c k fs) = true -> wf_ty (TModel c k fs) = true ->
  wt_fields E (well_typed E) fs fv -> (k = KForbid -> ex = []) -> (forall fi t, In (fi, t) fs -> ~ In (f_name fi) (map fst ex)) ->
  (forall fi t, In (fi, t) fs -> f_name fi = name -> well_typed E t v /\ field_rule E (f_val fi) v) ->
  (k = KForbid -> exists fi t, In (fi, t) fs /\ f_name fi = name) ->
  well_typed E (TModel c k fs) (snd (store E procs c fv ex name v)).
Proof.
  intros Hkeep Hl Hwf Hf Hcl Hsh Hv Hcn. assert (Hnd := names_NoDup _ _ _ Hwf).
  destruct (linked_fields _ _ _ Hl) as [Hfs Hk]. unfold store. rewrite Hfs, Hk. unfold store_in.
  set (new := dict_set name v (dict_update fv ex)).
  set (o := VObj c _ _).
  assert (Hwt : well_typed E (TModel c k fs) o).
  { cbn [well_typed]. eexists; eexists. split; [reflexivity|]. split; [|split].
    - apply (wt_fields_map E (well_typed E) fs (fun n => attr n new)). intros fi t Hin. unfold attr. unfold new. rewrite assoc_dict_set.
      destruct (str_eqb (f_name fi) name) eqn:En.
      + apply str_eqb_eq in En. apply (Hv fi t Hin En).
      + rewrite assoc_dict_update by (apply (Hsh fi t Hin)). exact (wt_fields_attr E _ fs fv fi t Hf Hnd Hin).
    - intros Hforb. destruct (filter _ new) as [|kv l] eqn:Efl; [reflexivity|exfalso].
      assert (Hin : In kv (kv :: l)) by (left; reflexivity). rewrite <- Efl in Hin. apply filter_In in Hin as [Hin Hn].
      apply negb_true_iff, mem_str_not_In in Hn. apply Hn. specialize (Hcl Hforb). subst ex.
      assert (Hk2 : In (fst kv) (map fst new)) by (apply in_map; exact Hin). unfold new in Hk2. rewrite dict_set_keys in Hk2.
      unfold dict_update in Hk2. cbn [fold_left] in Hk2. rewrite (wt_fields_names _ _ _ _ Hf) in Hk2.
      destruct (has_key name fv); [exact Hk2|]. apply in_app_or in Hk2 as [Hk2|[<-|[]]]; [exact Hk2|].
      destruct (Hcn Hforb) as (fi & t & Hft & <-).
      change (f_name fi) with ((fun ft : finfo * ty => f_name (fst ft)) (fi, t)). apply in_map. exact Hft.
    - intros _ fi t Hin Hex. apply in_map_iff in Hex as (kv & Hke & Hex). apply filter_In in Hex as [_ Hn].
      apply negb_true_iff, mem_str_not_In in Hn. apply Hn. rewrite Hke.
      change (f_name fi) with ((fun ft : finfo * ty => f_name (fst ft)) (fi, t)). apply in_map. exact Hin. }
  destruct (after_ok E c k _ _); [|exact Hwt]. destruct (String.eqb c "AsyncAPI3") eqn:Ec; [|exact Hwt].
  apply String.eqb_eq in Ec. subst c.
  assert (TModel "AsyncAPI3" k fs = T_AsyncAPI3) as Heq.
  { apply linked_class in Hl. assert (Hf2 : exists k' fs', T_AsyncAPI3 = TModel "AsyncAPI3" k' fs' /\ find_class "AsyncAPI3" all_types = Some (k', fs')).
    { unfold T_AsyncAPI3. do 2 eexists. split; reflexivity. }
    destruct Hf2 as (k' & fs' & -> & Hf2). rewrite Hf2 in Hl. inversion Hl; subst. reflexivity. }
  rewrite Heq in *. apply (proj2 Hkeep). exact Hwt.
Qed.

Lemma vdict_Forall E t d r n : wf_ty t = true -> vdict (validate E) t d = Some (r, n) -> Forall (fun kv => well_typed E t (snd kv)) r.
Proof.
  intros Hwf H. apply vdict_ok in H as [_ H]. induction H as [|a b d r [_ Hp] _ IH]; constructor; [|exact IH].
  eapply parse_wt; eauto.
Qed.
Lemma assign_wt E procs t : keeps E procs -> linked t = true -> wf_ty t = true -> forall o name v, well_typed E t o -> not_shadowed o ->
  well_typed E t (snd (assign E procs o name v)).
Proof.
  intros Hkeep. induction t using ty_ind'; intros Hl Hwf o name v Ho Hns; cbn [well_typed] in Ho.
  - exact I.
  - destruct Ho as (s & -> & Hs). exact (ex_intro _ s (conj eq_refl Hs)).
  - destruct Ho as (s & -> & Hs). exact (ex_intro _ s (conj eq_refl Hs)).
  - destruct Ho as (s & ->). exact (ex_intro _ s eq_refl).
  - destruct Ho as (s & ->). exact (ex_intro _ s eq_refl).
  - destruct Ho as (s & s0 & -> & Hs). exists s, s0. auto.
  - destruct Ho as (s & -> & Hs). exact (ex_intro _ s (conj eq_refl Hs)).
  - destruct Ho as (s & -> & Hs). exact (ex_intro _ s (conj eq_refl Hs)).
  - destruct Ho as (s & -> & Hs). exact (ex_intro _ s (conj eq_refl Hs)).
  - destruct Ho as (s & -> & Hs). exact (ex_intro _ s (conj eq_refl Hs)).
  - destruct Ho as [->|Ho]; [left; reflexivity|]. cbn [well_typed]. right. apply IHt; auto.
  - cbn [well_typed]. cbn [linked] in Hl. cbn [wf_ty] in Hwf. apply andb_prop in Hwf as [_ Hwf].
    rewrite forallb_forall in Hl, Hwf. rewrite Forall_forall in H.
    induction ts as [|t ts IH]; cbn [wt_one] in *; [exact Ho|]. destruct Ho as [Ho|Ho].
    + left. apply H; auto; [left; reflexivity|apply Hl; left; reflexivity|apply Hwf; left; reflexivity].
    + right. apply IH; auto; intros; [apply H|apply Hl|apply Hwf]; try (right; assumption); assumption.
  - destruct Ho as (s & -> & Hs). exact (ex_intro _ s (conj eq_refl Hs)).
  - (* model *)
    destruct Ho as (fv & ex & -> & Hf & Hcl & Hext).
    destruct (linked_fields _ _ _ Hl) as [Hfs Hk]. unfold assign. rewrite Hfs, Hk.
    assert (Hself : well_typed E (TModel c k fs) (VObj c fv ex)) by (cbn [well_typed]; exists fv, ex; auto).
    assert (Hsh : forall fi t, In (fi, t) fs -> ~ In (f_name fi) (map fst ex)).
    { intros fi t Hin. destruct k.
      - apply (Hext eq_refl fi t Hin).
      - rewrite (Hcl eq_refl). intros [].
      - apply (Hns c fv ex fi t eq_refl Hk). rewrite Hfs. exact Hin. }
    assert (Hnd := names_NoDup _ _ _ Hwf).
    destruct (find_field name fs) as [[fi t]|] eqn:Eff.
    + apply find_field_spec in Eff as [Hin Hn].
      destruct (validate E t v) as [[v' p]|] eqn:Ev; [|exact Hself].
      destruct (fv_check E (f_val fi) v') eqn:Ec; [|exact Hself].
      apply store_wt with (k := k) (fs := fs); auto.
      * intros gi s Hg Hgn. assert (find_field name fs = Some (gi, s)) by (rewrite <- Hgn; apply find_field_in; assumption).
        assert (find_field name fs = Some (fi, t)) by (rewrite <- Hn; apply find_field_in; assumption).
        assert ((gi, s) = (fi, t)) as Hgf by congruence. inversion Hgf; subst gi s.
        split; [|apply fv_check_iff; exact Ec]. apply parse_wt with (v := v).
        -- cbn [wf_ty] in Hwf. apply andb_prop in Hwf as [_ Hwf]. rewrite forallb_forall in Hwf. apply (Hwf (fi, t) Hin).
        -- apply parse_some. eauto.
      * intros _. eauto.
    + assert (Hnone := proj1 (find_field_None name fs) Eff).
      assert (Hst : k <> KForbid -> well_typed E (TModel c k fs) (snd (store E procs c fv ex name v))).
      { intros Hnf. apply store_wt with (k := k) (fs := fs); auto.
        - intros gi s Hg Hgn. exfalso. exact (Hnone gi s Hg Hgn).
        - intros Hx; contradiction. }
      destruct k; [apply Hst; discriminate|exact Hself|apply Hst; discriminate].
  - (* root *)
    destruct Ho as (d & -> & Hd). assert (Hself : well_typed E (TRoot c t) (VRoot c d)) by (cbn [well_typed]; exists d; auto).
    unfold assign. destruct (str_eqb name (u "root")); [|exact Hself]. rewrite (linked_root _ _ Hl).
    destruct v; try exact Hself. destruct (vdict (validate E) t d0) as [[d' n]|] eqn:Ed; [|exact Hself].
    cbn [snd well_typed]. exists d'. split; [reflexivity|]. eapply vdict_Forall; [|exact Ed]. exact Hwf.
Qed.

Lemma upd_key_spec f k : forall d b d', upd_key f k d = Some (b, d') ->
  exists d1 x d2 x', d = d1 ++ (k, x) :: d2 /\ d' = d1 ++ (k, x') :: d2 /\ f x = Some (b, x') /\ assoc k d = Some x.
Proof.
  induction d as [|[k0 x0] d IH]; simpl; intros b d' H; [discriminate|].
  destruct (str_eqb k k0) eqn:E.
  - apply str_eqb_eq in E; subst. destruct (f x0) as [[b0 x']|] eqn:Ef; simpl in H; inversion H; subst.
    exists [], x0, d, x'. auto.
  - destruct (upd_key f k d) as [[b0 d0]|] eqn:Eu; simpl in H; inversion H; subst.
    destruct (IH _ _ eq_refl) as (d1 & x & d2 & x' & -> & -> & Hf & Ha). exists ((k0, x0) :: d1), x, d2, x'. auto.
Qed.
Lemma upd_idx_spec f : forall l i b l', upd_idx f i l = Some (b, l') ->
  exists l1 x l2 x', l = l1 ++ x :: l2 /\ l' = l1 ++ x' :: l2 /\ f x = Some (b, x') /\ nth_error l i = Some x.
Proof.
  induction l as [|x0 l IH]; intros [|i] b l' H; simpl in H; try discriminate.
  - destruct (f x0) as [[b0 x']|] eqn:Ef; simpl in H; inversion H; subst. exists [], x0, l, x'. auto.
  - destruct (upd_idx f i l) as [[b0 d0]|] eqn:Eu; simpl in H; inversion H; subst.
    destruct (IH _ _ _ Eu) as (d1 & x & d2 & x' & -> & -> & Hf & Ha). exists (x0 :: d1), x, d2, x'. auto.
Qed.
Lemma wt_fields_upd E wt fs : forall d1 k x d2 x', wt_fields E wt fs (d1 ++ (k, x) :: d2) ->
  (forall fi t, In (fi, t) fs -> wt t x -> field_rule E (f_val fi) x -> wt t x' /\ field_rule E (f_val fi) x') ->
  wt_fields E wt fs (d1 ++ (k, x') :: d2).
Proof.
  induction fs as [|[fi t] fs IH]; intros [|[k0 v0] d1] k x d2 x' H Hx; cbn [app wt_fields] in *; try contradiction.
  - destruct H as (-> & Hw & Hr & H). destruct (Hx fi t (or_introl eq_refl) Hw Hr). auto.
  - destruct H as (-> & Hw & Hr & H). repeat split; auto. eapply IH; [exact H|]. intros gi s Hin. apply Hx. right; exact Hin.
Qed.
(** The field validators only look at strings and integers, which assignments do not change. *)
Definition shape_keeping (f : pv -> bool * pv) : Prop :=
  forall o, match o with
            | VObj _ _ _ => exists c a b, snd (f o) = VObj c a b
            | VRoot _ _ => exists c d, snd (f o) = VRoot c d
            | _ => snd (f o) = o end.
Lemma rule_shape E fvl f o : shape_keeping f -> field_rule E fvl o -> field_rule E fvl (snd (f o)).
Proof.
  intros Hf Hr. specialize (Hf o). destruct o; try (rewrite Hf; exact Hr).
  - destruct Hf as (c' & a & b & ->). destruct fvl; simpl in *; try exact I; try discriminate;
      destruct Hr as (s0 & Hs0); try discriminate; destruct Hs0; discriminate.
  - destruct Hf as (c' & a & ->). destruct fvl; simpl in *; try exact I; try discriminate;
      destruct Hr as (s0 & Hs0); try discriminate; destruct Hs0; discriminate.
Qed.
Lemma at_path_keeps E (P : pv -> Prop) f : shape_keeping f ->
  (forall t o, linked t = true -> wf_ty t = true -> well_typed E t o -> P o -> well_typed E t (snd (f o))) ->
  forall p t v b v', linked t = true -> wf_ty t = true -> well_typed E t v ->
  (forall o, get_path p v = Some o -> P o) ->
  at_path p f v = Some (b, v') ->
  well_typed E t v' /\ forall fvl, field_rule E fvl v -> field_rule E fvl v'.
Proof.
  intros Hsk Hf. induction p as [|s p IH]; intros t v b v' Hl Hwf Hv Hns H.
  - cbn [at_path] in H. inversion H as [Hp]. assert (Hn := Hns v eq_refl). split.
    + change v' with (snd (b, v')). rewrite <- Hp. apply Hf; auto.
    + intros fvl Hr. change v' with (snd (b, v')). rewrite <- Hp. apply rule_shape; auto.
  - assert (Hfield : forall fvl, field_rule E fvl v -> field_rule E fvl v').
    { intros fvl Hr. cbn [at_path] in H.
      destruct s, v; try discriminate;
        match goal with H : option_map _ ?X = Some _ |- _ => destruct X as [[b0 d0]|]; simpl in H; inversion H; subst end;
        destruct fvl; simpl in *; try exact I; try discriminate;
        try (destruct Hr as (s0 & Hs0); discriminate); try (destruct Hr as (s0 & Hs0 & _); discriminate). }
    split; [|exact Hfield]. clear Hfield.
    revert v b v' Hl Hwf Hv Hns H. induction t using ty_ind'; intros v b0 v' Hl Hwf Hv Hns H1; cbn [well_typed] in Hv.
    + exact I.
    + destruct Hv as (z & -> & _). destruct s; discriminate.
    + destruct Hv as (z & -> & _). destruct s; discriminate.
    + destruct Hv as (z & ->). destruct s; discriminate.
    + destruct Hv as (z & ->). destruct s; discriminate.
    + destruct Hv as (z & z0 & -> & _). destruct s; discriminate.
    + destruct Hv as (z & -> & _). destruct s; discriminate.
    + destruct Hv as (z & -> & _). destruct s; discriminate.
    + destruct Hv as (l & -> & HF). destruct s; try discriminate. cbn [at_path] in H1.
      destruct (upd_idx (at_path p f) i l) as [[b1 l']|] eqn:Eu; cbn [option_map fst snd] in H1; inversion H1; subst.
      apply upd_idx_spec in Eu as (l1 & x & l2 & x' & -> & -> & Hx & Hnth).
      apply Forall_app in HF as [HF1 HF2]. inversion HF2; subst.
      cbn [well_typed]. eexists; split; [reflexivity|]. apply Forall_app; split; [assumption|]. constructor; [|assumption].
      apply (IH t x b0 x' Hl Hwf); auto. intros o Ho. apply Hns. cbn [get_path]. rewrite Hnth. exact Ho.
    + destruct Hv as (l & -> & HF). destruct s; try discriminate. cbn [at_path] in H1.
      destruct (upd_key (at_path p f) k l) as [[b1 l']|] eqn:Eu; cbn [option_map fst snd] in H1; inversion H1; subst.
      apply upd_key_spec in Eu as (l1 & x & l2 & x' & -> & -> & Hx & Hnth).
      apply Forall_app in HF as [HF1 HF2]. inversion HF2; subst.
      cbn [well_typed]. eexists; split; [reflexivity|]. apply Forall_app; split; [assumption|]. constructor; [|assumption].
      apply (IH t x b0 x' Hl Hwf); auto. intros o Ho. apply Hns. cbn [get_path]. rewrite Hnth. exact Ho.
    + destruct Hv as [->|Hv]; [destruct s; discriminate|]. cbn [well_typed]. right. eapply IHt; eauto.
    + cbn [well_typed]. cbn [linked] in Hl. cbn [wf_ty] in Hwf. apply andb_prop in Hwf as [_ Hwf].
      rewrite forallb_forall in Hl, Hwf. rewrite Forall_forall in H.
      induction ts as [|t ts IHts]; cbn [wt_one] in *; [exact Hv|]. destruct Hv as [Hv|Hv].
      * left. eapply H; eauto; [left; reflexivity|apply Hl; left; reflexivity|apply Hwf; left; reflexivity].
      * right. apply IHts; auto; intros; [eapply H; eauto; right; assumption|apply Hl; right; assumption|apply Hwf; right; assumption].
    + destruct Hv as (l & -> & HF). destruct s; try discriminate. cbn [at_path] in H1.
      destruct (upd_idx (at_path p f) i l) as [[b1 l']|] eqn:Eu; cbn [option_map fst snd] in H1; inversion H1; subst.
      apply upd_idx_spec in Eu as (l1 & x & l2 & x' & -> & -> & Hx & Hnth).
      apply Forall_app in HF as [HF1 HF2]. inversion HF2 as [|? ? [n ->] HF3]; subst.
      destruct p as [|s p]; [|destruct s; discriminate].
      cbn [at_path] in Hx. inversion Hx as [Hx']. assert (Hs := Hsk (VProc n)). simpl in Hs. rewrite Hx' in Hs. simpl in Hs. subst x'.
      cbn [well_typed]. eexists; split; [reflexivity|]. apply Forall_app; split; [assumption|]. constructor; [eauto|assumption].
    + destruct Hv as (fv & ex & -> & Hfs & Hcl & Hext). destruct s; try discriminate; cbn [at_path] in H1.
      * destruct (upd_key (at_path p f) f0 fv) as [[b1 l']|] eqn:Eu; cbn [option_map fst snd] in H1; inversion H1; subst.
        apply upd_key_spec in Eu as (l1 & x & l2 & x' & -> & -> & Hx & Hnth).
        cbn [well_typed]. eexists; eexists; split; [reflexivity|]. split; [|auto].
        eapply wt_fields_upd; [exact Hfs|]. intros fi t Hin Hw Hr.
        destruct (IH t x b0 x' (linked_sub _ _ _ _ Hl Hin) (wf_sub _ _ _ _ Hwf Hin) Hw) as [Ha Hb]; [|exact Hx|].
        { intros o Ho. apply Hns. cbn [get_path]. rewrite Hnth. exact Ho. }
        split; [exact Ha|apply Hb; exact Hr].
      * destruct (upd_key (at_path p f) k0 ex) as [[b1 l']|] eqn:Eu; cbn [option_map fst snd] in H1; inversion H1; subst.
        apply upd_key_spec in Eu as (l1 & x & l2 & x' & -> & -> & Hx & Hnth).
        cbn [well_typed]. eexists; eexists; split; [reflexivity|]. split; [exact Hfs|]. split.
        -- intros Hk. specialize (Hcl Hk). destruct l1; discriminate.
        -- intros Hk fi t Hin. specialize (Hext Hk fi t Hin). rewrite map_app in *. exact Hext.
    + destruct Hv as (l & -> & HF). destruct s; try discriminate. cbn [at_path] in H1.
      destruct (upd_key (at_path p f) k l) as [[b1 l']|] eqn:Eu; cbn [option_map fst snd] in H1; inversion H1; subst.
      apply upd_key_spec in Eu as (l1 & x & l2 & x' & -> & -> & Hx & Hnth).
      apply Forall_app in HF as [HF1 HF2]. inversion HF2; subst.
      cbn [well_typed]. eexists; split; [reflexivity|]. apply Forall_app; split; [assumption|]. constructor; [|assumption].
      apply linked_root_sub in Hl.
      apply (IH t x b0 x' Hl Hwf); auto. intros o Ho. apply Hns. cbn [get_path]. rewrite Hnth. exact Ho.
Qed.
Lemma at_path_wt E f : shape_keeping f ->
  (forall t o, linked t = true -> wf_ty t = true -> well_typed E t o -> not_shadowed o -> well_typed E t (snd (f o))) ->
  forall p t v b v', linked t = true -> wf_ty t = true -> well_typed E t v ->
  (forall o, get_path p v = Some o -> not_shadowed o) ->
  at_path p f v = Some (b, v') ->
  well_typed E t v' /\ forall fvl, field_rule E fvl v -> field_rule E fvl v'.
Proof. exact (at_path_keeps E not_shadowed f). Qed.
Lemma assign_shape E procs name v : keeps E procs -> shape_keeping (fun o => assign E procs o name v).
Proof.
  intros [Hk _] o. destruct o; try reflexivity.
  - assert (Hs : forall w, exists c' a b, snd (store E procs c fs ex name w) = VObj c' a b).
    { intros w. unfold store. generalize (class_fields c) (class_kind c). intros fs0 k0. unfold store_in. destruct (after_ok _ _ _ _ _); [|simpl; eauto]. destruct (String.eqb c "AsyncAPI3"); [|simpl; eauto].
      destruct (Hk c (map (fun ft => (f_name (fst ft), attr (f_name (fst ft)) (dict_set name w (dict_update fs ex)))) fs0)
                 (filter (fun kv => negb (mem_str (fst kv) (map (fun ft => f_name (fst ft)) fs0))) (dict_set name w (dict_update fs ex)))) as (a & b & ->). eauto. }
    unfold assign. destruct (find_field name (class_fields c)) as [[fi t]|].
    + destruct (validate E t v) as [[v' p]|]; [|simpl; eauto]. destruct (fv_check E (f_val fi) v'); [apply Hs|simpl; eauto].
    + destruct (class_kind c); [apply Hs|simpl; eauto|apply Hs].
  - unfold assign. destruct (str_eqb name (u "root")); [|simpl; eauto].
    destruct (find_root c all_types); [|simpl; eauto]. destruct v; simpl; eauto.
    destruct (vdict (validate E) t d0) as [[d' n]|]; simpl; eauto.
Qed.
Lemma assign_at_wt E procs a t v : keeps E procs -> linked t = true -> wf_ty t = true -> well_typed E t v ->
  (forall o, get_path (as_path a) v = Some o -> not_shadowed o) ->
  well_typed E t (match assign_at E procs a v with Some (_, v') => v' | None => v end).
Proof.
  intros Hk Hl Hwf Hv Hns. destruct (assign_at E procs a v) as [[b v']|] eqn:Ea; [|exact Hv].
  unfold assign_at in Ea. eapply at_path_wt; [apply assign_shape; exact Hk| |exact Hl|exact Hwf|exact Hv|exact Hns|exact Ea].
  intros. apply assign_wt; assumption.
Qed.
Lemma assign_run_wt E procs t l : keeps E procs -> linked t = true -> wf_ty t = true -> forall v, well_typed E t v ->
  never_shadowed E procs l v -> well_typed E t (assign_run E procs l v).
Proof.
  intros Hk Hl Hwf. induction l as [|a l IH]; intros v Hv Hns; [exact Hv|].
  destruct Hns as [Hn Hns]. unfold assign_run. cbn [fold_left]. apply IH; [|exact Hns]. apply assign_at_wt; assumption.
Qed.

(** ** Effect of a single assignment *)
Lemma assign_rejected E procs c fv ex fi t v :
  find_field (f_name fi) (class_fields c) = Some (fi, t) ->
  (parse E t v = None \/ exists v', parse E t v = Some v' /\ ~ field_rule E (f_val fi) v') ->
  assign E procs (VObj c fv ex) (f_name fi) v = (false, VObj c fv ex).
Proof.
  intros Hf H. unfold assign. rewrite Hf. unfold parse in H. destruct (validate E t v) as [[v' p]|]; [|reflexivity].
  destruct H as [H|(w & H & Hr)]; [discriminate|]. simpl in H. inversion H; subst.
  destruct (fv_check E (f_val fi) w) eqn:Ef; [|reflexivity]. apply fv_check_iff in Ef. contradiction.
Qed.
Lemma attr_rebuild (fs : list (finfo * ty)) (g : pystr -> pv) fi t : In (fi, t) fs ->
  attr (f_name fi) (map (fun ft => (f_name (fst ft), g (f_name (fst ft)))) fs) = g (f_name fi).
Proof.
  induction fs as [|[gi s] l IH]; intros Hin; [contradiction|].
  unfold attr. cbn [map assoc fst]. destruct (str_eqb (f_name fi) (f_name gi)) eqn:E.
  - apply str_eqb_eq in E. rewrite E. reflexivity.
  - destruct Hin as [Heq|Hin]; [inversion Heq; subst; rewrite str_eqb_refl in E; discriminate|]. apply IH. exact Hin.
Qed.
Lemma assoc_not_names (fs : list (finfo * ty)) new k : (forall fi t, In (fi, t) fs -> f_name fi <> k) ->
  assoc k (filter (fun kv : pystr * pv => negb (mem_str (fst kv) (map (fun ft => f_name (fst ft)) fs))) new) = assoc k new.
Proof.
  intros Hk. apply assoc_filter with (p := fun k => negb (mem_str k (map (fun ft => f_name (fst ft)) fs))).
  apply negb_true_iff, mem_str_not_In. intros Hin. apply in_map_iff in Hin as ([fi t] & Hx & Hin). exact (Hk fi t Hin Hx).
Qed.
Lemma store_in_ok E procs c fs k fv ex name v o' : String.eqb c "AsyncAPI3" = false ->
  store_in E procs fs k c fv ex name v = (true, o') ->
  exists fv' ex', o' = VObj c fv' ex' /\ cross_field_spec c fv' /\ extras_ok E k ex' = true
    /\ map fst fv' = map (fun ft => f_name (fst ft)) fs
    /\ (forall fi t, In (fi, t) fs -> f_name fi = name -> attr name fv' = v)
    /\ (forall fi t, In (fi, t) fs -> f_name fi <> name -> ~ In (f_name fi) (map fst ex) -> attr (f_name fi) fv' = attr (f_name fi) fv)
    /\ ((forall fi t, In (fi, t) fs -> f_name fi <> name) -> assoc name ex' = Some v)
    /\ (forall k, k <> name -> (forall fi t, In (fi, t) fs -> f_name fi <> k) ->
          assoc k ex' = assoc k (dict_update fv ex)).
Proof.
  intros Hc H. unfold store_in in H. rewrite Hc in H.
  cbv zeta in H. remember (dict_set name v (dict_update fv ex)) as new eqn:Hnew.
  destruct (after_ok _ _ _ _ _) eqn:Ea; [|discriminate].
  injection H as <-. clear Hc.
  unfold after_ok in Ea. apply andb_prop in Ea as [E1 E2]. apply hook_iff in E2.
  eexists; eexists; split; [reflexivity|]. split; [exact E2|]. split; [exact E1|].
  split; [rewrite map_map; reflexivity|]. split; [|split; [|split]].
  - intros fi t Hin Hn. rewrite <- Hn, (attr_rebuild fs (fun n => attr n new) fi t Hin).
    unfold attr. rewrite Hnew. rewrite assoc_dict_set, Hn, str_eqb_refl. reflexivity.
  - intros fi t Hin Hn Hs. rewrite (attr_rebuild fs (fun n => attr n new) fi t Hin). unfold attr. rewrite Hnew. rewrite assoc_dict_set.
    destruct (str_eqb (f_name fi) name) eqn:En; [apply str_eqb_eq in En; contradiction|].
    rewrite assoc_dict_update by exact Hs. reflexivity.
  - intros Hn. rewrite assoc_not_names by exact Hn. rewrite Hnew, assoc_dict_set, str_eqb_refl. reflexivity.
  - intros k0 Hk Hn. rewrite assoc_not_names by exact Hn. rewrite Hnew, assoc_dict_set.
    destruct (str_eqb k0 name) eqn:En; [apply str_eqb_eq in En; contradiction|reflexivity].
Qed.

(** ** Revalidation *)
Lemma pd_list l : Forall python_dicts l -> python_dicts (VList l).
Proof. rewrite Forall_forall. intros H x Hw. inversion Hw; subst; [exact I|eapply H; eauto]. Qed.
Lemma pd_dict d : NoDup (map fst d) -> Forall (fun kv => python_dicts (snd kv)) d -> python_dicts (VDict d).
Proof. rewrite Forall_forall. intros Hn H x Hw. inversion Hw; subst; [exact Hn|]. eapply (H (k, y)); eauto. Qed.
Lemma pd_root c d : NoDup (map fst d) -> Forall (fun kv => python_dicts (snd kv)) d -> python_dicts (VRoot c d).
Proof. rewrite Forall_forall. intros Hn H x Hw. inversion Hw; subst; [exact Hn|]. eapply (H (k, y)); eauto. Qed.
Lemma pd_obj c fv ex : NoDup (map fst fv) -> NoDup (map fst ex) -> Forall (fun kv => python_dicts (snd kv)) fv ->
  Forall (fun kv => python_dicts (snd kv)) ex -> python_dicts (VObj c fv ex).
Proof.
  rewrite !Forall_forall. intros H1 H2 Hf He x Hw. inversion Hw; subst; [split; assumption|eapply (Hf (k, y)); eauto|eapply (He (k, y)); eauto].
Qed.
Lemma pd_closed : closed python_dicts.
Proof.
  constructor; intros.
  - apply Forall_forall. intros y Hy x Hx. apply H. econstructor; eauto.
  - apply Forall_forall. intros [k y] Hy x Hx. apply H. eapply w_dict; eauto.
  - split; apply Forall_forall; intros [k y] Hy x Hx; apply H; [eapply w_field|eapply w_extra]; eauto.
  - apply Forall_forall. intros [k y] Hy x Hx. apply H. eapply w_root; eauto.
Qed.
Lemma pd_here v : python_dicts v -> own_keys_distinct v.
Proof. intros H. apply H. constructor. Qed.
Lemma ns_closed : closed no_shadowing.
Proof.
  constructor; intros.
  - apply Forall_forall. intros y Hy c fv ex k Hx. apply (H c fv ex k). econstructor; eauto.
  - apply Forall_forall. intros [k0 y] Hy c fv ex k Hx. apply (H c fv ex k). eapply w_dict; eauto.
  - split; apply Forall_forall; intros [k0 y] Hy c' fv' ex' k Hx; apply (H c' fv' ex' k); [eapply w_field|eapply w_extra]; eauto.
  - apply Forall_forall. intros [k0 y] Hy c' fv ex k Hx. apply (H c' fv ex k). eapply w_root; eauto.
Qed.
Lemma vdict_keys val t : forall d r n, vdict val t d = Some (r, n) -> map fst r = map fst d.
Proof.
  induction d as [|[k x] d IH]; simpl; intros r n H; [inversion H; reflexivity|].
  destruct (val t x) as [[x' p]|]; [|discriminate].
  change ((fix go (d : fields) : option (fields * nat) := _) d) with (vdict val t d) in H.
  destruct (vdict val t d) as [[r' m]|] eqn:E; inversion H; subst. simpl. f_equal. eapply IH; reflexivity.
Qed.
Lemma dict_set_nodup k v d : NoDup (map fst d) -> NoDup (map fst (dict_set k v d)).
Proof.
  intros H. rewrite dict_set_keys. destruct (has_key k d) eqn:E; [exact H|].
  assert (~ In k (map fst d)) by (intros Hin; apply has_key_iff in Hin; congruence).
  apply NoDup_rev in H. rewrite <- (rev_involutive (map fst d ++ [k])). apply NoDup_rev. rewrite rev_app_distr. simpl.
  constructor; [rewrite <- in_rev; assumption|exact H].
Qed.
Lemma dict_update_nodup e : forall d, NoDup (map fst d) -> NoDup (map fst (dict_update d e)).
Proof. unfold dict_update. induction e as [|[k v] e IH]; simpl; intros d H; [exact H|]. apply IH, dict_set_nodup, H. Qed.
Lemma NoDup_filter_keys {X} (p : pystr * X -> bool) d : NoDup (map fst d) -> NoDup (map fst (filter p d)).
Proof.
  induction d as [|kv d IH]; simpl; intros H; [constructor|]. inversion H; subst. destruct (p kv); [|auto].
  simpl. constructor; [|auto]. intros Hin. apply H2. apply in_map_iff in Hin as (x & Hx & Hin). apply filter_In in Hin as [Hin _].
  rewrite <- Hx. apply in_map. exact Hin.
Qed.
Lemma def_pd fi t d : default_ok fi t = true -> f_def fi = Some d -> python_dicts d.
Proof.
  unfold default_ok. intros H Hd. rewrite Hd in H. destruct d; try discriminate;
    intros x Hx; inversion Hx; subst; exact I.
Qed.
Lemma validate_pd E t : wf_ty t = true -> forall v r n, python_dicts v -> validate E t v = Some (r, n) -> python_dicts r.
Proof.
  assert (Hat : forall v, match v with VList _ | VDict _ | VObj _ _ _ | VRoot _ _ => False | _ => True end -> python_dicts v).
  { intros v Hv x Hx. inversion Hx; subst; simpl in Hv; try contradiction. destruct v; simpl in *; try contradiction; exact I. }
  assert (Hdict : forall t, (forall v r n, python_dicts v -> validate E t v = Some (r, n) -> python_dicts r) ->
     forall d r n, Forall (fun kv => python_dicts (snd kv)) d -> vdict (validate E) t d = Some (r, n) -> Forall (fun kv => python_dicts (snd kv)) r).
  { intros t0 IH. induction d as [|[k x] d IHd]; simpl; intros r n HF H; [inversion H; constructor|].
    inversion HF; subst. destruct (validate E t0 x) as [[x' p]|] eqn:Ex; [|discriminate].
    change ((fix go (d : fields) : option (fields * nat) := _) d) with (vdict (validate E) t0 d) in H.
    destruct (vdict (validate E) t0 d) as [[r' m]|] eqn:Ed; inversion H; subst. constructor; [eapply IH; eauto|eapply IHd; eauto]. }
  induction t using ty_ind'; intros Hwf v r n Hv H1; cbn [validate] in *.
  - inversion H1; subst; exact Hv.
  - destruct v; try discriminate. destruct (len_ok m s); inversion H1; subst; apply Hat; exact I.
  - destruct v; try discriminate. destruct (email_ok s); inversion H1; subst; apply Hat; exact I.
  - destruct v; try discriminate; try (destruct (e_int E _)); inversion H1; subst; apply Hat; exact I.
  - destruct v; try discriminate; try (destruct (e_bool E _)); inversion H1; subst; apply Hat; exact I.
  - destruct v; try discriminate; (destruct (e_url E b s) eqn:Eu; inversion H1; subst; apply Hat; exact I).
  - destruct v; try discriminate. destruct (mem_str s l); inversion H1; subst; apply Hat; exact I.
  - destruct v; try discriminate. destruct (mem_Z z l); inversion H1; subst; apply Hat; exact I.
  - destruct v; try discriminate. apply (cl_list _ pd_closed) in Hv.
    destruct (vlist (validate E) t l) as [[l' m]|] eqn:El; inversion H1; subst. apply pd_list.
    clear H1. revert l' n El. induction l as [|x l IHl]; simpl; intros l' n El; [inversion El; constructor|].
    inversion Hv; subst. destruct (validate E t x) as [[x' p]|] eqn:Ex; [|discriminate].
    change ((fix go (l0 : list pv) : option (list pv * nat) := _) l) with (vlist (validate E) t l) in El.
    destruct (vlist (validate E) t l) as [[l2 q]|] eqn:El2; inversion El; subst. constructor; [eapply IHt; eauto|eapply IHl; eauto].
  - destruct v; try discriminate. destruct (vdict (validate E) t d) as [[d' m]|] eqn:El; inversion H1; subst. apply pd_dict.
    + rewrite (vdict_keys _ _ _ _ _ El). exact (pd_here _ Hv).
    + apply (cl_dict _ pd_closed) in Hv. eapply Hdict; eauto.
  - destruct v; try (eapply IHt; eauto; fail). inversion H1; subst; apply Hat; exact I.
  - simpl in Hwf. apply andb_prop in Hwf as [_ Hwf]. rewrite forallb_forall in Hwf. rewrite Forall_forall in H.
    apply best_of_spec in H1 as (pre & post & Heq & _ & _).
    assert (Hin : In (Some (r, n)) (map (fun t' => validate E t' v) ts)) by (rewrite Heq; apply in_or_app; right; left; reflexivity).
    apply in_map_iff in Hin as (t' & Ht' & Hin). eapply H; eauto.
  - destruct v; try discriminate. destruct (forallb is_proc l); inversion H1; subst. exact Hv.
  - cbn [wf_ty] in Hwf. apply andb_prop in Hwf as [Hm Hall]. 
    assert (Hnd := names_NoDup c k fs). unfold model_ok in Hm.
    assert (Hg : forall kvs, NoDup (map fst kvs) -> Forall (fun kv => python_dicts (snd kv)) kvs ->
       vmodel E (validate E) c k fs kvs = Some (r, n) -> python_dicts r).
    { intros kvs Hn HF Hvm. apply vmodel_obj in Hvm as (fv & Hfv & -> & Ha).
      assert (Hnf : map fst fv = map (fun ft => f_name (fst ft)) fs).
      { clear -Hfv. revert fv n Hfv. induction fs as [|[fi t] fs IH]; simpl; intros fv n Hfv; [inversion Hfv; reflexivity|].
        change ((fix go (l0 : list (finfo * ty)) : option (fields * nat) := _) fs) with (vfields E (validate E) kvs fs) in Hfv.
        destruct (lookup_field fi kvs) as [x|].
        - destruct (validate E t x) as [[x' p]|]; [|discriminate]. destruct (fv_check E (f_val fi) x'); [|discriminate].
          destruct (vfields E (validate E) kvs fs) as [[r' m]|] eqn:Er; inversion Hfv; subst. simpl. f_equal. eapply IH; eauto.
        - destruct (f_def fi); [|discriminate].
          destruct (vfields E (validate E) kvs fs) as [[r' m]|] eqn:Er; inversion Hfv; subst. simpl. f_equal. eapply IH; eauto. }
      apply pd_obj.
      - rewrite Hnf. apply Hnd. cbn [wf_ty]. apply andb_true_intro. split; [exact Hm|exact Hall].
      - apply NoDup_filter_keys. exact Hn.
      - repeat (apply andb_prop in Hm as [Hm ?Hm]). clear Ha H1 Hm Hm0 Hm1 Hm3 Hnd Hnf. rename Hm2 into Hdef.
        revert fv n Hfv H Hall Hdef. induction fs as [|[fi t] fs IHfs]; intros fv n Hfv HIH Hall Hdef.
        + simpl in Hfv. inversion Hfv; subst. constructor.
        + cbn [forallb snd fst] in *. apply andb_prop in Hall as [Hwt Hall]. apply andb_prop in Hdef as [Hd Hdef].
          inversion HIH as [|? ? HIHt HIHr]; subst. simpl in Hfv.
          change ((fix go (l0 : list (finfo * ty)) : option (fields * nat) := _) fs) with (vfields E (validate E) kvs fs) in Hfv.
          destruct (lookup_field fi kvs) as [x|] eqn:Elk.
          * destruct (validate E t x) as [[x' p]|] eqn:Ex; [|discriminate].
            destruct (fv_check E (f_val fi) x') eqn:Ef; [|discriminate].
            destruct (vfields E (validate E) kvs fs) as [[r' m]|] eqn:Er; inversion Hfv; subst.
            constructor; [|eapply IHfs; eauto]. apply (HIHt Hwt x x' p); [|exact Ex]. unfold lookup_field in Elk.
            destruct (assoc (f_alias fi) kvs) eqn:Ea; [inversion Elk; subst|]; eapply assoc_Forall; eauto.
          * destruct (f_def fi) as [d|] eqn:Ed; [|discriminate].
            destruct (vfields E (validate E) kvs fs) as [[r' m]|] eqn:Er; inversion Hfv; subst.
            constructor; [eapply def_pd; eauto|eapply IHfs; eauto].
      - apply filter_Forall. exact HF. }
    destruct v; try discriminate.
    + eapply Hg; [exact (pd_here _ Hv)|apply (cl_dict _ pd_closed); exact Hv|exact H1].
    + destruct (String.eqb c c0); [|discriminate]. assert (Hk := pd_here _ Hv). apply (cl_obj _ pd_closed) in Hv as [Hv1 Hv2].
      eapply Hg; [| |exact H1]; [apply dict_update_nodup; apply Hk|apply dict_update_Forall; assumption].
  - assert (Hg : forall d, NoDup (map fst d) -> Forall (fun kv => python_dicts (snd kv)) d ->
              match vdict (validate E) t d with
              | Some (d', n) => if root_keys_ok d' then Some (VRoot c d', n) else None
              | None => None end = Some (r, n) -> python_dicts r).
    { intros d Hn HF Hd. destruct (vdict (validate E) t d) as [[d' m]|] eqn:El; [|discriminate].
      destruct (root_keys_ok d'); inversion Hd; subst. apply pd_root; [rewrite (vdict_keys _ _ _ _ _ El); exact Hn|eapply Hdict; eauto]. }
    destruct v; try discriminate.
    + eapply Hg; [exact (pd_here _ Hv)|apply (cl_dict _ pd_closed); exact Hv|exact H1].
    + destruct (String.eqb c c0); [|discriminate]. eapply Hg; [exact (pd_here _ Hv)|eapply (cl_root _ pd_closed); exact Hv|exact H1].
Qed.
Lemma parse_pd E t v o : wf_ty t = true -> python_dicts v -> parse E t v = Some o -> python_dicts o.
Proof. intros Hwf Hv H. apply parse_some in H as [n H]. eapply validate_pd; eauto. Qed.
Lemma declared_keys (fs : list (finfo * ty)) k : In k (all_keys (map fst fs)) -> declared fs k.
Proof.
  intros H. apply in_flat_map in H as (fi & Hfi & Hk). apply in_map_iff in Hfi as ([gi t] & Hg & Hin). simpl in Hg. subst.
  exists fi, t. split; [exact Hin|]. unfold field_keys in Hk. destruct (str_eqb _ _); simpl in Hk; intuition.
Qed.
Lemma infos_declared c k : In k (all_keys (class_infos c)) -> declared (class_fields c) k.
Proof. unfold class_infos. generalize (class_fields c). intros fs. apply declared_keys. Qed.
Lemma revalidate E t v o : url_idem E -> wf_ty t = true -> python_dicts v -> parse E t v = Some o -> no_shadowing o ->
  parse E t o = Some o.
Proof.
  intros Hu Hwf Hv H Hns. assert (Hpd := parse_pd _ _ _ _ Hwf Hv H). apply parse_canon in H; [|exact Hwf].
  apply parse_some. apply (canon_fix (fun _ => True) (fun x => python_dicts x /\ no_shadowing x) E t Hu); [| |exact Hwf|exact H|auto].
  - constructor; intros.
    + apply Forall_and; [apply (cl_list _ pd_closed)|apply (cl_list _ ns_closed)]; apply H0.
    + apply Forall_and; [apply (cl_dict _ pd_closed)|apply (cl_dict _ ns_closed)]; apply H0.
    + destruct H0 as [Ha Hb]. apply (cl_obj _ pd_closed) in Ha. apply (cl_obj _ ns_closed) in Hb. split; apply Forall_and; tauto.
    + apply Forall_and; [eapply (cl_root _ pd_closed)|eapply (cl_root _ ns_closed)]; apply H0.
  - intros w [Hp Hw] c fv ex ->. split; [exact (proj2 (pd_here _ Hp))|]. intros Hk k Hin Hd.
    apply (Hw c fv ex k (w_self _) Hk Hin). exact (infos_declared c k Hd).
Qed.
Lemma annotations_wf : forallb wf_ty annotations = true.
Proof. vm_compute. reflexivity. Qed.

(** ** Outcomes of assigning a declared field *)
Lemma assign_declared E procs c k fs fv ex fi t x : linked (TModel c k fs) = true -> wf_ty (TModel c k fs) = true -> In (fi, t) fs ->
  assign E procs (VObj c fv ex) (f_name fi) x =
  match validate E t x with
  | Some (v', _) => if fv_check E (f_val fi) v' then store_in E procs fs k c fv ex (f_name fi) v' else (false, VObj c fv ex)
  | None => (false, VObj c fv ex)
  end.
Proof.
  intros Hl Hwf Hin. assert (Hf := find_field_in fi t fs Hin (names_NoDup _ _ _ Hwf)).
  apply linked_fields in Hl as [H1 H2]. unfold assign, store. rewrite H1, H2, Hf. reflexivity.
Qed.
Lemma assign_undeclared E procs c k fs fv ex name x : linked (TModel c k fs) = true -> (forall fi t, In (fi, t) fs -> f_name fi <> name) ->
  assign E procs (VObj c fv ex) name x =
  match k with KForbid => (false, VObj c fv ex) | _ => store_in E procs fs k c fv ex name x end.
Proof.
  intros Hl Hin. apply find_field_None in Hin. apply linked_fields in Hl as [H1 H2]. unfold assign, store. rewrite H1, H2, Hin. reflexivity.
Qed.
Lemma store_in_failed E procs c fs k fv ex name v o' : String.eqb c "AsyncAPI3" = false ->
  store_in E procs fs k c fv ex name v = (false, o') ->
  exists fv' ex', o' = VObj c fv' ex' /\ (~ cross_field_spec c fv' \/ extras_ok E k ex' = false)
    /\ (forall k, In k (map fst ex') -> (In k (map fst fv) \/ In k (map fst ex) \/ k = name) /\ forall fi t, In (fi, t) fs -> f_name fi <> k).
Proof.
  intros Hc H. unfold store_in in H. rewrite Hc in H. cbv zeta in H.
  destruct (after_ok _ _ _ _ _) eqn:Ea; [discriminate|]. injection H as <-.
  eexists; eexists; split; [reflexivity|]. split.
  - unfold after_ok in Ea. apply andb_false_iff in Ea as [Ea|Ea]; [right; exact Ea|left].
    intros Hx. apply hook_iff in Hx. congruence.
  - intros k0 Hin. apply in_map_iff in Hin as ([k1 v1] & <- & Hin). apply filter_In in Hin as [Hin Hn]. cbn [fst] in *. split.
    + apply (in_map fst) in Hin. simpl in Hin. rewrite dict_set_keys in Hin.
      assert (Hu : forall e d, In k1 (map fst (dict_update d e)) -> In k1 (map fst d) \/ In k1 (map fst e)).
      { unfold dict_update. induction e as [|[a b] e IH]; simpl; intros d Hd; [auto|]. apply IH in Hd as [Hd|Hd]; [|auto].
        rewrite dict_set_keys in Hd. destruct (has_key a d); [auto|]. apply in_app_or in Hd as [Hd|[Hd|[]]]; auto. }
      destruct (has_key name (dict_update fv ex)); [apply Hu in Hin; tauto|].
      apply in_app_or in Hin as [Hin|[Hin|[]]]; [apply Hu in Hin; tauto|auto].
    + intros fi t Hfi Heq. apply negb_true_iff, mem_str_not_In in Hn. apply Hn. rewrite <- Heq.
      change (f_name fi) with ((fun ft : finfo * ty => f_name (fst ft)) (fi, t)). apply in_map. exact Hfi.
Qed.
Lemma no_rule_classes c fs : ~ In c cross_field_classes -> cross_field_spec c fs.
Proof.
  intros H. unfold cross_field_classes in H. unfold cross_field_spec.
  repeat (split; [intros ->; exfalso; apply H; repeat (first [left; reflexivity|right])|]).
  intros ->; exfalso; apply H; repeat (first [left; reflexivity|right]).
Qed.
Lemma extras_ok_sub E k ex ex' : k <> KForbid -> extras_ok E k ex = true -> (forall x, In x (map fst ex') -> In x (map fst ex)) -> extras_ok E k ex' = true.
Proof.
  destruct k; simpl; intros Hk H Hs; [|congruence|reflexivity]. rewrite forallb_forall in *. intros kv Hin. apply (in_map fst) in Hin.
  apply Hs in Hin. apply in_map_iff in Hin as (kv' & <- & Hin). apply H; exact Hin.
Qed.
Lemma failed_unchanged E procs c k fs v fv ex fi t x o' : In (TModel c k fs) all_types -> ~ In c cross_field_classes -> c <> "AsyncAPI3"%string ->
  parse E (TModel c k fs) v = Some (VObj c fv ex) -> In (fi, t) fs ->
  assign E procs (VObj c fv ex) (f_name fi) x = (false, o') -> o' = VObj c fv ex.
Proof.
  intros Ht Hc Ha Hp Hin H. assert (Hl := linked_all _ Ht). assert (Hwf := wf_all _ Ht).
  rewrite (assign_declared E procs c k fs fv ex fi t x Hl Hwf Hin) in H.
  destruct (validate E t x) as [[v' p]|]; [|congruence]. destruct (fv_check E (f_val fi) v'); [|congruence].
  apply store_in_failed in H; [|apply String.eqb_neq; exact Ha]. exfalso.
  destruct H as (fv' & ex' & -> & [H|H] & Hk); [apply H, no_rule_classes; exact Hc|].
  apply parse_canon in Hp; [|exact Hwf]. cbn [canon] in Hp. destruct Hp as (fv0 & ex0 & Heq & Hf & _ & Hok). inversion Heq; subst fv0 ex0.
  apply canon_fields_names in Hf. unfold after_ok in Hok. apply andb_prop in Hok as [Hok _].
  assert (Hsub : forall k0, In k0 (map fst ex') -> In k0 (map fst ex)).
  { intros k0 H0. destruct (Hk k0 H0) as [[Hi|[Hi|Hi]] Hn]; [|exact Hi|].
    - rewrite Hf in Hi. apply in_map_iff in Hi as ([gi s] & Hg & Hi). exfalso. exact (Hn gi s Hi Hg).
    - exfalso. exact (Hn fi t Hin (eq_sym Hi)). }
  destruct k.
  - rewrite (extras_ok_sub E KExt ex ex') in H; [discriminate|discriminate|exact Hok|exact Hsub].
  - simpl in Hok. destruct ex; [|discriminate]. destruct ex' as [|e ex']; [discriminate|]. exact (Hsub (fst e) (or_introl eq_refl)).
  - discriminate.
Qed.
Lemma root_step_pure d o r d' : root_step d o = (r, d') -> (forall k v, o <> RSet k v) -> (forall k, o <> RDel k) -> d' = d.
Proof.
  intros H H1 H2. destruct o; simpl in H; try (inversion H; subst; reflexivity).
  - destruct (assoc k d); inversion H; reflexivity.
  - exfalso. exact (H1 k v eq_refl).
  - exfalso. exact (H2 k eq_refl).
Qed.
Lemma dict_del_In kv k d : In kv (dict_del k d) -> In kv d.
Proof.
  induction d as [|[k' v'] d IH]; simpl; [auto|]. destruct (str_eqb k k'); [auto|]. intros [H|H]; auto.
Qed.
Lemma dict_set_In k v d kv : In kv (dict_set k v d) -> In kv d \/ (fst kv = k /\ snd kv = v) .
Proof.
  induction d as [|[k' v'] d IH]; simpl; [intros [<-|[]]; auto|].
  destruct (str_eqb k k') eqn:E; simpl; intros [H|H]; auto.
  - apply str_eqb_eq in E. subst. right; auto.
  - destruct (IH H); auto.
Qed.
Lemma root_run_valid E c t ops : forall d,
  well_typed E (TRoot c t) (VRoot c d) -> (forall k, In k (map fst d) -> upto_nl doc_key k) ->
  (forall k v, In (RSet k v) ops -> upto_nl doc_key k /\ well_typed E t v) ->
  well_typed E (TRoot c t) (VRoot c (snd (root_run d ops)))
  /\ forall k, In k (map fst (snd (root_run d ops))) -> upto_nl doc_key k.
Proof.
  induction ops as [|o ops IH]; intros d Hw Hk Ho; [auto|].
  cbn [root_run]. destruct (root_step d o) as [r d1] eqn:E1. destruct (root_run d1 ops) as [rs d2] eqn:E2. cbn [snd].
  replace d2 with (snd (root_run d1 ops)) by (rewrite E2; reflexivity).
  assert (Hd1 : forall kv, In kv d1 -> upto_nl doc_key (fst kv) /\ well_typed E t (snd kv)).
  { destruct Hw as (d0 & Heq & HF). inversion Heq; subst d0. rewrite Forall_forall in HF.
    assert (Hd : forall kv, In kv d -> upto_nl doc_key (fst kv) /\ well_typed E t (snd kv)).
    { intros kv Hin. split; [apply Hk, in_map, Hin|apply HF, Hin]. }
    intros kv Hin. destruct o; simpl in E1.
    - destruct (assoc k d); inversion E1; subst; auto.
    - inversion E1; subst. apply dict_set_In in Hin as [Hin|[Ha Hb]]; [auto|]. rewrite Ha, Hb. apply Ho. left; reflexivity.
    - destruct (has_key k d); inversion E1; subst; [apply dict_del_In in Hin|]; auto.
    - inversion E1; subst; auto.
    - inversion E1; subst; auto.
    - inversion E1; subst; auto. }
  apply IH.
  - exists d1. split; [reflexivity|]. apply Forall_forall. intros kv Hin. apply Hd1, Hin.
  - intros k Hin. apply in_map_iff in Hin as (kv & <- & Hin). apply Hd1, Hin.
  - intros k v Hin. apply Ho. right; exact Hin.
Qed.
Lemma assign_accepted E procs c k fs fv ex fi t x o' :
  In (TModel c k fs) all_types -> c <> "AsyncAPI3"%string -> In (fi, t) fs ->
  assign E procs (VObj c fv ex) (f_name fi) x = (true, o') ->
  exists y fv' ex', parse E t x = Some y /\ field_rule E (f_val fi) y
    /\ o' = VObj c fv' ex' /\ attr (f_name fi) fv' = y /\ cross_field_spec c fv'
    /\ map fst fv' = map (fun ft => f_name (fst ft)) fs
    /\ (forall gi s, In (gi, s) fs -> f_name gi <> f_name fi -> ~ In (f_name gi) (map fst ex) -> attr (f_name gi) fv' = attr (f_name gi) fv).
Proof.
  intros Ht Hc Hin H. assert (Hl := linked_all _ Ht). assert (Hwf := wf_all _ Ht).
  rewrite (assign_declared E procs c k fs fv ex fi t x Hl Hwf Hin) in H.
  unfold parse. destruct (validate E t x) as [[v' p]|]; [|discriminate]. destruct (fv_check E (f_val fi) v') eqn:Ef; [|discriminate].
  apply store_in_ok in H; [|apply String.eqb_neq; exact Hc].
  destruct H as (fv' & ex' & -> & Hx & _ & Hn & Hy & Ho & _).
  exists v', fv', ex'. split; [reflexivity|]. split; [apply fv_check_iff; exact Ef|]. split; [reflexivity|].
  split; [apply (Hy fi t Hin eq_refl)|]. auto.
Qed.
Lemma dict_set_present k v d : has_key k d = true -> map fst (dict_set k v d) = map fst d.
Proof. intros H. rewrite dict_set_keys, H. reflexivity. Qed.
Lemma filter_none {X} (p : X -> bool) l : (forall x, In x l -> p x = false) -> filter p l = [].
Proof. induction l as [|x l IH]; simpl; intros H; [reflexivity|]. rewrite (H x (or_introl eq_refl)). apply IH. intros; apply H; right; assumption. Qed.
Lemma filter_all {X} (p : X -> bool) l : (forall x, In x l -> p x = true) -> filter p l = l.
Proof. induction l as [|x l IH]; simpl; intros H; [reflexivity|]. rewrite (H x (or_introl eq_refl)). f_equal. apply IH. intros; apply H; right; assumption. Qed.
Lemma dict_set_app k v a b : has_key k a = true -> dict_set k v (a ++ b) = dict_set k v a ++ b.
Proof.
  induction a as [|[k' v'] a IH]; [discriminate|]. cbn [app dict_set].
  destruct (str_eqb k k') eqn:E; [reflexivity|]. intros H. rewrite IH; [reflexivity|].
  apply has_key_iff. apply has_key_iff in H. destruct H as [H|H]; [|exact H]. simpl in H. subst. rewrite str_eqb_refl in E. discriminate.
Qed.
Lemma failed_modes E procs c k fs v fv ex fi t x o' :
  In (TModel c k fs) all_types -> In c cross_field_classes -> python_dicts v ->
  parse E (TModel c k fs) v = Some (VObj c fv ex) -> In (fi, t) fs ->
  assign E procs (VObj c fv ex) (f_name fi) x = (false, o') ->
  o' = VObj c fv ex \/ exists y fv', parse E t x = Some y /\ o' = VObj c fv' ex /\ ~ cross_field_spec c fv'
                         /\ attr (f_name fi) fv' = y
                         /\ forall gi s, In (gi, s) fs -> f_name gi <> f_name fi -> attr (f_name gi) fv' = attr (f_name gi) fv.
Proof.
  intros Ht Hc Hpd Hp Hin H. assert (Hl := linked_all _ Ht). assert (Hwf := wf_all _ Ht).
  assert (Hcls : k = KExt /\ String.eqb c "AsyncAPI3" = false \/ k = KForbid /\ String.eqb c "AsyncAPI3" = false).
  { apply linked_class in Hl. unfold cross_field_classes in Hc. simpl in Hc.
    repeat (destruct Hc as [<-|Hc]; [vm_compute in Hl; inversion Hl; auto|]). contradiction. }
  assert (Hpo := parse_pd _ _ _ _ Hwf Hpd Hp). assert (Hnd := proj2 (pd_here _ Hpo)).
  assert (Hwt := parse_wt _ _ _ _ Hwf Hp).
  rewrite (assign_declared E procs c k fs fv ex fi t x Hl Hwf Hin) in H.
  unfold parse at 1. destruct (validate E t x) as [[v' p]|]; [|left; congruence]. destruct (fv_check E (f_val fi) v'); [|left; congruence].
  right. apply parse_canon in Hp; [|exact Hwf]. cbn [canon] in Hp. destruct Hp as (fv0 & ex0 & Heq & Hf & _ & Hok). inversion Heq; subst fv0 ex0.
  apply canon_fields_names in Hf. unfold after_ok in Hok. apply andb_prop in Hok as [Hok _].
  cbn [well_typed] in Hwt. destruct Hwt as (fv0 & ex0 & Heq0 & _ & Hcl & Hxt). inversion Heq0; subst fv0 ex0. clear Heq Heq0.
  assert (Hdis : forall n, In n (map fst ex) -> ~ In n (map (fun ft => f_name (fst ft)) fs)).
  { intros n Hn Hi. apply in_map_iff in Hi as ([gi s] & Hg & Hi). simpl in Hg. destruct Hcls as [[-> _]|[-> _]].
    - apply (Hxt eq_refl gi s Hi). rewrite Hg. exact Hn.
    - rewrite (Hcl eq_refl) in Hn. contradiction. }
  assert (Hca : String.eqb c "AsyncAPI3" = false) by tauto.
  assert (Hname : has_key (f_name fi) fv = true).
  { apply has_key_iff. rewrite Hf. change (f_name fi) with ((fun ft : finfo * ty => f_name (fst ft)) (fi, t)). apply in_map. exact Hin. }
  unfold store_in in H. rewrite Hca in H. cbv zeta in H.
  rewrite dict_update_app in H; [|exact Hnd|intros n Hn; rewrite Hf; apply Hdis; exact Hn].
  rewrite (dict_set_app _ _ fv ex Hname) in H.
  rewrite filter_app in H.
  rewrite (filter_none _ (dict_set (f_name fi) v' fv)) in H.
  2:{ intros kv Hkv. apply negb_false_iff, mem_str_In. rewrite <- Hf, <- (dict_set_present _ v' _ Hname). apply in_map. exact Hkv. }
  rewrite (filter_all _ ex) in H.
  2:{ intros kv Hkv. apply negb_true_iff, mem_str_not_In. apply Hdis. apply in_map. exact Hkv. }
  cbn [app] in H. set (new := dict_set (f_name fi) v' fv ++ ex) in H.
  destruct (after_ok _ _ _ _ _) eqn:Ea in H; [discriminate|]. injection H as <-.
  eexists. eexists. split; [reflexivity|]. split; [reflexivity|]. split; [|split].
  - intros Hx. apply hook_iff in Hx. unfold after_ok in Ea. rewrite Hx, Hok in Ea. discriminate.
  - rewrite (attr_rebuild fs (fun n => attr n new) fi t Hin). unfold attr, new. rewrite assoc_app, assoc_dict_set, str_eqb_refl. reflexivity.
  - intros gi s Hgi Hg. rewrite (attr_rebuild fs (fun n => attr n new) gi s Hgi). unfold attr, new. rewrite assoc_app, assoc_dict_set.
    destruct (str_eqb (f_name gi) (f_name fi)) eqn:En; [apply str_eqb_eq in En; contradiction|].
    destruct (assoc (f_name gi) fv); [reflexivity|].
    destruct (assoc (f_name gi) ex) eqn:Eg; [|reflexivity]. exfalso. apply assoc_Some_key in Eg. apply (Hdis _ Eg).
    change (f_name gi) with ((fun ft : finfo * ty => f_name (fst ft)) (gi, s)). apply in_map. exact Hgi.
Qed.
(** Decision procedures for the examples. *)
Fixpoint all_within (p : pv -> bool) (v : pv) : bool :=
  p v && match v with
  | VList l => forallb (all_within p) l
  | VDict d | VRoot _ d => forallb (fun kv => match kv with (_, x) => all_within p x end) d
  | VObj _ fv ex => forallb (fun kv => match kv with (_, x) => all_within p x end) fv && forallb (fun kv => match kv with (_, x) => all_within p x end) ex
  | _ => true
  end.
Lemma all_within_spec p x v : within x v -> all_within p v = true -> p x = true.
Proof.
  induction 1; intros Hv.
  - destruct x; simpl in Hv; apply andb_prop in Hv as [Hv _]; exact Hv.
  - cbn [all_within] in Hv. apply andb_prop in Hv as [_ Hv]. rewrite forallb_forall in Hv. auto.
  - cbn [all_within] in Hv. apply andb_prop in Hv as [_ Hv]. rewrite forallb_forall in Hv. apply IHwithin, (Hv _ H).
  - cbn [all_within] in Hv. apply andb_prop in Hv as [_ Hv]. apply andb_prop in Hv as [Hv _]. rewrite forallb_forall in Hv. apply IHwithin, (Hv _ H).
  - cbn [all_within] in Hv. apply andb_prop in Hv as [_ Hv]. apply andb_prop in Hv as [_ Hv]. rewrite forallb_forall in Hv. apply IHwithin, (Hv _ H).
  - cbn [all_within] in Hv. apply andb_prop in Hv as [_ Hv]. rewrite forallb_forall in Hv. apply IHwithin, (Hv _ H).
Qed.
Definition distinct_b (x : pv) : bool :=
  match x with VDict d | VRoot _ d => nodupb (map fst d) | VObj _ fv ex => nodupb (map fst fv) && nodupb (map fst ex) | _ => true end.
Lemma python_dicts_dec v : all_within distinct_b v = true -> python_dicts v.
Proof.
  intros H x Hx. apply (all_within_spec _ _ _ Hx) in H. destruct x; simpl in *; try exact I; try (apply nodupb_NoDup; exact H).
  apply andb_prop in H as [H1 H2]. split; apply nodupb_NoDup; assumption.
Qed.
Definition shadow_b (x : pv) : bool :=
  match x with
  | VObj c _ ex => negb (kind_eqb (class_kind c) KFree) || forallb (fun k => negb (mem_str k (all_keys (class_infos c)))) (map fst ex)
  | _ => true end.
Lemma declared_in_keys (fs : list (finfo * ty)) k : declared fs k -> In k (all_keys (map fst fs)).
Proof.
  intros (fi & t & Hin & [->| ->]); apply (all_keys_in fi); try (change fi with (fst (fi, t)); apply in_map; exact Hin);
    [apply field_keys_name|apply field_keys_alias].
Qed.
Lemma declared_infos c k : declared (class_fields c) k -> In k (all_keys (class_infos c)).
Proof. unfold class_infos. generalize (class_fields c). intros fs. apply declared_in_keys. Qed.
Lemma shadow_b_spec c fv ex : shadow_b (VObj c fv ex) = true -> class_kind c = KFree -> forall k, In k (map fst ex) -> ~ In k (all_keys (class_infos c)).
Proof.
  unfold shadow_b. generalize (class_kind c) (class_infos c). intros kd fs H -> k Hin. simpl in H.
  rewrite forallb_forall in H. apply H in Hin. apply mem_str_not_In. apply negb_true_iff. exact Hin.
Qed.
Lemma no_shadowing_dec v : all_within shadow_b v = true -> no_shadowing v.
Proof.
  intros H c fv ex k Hw Hk Hin Hd. exact (shadow_b_spec c fv ex (all_within_spec _ _ _ Hw H) Hk k Hin (declared_infos c k Hd)).
Qed.
