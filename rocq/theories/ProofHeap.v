(** Lemmas about validation with object identity. *)
From Coq Require Import Lia.
From Verif Require Import PyStr Regex Value Types Rules Pydantic ClassTable Classes Linked Heap SpecHeap.

Lemma ct_here M l : contains M (HL l) l. Proof. apply pt_here. Qed.
Lemma ct_inside M l c x l' : look M l = Some c -> In x (held c) -> contains M x l' -> contains M (HL l) l'.
Proof. apply pt_inside. Qed.
Lemma contains_inv M h l' : contains M h l' -> h = HL l' \/ exists l c x, h = HL l /\ look M l = Some c /\ In x (held c) /\ contains M x l'.
Proof. intros H. inversion H as [h' E1 E2|l c y x Hl Hy Hp]; subst; [left; reflexivity|]. right. exists l, c, y. auto. Qed.
(** ** Reading *)
Definition same_entry (M : mem) (a : pystr * hv) (b : pystr * pv) : Prop := fst a = fst b /\ reads M (snd a) (snd b).
Definition rentries (M : mem) : hfields -> list (pystr * pv) -> Prop :=
  fix entries (d : hfields) (e : list (pystr * pv)) {struct e} : Prop :=
    match d, e with
    | [], [] => True
    | (k, x) :: d', (k', w) :: e' => k = k' /\ reads M x w /\ entries d' e'
    | _, _ => False
    end.
Lemma rentries_iff M d e : rentries M d e <-> Forall2 (same_entry M) d e.
Proof.
  revert d. induction e as [|[k' w] e IH]; intros [|[k x] d]; cbn [rentries]; split; intros H.
  - constructor.
  - exact I.
  - destruct H.
  - inversion H.
  - destruct H.
  - inversion H.
  - destruct H as (Hk & Hr & Ht). constructor; [split; [exact Hk|exact Hr]|]. apply IH. exact Ht.
  - inversion H as [|? ? ? ? [Hk Hr] Ht]; subst. cbn [fst snd] in *. apply IH in Ht. tauto.
Qed.
Lemma reads_list M h vs : reads M h (VList vs) <-> exists l xs, h = HL l /\ look M l = Some (CList xs) /\ Forall2 (reads M) xs vs.
Proof.
  assert (Hi : forall xs vs, (fix each (xs : list hv) (vs : list pv) {struct vs} : Prop :=
            match xs, vs with [], [] => True | x :: xs', w :: vs' => reads M x w /\ each xs' vs' | _, _ => False end) xs vs <-> Forall2 (reads M) xs vs).
  { intros xs us. revert xs. induction us as [|w us IH]; intros [|x xs]; split; intros H.
    - constructor.
    - exact I.
    - destruct H.
    - inversion H.
    - destruct H.
    - inversion H.
    - destruct H as [H1 H2]. constructor; [exact H1|apply IH; exact H2].
    - inversion H; subst. split; [assumption|apply IH; assumption]. }
  cbn [reads]. split; intros (l & xs & H1 & H2 & H3); exists l, xs; split; auto; split; auto; apply Hi; exact H3.
Qed.
Lemma reads_dict M h e : reads M h (VDict e) <-> exists l d, h = HL l /\ look M l = Some (CDict d) /\ Forall2 (same_entry M) d e.
Proof.
  split; intros (l & d & H1 & H2 & H3); exists l, d; split; auto; split; auto; apply rentries_iff; exact H3.
Qed.
Lemma reads_obj M h c fs ex : reads M h (VObj c fs ex) <-> exists l d d', h = HL l /\ look M l = Some (CObj c d d')
  /\ Forall2 (same_entry M) d fs /\ Forall2 (same_entry M) d' ex.
Proof.
  split; intros (l & d & d' & H1 & H2 & H3 & H4); exists l, d, d'; split; auto; split; auto; split; apply rentries_iff; assumption.
Qed.
Lemma reads_root M h c e : reads M h (VRoot c e) <-> exists l r d, h = HL l /\ look M l = Some (CRoot c r) /\ look M r = Some (CDict d)
  /\ Forall2 (same_entry M) d e.
Proof.
  split; intros (l & r & d & H1 & H2 & H3 & H4); exists l, r, d; split; auto; split; auto; split; auto; apply rentries_iff; assumption.
Qed.
Lemma reads_atom M v : immutable v -> reads M (HA v) v.
Proof. destruct v; cbn; intros H; try reflexivity; destruct H. Qed.
Lemma reads_HA M a v : reads M (HA a) v -> v = a /\ immutable v.
Proof.
  destruct v; cbn [reads immutable]; intros H; try (split; [congruence|exact I]);
    repeat match goal with H : exists _, _ |- _ => destruct H end; repeat match goal with H : _ /\ _ |- _ => destruct H end; discriminate.
Qed.
Lemma reads_HL_mut M l v : reads M (HL l) v -> immutable v -> False.
Proof. destruct v; cbn [reads immutable]; intros H Hi; try discriminate H; exact Hi. Qed.

(** The address-level view of a readable object *)
Lemma reads_HL M l v : reads M (HL l) v -> 
  (exists xs vs, look M l = Some (CList xs) /\ v = VList vs /\ Forall2 (reads M) xs vs)
  \/ (exists d e, look M l = Some (CDict d) /\ v = VDict e /\ Forall2 (same_entry M) d e)
  \/ (exists c d d' fs ex, look M l = Some (CObj c d d') /\ v = VObj c fs ex /\ Forall2 (same_entry M) d fs /\ Forall2 (same_entry M) d' ex)
  \/ (exists c r d e, look M l = Some (CRoot c r) /\ look M r = Some (CDict d) /\ v = VRoot c e /\ Forall2 (same_entry M) d e).
Proof.
  destruct v; intros H; try discriminate H.
  - apply reads_list in H as (l' & xs & Hl & H). injection Hl as <-. left. exists xs, l0. tauto.
  - apply reads_dict in H as (l' & xs & Hl & H). injection Hl as <-. right. left. exists xs, d. tauto.
  - apply reads_obj in H as (l' & d & d' & Hl & H). injection Hl as <-. right. right. left. exists c, d, d', fs, ex. tauto.
  - apply reads_root in H as (l' & r & d' & Hl & H). injection Hl as <-. right. right. right. exists c, r, d', d. tauto.
Qed.

Definition extends (M M' : mem) : Prop := exists K, M' = M ++ K.
Lemma extends_refl M : extends M M. Proof. exists []. symmetry. apply app_nil_r. Qed.
Lemma extends_trans A B C : extends A B -> extends B C -> extends A C.
Proof. intros [K ->] [K' ->]. exists (K ++ K'). rewrite app_assoc. reflexivity. Qed.
Lemma extends_snoc M c : extends M (M ++ [c]). Proof. exists [c]. reflexivity. Qed.
Lemma extends_look M M' l c : extends M M' -> look M l = Some c -> look M' l = Some c.
Proof. intros [K ->] H. unfold look in *. rewrite nth_error_app1; [exact H|]. apply nth_error_Some. congruence. Qed.
Lemma extends_length M M' : extends M M' -> length M <= length M'.
Proof. intros [K ->]. rewrite app_length. lia. Qed.
Lemma look_new M c : look (M ++ [c]) (length M) = Some c.
Proof. unfold look. rewrite nth_error_app2, Nat.sub_diag by lia. reflexivity. Qed.
Lemma look_lt M l c : look M l = Some c -> l < length M.
Proof. intros H. apply nth_error_Some. unfold look in H. congruence. Qed.

(** Reading depends only on the objects inside. *)
Lemma Forall2_weaken {A B} (P Q : A -> B -> Prop) la lb : (forall a b, In a la -> In b lb -> P a b -> Q a b) -> Forall2 P la lb -> Forall2 Q la lb.
Proof.
  intros H F. induction F as [|a b la lb Hab F IH]; constructor.
  - apply H; [left; reflexivity|left; reflexivity|exact Hab].
  - apply IH. intros a' b' Ha Hb. apply H; right; assumption.
Qed.
Lemma reads_agree M M2 v : forall h, reads M h v -> (forall l, contains M h l -> look M2 l = look M l) -> reads M2 h v.
Proof.
  induction v as [| | | | | |vs IH|e IH|c fs ex IH1 IH2|c e IH| |] using pv_ind'; intros h H Ha; try exact H.
  - apply reads_list in H as (l & xs & -> & Hl & H). apply reads_list. exists l, xs. split; [reflexivity|]. split; [rewrite Ha; [exact Hl|apply ct_here]|].
    rewrite Forall_forall in IH. eapply Forall2_weaken; [|exact H]. intros x w Hx Hw Hr. eapply IH; eauto. intros l' Hc. apply Ha.
    eapply ct_inside; [exact Hl| |exact Hc]. exact Hx.
  - apply reads_dict in H as (l & d & -> & Hl & H). apply reads_dict. exists l, d. split; [reflexivity|]. split; [rewrite Ha; [exact Hl|apply ct_here]|].
    rewrite Forall_forall in IH. eapply Forall2_weaken; [|exact H]. intros x w Hx Hw [Hk Hr]. split; [exact Hk|]. eapply IH; eauto. intros l' Hc. apply Ha.
    eapply ct_inside; [exact Hl| |exact Hc]. apply in_map. exact Hx.
  - apply reads_obj in H as (l & d & d' & -> & Hl & H & H'). apply reads_obj. exists l, d, d'. split; [reflexivity|]. split; [rewrite Ha; [exact Hl|apply ct_here]|].
    rewrite Forall_forall in IH1, IH2. split; (eapply Forall2_weaken; [|eassumption]; intros x w Hx Hw [Hk Hr]; split; [exact Hk|]).
    + eapply IH1; eauto. intros l' Hc. apply Ha. eapply ct_inside; [exact Hl| |exact Hc]. cbn [held]. apply in_or_app. left. apply in_map. exact Hx.
    + eapply IH2; eauto. intros l' Hc. apply Ha. eapply ct_inside; [exact Hl| |exact Hc]. cbn [held]. apply in_or_app. right. apply in_map. exact Hx.
  - apply reads_root in H as (l & r & d & -> & Hl & Hr & H). apply reads_root. exists l, r, d. split; [reflexivity|].
    assert (Hcr : forall l', contains M (HL r) l' -> contains M (HL l) l').
    { intros l' Hc. eapply ct_inside; [exact Hl| |exact Hc]. left. reflexivity. }
    split; [rewrite Ha; [exact Hl|apply ct_here]|]. split; [rewrite Ha; [exact Hr|apply Hcr; apply ct_here]|].
    rewrite Forall_forall in IH. eapply Forall2_weaken; [|exact H]. intros x w Hx Hw [Hk Hrd]. split; [exact Hk|]. eapply IH; eauto. intros l' Hc.
    apply Ha, Hcr. eapply ct_inside; [exact Hr| |exact Hc]. apply in_map. exact Hx.
Qed.
(** Everything inside a readable value exists. *)
Lemma reads_contains M v : forall h l, reads M h v -> contains M h l -> exists c, look M l = Some c.
Proof.
  induction v as [| | | | | |vs IH|e IH|c fs ex IH1 IH2|c e IH| |] using pv_ind'; intros h l0 H Hc;
    try (cbn [reads] in H; rewrite H in Hc; inversion Hc; subst; fail).
  - apply reads_list in H as (l & xs & -> & Hl & H). apply contains_inv in Hc as [Hc|(l' & c' & x & Hc & Hlk & Hx & Hc')]; injection Hc as <-; [eauto|].
    rewrite Hl in Hlk. injection Hlk as <-. cbn [held] in Hx. rewrite Forall_forall in IH.
    assert (exists w, In w vs /\ reads M x w) as (w & Hw & Hr).
    { clear -H Hx. induction H as [|a b la lb Hab F IHF]; [destruct Hx|]. destruct Hx as [<-|Hx]; [exists b; split; [left; reflexivity|exact Hab]|].
      destruct (IHF Hx) as (w & Hw & Hr). exists w. split; [right; exact Hw|exact Hr]. }
    eapply IH; eauto.
  - apply reads_dict in H as (l & d & -> & Hl & H). apply contains_inv in Hc as [Hc|(l' & c' & x & Hc & Hlk & Hx & Hc')]; injection Hc as <-; [eauto|].
    rewrite Hl in Hlk. injection Hlk as <-. cbn [held] in Hx. rewrite Forall_forall in IH. apply in_map_iff in Hx as (kv & <- & Hx).
    assert (exists w, In w e /\ same_entry M kv w) as (w & Hw & Hr).
    { clear -H Hx. induction H as [|a b la lb Hab F IHF]; [destruct Hx|]. destruct Hx as [<-|Hx]; [exists b; split; [left; reflexivity|exact Hab]|].
      destruct (IHF Hx) as (w & Hw & Hr). exists w. split; [right; exact Hw|exact Hr]. }
    eapply IH; eauto. apply Hr.
  - apply reads_obj in H as (l & d & d' & -> & Hl & H & H'). apply contains_inv in Hc as [Hc|(l' & c' & x & Hc & Hlk & Hx & Hc')]; injection Hc as <-; [eauto|].
    rewrite Hl in Hlk. injection Hlk as <-. cbn [held] in Hx. rewrite Forall_forall in IH1, IH2. 
    assert (Hg : forall d e kv, Forall2 (same_entry M) d e -> In kv d -> exists w, In w e /\ same_entry M kv w).
    { clear. intros d e kv H Hx. induction H as [|a b la lb Hab F IHF]; [destruct Hx|]. destruct Hx as [<-|Hx]; [exists b; split; [left; reflexivity|exact Hab]|].
      destruct (IHF Hx) as (w & Hw & Hr). exists w. split; [right; exact Hw|exact Hr]. }
    apply in_app_or in Hx as [Hx|Hx]; apply in_map_iff in Hx as (kv & <- & Hx).
    + destruct (Hg _ _ _ H Hx) as (w & Hw & _ & Hr). eapply IH1; eauto.
    + destruct (Hg _ _ _ H' Hx) as (w & Hw & _ & Hr). eapply IH2; eauto.
  - apply reads_root in H as (l & r & d & -> & Hl & Hr & H). apply contains_inv in Hc as [Hc|(l' & c' & x & Hc & Hlk & Hx & Hc')]; injection Hc as <-; [eauto|].
    rewrite Hl in Hlk. injection Hlk as <-. cbn [held] in Hx. destruct Hx as [<-|[]].
    apply contains_inv in Hc' as [Hc'|(l' & c' & x & Hc' & Hlk & Hx & Hc'')]; injection Hc' as <-; [eauto|]. rewrite Hr in Hlk. injection Hlk as <-. cbn [held] in Hx.
    rewrite Forall_forall in IH. apply in_map_iff in Hx as (kv & <- & Hx).
    assert (exists w, In w e /\ same_entry M kv w) as (w & Hw & Hrd).
    { clear -H Hx. induction H as [|a b la lb Hab F IHF]; [destruct Hx|]. destruct Hx as [<-|Hx]; [exists b; split; [left; reflexivity|exact Hab]|].
      destruct (IHF Hx) as (w & Hw & Hr). exists w. split; [right; exact Hw|exact Hr]. }
    eapply IH; eauto. apply Hrd.
Qed.
Lemma reads_extends M M' h v : extends M M' -> reads M h v -> reads M' h v.
Proof.
  intros He H. eapply reads_agree; [exact H|]. intros l Hc. destruct (reads_contains _ _ _ _ H Hc) as (c & Hl). rewrite Hl. eapply extends_look; eauto.
Qed.
Lemma same_entry_extends M M' a b : extends M M' -> same_entry M a b -> same_entry M' a b.
Proof. intros He [Hk Hr]. split; [exact Hk|]. eapply reads_extends; eauto. Qed.
Lemma entries_extends M M' d e : extends M M' -> Forall2 (same_entry M) d e -> Forall2 (same_entry M') d e.
Proof. intros He. apply Forall2_weaken. intros a b _ _. apply same_entry_extends. exact He. Qed.
Lemma list_extends M M' d e : extends M M' -> Forall2 (reads M) d e -> Forall2 (reads M') d e.
Proof. intros He. apply Forall2_weaken. intros a b _ _. apply reads_extends. exact He. Qed.

(** ** Rules look only at what [peek] shows *)
Definition alike0 (v w : pv) : Prop := v = w \/ (~ immutable v /\ exists t, w = VOpaque t).
Definition alike (v w : pv) : Prop :=
  v = w \/ (exists t, w = VOpaque t /\ ~ immutable v /\ forall c fs ex, v <> VObj c fs ex)
  \/ (exists c fs ex fs', v = VObj c fs ex /\ w = VObj c fs' [] /\ Forall2 (fun a b => fst a = fst b /\ alike0 (snd a) (snd b)) fs fs').
Lemma peek0_alike M h v : reads M h v -> alike0 v (peek0 h).
Proof.
  destruct h as [a|l]; intros H; [left; apply reads_HA in H; symmetry; cbn; symmetry; tauto|].
  right. split; [intros Hi; exact (reads_HL_mut _ _ _ H Hi)|]. cbn. eauto.
Qed.
Lemma peek_alike M h v : reads M h v -> alike v (peek M h).
Proof.
  destruct h as [a|l]; intros H; [left; apply reads_HA in H; cbn; tauto|]. right. cbn [peek].
  destruct (reads_HL _ _ _ H) as [(xs & vs & Hl & -> & _)|[(d & e & Hl & -> & _)|[(c & d & d' & fs & ex & Hl & -> & H1 & _)|(c & r & d & e & Hl & _ & -> & _)]]];
    rewrite Hl.
  - left. exists []. split; [reflexivity|]. split; [cbn; tauto|]. discriminate.
  - left. exists []. split; [reflexivity|]. split; [cbn; tauto|]. discriminate.
  - right. exists c, fs, ex, (map (fun kv => (fst kv, peek0 (snd kv))) d). split; [reflexivity|]. split; [reflexivity|].
    clear -H1. induction H1 as [|a b la lb [Hk Hr] F IH]; constructor; [|exact IH]. cbn [fst snd]. split; [symmetry; exact Hk|]. eapply peek0_alike; eauto.
  - left. exists []. split; [reflexivity|]. split; [cbn; tauto|]. discriminate.
Qed.
Lemma alike_none v w : alike v w -> is_none v = is_none w.
Proof.
  intros [->|[(t & -> & Hi & _)|(c & fs & ex & fs' & -> & -> & _)]]; try reflexivity. destruct v; try reflexivity. exfalso. apply Hi. exact I.
Qed.
Lemma alike_str s v w : alike v w -> is_str s v = is_str s w.
Proof.
  intros [->|[(t & -> & Hi & _)|(c & fs & ex & fs' & -> & -> & _)]]; try reflexivity. destruct v; try reflexivity. exfalso. apply Hi. exact I.
Qed.
Lemma alike_fv E f v w : alike v w -> fv_check E f v = fv_check E f w.
Proof.
  intros [->|[(t & -> & Hi & _)|(c & fs & ex & fs' & -> & -> & _)]]; try reflexivity; destruct f; try reflexivity;
    destruct v; try reflexivity; exfalso; apply Hi; exact I.
Qed.
Lemma alike0_none v w : alike0 v w -> is_none v = is_none w.
Proof. intros [->|(Hi & t & ->)]; [reflexivity|]. destruct v; try reflexivity. exfalso. apply Hi. exact I. Qed.
Lemma alike_sub f v w : alike v w -> is_none (sub_attr f v) = is_none (sub_attr f w).
Proof.
  intros [->|[(t & -> & Hi & Ho)|(c & fs & ex & fs' & -> & -> & H)]]; [reflexivity| |].
  - cbn [sub_attr]. destruct v; try reflexivity. exfalso. eapply Ho. reflexivity.
  - cbn [sub_attr]. unfold attr. induction H as [|[k a] [k' b] la lb [Hk Hr] F IH]; [reflexivity|]. cbn [fst snd assoc] in *. subst k'.
    destruct (str_eqb (u f) k); [apply alike0_none; exact Hr|exact IH].
Qed.
Definition alikes (fs gs : fields) : Prop := Forall2 (fun a b => fst a = fst b /\ alike (snd a) (snd b)) fs gs.
Lemma alikes_at fs gs f : alikes fs gs -> alike (at_ f fs) (at_ f gs).
Proof.
  intros H. unfold at_, attr. induction H as [|[k a] [k' b] la lb [Hk Hr] F IH]; [left; reflexivity|]. cbn [fst snd assoc] in *. subst k'.
  destruct (str_eqb (u f) k); [exact Hr|exact IH].
Qed.
Lemma alikes_hook c fs gs : alikes fs gs -> hook c fs = hook c gs.
Proof.
  intros H. assert (Ha := fun f => alikes_at _ _ f H).
  assert (Hn := fun f => alike_none _ _ (Ha f)). assert (Hs := fun s f => alike_str s _ _ (Ha f)). assert (Hsub := fun g f => alike_sub g _ _ (Ha f)).
  assert (Ho : forall l f, one_of l (at_ f fs) = one_of l (at_ f gs)).
  { intros l f. unfold one_of. induction l as [|s l IH]; [reflexivity|]. cbn [existsb]. rewrite Hs, IH. reflexivity. }
  assert (Hadr : is_none (at_ "parameters" fs) = is_none (at_ "parameters" gs)) by apply Hn.
  unfold hook. destruct (hook_of c hooks) as [h|] eqn:Eh; [|reflexivity].
  unfold hooks in Eh. cbn [hook_of] in Eh.
  repeat match type of Eh with context [String.eqb ?a ?b] => destruct (String.eqb a b); [injection Eh as <-|] end; try discriminate Eh.
  - unfold channel_rule. rewrite Hadr. destruct (is_none (at_ "parameters" gs)); [reflexivity|].
    destruct (Ha "address"%string) as [->|[(t & -> & Hi & _)|(c0 & f0 & ex & f1 & -> & -> & _)]]; try reflexivity.
    destruct (at_ "address" fs); try reflexivity. exfalso. apply Hi. exact I.
  - unfold message_example_rule. rewrite !Hn. reflexivity.
  - unfold oauth_flows_rule, implicit_rule, password_rule, client_credentials_rule, authorization_code_rule, notnone. rewrite !Hn, !Hsub. reflexivity.
  - unfold security_scheme_rule, api_key_rule, bearer_rule, http_api_key_rule, http_rule, oauth2_rule, openid_rule, scopes_rule, notnone.
    rewrite !Hn, !Hs, !Ho. reflexivity.
  - unfold amqp_channel_rule. rewrite !Hn, !Hs. reflexivity.
  - unfold ibmmq_channel_rule, notnone. rewrite !Hn, !Hs. reflexivity.
  - unfold ibmmq_message_rule, notnone. rewrite !Hn, !Ho. reflexivity.
  - unfold kafka_server_rule, notnone. rewrite !Hn. reflexivity.
  - unfold solace_destination_rule. rewrite !Hn, !Hs. reflexivity.
Qed.
Lemma alikes_peeks M d e : Forall2 (same_entry M) d e -> alikes e (peeks M d).
Proof. induction 1 as [|a b la lb [Hk Hr] F IH]; constructor; [|exact IH]. cbn [fst snd]. split; [symmetry; exact Hk|]. apply peek_alike. exact Hr. Qed.
Lemma keys_only_extras E k (d : hfields) e : map fst d = map fst e -> extras_ok E k (keys_only d) = extras_ok E k e.
Proof.
  intros H. destruct k; cbn [extras_ok]; [| |reflexivity].
  - revert e H. induction d as [|[a x] d IH]; intros [|[b y] e] H; try discriminate H; [reflexivity|]. cbn [map fst] in H. injection H as -> H.
    cbn [keys_only map forallb fst]. rewrite <- (IH e H). reflexivity.
  - destruct d, e; try discriminate H; reflexivity.
Qed.
Lemma keys_only_root (d : hfields) e : map fst d = map fst e -> root_keys_ok (keys_only d) = root_keys_ok e.
Proof.
  intros H. unfold root_keys_ok. revert e H. induction d as [|[a x] d IH]; intros [|[b y] e] H; try discriminate H; [reflexivity|]. cbn [map fst] in H. injection H as -> H.
  cbn [keys_only map forallb fst]. rewrite <- (IH e H). reflexivity.
Qed.
Lemma entries_keys M d e : Forall2 (same_entry M) d e -> map fst d = map fst e.
Proof. induction 1 as [|a b la lb [Hk _] F IH]; [reflexivity|]. cbn [map]. rewrite Hk, IH. reflexivity. Qed.
Lemma after_peeks E M c k d e (xd : hfields) (xe : fields) : Forall2 (same_entry M) d e -> map fst xd = map fst xe ->
  after_ok E c k (peeks M d) (keys_only xd) = after_ok E c k e xe.
Proof.
  intros H Hk. unfold after_ok. rewrite (keys_only_extras E k xd xe Hk). rewrite (alikes_hook c _ _ (alikes_peeks _ _ _ H)). reflexivity.
Qed.

(** ** Dictionaries *)
Lemma entries_assoc M d e k : Forall2 (same_entry M) d e ->
  match assoc k d with Some x => exists v, assoc k e = Some v /\ reads M x v | None => assoc k e = None end.
Proof.
  induction 1 as [|[a x] [b y] la lb [Hk Hr] F IH]; [reflexivity|]. cbn [fst snd assoc] in *. subst b. destruct (str_eqb k a); [eauto|exact IH].
Qed.
Lemma entries_lookup M d e fi : Forall2 (same_entry M) d e ->
  match plookup fi d with Some x => exists v, lookup_field fi e = Some v /\ reads M x v | None => lookup_field fi e = None end.
Proof.
  intros H. unfold plookup, lookup_field. assert (H1 := entries_assoc _ _ _ (f_alias fi) H). assert (H2 := entries_assoc _ _ _ (f_name fi) H).
  destruct (assoc (f_alias fi) d) as [x|]; [destruct H1 as (v & -> & Hr); eauto|]. rewrite H1. exact H2.
Qed.
Lemma entries_set M k x v d e : Forall2 (same_entry M) d e -> reads M x v -> Forall2 (same_entry M) (pset k x d) (dict_set k v e).
Proof.
  intros H Hr. induction H as [|[a y] [b w] la lb [Hk Hrd] F IH]; cbn [pset dict_set].
  - constructor; [split; auto|constructor].
  - cbn [fst snd] in *. subst b. destruct (str_eqb k a); constructor; try exact F; try exact IH; split; auto.
Qed.
Lemma entries_update M d e xd xe : Forall2 (same_entry M) d e -> Forall2 (same_entry M) xd xe -> Forall2 (same_entry M) (pupdate d xd) (dict_update e xe).
Proof.
  intros H Hx. revert d e H. induction Hx as [|[a y] [b w] la lb [Hk Hrd] F IH]; intros d e H; [exact H|]. cbn [pupdate dict_update fold_left fst snd] in *. subst b.
  apply IH. apply entries_set; assumption.
Qed.
Lemma entries_extras {T} M (fs : list (finfo * T)) d e : Forall2 (same_entry M) d e -> Forall2 (same_entry M) (pextras fs d) (extras fs e).
Proof.
  intros H. assert (Hu : map (fun ft => pused d (fst ft)) fs = map (fun ft => used_key e (fst ft)) fs).
  { apply map_ext. intros [fi t]. unfold pused, used_key, has_key. rewrite (entries_keys _ _ _ H). reflexivity. }
  unfold pextras, extras. rewrite Hu. generalize (map (fun ft => used_key e (fst ft)) fs). intros us. clear Hu.
  induction H as [|[a y] [b w] la lb [Hk Hrd] F IH]; [constructor|]. cbn [filter fst snd] in *. subst b.
  destruct (negb (mem_str a us)); [constructor; [split; auto|exact IH]|exact IH].
Qed.

(** ** Validation only allocates *)
Section Ext.
  Context (E : env).
  Let good (t : ty) := forall h M M' r, hvalidate E t h M = (M', r) -> extends M M'.
  Lemma hlist_ext t : good t -> forall l M M' r, hlist (hvalidate E) t l M = (M', r) -> extends M M'.
  Proof.
    intros Ht. induction l as [|x l IH]; intros M M' r H; cbn [hlist] in H; [injection H as <- _; apply extends_refl|].
    destruct (hvalidate E t x M) as [M1 [[x' n]|]] eqn:E1; [|injection H as <- _; eapply Ht; eauto].
    change ((fix go (l : list hv) (M : mem) {struct l} : mem * option (list hv * nat) := _) l M1) with (hlist (hvalidate E) t l M1) in H.
    destruct (hlist (hvalidate E) t l M1) as [M2 [[r' m]|]] eqn:E2; injection H as <- _; eapply extends_trans; eauto.
  Qed.
  Lemma hdict_ext t : good t -> forall l M M' r, hdict (hvalidate E) t l M = (M', r) -> extends M M'.
  Proof.
    intros Ht. induction l as [|[k x] l IH]; intros M M' r H; cbn [hdict] in H; [injection H as <- _; apply extends_refl|].
    destruct (hvalidate E t x M) as [M1 [[x' n]|]] eqn:E1; [|injection H as <- _; eapply Ht; eauto].
    change ((fix go (d : hfields) (M : mem) {struct d} : mem * option (hfields * nat) := _) l M1) with (hdict (hvalidate E) t l M1) in H.
    destruct (hdict (hvalidate E) t l M1) as [M2 [[r' m]|]] eqn:E2; injection H as <- _; eapply extends_trans; eauto.
  Qed.
  Lemma hfield_ext kvs fs : Forall (fun ft => good (snd ft)) fs -> forall M M' r, hfield E (hvalidate E) kvs fs M = (M', r) -> extends M M'.
  Proof.
    intros Hf. induction Hf as [|[fi t] fs Ht _ IH]; intros M M' r H; cbn [hfield] in H; [injection H as <- _; apply extends_refl|].
    destruct (plookup fi kvs) as [x|].
    - destruct (hvalidate E t x M) as [M1 [[x' n]|]] eqn:E1; [|injection H as <- _; eapply Ht; eauto].
      destruct (fv_check E (f_val fi) (peek M1 x')); [|injection H as <- _; eapply Ht; eauto].
      change ((fix go (fs : list (finfo * ty)) (M : mem) {struct fs} : mem * option (hfields * nat) := _) fs M1) with (hfield E (hvalidate E) kvs fs M1) in H.
      destruct (hfield E (hvalidate E) kvs fs M1) as [M2 [[r' m]|]] eqn:E2; injection H as <- _; eapply extends_trans; eauto; eapply Ht; eauto.
    - destruct (f_def fi); [|injection H as <- _; apply extends_refl].
      change ((fix go (fs : list (finfo * ty)) (M : mem) {struct fs} : mem * option (hfields * nat) := _) fs M) with (hfield E (hvalidate E) kvs fs M) in H.
      destruct (hfield E (hvalidate E) kvs fs M) as [M2 [[r' m]|]] eqn:E2; injection H as <- _; eauto.
  Qed.
  Lemma hmodel_ext c k kvs fs : Forall (fun ft => good (snd ft)) fs -> forall M M' r, hmodel E (hvalidate E) c k fs kvs M = (M', r) -> extends M M'.
  Proof.
    intros Hf M M' r H. unfold hmodel in H. destruct (hfield E (hvalidate E) kvs fs M) as [M1 [[fv n]|]] eqn:E1;
      [|injection H as <- _; eapply hfield_ext; eauto].
    destruct (after_ok E c k (peeks M1 fv) (keys_only (pextras fs kvs))); unfold alloc in H; injection H as <- _; [|eapply hfield_ext; eauto].
    eapply extends_trans; [eapply hfield_ext; eauto|apply extends_snoc].
  Qed.
  Lemma hroot_ext c t d : good t -> forall M M' r, hroot (hvalidate E) c t d M = (M', r) -> extends M M'.
  Proof.
    intros Ht M M' r H. unfold hroot in H. destruct (hdict (hvalidate E) t d M) as [M1 [[d' n]|]] eqn:E1; [|injection H as <- _; eapply hdict_ext; eauto].
    destruct (root_keys_ok (keys_only d')); unfold alloc in H; injection H as <- _; [|eapply hdict_ext; eauto].
    eapply extends_trans; [eapply hdict_ext; eauto|]. eapply extends_trans; apply extends_snoc.
  Qed.
  Lemma hvalidate_ext t : good t.
  Proof.
    induction t as [| | | | | | | |t IH|t IH|t IH|ts IH| |c k fs IH|c t IH] using ty_ind'; intros h M M' r H; cbn [hvalidate] in H;
      try (destruct h; injection H as <- _; apply extends_refl).
    - destruct h as [a|l]; [injection H as <- _; apply extends_refl|]. destruct (look M l) as [[xs| | |]|]; try (injection H as <- _; apply extends_refl).
      destruct (hlist (hvalidate E) t xs M) as [M1 [[xs' n]|]] eqn:E1; unfold alloc in H; injection H as <- _;
        [eapply extends_trans; [|apply extends_snoc]|]; eapply hlist_ext; eauto.
    - destruct h as [a|l]; [injection H as <- _; apply extends_refl|]. destruct (look M l) as [[|d| |]|]; try (injection H as <- _; apply extends_refl).
      destruct (hdict (hvalidate E) t d M) as [M1 [[xs' n]|]] eqn:E1; unfold alloc in H; injection H as <- _;
        [eapply extends_trans; [|apply extends_snoc]|]; eapply hdict_ext; eauto.
    - destruct h as [a|l]; [destruct a; try (eapply IH; exact H)|eapply IH; exact H]. injection H as <- _. apply extends_refl.
    - revert M M' r H. induction IH as [|t ts Ht _ IHts]; intros M M' r H; cbn [hunion] in H; [injection H as <- _; apply extends_refl|].
      destruct (hvalidate E t h M) as [M1 a] eqn:E1.
      change ((fix go (ts : list ty) (M : mem) {struct ts} : mem * option (hv * nat) := _) ts M1) with (hunion (hvalidate E) h ts M1) in H.
      destruct (hunion (hvalidate E) h ts M1) as [M2 b] eqn:E2. injection H as <- _. eapply extends_trans; [eapply Ht; eauto|eapply IHts; eauto].
    - destruct h as [a|l]; [injection H as <- _; apply extends_refl|]. destruct (look M l) as [[xs| | |]|]; try (injection H as <- _; apply extends_refl).
      destruct (forallb is_hproc xs); unfold alloc in H; injection H as <- _; [apply extends_snoc|apply extends_refl].
    - destruct h as [a|l]; [injection H as <- _; apply extends_refl|]. destruct (look M l) as [[|d|c' fv ex|]|]; try (injection H as <- _; apply extends_refl).
      + eapply hmodel_ext; eauto.
      + destruct (String.eqb c c'); [eapply hmodel_ext; eauto|injection H as <- _; apply extends_refl].
    - destruct h as [a|l]; [injection H as <- _; apply extends_refl|]. destruct (look M l) as [[|d| |c' r']|]; try (injection H as <- _; apply extends_refl).
      + eapply hroot_ext; eauto.
      + destruct (String.eqb c c'); [|injection H as <- _; apply extends_refl]. destruct (look M r') as [[|d| |]|]; try (injection H as <- _; apply extends_refl).
        eapply hroot_ext; eauto.
  Qed.
End Ext.

(** ** It computes what Pydantic.v says *)
Definition agrees (M : mem) (r : option (hv * nat)) (s : option (pv * nat)) : Prop :=
  match r, s with
  | Some (h, n), Some (v, m) => reads M h v /\ n = m
  | None, None => True
  | _, _ => False
  end.
Definition agrees_d (M : mem) (r : option (hfields * nat)) (s : option (fields * nat)) : Prop :=
  match r, s with
  | Some (h, n), Some (v, m) => Forall2 (same_entry M) h v /\ n = m
  | None, None => True
  | _, _ => False
  end.
Lemma immutable_default fi t d : default_ok fi t = true -> f_def fi = Some d -> immutable d.
Proof. unfold default_ok. intros H Hd. rewrite Hd in H. destruct d; try discriminate H; exact I. Qed.

Lemma model_defaults c k fs : wf_ty (TModel c k fs) = true -> Forall (fun ft => default_ok (fst ft) (snd ft) = true) fs.
Proof.
  cbn [wf_ty]. intros H. apply andb_prop in H as [H _]. unfold model_ok in H. apply andb_prop in H as [H _]. apply andb_prop in H as [H _].
  apply andb_prop in H as [_ H]. rewrite forallb_forall in H. apply Forall_forall. exact H.
Qed.
Section Refine.
  Context (E : env).
  Let refines (t : ty) := forall h M v, reads M h v -> agrees (fst (hvalidate E t h M)) (snd (hvalidate E t h M)) (validate E t v).
  Lemma hlist_refines t : refines t -> forall l M vs, Forall2 (reads M) l vs ->
    match hlist (hvalidate E) t l M, vlist (validate E) t vs with
    | (M', Some (l', n)), Some (vs', m) => Forall2 (reads M') l' vs' /\ n = m
    | (_, None), None => True
    | _, _ => False end.
  Proof.
    intros Ht l. induction l as [|x l IH]; intros M vs H; inversion H as [|? w ? ws Hr Hrs]; subst; cbn [hlist vlist]; [split; [constructor|reflexivity]|].
    assert (H1 := Ht x M w Hr). destruct (hvalidate E t x M) as [M1 [[x' n]|]] eqn:E1; cbn [fst snd] in H1;
      (destruct (validate E t w) as [[w' m]|]; cbn [agrees] in H1; try contradiction); [|exact I]. destruct H1 as [H1 ->].
    change ((fix go (l : list hv) (M : mem) {struct l} : mem * option (list hv * nat) := _) l M1) with (hlist (hvalidate E) t l M1).
    change ((fix go (l : list pv) : option (list pv * nat) := _) ws) with (vlist (validate E) t ws).
    assert (He := hvalidate_ext _ _ _ _ _ _ E1). assert (H2 := IH M1 ws (list_extends _ _ _ _ He Hrs)).
    destruct (hlist (hvalidate E) t l M1) as [M2 [[l' n']|]] eqn:E2; (destruct (vlist (validate E) t ws) as [[ws' m']|]; try contradiction); [|exact I].
    destruct H2 as [H2 ->]. split; [|reflexivity]. constructor; [|exact H2]. eapply reads_extends; [|exact H1]. eapply hlist_ext; [apply hvalidate_ext|exact E2].
  Qed.
  Lemma hdict_refines t : refines t -> forall l M vs, Forall2 (same_entry M) l vs ->
    match hdict (hvalidate E) t l M, vdict (validate E) t vs with
    | (M', Some (l', n)), Some (vs', m) => Forall2 (same_entry M') l' vs' /\ n = m
    | (_, None), None => True
    | _, _ => False end.
  Proof.
    intros Ht l. induction l as [|[k x] l IH]; intros M vs H; inversion H as [|? [k' w] ? ws [Hk Hr] Hrs]; subst; cbn [hdict vdict]; [split; [constructor|reflexivity]|].
    cbn [fst snd] in Hk, Hr. subst k'.
    assert (H1 := Ht x M w Hr). destruct (hvalidate E t x M) as [M1 [[x' n]|]] eqn:E1; cbn [fst snd] in H1;
      (destruct (validate E t w) as [[w' m]|]; cbn [agrees] in H1; try contradiction); [|exact I]. destruct H1 as [H1 ->].
    change ((fix go (d : hfields) (M : mem) {struct d} : mem * option (hfields * nat) := _) l M1) with (hdict (hvalidate E) t l M1).
    change ((fix go (d : fields) : option (fields * nat) := _) ws) with (vdict (validate E) t ws).
    assert (He := hvalidate_ext _ _ _ _ _ _ E1). assert (H2 := IH M1 ws (entries_extends _ _ _ _ He Hrs)).
    destruct (hdict (hvalidate E) t l M1) as [M2 [[l' n']|]] eqn:E2; (destruct (vdict (validate E) t ws) as [[ws' m']|]; try contradiction); [|exact I].
    destruct H2 as [H2 ->]. split; [|reflexivity]. constructor; [|exact H2]. split; [reflexivity|]. cbn [snd]. eapply reads_extends; [|exact H1]. eapply hdict_ext; [apply hvalidate_ext|exact E2].
  Qed.
  Lemma hfield_refines kvs kvs' fs : Forall (fun ft => refines (snd ft)) fs -> Forall (fun ft => default_ok (fst ft) (snd ft) = true) fs ->
    forall M, Forall2 (same_entry M) kvs kvs' ->
    agrees_d (fst (hfield E (hvalidate E) kvs fs M)) (snd (hfield E (hvalidate E) kvs fs M)) (vfields E (validate E) kvs' fs).
  Proof.
    intros Hf Hd. induction Hf as [|[fi t] fs Ht Hf IH]; intros M H; cbn [hfield vfields]; [split; [constructor|reflexivity]|].
    inversion Hd as [|? ? Hd1 Hd2]; subst. cbn [fst snd] in Hd1, Ht. specialize (IH Hd2).
    assert (Hl := entries_lookup M kvs kvs' fi H). destruct (plookup fi kvs) as [x|].
    - destruct Hl as (w & -> & Hr). assert (H1 := Ht x M w Hr). destruct (hvalidate E t x M) as [M1 [[x' n]|]] eqn:E1; cbn [fst snd] in H1;
        (destruct (validate E t w) as [[w' m]|]; cbn [agrees] in H1; try contradiction); [|exact I]. destruct H1 as [H1 ->].
      rewrite (alike_fv E (f_val fi) _ _ (peek_alike _ _ _ H1)). destruct (fv_check E (f_val fi) (peek M1 x')); [|exact I].
      change ((fix go (fs : list (finfo * ty)) (M : mem) {struct fs} : mem * option (hfields * nat) := _) fs M1) with (hfield E (hvalidate E) kvs fs M1).
      change ((fix go (fs : list (finfo * ty)) : option (fields * nat) := _) fs) with (vfields E (validate E) kvs' fs).
      assert (He := hvalidate_ext _ _ _ _ _ _ E1). assert (H2 := IH M1 (entries_extends _ _ _ _ He H)).
      destruct (hfield E (hvalidate E) kvs fs M1) as [M2 [[l' n']|]] eqn:E2; cbn [fst snd] in H2; (destruct (vfields E (validate E) kvs' fs) as [[ws' m']|]; cbn [agrees_d] in H2; try contradiction); [|exact I].
      destruct H2 as [H2 ->]. split; [|reflexivity]. constructor; [|exact H2]. split; [reflexivity|]. cbn [snd]. eapply reads_extends; [|exact H1].
      eapply hfield_ext; [|exact E2]. apply Forall_forall. intros ft _. apply hvalidate_ext.
    - rewrite Hl. destruct (f_def fi) as [d|] eqn:Ed; [|exact I].
      change ((fix go (fs : list (finfo * ty)) (M : mem) {struct fs} : mem * option (hfields * nat) := _) fs M) with (hfield E (hvalidate E) kvs fs M).
      change ((fix go (fs : list (finfo * ty)) : option (fields * nat) := _) fs) with (vfields E (validate E) kvs' fs).
      assert (H2 := IH M H). destruct (hfield E (hvalidate E) kvs fs M) as [M2 [[l' n']|]] eqn:E2; cbn [fst snd] in H2; (destruct (vfields E (validate E) kvs' fs) as [[ws' m']|]; cbn [agrees_d] in H2; try contradiction); [|exact I].
      destruct H2 as [H2 ->]. split; [|reflexivity]. constructor; [|exact H2]. split; [reflexivity|]. cbn [snd]. apply reads_atom. eapply immutable_default; eauto.
  Qed.
  Lemma hmodel_refines c k fs kvs kvs' : Forall (fun ft => refines (snd ft)) fs -> Forall (fun ft => default_ok (fst ft) (snd ft) = true) fs ->
    forall M, Forall2 (same_entry M) kvs kvs' ->
    agrees (fst (hmodel E (hvalidate E) c k fs kvs M)) (snd (hmodel E (hvalidate E) c k fs kvs M)) (vmodel E (validate E) c k fs kvs').
  Proof.
    intros Hf Hd M H. unfold hmodel, vmodel. assert (H1 := hfield_refines kvs kvs' fs Hf Hd M H).
    destruct (hfield E (hvalidate E) kvs fs M) as [M1 [[fv n]|]] eqn:E1; cbn [fst snd] in H1; (destruct (vfields E (validate E) kvs' fs) as [[fv' m]|]; cbn [agrees_d] in H1; try contradiction); [|exact I].
    destruct H1 as [H1 ->]. assert (He : extends M M1). { eapply hfield_ext; [|exact E1]. apply Forall_forall. intros ft _. apply hvalidate_ext. }
    assert (Hx := entries_extras M1 fs kvs kvs' (entries_extends _ _ _ _ He H)).
    rewrite (after_peeks E M1 c k fv fv' (pextras fs kvs) (extras fs kvs') H1 (entries_keys _ _ _ Hx)).
    destruct (after_ok E c k fv' (extras fs kvs')); [|exact I]. cbn [alloc fst snd agrees]. split; [|reflexivity]. apply reads_obj.
    exists (length M1), fv, (pextras fs kvs). split; [reflexivity|]. split; [apply look_new|]. split; (eapply entries_extends; [apply extends_snoc|assumption]).
  Qed.
  Lemma hroot_refines c t d e : refines t -> forall M, Forall2 (same_entry M) d e ->
    agrees (fst (hroot (hvalidate E) c t d M)) (snd (hroot (hvalidate E) c t d M))
      (match vdict (validate E) t e with Some (d', n) => if root_keys_ok d' then Some (VRoot c d', n) else None | None => None end).
  Proof.
    intros Ht M H. unfold hroot. assert (H1 := hdict_refines t Ht d M e H).
    destruct (hdict (hvalidate E) t d M) as [M1 [[fv n]|]] eqn:E1; (destruct (vdict (validate E) t e) as [[fv' m]|]; try contradiction); [|exact I].
    destruct H1 as [H1 ->]. rewrite (keys_only_root fv fv' (entries_keys _ _ _ H1)). destruct (root_keys_ok fv'); [|exact I].
    cbn [alloc fst snd agrees]. split; [|reflexivity]. apply reads_root. exists (length (M1 ++ [CDict fv])), (length M1), fv. split; [reflexivity|]. split; [apply look_new|].
    split; [eapply extends_look; [apply extends_snoc|apply look_new]|]. eapply entries_extends; [|exact H1]. eapply extends_trans; apply extends_snoc.
  Qed.
  Lemma hunion_refines ts : Forall refines ts -> forall h M v, reads M h v ->
    agrees (fst (hunion (hvalidate E) h ts M)) (snd (hunion (hvalidate E) h ts M)) (best_of (map (fun t => validate E t v) ts)).
  Proof.
    induction 1 as [|t ts Ht _ IH]; intros h M v Hr; [exact I|]. cbn [hunion map best_of].
    assert (H1 := Ht h M v Hr). destruct (hvalidate E t h M) as [M1 a] eqn:E1. cbn [fst snd] in H1.
    change ((fix go (ts : list ty) (M : mem) {struct ts} : mem * option (hv * nat) := _) ts M1) with (hunion (hvalidate E) h ts M1).
    assert (He := hvalidate_ext _ _ _ _ _ _ E1). assert (H2 := IH h M1 v (reads_extends _ _ _ _ He Hr)).
    assert (He2 : extends M1 (fst (hunion (hvalidate E) h ts M1))).
    { apply (hvalidate_ext E (TUnion ts) h M1 _ (snd (hunion (hvalidate E) h ts M1))). cbn [hvalidate]. apply surjective_pairing. }
    destruct (hunion (hvalidate E) h ts M1) as [M2 b]. cbn [fst snd] in *.
    destruct a as [[h1 n1]|], (validate E t v) as [[v1 m1]|]; cbn [agrees] in H1; try contradiction.
    - destruct H1 as [H1 <-]. destruct b as [[h2 n2]|], (best_of (map (fun t => validate E t v) ts)) as [[v2 m2]|]; cbn [agrees] in H2; try contradiction.
      + destruct H2 as [H2 <-]. cbn [better]. destruct (Nat.ltb n1 n2); cbn [agrees]; split; auto. eapply reads_extends; eauto.
      + cbn [better agrees]. split; auto. eapply reads_extends; eauto.
    - cbn [better]. exact H2.
  Qed.
  Lemma procs_refines M xs vs : Forall2 (reads M) xs vs -> forallb is_hproc xs = forallb is_proc vs.
  Proof.
    induction 1 as [|x v xs vs Hr _ IH]; [reflexivity|]. cbn [forallb]. rewrite IH. f_equal. destruct x as [a|l]; cbn [is_hproc].
    - apply reads_HA in Hr as [-> _]. reflexivity.
    - destruct v; try reflexivity. discriminate Hr.
  Qed.
  Lemma validate_mut M l v t : reads M (HL l) v ->
    match t with TStr _ | TEmail | TInt | TBool | TUrl _ | TLitS _ | TLitI _ => True | _ => False end -> validate E t v = None.
  Proof.
    intros Hr Ht. apply reads_HL in Hr as [(xs & vs & _ & -> & _)|[(d & e & _ & -> & _)|[(c & d & d' & fs & ex & _ & -> & _)|(c & r & d & e & _ & _ & -> & _)]]];
      destruct t; try destruct Ht; reflexivity.
  Qed.
  Lemma validate_leaf_immutable v v' n t :
    match t with TStr _ | TEmail | TInt | TBool | TUrl _ | TLitS _ | TLitI _ => True | _ => False end -> validate E t v = Some (v', n) -> immutable v'.
  Proof.
    intros Ht H. destruct t; try destruct Ht; cbn [validate] in H; destruct v; try discriminate H;
      repeat match type of H with context [if ?b then _ else _] => destruct b | context [match ?b with _ => _ end] => destruct b end; try discriminate H; injection H as <- _; exact I.
  Qed.
  Lemma hvalidate_refines t : wf_ty t = true -> refines t.
  Proof.
    assert (Hleaf : forall t h M v, match t with TStr _ | TEmail | TInt | TBool | TUrl _ | TLitS _ | TLitI _ => True | _ => False end -> reads M h v ->
      agrees (fst (match h with HA a => (M, match validate E t a with Some (v', n) => Some (HA v', n) | None => None end) | HL _ => (M, None) end))
             (snd (match h with HA a => (M, match validate E t a with Some (v', n) => Some (HA v', n) | None => None end) | HL _ => (M, None) end)) (validate E t v)).
    { intros t0 h M v Ht Hr. destruct h as [a|l].
      - destruct (reads_HA _ _ _ Hr) as [-> Hi]. cbn [fst snd]. destruct (validate E t0 a) as [[v' n]|] eqn:Ev; [|exact I]. split; [|reflexivity].
        apply reads_atom. eapply validate_leaf_immutable; eauto.
      - cbn [fst snd]. rewrite (validate_mut _ _ _ _ Hr Ht). exact I. }
    induction t as [| | | | | | | |t IH|t IH|t IH|ts IH| |c k fs IH|c t IH] using ty_ind'; intros Hw h M v Hr; cbn [hvalidate];
      try (match goal with |- agrees _ _ (validate E ?t v) => exact (Hleaf t h M v I Hr) end).
    - split; [exact Hr|reflexivity].
    - destruct h as [a|l].
      + destruct (reads_HA _ _ _ Hr) as [-> Hi]. cbn [fst snd validate agrees]. destruct a; try exact I. destruct Hi.
      + cbn [validate]. apply reads_HL in Hr as [(xs & vs & -> & -> & H)|[(d & e & -> & -> & H)|[(c & d & d' & fs & ex & -> & -> & H)|(c & r & d & e & -> & _ & -> & H)]]]; try exact I.
        assert (H1 := hlist_refines t (IH Hw) xs M vs H). destruct (hlist (hvalidate E) t xs M) as [M1 [[xs' n]|]]; (destruct (vlist (validate E) t vs) as [[vs' m]|]; try contradiction); [|exact I].
        destruct H1 as [H1 ->]. cbn [alloc fst snd agrees]. split; [|reflexivity]. apply reads_list. exists (length M1), xs'. split; [reflexivity|]. split; [apply look_new|].
        eapply list_extends; [apply extends_snoc|exact H1].
    - destruct h as [a|l].
      + destruct (reads_HA _ _ _ Hr) as [-> Hi]. cbn [fst snd validate agrees]. destruct a; try exact I. destruct Hi.
      + cbn [validate]. apply reads_HL in Hr as [(xs & vs & -> & -> & H)|[(d & e & -> & -> & H)|[(c & d & d' & fs & ex & -> & -> & H)|(c & r & d & e & -> & _ & -> & H)]]]; try exact I.
        assert (H1 := hdict_refines t (IH Hw) d M e H). destruct (hdict (hvalidate E) t d M) as [M1 [[xs' n]|]]; (destruct (vdict (validate E) t e) as [[vs' m]|]; try contradiction); [|exact I].
        destruct H1 as [H1 ->]. cbn [alloc fst snd agrees]. split; [|reflexivity]. apply reads_dict. exists (length M1), xs'. split; [reflexivity|]. split; [apply look_new|].
        eapply entries_extends; [apply extends_snoc|exact H1].
    - cbn [validate]. destruct h as [a|l].
      + destruct (reads_HA _ _ _ Hr) as [-> Hi]. destruct a; try (exact (IH Hw _ _ _ Hr)); try (destruct Hi; fail). split; reflexivity.
      + assert (v <> VNone) by (intros ->; discriminate Hr). assert (H1 := IH Hw (HL l) M v Hr). destruct v; try exact H1. congruence.
    - cbn [validate wf_ty] in *. apply andb_prop in Hw as [_ Hw]. apply hunion_refines; [|exact Hr]. rewrite forallb_forall in Hw. rewrite Forall_forall in IH |- *. auto.
    - destruct h as [a|l].
      + destruct (reads_HA _ _ _ Hr) as [-> Hi]. cbn [fst snd validate agrees]. destruct a; try exact I. destruct Hi.
      + cbn [validate]. apply reads_HL in Hr as [(xs & vs & -> & -> & H)|[(d & e & -> & -> & H)|[(c & d & d' & fs & ex & -> & -> & H)|(c & r & d & e & -> & _ & -> & H)]]]; try exact I.
        rewrite <- (procs_refines _ _ _ H). destruct (forallb is_hproc xs); [|exact I]. cbn [alloc fst snd agrees]. split; [|reflexivity]. apply reads_list. exists (length M), xs.
        split; [reflexivity|]. split; [apply look_new|]. eapply list_extends; [apply extends_snoc|exact H].
    - assert (Hsub : Forall (fun ft => refines (snd ft)) fs). { rewrite Forall_forall in IH |- *. intros ft Hi. apply IH; [exact Hi|eapply wf_sub; eauto]. }
      assert (Hdef := model_defaults _ _ _ Hw). destruct h as [a|l].
      + destruct (reads_HA _ _ _ Hr) as [-> Hi]. cbn [fst snd validate agrees]. destruct a; try exact I; destruct Hi.
      + cbn [validate]. apply reads_HL in Hr as [(xs & vs & -> & -> & H)|[(d & e & -> & -> & H)|[(c' & d & d' & fs' & ex & -> & -> & H & H')|(c' & r & d & e & -> & _ & -> & H)]]]; try exact I.
        * apply hmodel_refines; assumption.
        * destruct (String.eqb c c'); [|exact I]. apply hmodel_refines; try assumption. apply entries_update; assumption.
    - destruct h as [a|l].
      + destruct (reads_HA _ _ _ Hr) as [-> Hi]. cbn [fst snd validate agrees]. destruct a; try exact I; destruct Hi.
      + cbn [validate]. apply reads_HL in Hr as [(xs & vs & -> & -> & H)|[(d & e & -> & -> & H)|[(c' & d & d' & fs' & ex & -> & -> & H & H')|(c' & r & d & e & -> & Hl & -> & H)]]]; try exact I.
        * apply hroot_refines; auto.
        * destruct (String.eqb c c'); [|exact I]. rewrite Hl. apply hroot_refines; auto.
  Qed.
End Refine.
