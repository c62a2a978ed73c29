(** The reader of JSON text is sound and complete for the grammar. *)
From Verif Require Import PyStr Value Types Rules Pydantic ClassTable Classes SpecParse SpecState SpecDump Dump JsonText SpecJsonText ProofState ProofJsonText.

(** ** Dicts *)
Lemma dict_set_keys k v d : map fst (dict_set k v d) = if mem_str k (map fst d) then map fst d else map fst d ++ [k].
Proof.
  induction d as [|[k' v'] d IH]; [reflexivity|]. cbn [dict_set map fst mem_str existsb]. destruct (str_eqb k k') eqn:E; cbn [orb map fst]; [reflexivity|].
  rewrite IH. unfold mem_str. destruct (existsb (str_eqb k) (map fst d)); reflexivity.
Qed.
Lemma assoc_set k v d j : assoc j (dict_set k v d) = if str_eqb j k then Some v else assoc j d.
Proof.
  induction d as [|[k' v'] d IH]; cbn [dict_set assoc]; [reflexivity|]. destruct (str_eqb k k') eqn:E; cbn [assoc].
  - apply str_eqb_eq in E. subst k'. destruct (str_eqb j k); reflexivity.
  - rewrite IH. destruct (str_eqb j k') eqn:E1, (str_eqb j k) eqn:E2; try reflexivity. apply str_eqb_eq in E1, E2. subst. rewrite str_eqb_refl in E. discriminate.
Qed.
Lemma first_keys_In l k : In k (first_keys l) <-> In k l.
Proof.
  induction l as [|a l IH]; cbn [first_keys In]; [tauto|]. rewrite filter_In, IH, negb_true_iff, str_eqb_neq. destruct (str_eq_dec a k) as [->|Hn]; [tauto|]. tauto.
Qed.
Lemma first_keys_nodup l : NoDup (first_keys l).
Proof.
  induction l as [|a l IH]; cbn [first_keys]; constructor; [|apply NoDup_filter; exact IH]. rewrite filter_In, str_eqb_refl. intros [_ Hx]. discriminate.
Qed.
Lemma first_keys_snoc l k : first_keys (l ++ [k]) = if mem_str k l then first_keys l else first_keys l ++ [k].
Proof.
  induction l as [|a l IH]; [reflexivity|]. cbn [app first_keys mem_str existsb]. rewrite IH. destruct (str_eqb k a) eqn:E; cbn [orb].
  - apply str_eqb_eq in E. subst a. unfold mem_str. destruct (existsb (str_eqb k) l); [reflexivity|]. rewrite filter_app. cbn [filter]. rewrite str_eqb_refl. cbn [negb]. rewrite app_nil_r. reflexivity.
  - unfold mem_str. destruct (existsb (str_eqb k) l); [reflexivity|]. rewrite filter_app. cbn [filter]. rewrite str_eqb_sym, E. reflexivity.
Qed.
Lemma built_update ms : built_from ms (dict_update [] ms).
Proof.
  unfold built_from. induction ms as [|[k v] ms IH] using rev_ind; [split; reflexivity|]. destruct IH as [IHk IHa]. unfold dict_update in *. rewrite fold_left_app. cbn [fold_left fst snd].
  split.
  - rewrite dict_set_keys, IHk, map_app. cbn [map fst]. rewrite first_keys_snoc.
    replace (mem_str k (first_keys (map fst ms))) with (mem_str k (map fst ms)); [reflexivity|]. apply eq_true_iff_eq. rewrite !mem_str_In, first_keys_In. tauto.
  - intros j. rewrite assoc_set, rev_app_distr. cbn [rev app assoc]. destruct (str_eqb j k); [reflexivity|apply IHa].
Qed.
Lemma assoc_ext (d e : fields) : NoDup (map fst d) -> map fst d = map fst e -> (forall k, assoc k d = assoc k e) -> d = e.
Proof.
  revert e. induction d as [|[k v] d IH]; intros [|[k' v'] e] Hn Hk Ha; try discriminate; [reflexivity|]. cbn [map fst] in *. injection Hk as -> Hk. inversion Hn as [|? ? Hi Hn']; subst.
  assert (Hv := Ha k'). cbn [assoc] in Hv. rewrite str_eqb_refl in Hv. injection Hv as ->. f_equal. apply IH; [exact Hn'|exact Hk|]. intros k. specialize (Ha k). cbn [assoc] in Ha. destruct (str_eqb k k') eqn:E; [|exact Ha].
  apply str_eqb_eq in E. subst k'. rewrite (proj2 (assoc_None k d)) by exact Hi. symmetry. apply assoc_None. rewrite <- Hk. exact Hi.
Qed.
Lemma built_unique ms d : built_from ms d -> d = dict_update [] ms.
Proof.
  intros [Hk Ha]. destruct (built_update ms) as [Hk' Ha']. apply assoc_ext; [rewrite Hk; apply first_keys_nodup|congruence|]. intros k. rewrite Ha, Ha'. reflexivity.
Qed.
Lemma built_nodup ms d : built_from ms d -> NoDup (map fst d).
Proof. intros [Hk _]. rewrite Hk. apply first_keys_nodup. Qed.
Lemma built_in ms d k x : built_from ms d -> In (k, x) d -> In (k, x) ms.
Proof.
  intros Hb Hi. assert (Hn := built_nodup _ _ Hb). destruct Hb as [_ Ha]. apply (In_assoc _ _ _ Hn) in Hi. rewrite Ha in Hi. apply assoc_In in Hi. apply in_rev in Hi. exact Hi.
Qed.

(** ** Literals *)
Lemma literal_value F n t v : In (t, v) literals -> value_text F n t v.
Proof. unfold literals. intros Hi. cbn [In] in Hi. repeat (destruct Hi as [Hi|Hi]; [injection Hi as <- <-; constructor|]). contradiction. Qed.
Lemma read_literal_sound l s v r : read_literal l s = Some (v, r) -> exists t, In (t, v) l /\ s = t ++ r.
Proof.
  induction l as [|[t x] l IH]; cbn [read_literal]; [discriminate|]. destruct (starts_with t s) eqn:Hs.
  - intros [= -> <-]. apply starts_with_iff in Hs as [r ->]. exists t. split; [left; reflexivity|]. rewrite skipn_app, skipn_all, Nat.sub_diag. reflexivity.
  - intros Hr. destruct (IH Hr) as (t' & Hi & Ht). exists t'. split; [right; exact Hi|exact Ht].
Qed.
Lemma read_literal_complete t v r : In (t, v) literals -> read_literal literals (t ++ r) = Some (v, r).
Proof. unfold literals. intros Hi. cbn [In] in Hi. repeat (destruct Hi as [Hi|Hi]; [injection Hi as <- <-; reflexivity|]). contradiction. Qed.

(** ** Soundness *)
Lemma read_sound F fuel : forall depth,
  (forall s v r, read_value F fuel depth s = Some (v, r) -> exists t, s = t ++ r /\ value_text F depth t v)
  /\ (forall s l r, read_items F fuel depth s = Some (l, r) -> exists t, s = t ++ 93%N :: r /\ items_text F depth t l)
  /\ (forall s d r, read_members F fuel depth s = Some (d, r) -> exists t, s = t ++ 125%N :: r /\ members_text F depth t d).
Proof.
  induction fuel as [|fuel IH]; intros depth; [split; [|split]; intros; discriminate|]. split; [|split]; intros s v r Hr; cbn [read_value read_items read_members] in Hr.
  - destruct s as [|c s]; [discriminate|]. destruct (N.eqb_spec c 34) as [->|Hq].
    { destruct (read_chars s) as [[x r']|] eqn:Hc; [|discriminate]. injection Hr as <- <-. apply (read_chars_sound (length s)) in Hc as (t & -> & Ht); [|lia].
      exists (34%N :: t ++ [34%N]). split; [cbn [app]; rewrite <- app_assoc; reflexivity|]. constructor. constructor. exact Ht. }
    destruct (N.eqb_spec c 91) as [->|Hb].
    { destruct depth as [|depth]; [discriminate|]. destruct (skip_sound s) as (w & Hw & Hs). destruct (skip_blanks s) as [|c1 r1] eqn:Hsk; [discriminate|]. destruct (N.eqb_spec c1 93) as [->|Hc1].
      - injection Hr as <- <-. exists (91%N :: w ++ [93%N]). split; [rewrite Hs; cbn [app]; rewrite <- app_assoc; reflexivity|]. constructor. exact Hw.
      - destruct (read_items F fuel depth (c1 :: r1)) as [[l r2]|] eqn:Hi; [|discriminate]. injection Hr as <- <-. apply (proj1 (proj2 (IH depth))) in Hi as (t & Ht & Hi).
        exists (91%N :: w ++ t ++ [93%N]). split; [rewrite Hs, Ht; cbn [app]; rewrite <- !app_assoc; reflexivity|]. constructor; assumption. }
    destruct (N.eqb_spec c 123) as [->|Hd].
    { destruct depth as [|depth]; [discriminate|]. destruct (skip_sound s) as (w & Hw & Hs). destruct (skip_blanks s) as [|c1 r1] eqn:Hsk; [discriminate|]. destruct (N.eqb_spec c1 125) as [->|Hc1].
      - injection Hr as <- <-. exists (123%N :: w ++ [125%N]). split; [rewrite Hs; cbn [app]; rewrite <- app_assoc; reflexivity|]. constructor. exact Hw.
      - destruct (read_members F fuel depth (c1 :: r1)) as [[l r2]|] eqn:Hi; [|discriminate]. injection Hr as <- <-. apply (proj2 (proj2 (IH depth))) in Hi as (t & Ht & Hi).
        exists (123%N :: w ++ t ++ [125%N]). split; [rewrite Hs, Ht; cbn [app]; rewrite <- !app_assoc; reflexivity|]. econstructor; [exact Hw|exact Hi|apply built_update]. }
    destruct (read_literal literals (c :: s)) as [[x r']|] eqn:Hl.
    { injection Hr as <- <-. apply read_literal_sound in Hl as (t & Hi & Ht). exists t. split; [exact Ht|]. apply literal_value. exact Hi. }
    destruct (N.eqb c 45 || ascii_digit c); [|discriminate]. destruct (numeral F (fst (span numchar (c :: s)))) as [x|] eqn:Hn; [|discriminate]. injection Hr as <- <-.
    exists (fst (span numchar (c :: s))). split; [symmetry; apply span_split|]. apply numeral_iff in Hn as [(z & -> & Hz)|(-> & Hf)]; constructor; assumption.
  - destruct (read_value F fuel depth s) as [[x r0]|] eqn:Hv; [|discriminate]. apply (proj1 (IH depth)) in Hv as (t & -> & Ht). destruct (skip_sound r0) as (w & Hw & Hs).
    destruct (skip_blanks r0) as [|c r1]; [discriminate|]. destruct (N.eqb_spec c 93) as [->|Hc].
    { injection Hr as <- <-. exists (t ++ w). split; [rewrite Hs, <- app_assoc; reflexivity|]. constructor; assumption. }
    destruct (N.eqb_spec c 44) as [->|]; [|discriminate]. destruct (skip_sound r1) as (w' & Hw' & Hs'). destruct (read_items F fuel depth (skip_blanks r1)) as [[l r2]|] eqn:Hi; [|discriminate].
    injection Hr as <- <-. apply (proj1 (proj2 (IH depth))) in Hi as (t' & Ht' & Hi). exists (t ++ w ++ 44%N :: w' ++ t'). split; [|constructor; assumption].
    rewrite Hs, Hs', Ht'. repeat (rewrite <- app_assoc; cbn [app]). reflexivity.
  - destruct s as [|q s]; [discriminate|]. destruct (N.eqb_spec q 34) as [->|]; [|discriminate]. destruct (read_chars s) as [[k r0]|] eqn:Hk; [|discriminate].
    apply (read_chars_sound (length s)) in Hk as (tk & -> & Hk); [|lia]. assert (Hkt : string_text (34%N :: tk ++ [34%N]) k) by (constructor; exact Hk).
    destruct (skip_sound r0) as (w1 & Hw1 & Hs1). destruct (skip_blanks r0) as [|c r1]; [discriminate|]. destruct (N.eqb_spec c 58) as [->|]; [|discriminate].
    destruct (skip_sound r1) as (w2 & Hw2 & Hs2). destruct (read_value F fuel depth (skip_blanks r1)) as [[x r3]|] eqn:Hv; [|discriminate]. apply (proj1 (IH depth)) in Hv as (t & Ht & Hv).
    destruct (skip_sound r3) as (w & Hw & Hs). destruct (skip_blanks r3) as [|c r4]; [discriminate|]. destruct (N.eqb_spec c 125) as [->|Hc].
    { injection Hr as <- <-. exists ((34%N :: tk ++ [34%N]) ++ w1 ++ 58%N :: w2 ++ t ++ w). split; [|constructor; assumption]. rewrite Hs1, Hs2, Ht, Hs. repeat (rewrite <- app_assoc; cbn [app]). reflexivity. }
    destruct (N.eqb_spec c 44) as [->|]; [|discriminate]. destruct (skip_sound r4) as (w' & Hw' & Hs'). destruct (read_members F fuel depth (skip_blanks r4)) as [[d r5]|] eqn:Hi; [|discriminate].
    injection Hr as <- <-. apply (proj2 (proj2 (IH depth))) in Hi as (t' & Ht' & Hi). exists ((34%N :: tk ++ [34%N]) ++ w1 ++ 58%N :: w2 ++ t ++ w ++ 44%N :: w' ++ t'). split; [|constructor; assumption].
    rewrite Hs1, Hs2, Ht, Hs, Hs', Ht'. repeat (rewrite <- app_assoc; cbn [app]). reflexivity.
Qed.

(** ** Completeness *)
(** How a value can start. *)
Definition opens (s : pystr) : Prop := exists c r, s = c :: r /\ blank c = false /\ c <> 93%N /\ c <> 125%N /\ c <> 44%N /\ c <> 58%N.
Lemma opens_number c r : is_digit c \/ (c = 45%N /\ exists d r', r = d :: r' /\ is_digit d) -> opens (c :: r).
Proof.
  intros Hc. exists c, r. split; [reflexivity|]. destruct Hc as [Hc|[-> _]]; [|repeat split; discriminate]. unfold blank, is_digit in *. rewrite !orb_false_iff, !N.eqb_neq. lia.
Qed.
Lemma value_opens F n t v : value_text F n t v -> opens t.
Proof.
  intros Hv. destruct Hv as [n|n|n|n|n|n|n t z Hz|n t Hf|n t s Hs|n w Hw|n w t l Hw Hi|n w Hw|n w t ms d Hw Hm Hb].
  all: try (eexists _, _; split; [reflexivity|]; repeat split; try reflexivity; discriminate).
  - destruct (number_first F t (VInt z)) as (c & r & -> & Hc); [left; exists z; auto|]. apply opens_number. exact Hc.
  - destruct (number_first F t (VFloat (f_value F t))) as (c & r & -> & Hc); [right; auto|]. apply opens_number. exact Hc.
  - destruct Hs. eexists _, _; split; [reflexivity|]; repeat split; try reflexivity; discriminate.
Qed.
Lemma opens_app s r : opens s -> opens (s ++ r).
Proof. intros (c & t & -> & Hc). exists c, (t ++ r). split; [reflexivity|exact Hc]. Qed.
Lemma opens_blank s : opens s -> starts_blank s = false.
Proof. intros (c & t & -> & Hc & _). exact Hc. Qed.
Lemma skip_opens w s : blanks w -> opens s -> skip_blanks (w ++ s) = s.
Proof. intros Hw Hs. apply skip_over; [exact Hw|apply opens_blank; exact Hs]. Qed.
Lemma items_open F n t l : items_text F n t l -> opens t.
Proof. intros Hi. destruct Hi as [n t v w Hv Hw|n t v w w' t' l Hv Hw Hw' Hi]; apply opens_app; eapply value_opens; exact Hv. Qed.
Lemma members_open F n t d : members_text F n t d -> opens t.
Proof.
  intros Hm. assert (Hs : forall tk k, string_text tk k -> opens tk) by (intros tk k Hs; destruct Hs; eexists _, _; split; [reflexivity|]; repeat split; try reflexivity; discriminate).
  destruct Hm; apply opens_app; eapply Hs; eassumption.
Qed.
Definition stops (r : pystr) : Prop := starts_with_p numchar r = false.
Definition number (v : pv) : bool := match v with VInt _ | VFloat _ => true | _ => false end.
Lemma stops_blanks w r : blanks w -> stops r -> stops (w ++ r).
Proof.
  intros Hw Hr. destruct w as [|c w]; [exact Hr|]. unfold stops. cbn [app starts_with_p]. destruct (Hw c (or_introl eq_refl)) as [->|[->|[->| ->]]]; reflexivity.
Qed.

Scheme value_text_mind := Induction for value_text Sort Prop with items_text_mind := Induction for items_text Sort Prop with members_text_mind := Induction for members_text Sort Prop.
Combined Scheme text_mutind from value_text_mind, items_text_mind, members_text_mind.

Lemma read_number F fuel n t v r : number_text F t v -> stops r -> fuel <> 0 -> read_value F fuel n (t ++ r) = Some (v, r).
Proof.
  intros Hn Hr Hf. destruct fuel as [|fuel]; [congruence|]. assert (Hnum := proj2 (numeral_iff F t v) Hn). assert (Hsp := span_app numchar t r (number_chars F t v Hn) Hr).
  destruct (number_first F t v Hn) as (c & r' & -> & Hc). cbn [app read_value]. cbn [app] in Hsp. 
  assert (Hl : read_literal literals (c :: r' ++ r) = None /\ N.eqb c 34 = false /\ N.eqb c 91 = false /\ N.eqb c 123 = false /\ N.eqb c 45 || ascii_digit c = true).
  { destruct Hc as [Hc|[-> (d & r2 & -> & Hd)]].
    - assert (Hne : forall x, ~ is_digit x -> N.eqb x c = false) by (intros x Hx; apply N.eqb_neq; intros ->; contradiction).
      unfold literals, read_literal, starts_with, u, N_of_ascii, N_of_digits.
      split; [|repeat split; try (rewrite N.eqb_sym; apply Hne; unfold is_digit; lia); apply digit_iff in Hc; rewrite Hc; apply orb_true_r].
      cbn -[N.eqb]. rewrite !Hne by (unfold is_digit; lia). reflexivity.
    - assert (Hne : N.eqb 73 d = false) by (apply N.eqb_neq; unfold is_digit in Hd; lia).
      split; [|repeat split]. cbn -[N.eqb]. cbn [app]. rewrite Hne. reflexivity. }
  destruct Hl as (Hl & H1 & H2 & H3 & H4). rewrite H1, H2, H3. rewrite Hl. rewrite H4, Hsp. cbn [fst snd]. rewrite Hnum. reflexivity.
Qed.
Lemma read_lit F fuel n t v r : In (t, v) literals -> fuel <> 0 -> read_value F fuel n (t ++ r) = Some (v, r).
Proof.
  intros Hi Hf. destruct fuel as [|fuel]; [congruence|]. assert (Hl := read_literal_complete t v r Hi).
  assert (Ho : exists c t', t = c :: t' /\ N.eqb c 34 = false /\ N.eqb c 91 = false /\ N.eqb c 123 = false).
  { unfold literals in Hi. cbn [In] in Hi. repeat (destruct Hi as [Hi|Hi]; [injection Hi as <- <-; eexists _, _; repeat split|]). contradiction. }
  destruct Ho as (c & t' & -> & H1 & H2 & H3). cbn [app read_value]. cbn [app] in Hl. rewrite H1, H2, H3, Hl. reflexivity.
Qed.
Ltac lens := cbn [length] in *; repeat (rewrite app_length in *; cbn [length] in *); lia.
Lemma read_complete F :
  (forall n t v, value_text F n t v -> forall fuel r, 2 * length t + 1 <= fuel -> (number v = true -> stops r) -> read_value F fuel n (t ++ r) = Some (v, r))
  /\ (forall n t l, items_text F n t l -> forall fuel r, 2 * length t + 2 <= fuel -> read_items F fuel n (t ++ 93%N :: r) = Some (l, r))
  /\ (forall n t d, members_text F n t d -> forall fuel r, 2 * length t + 2 <= fuel -> read_members F fuel n (t ++ 125%N :: r) = Some (d, r)).
Proof.
  apply text_mutind.
  1-6: intros n fuel r Hf _; apply read_lit; [unfold literals; cbn [In]; tauto|lia].
  - intros n t z Hz fuel r Hf Hr. apply read_number; [left; exists z; auto|apply Hr; reflexivity|lia].
  - intros n t Hz fuel r Hf Hr. apply read_number; [right; auto|apply Hr; reflexivity|lia].
  - intros n t s Hs fuel r Hf _. destruct Hs as [t s Hs]. destruct fuel as [|fuel]; [lia|]. cbn [app read_value]. change (N.eqb 34 34) with true. cbv iota. rewrite <- app_assoc. cbn [app].
    rewrite (read_chars_complete _ _ _ Hs). reflexivity.
  - intros n w Hw fuel r Hf _. destruct fuel as [|fuel]; [lia|]. cbn [app read_value]. change (N.eqb 91 34) with false. change (N.eqb 91 91) with true. cbv iota. rewrite <- app_assoc. cbn [app].
    rewrite skip_over by (exact Hw || reflexivity). reflexivity.
  - intros n w t l Hw Hi IH fuel r Hf _. destruct fuel as [|fuel]; [lia|]. cbn [app read_value]. change (N.eqb 91 34) with false. change (N.eqb 91 91) with true. cbv iota. rewrite <- !app_assoc. cbn [app].
    assert (Ho := items_open _ _ _ _ Hi). rewrite skip_opens by (exact Hw || (apply opens_app; exact Ho)).
    assert (Hrd := IH fuel r ltac:(lens)). destruct Ho as (c & t' & -> & _ & Hc & _). cbn [app] in *. apply N.eqb_neq in Hc. rewrite Hc, Hrd. reflexivity.
  - intros n w Hw fuel r Hf _. destruct fuel as [|fuel]; [lia|]. cbn [app read_value]. change (N.eqb 123 34) with false. change (N.eqb 123 91) with false. change (N.eqb 123 123) with true. cbv iota. rewrite <- app_assoc. cbn [app].
    rewrite skip_over by (exact Hw || reflexivity). reflexivity.
  - intros n w t ms d Hw Hi IH Hb fuel r Hf _. destruct fuel as [|fuel]; [lia|]. cbn [app read_value]. change (N.eqb 123 34) with false. change (N.eqb 123 91) with false. change (N.eqb 123 123) with true. cbv iota. rewrite <- !app_assoc. cbn [app].
    assert (Ho := members_open _ _ _ _ Hi). rewrite skip_opens by (exact Hw || (apply opens_app; exact Ho)).
    assert (Hrd := IH fuel r ltac:(lens)). destruct Ho as (c & t' & -> & _ & _ & Hc & _). cbn [app] in *. apply N.eqb_neq in Hc. rewrite Hc, Hrd, (built_unique _ _ Hb). reflexivity.
  - intros n t v w Hv IH Hw fuel r Hf. destruct fuel as [|fuel]; [lia|]. cbn [read_items]. rewrite <- app_assoc. rewrite IH; [|lens|intros _; apply stops_blanks; [exact Hw|reflexivity]].
    rewrite skip_over by (exact Hw || reflexivity). reflexivity.
  - intros n t v w w' t' l Hv IHv Hw Hw' Hi IHi fuel r Hf. destruct fuel as [|fuel]; [lia|]. cbn [read_items]. rewrite <- !app_assoc. cbn [app].
    rewrite IHv; [|lens|intros _; apply stops_blanks; [exact Hw|reflexivity]].
    rewrite skip_over by (exact Hw || reflexivity). change (N.eqb 44 93) with false. change (N.eqb 44 44) with true. cbv iota.
    rewrite <- app_assoc, skip_opens by (exact Hw' || (apply opens_app; eapply items_open; exact Hi)). rewrite IHi by lens. reflexivity.
  - intros n tk k w1 w2 t v w Hk Hw1 Hw2 Hv IH Hw fuel r Hf. destruct fuel as [|fuel]; [lia|]. destruct Hk as [tk k Hk]. cbn [read_members app]. change (N.eqb 34 34) with true. cbv iota.
    repeat (rewrite <- app_assoc; cbn [app]). rewrite (read_chars_complete _ _ _ Hk). rewrite skip_over by (exact Hw1 || reflexivity). change (N.eqb 58 58) with true. cbv iota.
    repeat (rewrite <- app_assoc; cbn [app]). rewrite skip_opens by (exact Hw2 || (apply opens_app; eapply value_opens; exact Hv)).
    rewrite IH; [|lens|intros _; apply stops_blanks; [exact Hw|reflexivity]]. rewrite skip_over by (exact Hw || reflexivity). reflexivity.
  - intros n tk k w1 w2 t v w w' t' d Hk Hw1 Hw2 Hv IHv Hw Hw' Hm IHm fuel r Hf. destruct fuel as [|fuel]; [lia|]. destruct Hk as [tk k Hk]. cbn [read_members app]. change (N.eqb 34 34) with true. cbv iota.
    repeat (rewrite <- app_assoc; cbn [app]). rewrite (read_chars_complete _ _ _ Hk). rewrite skip_over by (exact Hw1 || reflexivity). change (N.eqb 58 58) with true. cbv iota.
    repeat (rewrite <- app_assoc; cbn [app]). rewrite skip_opens by (exact Hw2 || (apply opens_app; eapply value_opens; exact Hv)).
    rewrite IHv; [|lens|intros _; apply stops_blanks; [exact Hw|reflexivity]]. rewrite skip_over by (exact Hw || reflexivity). change (N.eqb 44 125) with false. change (N.eqb 44 44) with true. cbv iota.
    rewrite skip_opens by (exact Hw' || (apply opens_app; eapply members_open; exact Hm)). rewrite IHm by lens. reflexivity.
Qed.
Lemma read_iff F n s v : read F n s = Some v <-> json_text F n s v.
Proof.
  unfold read. split.
  - destruct (read_value F (2 * length s + 2) n (skip_blanks s)) as [[x r]|] eqn:Hr; [|discriminate]. destruct (skip_blanks r) eqn:Hsk; [|discriminate]. intros [= <-].
    apply (proj1 (read_sound F _ n)) in Hr as (t & Ht & Hv). destruct (skip_sound s) as (w & Hw & Hs). destruct (skip_sound r) as (w' & Hw' & Hs'). rewrite Hsk, app_nil_r in Hs'. rewrite Hs, Ht, Hs'. constructor; assumption.
  - intros [w t w' v' Hw Hw' Hv]. rewrite skip_opens by (exact Hw || (apply opens_app; eapply value_opens; exact Hv)).
    rewrite (proj1 (read_complete F) n t v' Hv) by (lens || (intros _; rewrite <- (app_nil_r w'); apply stops_blanks; [exact Hw'|reflexivity])). rewrite (skip_all _ Hw'). reflexivity.
Qed.
