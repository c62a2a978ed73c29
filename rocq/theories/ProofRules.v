(** The custom rules decide their specifications. *)
From Verif Require Import PyStr Regex Value Types Rules Pydantic ClassTable SpecParse.
From Coq Require Import ZifyBool ZifyN.

Lemma forallb_Forall {X} (p : X -> bool) (P : X -> Prop) l : (forall x, p x = true <-> P x) ->
  forallb p l = true <-> Forall P l.
Proof.
  intros H. rewrite forallb_forall, Forall_forall. split; intros Hl x Hin; apply H; apply Hl; exact Hin.
Qed.
Lemma ascii_alpha_iff c : ascii_alpha c = true <-> letter c.
Proof. unfold ascii_alpha, ascii_upper, ascii_lower, letter. lia. Qed.
Lemma ascii_digit_iff c : ascii_digit c = true <-> digit09 c.
Proof. unfold ascii_digit, digit09. lia. Qed.

Lemma py_full_upto r P s : (forall w, lang r w <-> P w) -> py_full r s = true <-> upto_nl P s.
Proof.
  intros H. rewrite py_full_iff. unfold upto_nl. split; intros (w & Hw & Hs); exists w; (split; [apply H; exact Hw|exact Hs]).
Qed.

Lemma patterned_key_iff k : patterned_key_ok k = true <-> upto_nl doc_key k.
Proof.
  apply py_full_upto. intros w. unfold key_rx. rewrite lang_plus_chr. unfold doc_key.
  rewrite (forallb_Forall key_char (fun c => letter c \/ digit09 c \/ c = 45%N \/ c = 95%N)); [tauto|].
  intros c. unfold key_char. rewrite !orb_true_iff, ascii_alpha_iff, ascii_digit_iff, !N.eqb_eq. tauto.
Qed.

Lemma ext_key_iff E k : ext_key_ok E k = true <-> upto_nl (extension_key E) k.
Proof.
  apply py_full_upto. intros w. unfold ext_rx, extension_key. rewrite lang_seq. split.
  - intros (a & t & -> & Ha & Ht). apply lang_char in Ha. apply lang_seq in Ht as (b & w & -> & Hb & Hw).
    apply lang_char in Hb. subst. apply lang_plus_chr in Hw as [Hne Hw]. exists w. split; [reflexivity|]. split; [exact Hne|].
    revert Hw. apply forallb_Forall. intros c. unfold ext_char. rewrite !orb_true_iff, !N.eqb_eq. tauto.
  - intros (t & -> & Hne & Hw). exists [120%N], (45%N :: t). split; [reflexivity|]. split; [apply lang_char; reflexivity|].
    apply lang_seq. exists [45%N], t. split; [reflexivity|]. split; [apply lang_char; reflexivity|].
    apply lang_plus_chr. split; [exact Hne|]. revert Hw. apply forallb_Forall. intros c.
    unfold ext_char. rewrite !orb_true_iff, !N.eqb_eq. tauto.
Qed.

(** ** e-mail *)
Lemma email_rx_iff w : lang email_rx w <-> email_shape w.
Proof.
  unfold email_rx, email_shape. split.
  - intros H. apply lang_seq in H as (loc & t1 & -> & Hl & H). apply lang_seq in H as (at1 & t2 & -> & Ha & H).
    apply lang_seq in H as (dom & t3 & -> & Hd & H). apply lang_seq in H as (dot & tld & -> & Hdot & H).
    apply lang_seq in H as (c1 & c2 & -> & Hc1 & Hc2).
    apply lang_char in Ha, Hdot. subst. apply lang_chr in Hc1 as (x & -> & Hx).
    apply lang_plus_chr in Hl as [Hl1 Hl2], Hd as [Hd1 Hd2], Hc2 as [Hc1 Hc2].
    exists loc, dom, ([x] ++ c2). split; [reflexivity|]. split; [exact Hl1|]. split.
    { revert Hl2. apply forallb_Forall. intros c. unfold email_local. simpl.
      rewrite !orb_true_iff, ascii_alpha_iff, ascii_digit_iff, !N.eqb_eq.
      split; intuition (subst; auto). }
    split; [exact Hd1|]. split.
    { revert Hd2. apply forallb_Forall. intros c. unfold email_dom. simpl.
      rewrite !orb_true_iff, ascii_alpha_iff, ascii_digit_iff, !N.eqb_eq.
      split; intuition (subst; auto). }
    split.
    { destruct c2; [contradiction|]. simpl. lia. }
    constructor; [apply ascii_alpha_iff; exact Hx|]. revert Hc2. apply forallb_Forall. apply ascii_alpha_iff.
  - intros (loc & dom & tld & -> & Hl1 & Hl2 & Hd1 & Hd2 & Hlen & Htld).
    destruct tld as [|x tld]; [simpl in Hlen; lia|]. inversion Htld; subst.
    apply lang_seq. exists loc, (u "@" ++ dom ++ u "." ++ x :: tld). split; [reflexivity|]. split.
    { apply lang_plus_chr. split; [exact Hl1|]. revert Hl2. apply forallb_Forall. intros c. unfold email_local. simpl.
      rewrite !orb_true_iff, ascii_alpha_iff, ascii_digit_iff, !N.eqb_eq. split; intuition (subst; auto). }
    apply lang_seq. exists (u "@"), (dom ++ u "." ++ x :: tld). split; [reflexivity|]. split; [apply lang_char; reflexivity|].
    apply lang_seq. exists dom, (u "." ++ x :: tld). split; [reflexivity|]. split.
    { apply lang_plus_chr. split; [exact Hd1|]. revert Hd2. apply forallb_Forall. intros c. unfold email_dom. simpl.
      rewrite !orb_true_iff, ascii_alpha_iff, ascii_digit_iff, !N.eqb_eq. split; intuition (subst; auto). }
    apply lang_seq. exists (u "."), (x :: tld). split; [reflexivity|]. split; [apply lang_char; reflexivity|].
    apply lang_seq. exists [x], tld. split; [reflexivity|]. split; [constructor; apply ascii_alpha_iff; assumption|].
    apply lang_plus_chr. split; [destruct tld; [simpl in Hlen; lia|discriminate]|].
    match goal with H : Forall letter tld |- _ => revert H end. apply forallb_Forall. apply ascii_alpha_iff.
Qed.

Lemma email_shape_no_nl w : email_shape w -> ~ In 10%N w.
Proof.
  intros (loc & dom & tld & -> & _ & Hl & _ & Hd & _ & Ht) Hin.
  rewrite Forall_forall in Hl, Hd, Ht.
  apply in_app_or in Hin as [H|Hin]; [|apply in_app_or in Hin as [H|Hin]; [|apply in_app_or in Hin as [H|Hin];
    [|apply in_app_or in Hin as [H|H]]]].
  - apply Hl in H. unfold letter, digit09 in H. simpl in H. lia.
  - simpl in H. lia.
  - apply Hd in H. unfold letter, digit09 in H. simpl in H. lia.
  - simpl in H. lia.
  - apply Ht in H. unfold letter in H. lia.
Qed.

Lemma dotdot_iff s : rmatch dotdot_rx s = true <-> exists a b, s = a ++ u ".." ++ b /\ ~ In 10%N a.
Proof.
  unfold dotdot_rx. rewrite rmatch_lang, lang_seq. split.
  - intros (a & t & -> & Ha & H). apply lang_seq in H as (d1 & t1 & -> & H1 & H). apply lang_seq in H as (d2 & b & -> & H2 & _).
    apply lang_char in H1, H2. subst. exists a, b. split; [reflexivity|].
    apply lang_star_chr in Ha. intros Hin. rewrite forallb_forall in Ha. apply Ha in Hin. discriminate.
  - intros (a & b & -> & Hn). exists a, (u ".." ++ b). split; [reflexivity|]. split.
    + apply lang_star_chr. rewrite forallb_forall. intros c Hin. apply negb_true_iff. apply N.eqb_neq. intros ->. contradiction.
    + apply lang_seq. exists (u "."), (u "." ++ b). split; [reflexivity|]. split; [apply lang_char; reflexivity|].
      apply lang_seq. exists (u "."), b. split; [reflexivity|]. split; [apply lang_char; reflexivity|apply lang_star_any].
Qed.

Lemma email_ok_iff s : email_ok s = true <-> email_spec s.
Proof.
  unfold email_ok, email_spec. rewrite andb_true_iff, (py_full_upto email_rx email_shape) by apply email_rx_iff.
  rewrite negb_true_iff. split.
  - intros [Hd Hs]. split; [exact Hs|]. intros (a & b & Heq).
    assert (rmatch dotdot_rx s = true) as Ht; [|congruence]. apply dotdot_iff. exists a, b. split; [exact Heq|].
    destruct Hs as (w & Hw & [->| ->]); apply email_shape_no_nl in Hw; intros Hin; apply Hw.
    + rewrite Heq. apply in_or_app; left; exact Hin.
    + destruct b as [|x b] using rev_ind.
      * assert (Hl : w ++ nl = (a ++ [46%N]) ++ [46%N]) by (rewrite Heq, <- app_assoc; reflexivity).
        apply app_inj_tail in Hl as [_ Hl]. discriminate.
      * assert (Hl : w ++ nl = (a ++ u ".." ++ b) ++ [x]) by (rewrite Heq, <- !app_assoc; reflexivity).
        apply app_inj_tail in Hl as [-> _]. apply in_or_app; left; exact Hin.
  - intros [Hs Hn]. split; [|exact Hs]. destruct (rmatch dotdot_rx s) eqn:E; [|reflexivity].
    exfalso. apply Hn. apply dotdot_iff in E as (a & b & -> & _). exists a, b. reflexivity.
Qed.

(** ** version *)
Lemma split_go_no_sep sep a : forall cur, ~ In sep a -> split_go sep cur a = [rev cur ++ a].
Proof.
  induction a as [|c a IH]; intros cur Hn; simpl; [rewrite app_nil_r; reflexivity|].
  destruct (N.eqb c sep) eqn:E.
  - apply N.eqb_eq in E; subst. exfalso; apply Hn; left; reflexivity.
  - rewrite IH by (intros H; apply Hn; right; exact H). simpl. rewrite <- app_assoc. reflexivity.
Qed.
Lemma split_go_app sep a r : forall cur, ~ In sep a -> split_go sep cur (a ++ sep :: r) = (rev cur ++ a) :: split_go sep [] r.
Proof.
  induction a as [|c a IH]; intros cur Hn; simpl.
  - rewrite N.eqb_refl, app_nil_r. reflexivity.
  - destruct (N.eqb c sep) eqn:E.
    + apply N.eqb_eq in E; subst. exfalso; apply Hn; left; reflexivity.
    + rewrite IH by (intros H; apply Hn; right; exact H). simpl. rewrite <- app_assoc. reflexivity.
Qed.
Lemma split_app sep a r : ~ In sep a -> split sep (a ++ sep :: r) = a :: split sep r.
Proof. intros H. unfold split. rewrite split_go_app by exact H. reflexivity. Qed.

Lemma digit_val_lt E c d : digit_val E c = Some d -> (d < 10)%N.
Proof.
  unfold digit_val. destruct (N.ltb c 128).
  - destruct (ascii_digit c) eqn:Ha; [|discriminate]. apply ascii_digit_iff in Ha. unfold digit09 in Ha.
    intros H; inversion H; lia.
  - destruct (e_digit E c) as [x|]; [|discriminate]. destruct (N.ltb x 10) eqn:Hx; [|discriminate].
    intros H; inversion H; subst. lia.
Qed.
Lemma digits_no_dot E a : Forall (fun c => is_digit E c = true) a -> ~ In 46%N a.
Proof. intros H Hin. rewrite Forall_forall in H. apply H in Hin. discriminate. Qed.
Lemma int_value_snoc E zs d : int_value E (zs ++ [d]) = (int_value E zs * 10 + dval E d)%N.
Proof. unfold int_value. rewrite fold_left_app. reflexivity. Qed.
Lemma int_value_zero E zs : Forall (fun c => is_digit E c = true) zs ->
  int_value E zs = 0%N <-> Forall (fun z => digit_val E z = Some 0%N) zs.
Proof.
  induction zs as [|d zs IH] using rev_ind; intros H; [split; [constructor|reflexivity]|].
  apply Forall_app in H as [H1 H2]. inversion H2 as [|? ? Hd _]; subst. rewrite int_value_snoc.
  unfold is_digit in Hd. unfold dval. destruct (digit_val E d) as [x|] eqn:Ed; [|discriminate].
  rewrite Forall_app. split.
  - intros Hz. assert (int_value E zs = 0%N /\ x = 0%N) as [Hz1 ->] by lia. split; [apply IH; assumption|].
    constructor; [exact Ed|constructor].
  - intros [Hz1 Hz2]. inversion Hz2; subst. apply IH in Hz1; [|exact H1]. assert (x = 0%N) by congruence. lia.
Qed.
Lemma int_value_3 E a : digits E a -> int_value E a = 3%N <-> denotes3 E a.
Proof.
  intros [Hne H]. destruct a as [|d zs _] using rev_ind; [contradiction|]. clear Hne.
  apply Forall_app in H as [H1 H2]. inversion H2 as [|? ? Hd _]; subst. rewrite int_value_snoc.
  unfold is_digit in Hd. unfold dval. destruct (digit_val E d) as [x|] eqn:Ed; [|discriminate].
  assert (Hlt := digit_val_lt _ _ _ Ed). split.
  - intros Hv. assert (int_value E zs = 0%N /\ x = 3%N) as [Hz ->] by lia.
    exists zs, d. split; [reflexivity|]. split; [apply int_value_zero; assumption|exact Ed].
  - intros (zs' & d' & Heq & Hz & Hd'). apply app_inj_tail in Heq as [-> ->]. rewrite Hd' in Ed. inversion Ed; subst.
    apply int_value_zero in Hz; [|exact H1]. lia.
Qed.

Lemma lang_digits E w : lang (RPlus (RChr (is_digit E))) w <-> digits E w.
Proof.
  rewrite lang_plus_chr. unfold digits. rewrite (forallb_Forall (is_digit E) (fun c => is_digit E c = true)); [tauto|].
  intros; tauto.
Qed.
Lemma version_rx_iff E w : lang (version_rx E) w <-> exists major, version_shape E major w.
Proof.
  unfold version_rx, version_shape. split.
  - intros H. apply lang_seq in H as (a & t1 & -> & Ha & H). apply lang_seq in H as (d1 & t2 & -> & Hd1 & H).
    apply lang_seq in H as (b & t3 & -> & Hb & H). apply lang_seq in H as (d2 & t4 & -> & Hd2 & H).
    apply lang_seq in H as (p & suf & -> & Hp & H).
    apply lang_char in Hd1, Hd2. subst. apply lang_digits in Ha, Hb, Hp.
    exists a, b, p, suf. split; [reflexivity|]. split; [exact Ha|]. split; [exact Hb|]. split; [exact Hp|].
    apply lang_opt in H as [->|H]; [left; reflexivity|]. right.
    apply lang_seq in H as (h & w & -> & Hh & Hw). apply lang_char in Hh. subst. exists w. split; [reflexivity|].
    apply lang_plus_chr in Hw as [Hne Hw]. split; [exact Hne|]. revert Hw. apply forallb_Forall. intros c.
    unfold suffix_char. rewrite !orb_true_iff, !N.eqb_eq. tauto.
  - intros (a & b & p & suf & -> & Ha & Hb & Hp & Hs).
    apply lang_seq. exists a, (u "." ++ b ++ u "." ++ p ++ suf). split; [reflexivity|]. split; [apply lang_digits; exact Ha|].
    apply lang_seq. exists (u "."), (b ++ u "." ++ p ++ suf). split; [reflexivity|]. split; [apply lang_char; reflexivity|].
    apply lang_seq. exists b, (u "." ++ p ++ suf). split; [reflexivity|]. split; [apply lang_digits; exact Hb|].
    apply lang_seq. exists (u "."), (p ++ suf). split; [reflexivity|]. split; [apply lang_char; reflexivity|].
    apply lang_seq. exists p, suf. split; [reflexivity|]. split; [apply lang_digits; exact Hp|].
    apply lang_opt. destruct Hs as [->|(w & -> & Hne & Hw)]; [left; reflexivity|right].
    apply lang_seq. exists (u "-"), w. split; [reflexivity|]. split; [apply lang_char; reflexivity|].
    apply lang_plus_chr. split; [exact Hne|]. revert Hw. apply forallb_Forall. intros c.
    unfold suffix_char. rewrite !orb_true_iff, !N.eqb_eq. tauto.
Qed.
Lemma version_shape_split E major s : upto_nl (version_shape E major) s ->
  digits E major /\ exists r, split 46 s = major :: r.
Proof.
  intros (w & (minor & patch & suf & -> & Ha & _) & Hs). split; [exact Ha|]. destruct Ha as [_ Ha].
  apply digits_no_dot in Ha. destruct Hs as [->| ->].
  - change (major ++ u "." ++ minor ++ u "." ++ patch ++ suf) with (major ++ 46%N :: (minor ++ u "." ++ patch ++ suf)).
    rewrite split_app by exact Ha. eauto.
  - rewrite <- app_assoc. change ((u "." ++ minor ++ u "." ++ patch ++ suf) ++ nl) with (46%N :: ((minor ++ u "." ++ patch ++ suf) ++ nl)).
    rewrite split_app by exact Ha. eauto.
Qed.
Lemma version_ok_iff E s : version_ok E s = true <-> version_spec E s.
Proof.
  unfold version_ok. rewrite andb_true_iff, (py_full_upto (version_rx E) (fun w => exists major, version_shape E major w))
    by apply version_rx_iff.
  unfold version_spec. split.
  - intros [(w & (major & Hsh) & Hs) Hm]. exists major.
    assert (Hu : upto_nl (version_shape E major) s) by (exists w; auto). split; [exact Hu|].
    destruct (version_shape_split _ _ _ Hu) as [Hd [r Hr]]. rewrite Hr in Hm.
    unfold py_int_digits in Hm. destruct (N.leb _ 4300) eqn:El; [|discriminate].
    apply N.eqb_eq in Hm. split; [apply int_value_3; assumption|lia].
  - intros (major & Hu & H3 & Hl). split.
    + destruct Hu as (w & Hw & Hs). exists w. split; [exists major; exact Hw|exact Hs].
    + destruct (version_shape_split _ _ _ Hu) as [Hd [r Hr]]. rewrite Hr. unfold py_int_digits.
      apply N.leb_le in Hl. rewrite Hl. apply N.eqb_eq. apply int_value_3; assumption.
Qed.

(** ** one-field rules *)
Lemma fv_check_iff E f v : fv_check E f v = true <-> field_rule E f v.
Proof.
  destruct f; cbn [fv_check field_rule].
  - tauto.
  - destruct v; try (split; [discriminate|intros (s0 & H & _); discriminate]).
    rewrite version_ok_iff. split; [eauto|intros (s0 & H & Hs); inversion H; subst; exact Hs].
  - destruct v; try (split; [discriminate|intros (s0 & H); discriminate]).
    rewrite starts_with_iff. split; intros [t Ht]; exists t; [subst; reflexivity|inversion Ht; reflexivity].
  - destruct v; try (split; [intros _ z H; discriminate|reflexivity]).
    split; [intros H z0 Heq; inversion Heq; subst; lia|intros H; specialize (H z eq_refl); lia].
  - destruct v; try (split; [intros _ z H; discriminate|reflexivity]).
    split; [intros H z0 Heq; inversion Heq; subst; lia|intros H; specialize (H z eq_refl); lia].
  - destruct v; try (split; [intros _ z H; discriminate|reflexivity]).
    split; [intros H z0 Heq; inversion Heq; subst; lia|intros H; specialize (H z eq_refl); lia].
  - destruct v; try (split; [intros _ z H; discriminate|reflexivity]).
    split; [intros H z0 Heq; inversion Heq; subst; lia|intros H; specialize (H z eq_refl); lia].
  - destruct v; try (split; [intros _ z H; discriminate|reflexivity]).
    split; [intros H z0 Heq; inversion Heq; subst; lia|intros H; specialize (H z eq_refl); lia].
Qed.

(** ** cross-field rules *)
Lemma is_none_spec v : reflect (v = VNone) (is_none v).
Proof. destruct v; simpl; constructor; congruence. Qed.
Lemma is_str_spec s v : reflect (v = VStr s) (is_str s v).
Proof. apply iff_reflect. symmetry. apply is_str_iff. Qed.
Lemma one_of_iff l v : one_of l v = true <-> In v (map S_ l).
Proof.
  unfold one_of. rewrite existsb_exists, in_map_iff. split; intros (x & H1 & H2).
  - exists x. split; [symmetry; apply is_str_iff; exact H2|exact H1].
  - exists x. split; [exact H2|]. apply is_str_iff. symmetry. exact H1.
Qed.
Lemma sub_attr_get f o : sub_attr f o = get_in f o.
Proof. destruct o; reflexivity. Qed.

Lemma channel_rule_iff fs : channel_rule fs = true <-> channel_spec fs.
Proof.
  unfold channel_rule, channel_spec, at_, get, present.
  destruct (is_none_spec (attr (u "parameters") fs)) as [H|H]; [tauto|].
  assert (Hs : forall a, py_search addr_expr_rx a = true <-> has_address_expression a).
  { intros a. rewrite py_search_iff. unfold has_address_expression. split.
    - intros (pre & m & post & -> & Hm). apply lang_seq in Hm as (o & t & -> & Ho & Hm).
      apply lang_seq in Hm as (name & cl & -> & Hn & Hc). apply lang_char in Ho, Hc. subst.
      apply lang_plus_chr in Hn as [Hne Hn]. exists pre, name, post. split; [rewrite <- !app_assoc; reflexivity|].
      split; [exact Hne|]. intros Hin. rewrite forallb_forall in Hn. apply Hn in Hin. discriminate.
    - intros (pre & name & post & -> & Hne & Hn). exists pre, (u "{" ++ name ++ u "}"), post.
      split; [rewrite <- !app_assoc; reflexivity|].
      apply lang_seq. exists (u "{"), (name ++ u "}"). split; [reflexivity|]. split; [apply lang_char; reflexivity|].
      apply lang_seq. exists name, (u "}"). split; [reflexivity|]. split; [|apply lang_char; reflexivity].
      apply lang_plus_chr. split; [exact Hne|]. apply forallb_forall. intros c Hin. apply negb_true_iff, N.eqb_neq.
      intros ->. contradiction. }
  destruct (attr (u "address") fs) eqn:Ea; try (split; [discriminate|intros Hx; destruct (Hx H) as (a & Ha & _); discriminate]).
  rewrite Hs. split; [intros Hx _; eauto|intros Hx; destruct (Hx H) as (a & Ha & Hh); inversion Ha; subst; exact Hh].
Qed.

Lemma ne_list v l : In v (map S_ l) -> v <> VNone.
Proof. intros H ->. apply in_map_iff in H as (x & H & _). discriminate. Qed.

Ltac rules :=
  unfold at_, get, present, notnone, one_of in *; rewrite ?sub_attr_get in *;
  repeat (rewrite ?andb_true_iff, ?orb_true_iff, ?negb_true_iff, ?andb_false_iff, ?orb_false_iff, ?negb_false_iff in *);
  repeat match goal with
  | |- context [is_none ?v] => destruct (is_none_spec v)
  | |- context [is_str ?s ?v] => destruct (is_str_spec s v)
  end.

Lemma message_example_iff fs : message_example_rule fs = true <-> example_spec fs.
Proof. unfold message_example_rule, example_spec. rules; simpl; intuition congruence. Qed.
Lemma oauth_flows_iff fs : oauth_flows_rule fs = true <-> oauth_flows_spec fs.
Proof.
  unfold oauth_flows_rule, implicit_rule, password_rule, client_credentials_rule, authorization_code_rule, oauth_flows_spec.
  rewrite !andb_true_iff.
  assert (H1 : forall a b, negb (notnone a && is_none b) = true <-> (present a -> present b)).
  { intros a b. unfold notnone, present. destruct (is_none_spec a), (is_none_spec b); simpl; intuition congruence. }
  assert (H2 : forall a b c, (if notnone a then negb (is_none b) && negb (is_none c) else true) = true
                              <-> (present a -> present b /\ present c)).
  { intros a b c. unfold notnone, present. destruct (is_none_spec a), (is_none_spec b), (is_none_spec c); simpl; intuition congruence. }
  rewrite !H1, H2, !sub_attr_get. unfold at_, get. tauto.
Qed.
Lemma security_iff fs : security_scheme_rule fs = true <-> security_spec fs.
Proof.
  unfold security_scheme_rule, security_spec. rewrite !andb_true_iff.
  assert (H1 : api_key_rule fs = true <-> (get "type_" fs = S_ "apiKey" -> In (get "in_" fs) [S_ "user"; S_ "password"])).
  { unfold api_key_rule. change (at_ "type_" fs) with (get "type_" fs). change (at_ "in_" fs) with (get "in_" fs).
    destruct (is_str_spec (u "apiKey") (get "type_" fs)) as [E|E]; [|split; [intros _ H; contradiction|reflexivity]].
    rewrite andb_true_iff, one_of_iff. split; [intros [_ H] _; exact H|].
    intros H; specialize (H E). split; [|exact H]. apply (ne_list _ ["user"; "password"]%string) in H.
    destruct (is_none_spec (get "in_" fs)); [contradiction|reflexivity]. }
  assert (H2 : http_api_key_rule fs = true <-> (get "type_" fs = S_ "httpApiKey" ->
                 present (get "name" fs) /\ In (get "in_" fs) [S_ "query"; S_ "header"; S_ "cookie"])).
  { unfold http_api_key_rule, present. change (at_ "type_" fs) with (get "type_" fs).
    change (at_ "in_" fs) with (get "in_" fs). change (at_ "name" fs) with (get "name" fs).
    destruct (is_str_spec (u "httpApiKey") (get "type_" fs)) as [E|E]; [|split; [intros _ H; contradiction|reflexivity]].
    rewrite !andb_true_iff, one_of_iff. split.
    - intros [[Hn _] H] _. split; [|exact H]. destruct (is_none_spec (get "name" fs)); [discriminate|assumption].
    - intros H; specialize (H E). destruct H as [Hn H]. split; [|exact H]. split.
      + destruct (is_none_spec (get "name" fs)); [contradiction|reflexivity].
      + apply (ne_list _ ["query"; "header"; "cookie"]%string) in H.
        destruct (is_none_spec (get "in_" fs)); [contradiction|reflexivity]. }
  assert (Hreq : forall s v w, negb (is_str (u s) v && is_none w) = true <-> (v = S_ s -> present w)).
  { intros s v w. unfold present, S_. destruct (is_str_spec (u s) v), (is_none_spec w); simpl; intuition congruence. }
  assert (H3 : bearer_rule fs = true <-> (present (get "bearer_format" fs) -> get "type_" fs = S_ "http" /\ get "scheme" fs = S_ "bearer")).
  { unfold bearer_rule, notnone, present, S_, get, at_.
    destruct (is_none_spec (attr (u "bearer_format") fs)), (is_str_spec (u "http") (attr (u "type_") fs)),
      (is_str_spec (u "bearer") (attr (u "scheme") fs)); simpl; intuition congruence. }
  assert (H4 : scopes_rule fs = true <-> (present (get "scopes" fs) -> get "type_" fs = S_ "oauth2" \/ get "type_" fs = S_ "openIdConnect")).
  { unfold scopes_rule, notnone, present, S_, get, at_, one_of. cbn [existsb].
    destruct (is_none_spec (attr (u "scopes") fs)), (is_str_spec (u "oauth2") (attr (u "type_") fs)),
      (is_str_spec (u "openIdConnect") (attr (u "type_") fs)); simpl; intuition congruence. }
  unfold http_rule, oauth2_rule, openid_rule. rewrite !Hreq, H1, H2, H3, H4. unfold at_, get. tauto.
Qed.
Lemma amqp_channel_iff fs : amqp_channel_rule fs = true <-> amqp_channel_spec fs.
Proof.
  unfold amqp_channel_rule, amqp_channel_spec, present, S_, get, at_.
  destruct (is_str_spec (u "routingKey") (attr (u "is_") fs)) as [E|E].
  - rewrite E. destruct (is_none_spec (attr (u "exchange") fs)), (is_none_spec (attr (u "queue") fs)); simpl;
      split; try discriminate; intros; try split; try intuition congruence.
  - destruct (is_str_spec (u "queue") (attr (u "is_") fs)) as [E2|E2];
      destruct (is_none_spec (attr (u "exchange") fs)), (is_none_spec (attr (u "queue") fs)); simpl; intuition congruence.
Qed.
Lemma ibmmq_channel_iff fs : ibmmq_channel_rule fs = true <-> ibmmq_channel_spec fs.
Proof.
  unfold ibmmq_channel_rule, ibmmq_channel_spec, present, S_, get, at_, notnone.
  destruct (is_none_spec (attr (u "queue") fs)), (is_none_spec (attr (u "topic") fs)),
    (is_str_spec (u "queue") (attr (u "destination_type") fs)); simpl; intuition congruence.
Qed.
Lemma ibmmq_message_iff fs : ibmmq_message_rule fs = true <-> ibmmq_message_spec fs.
Proof.
  unfold ibmmq_message_rule, ibmmq_message_spec, notnone.
  destruct (one_of ["string"; "jms"]%string (at_ "type" fs)) eqn:Eo.
  - apply one_of_iff in Eo. simpl in Eo. unfold get, at_ in *. cbn [In].
    destruct (is_none_spec (attr (u "headers") fs)); simpl; split; auto; try discriminate.
  - split; [|reflexivity]. intros _ H. exfalso.
    assert (one_of ["string"; "jms"]%string (at_ "type" fs) = true) by (apply one_of_iff; exact H). congruence.
Qed.
Lemma kafka_server_iff fs : kafka_server_rule fs = true <-> kafka_server_spec fs.
Proof.
  unfold kafka_server_rule, kafka_server_spec, present, get, at_, notnone.
  destruct (is_none_spec (attr (u "schema_registry_url") fs)), (is_none_spec (attr (u "schema_registry_vendor") fs));
    simpl; intuition congruence.
Qed.
Lemma solace_iff fs : solace_destination_rule fs = true <-> solace_destination_spec fs.
Proof.
  unfold solace_destination_rule, solace_destination_spec, present, S_, get, at_.
  destruct (is_str_spec (u "queue") (attr (u "destination_type") fs)) as [E|E].
  - rewrite E. destruct (is_none_spec (attr (u "topic") fs)), (is_none_spec (attr (u "queue") fs)); simpl;
      split; try discriminate; intros; try split; try intuition congruence.
  - destruct (is_str_spec (u "topic") (attr (u "destination_type") fs)) as [E2|E2];
      destruct (is_none_spec (attr (u "topic") fs)), (is_none_spec (attr (u "queue") fs)); simpl; intuition congruence.
Qed.

Theorem hook_iff c fs : hook c fs = true <-> cross_field_spec c fs.
Proof.
  unfold cross_field_spec. rewrite <- channel_rule_iff, <- message_example_iff, <- oauth_flows_iff, <- security_iff,
    <- amqp_channel_iff, <- ibmmq_channel_iff, <- ibmmq_message_iff, <- kafka_server_iff, <- solace_iff.
  unfold hook, hooks. cbn [hook_of].
  repeat match goal with
  | |- context [String.eqb c ?x] =>
      destruct (String.eqb_spec c x) as [->|];
      [split; [intros ?Hh; repeat split; intros ?He; try discriminate He; exact Hh | intros ?Hh; decompose [and] Hh; auto]|]
  end.
  split; [intros _; repeat split; intros; contradiction|reflexivity].
Qed.
