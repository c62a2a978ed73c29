(** Proofs about error reports: the rules and their texts; the report lists exactly the faults. *)
From Verif Require Import PyStr Regex Value Types Rules Pydantic ClassTable Classes SpecParse ProofRules ProofParse Errors SpecErrors.

(** ** Texts of the rules *)
Definition speaks (o : option pystr) (l : list (Prop * string)) : Prop :=
  match o with Some m => first_violated l m | None => Forall (fun p => fst p) l end.
Lemma speaks_nil : speaks None [].
Proof. constructor. Qed.
Lemma speaks_cons b t o (P : Prop) l : (b = true <-> ~ P) -> (b = false -> P) -> speaks o l -> speaks (or_else (complain b t) o) ((P, t) :: l).
Proof.
  intros H1 H2 Ho. unfold complain. destruct b; cbn [or_else].
  - apply fi_hit. apply H1. reflexivity.
  - destruct o; cbn [speaks] in *; [apply fi_skip; auto|constructor; [exact (H2 eq_refl)|exact Ho]].
Qed.
Lemma speaks_one b t (P : Prop) : (b = true <-> ~ P) -> (b = false -> P) -> speaks (complain b t) [(P, t)].
Proof. intros H1 H2. replace (complain b t) with (or_else (complain b t) None) by (destruct b; reflexivity). apply speaks_cons; auto using speaks_nil. Qed.
Lemma first_violated_app l l' m : Forall (fun p => fst p) l -> first_violated l' m -> first_violated (l ++ l') m.
Proof. intros H Hm. induction H as [|[P t] l HP Hl IH]; [exact Hm|]. apply fi_skip; assumption. Qed.
Lemma first_violated_left l l' m : first_violated l m -> first_violated (l ++ l') m.
Proof. intros H. induction H; cbn [app]; [apply fi_hit; assumption|apply fi_skip; assumption]. Qed.
Lemma speaks_app o l o' l' : speaks o l -> speaks o' l' -> speaks (or_else o o') (l ++ l').
Proof.
  intros H H'. destruct o as [m|]; cbn [or_else speaks] in *; [apply first_violated_left; exact H|].
  destruct o' as [m|]; cbn [speaks] in *; [apply first_violated_app; assumption|]. apply Forall_app. auto.
Qed.
Lemma speaks_if b o l : (b = true -> speaks o l) -> (b = false -> Forall (fun p => fst p) l) -> speaks (if b then o else None) l.
Proof. intros H1 H2. destruct b; [auto|]. exact (H2 eq_refl). Qed.
Lemma first_violated_fun l m : first_violated l m -> forall m', first_violated l m' -> m = m'.
Proof. intros H. induction H as [P t r HP|P t r m HP H IH]; intros m' H'; inversion H'; subst; try contradiction; auto. Qed.
Lemma first_violated_not l m : first_violated l m -> ~ Forall (fun p => fst p) l.
Proof. intros H. induction H as [P t r HP|P t r m HP H IH]; intros Ha; inversion Ha; subst; cbn [fst] in *; auto. Qed.
Lemma speaks_iff o l m : speaks o l -> (o = Some m <-> first_violated l m).
Proof.
  intros H. split; [intros ->; exact H|]. intros Hm. destruct o as [m'|]; cbn [speaks] in H; [rewrite (first_violated_fun _ _ H _ Hm); reflexivity|].
  destruct (first_violated_not _ _ Hm H).
Qed.
Lemma is_none_true v : is_none v = true <-> v = VNone.
Proof. destruct (is_none_spec v); split; congruence. Qed.
Lemma is_none_false v : is_none v = false <-> v <> VNone.
Proof. destruct (is_none_spec v); split; congruence. Qed.
Lemma is_str_true s v : is_str s v = true <-> v = VStr s.
Proof. destruct (is_str_spec s v); split; congruence. Qed.
Lemma is_str_false s v : is_str s v = false <-> v <> VStr s.
Proof. destruct (is_str_spec s v); split; congruence. Qed.
Lemma one_of_false l v : one_of l v = false <-> ~ In v (map S_ l).
Proof. rewrite <- one_of_iff. destruct (one_of l v); split; congruence. Qed.
Ltac bools := repeat rewrite ?andb_true_iff, ?andb_false_iff, ?orb_true_iff, ?orb_false_iff, ?negb_true_iff, ?negb_false_iff, ?is_none_true, ?is_none_false, ?is_str_true, ?is_str_false, ?one_of_iff, ?one_of_false, ?sub_attr_get in *.
(** values of one attribute are compared with constants only *)
Lemma none_dec (v : pv) : v = VNone \/ v <> VNone.
Proof. destruct (is_none_spec v); auto. Qed.
Lemma str_dec s (v : pv) : v = VStr s \/ v <> VStr s.
Proof. destruct (is_str_spec s v); auto. Qed.

Lemma one_of_spec l v : reflect (In v (map S_ l)) (one_of l v).
Proof. apply iff_reflect. symmetry. apply one_of_iff. Qed.
Ltac decide_rules :=
  repeat match goal with
  | |- context [is_none ?v] => destruct (is_none_spec v)
  | |- context [is_str ?s ?v] => destruct (is_str_spec s v)
  | |- context [one_of ?l ?v] => destruct (one_of_spec l v)
  end; cbn [negb andb orb map In] in *; unfold S_ in *; intuition (try congruence).
Ltac rule := repeat match goal with H : _ = true |- _ => revert H | H : _ = false |- _ => revert H end; unfold flow_lacks, none_at, type_is, at_, present, get, S_ in *; rewrite ?sub_attr_get in *; unfold get in *; decide_rules.
Ltac rule_step := apply speaks_cons; [rule|rule|].
Ltac rule_last := apply speaks_one; [rule|rule].
Lemma search_iff a : py_search addr_expr_rx a = true <-> has_address_expression a.
Proof.
  assert (H := channel_rule_iff [(u "address", VStr a); (u "parameters", VDict [])]). unfold channel_rule, channel_spec in H.
  change (at_ "parameters" [(u "address", VStr a); (u "parameters", VDict [])]) with (VDict []) in H.
  change (get "parameters" [(u "address", VStr a); (u "parameters", VDict [])]) with (VDict []) in H.
  change (at_ "address" [(u "address", VStr a); (u "parameters", VDict [])]) with (VStr a) in H.
  change (get "address" [(u "address", VStr a); (u "parameters", VDict [])]) with (VStr a) in H. cbn [is_none] in H. rewrite H. split.
  - intros G. destruct G as (b & Hb & G); [discriminate|]. injection Hb as ->. exact G.
  - intros G _. eauto.
Qed.
Definition told (fs : fields) (c : string) (o : option pystr) : Prop := exists rules, In (c, rules) (rules_of fs) /\ speaks o rules.
Lemma channel_told fs : told fs "Channel" (channel_says fs).
Proof.
  eexists. split; [left; reflexivity|]. unfold channel_says, none_at. destruct (is_none_spec (at_ "parameters" fs)) as [Hp|Hp].
  - constructor; [cbn [fst]; intros H; destruct (H Hp)|]. constructor; [cbn [fst]; intros a H; destruct (H Hp)|constructor].
  - assert (Hb : (exists a, get "address" fs = VStr a) \/ forall a, get "address" fs <> VStr a)
      by (destruct (get "address" fs); try (right; intros; discriminate); left; eauto).
    change (at_ "address" fs) with (get "address" fs). destruct Hb as [[a Ha]|Hn].
    + rewrite Ha. unfold complain. destruct (py_search addr_expr_rx a) eqn:Es; cbn [negb].
      * constructor; [cbn [fst]; eauto|]. constructor; [|constructor]. cbn [fst]. intros b _ [= <-]. apply search_iff. exact Es.
      * apply fi_skip; [eauto|]. apply fi_hit. intros H. assert (Hs := H a Hp eq_refl). apply search_iff in Hs. congruence.
    + replace (match get "address" fs with VStr a => complain (negb (py_search addr_expr_rx a)) "parameters must not be provided when address does not contain Channel Address Expressions" | _ => Some (u "parameters must not be provided when address is null or absent") end)
        with (Some (u "parameters must not be provided when address is null or absent")) by (destruct (get "address" fs); try reflexivity; destruct (Hn _ eq_refl)).
      apply fi_hit. intros H. destruct (H Hp) as [a Ha]. exact (Hn a Ha).
Qed.
Lemma example_told fs : told fs "MessageExample" (message_example_says fs).
Proof. eexists. split; [right; left; reflexivity|]. rule_last. Qed.
Lemma flows_told fs : told fs "OAuthFlows" (oauth_flows_says fs).
Proof. eexists. split; [do 2 right; left; reflexivity|]. unfold oauth_flows_says. do 4 rule_step. rule_last. Qed.
Lemma scheme_told fs : told fs "SecurityScheme" (security_scheme_says fs).
Proof.
  eexists. split; [do 3 right; left; reflexivity|]. unfold security_scheme_says.
  refine (speaks_app _ [_; _] _ _ _ _).
  { apply speaks_if; intros H; [rule_step; rule_last|repeat constructor; cbn [fst]; revert H; rule]. }
  rule_step. refine (speaks_app _ [_; _; _] _ _ _ _).
  { apply speaks_if; intros H; [do 2 rule_step; rule_last|repeat constructor; cbn [fst]; revert H; rule]. }
  do 3 rule_step. rule_last.
Qed.

Lemma amqp_told fs : told fs "AMQPChannelBindings" (amqp_channel_says fs).
Proof.
  eexists. split; [do 4 right; left; reflexivity|]. unfold amqp_channel_says. change (at_ "is_" fs) with (get "is_" fs).
  destruct (is_str_spec (u "routingKey") (get "is_" fs)) as [H|H].
  - replace (or_else _ _) with (or_else (or_else (complain (none_at "exchange" fs) "exchange must be provided when is='routingKey'") (complain (negb (none_at "queue" fs)) "queue must not be provided when is='routingKey'")) None)
      by (destruct (none_at "exchange" fs), (none_at "queue" fs); reflexivity).
    rewrite H. refine (speaks_app _ [_; _] _ [_; _] _ _); [rule_step; rule_last|repeat constructor; cbn [fst]; discriminate].
  - refine (speaks_app None [_; _] _ [_; _] _ _); [repeat constructor; cbn [fst]; intros G; destruct (H G)|].
    apply speaks_if; intros G; [rule_step; rule_last|repeat constructor; cbn [fst]; revert G; rule].
Qed.
Lemma ibmmq_channel_told fs : told fs "IBMMQChannelBindings" (ibmmq_channel_says fs).
Proof. eexists. split; [do 5 right; left; reflexivity|]. unfold ibmmq_channel_says. rule_step. rule_last. Qed.
Lemma ibmmq_message_told fs : told fs "IBMMQMessageBindings" (ibmmq_message_says fs).
Proof. eexists. split; [do 6 right; left; reflexivity|]. unfold ibmmq_message_says. rule_last. Qed.
Lemma kafka_told fs : told fs "KafkaServerBindings" (kafka_server_says fs).
Proof. eexists. split; [do 7 right; left; reflexivity|]. unfold kafka_server_says. rule_last. Qed.
Lemma solace_told fs : told fs "SolaceDestination" (solace_destination_says fs).
Proof.
  eexists. split; [do 8 right; left; reflexivity|]. unfold solace_destination_says. change (at_ "destination_type" fs) with (get "destination_type" fs).
  destruct (is_str_spec (u "queue") (get "destination_type" fs)) as [H|H].
  - replace (or_else _ _) with (or_else (or_else (complain (none_at "queue" fs) "queue required for destinationType 'queue'") (complain (negb (none_at "topic" fs)) "topic not allowed for destinationType 'queue'")) None)
      by (destruct (none_at "topic" fs), (none_at "queue" fs); reflexivity).
    rewrite H. refine (speaks_app _ [_; _] _ [_; _] _ _); [rule_step; rule_last|repeat constructor; cbn [fst]; discriminate].
  - refine (speaks_app None [_; _] _ [_; _] _ _); [repeat constructor; cbn [fst]; intros G; destruct (H G)|].
    apply speaks_if; intros G; [rule_step; rule_last|repeat constructor; cbn [fst]; revert G; rule].
Qed.
(** The class's own rules: the first violated one is named. *)
Lemma rules_of_in c rules fs : In (c, rules) (rules_of fs) -> forall rules', In (c, rules') (rules_of fs) -> rules = rules'.
Proof.
  intros H rules' H'. unfold rules_of in H, H'. cbn [In] in H, H'.
  repeat match type of H with _ \/ _ => destruct H as [H|H] end; try contradiction; injection H as <- <-;
  repeat match type of H' with _ \/ _ => destruct H' as [H'|H'] end; try contradiction; try discriminate H'; injection H' as <-; reflexivity.
Qed.
Lemma hook_says_iff c fs m : hook_says c fs = Some m <-> exists rules, In (c, rules) (rules_of fs) /\ first_violated rules m.
Proof.
  assert (G : forall o, told fs c o -> o = Some m <-> exists rules, In (c, rules) (rules_of fs) /\ first_violated rules m).
  { intros o (rules & Hi & Hs). rewrite (speaks_iff _ _ _ Hs). split; [eauto|]. intros (rules' & Hi' & Hm). rewrite (rules_of_in _ _ _ Hi _ Hi'). exact Hm. }
  unfold hook_says, speakers. cbn [speaker].
  destruct (String.eqb_spec c "Channel") as [->|n1]; [exact (G _ (channel_told fs))|].
  destruct (String.eqb_spec c "MessageExample") as [->|n2]; [exact (G _ (example_told fs))|].
  destruct (String.eqb_spec c "OAuthFlows") as [->|n3]; [exact (G _ (flows_told fs))|].
  destruct (String.eqb_spec c "SecurityScheme") as [->|n4]; [exact (G _ (scheme_told fs))|].
  destruct (String.eqb_spec c "AMQPChannelBindings") as [->|n5]; [exact (G _ (amqp_told fs))|].
  destruct (String.eqb_spec c "IBMMQChannelBindings") as [->|n6]; [exact (G _ (ibmmq_channel_told fs))|].
  destruct (String.eqb_spec c "IBMMQMessageBindings") as [->|n7]; [exact (G _ (ibmmq_message_told fs))|].
  destruct (String.eqb_spec c "KafkaServerBindings") as [->|n8]; [exact (G _ (kafka_told fs))|].
  destruct (String.eqb_spec c "SolaceDestination") as [->|n9]; [exact (G _ (solace_told fs))|].
  split; [discriminate|]. intros (rules & H & _). unfold rules_of in H. cbn [In] in H.
  repeat match type of H with _ \/ _ => destruct H as [H|H] end; try contradiction; injection H as H _; congruence.
Qed.
Lemma or_else_none a b : or_else a b = None <-> a = None /\ b = None.
Proof. destruct a; cbn [or_else]; intuition congruence. Qed.
Lemma hook_says_none c fs : hook_says c fs = None <-> hook c fs = true.
Proof.
  unfold hook_says, speakers, hook, hooks. cbn [speaker hook_of].
  Local Ltac bool_cases := unfold flow_lacks, type_is, none_at, notnone, complain;
    repeat match goal with
    | |- context [is_none ?v] => destruct (is_none v)
    | |- context [is_str ?s ?v] => destruct (is_str s v)
    | |- context [one_of ?l ?v] => destruct (one_of l v)
    end; cbn [negb andb orb or_else]; split; congruence.
  destruct (String.eqb c "Channel").
  { unfold channel_says, channel_rule, none_at, complain. destruct (is_none (at_ "parameters" fs)); [split; reflexivity|].
    destruct (at_ "address" fs); try (split; discriminate). destruct (py_search addr_expr_rx s); cbn [negb]; split; congruence. }
  destruct (String.eqb c "MessageExample"); [unfold message_example_says, message_example_rule; bool_cases|].
  destruct (String.eqb c "OAuthFlows").
  { unfold oauth_flows_says, oauth_flows_rule, implicit_rule, password_rule, client_credentials_rule, authorization_code_rule. bool_cases. }
  destruct (String.eqb c "SecurityScheme").
  { unfold security_scheme_says, security_scheme_rule. rewrite !andb_true_iff.
    assert (H1 : (if type_is "apiKey" fs then or_else (complain (none_at "in_" fs) "in is required for apiKey type") (complain (negb (one_of ["user"; "password"]%string (at_ "in_" fs))) "in must be 'user' or 'password' for apiKey type") else None) = None <-> api_key_rule fs = true)
      by (unfold api_key_rule; bool_cases).
    assert (H2 : complain (negb (none_at "bearer_format" fs) && (negb (type_is "http" fs) || negb (is_str (u "bearer") (at_ "scheme" fs)))) "bearerFormat can only be used with http type and bearer scheme" = None <-> bearer_rule fs = true)
      by (unfold bearer_rule; bool_cases).
    assert (H3 : (if type_is "httpApiKey" fs then or_else (complain (none_at "name" fs) "name is required for httpApiKey type") (or_else (complain (none_at "in_" fs) "in is required for httpApiKey type") (complain (negb (one_of ["query"; "header"; "cookie"]%string (at_ "in_" fs))) "in must be 'query', 'header', or 'cookie' for httpApiKey type")) else None) = None <-> http_api_key_rule fs = true)
      by (unfold http_api_key_rule; bool_cases).
    assert (H4 : complain (type_is "http" fs && none_at "scheme" fs) "scheme is required for http type" = None <-> http_rule fs = true) by (unfold http_rule; bool_cases).
    assert (H5 : complain (type_is "oauth2" fs && none_at "flows" fs) "flows is required for oauth2 type" = None <-> oauth2_rule fs = true) by (unfold oauth2_rule; bool_cases).
    assert (H6 : complain (type_is "openIdConnect" fs && none_at "open_id_connect_url" fs) "openIdConnectUrl is required for openIdConnect type" = None <-> openid_rule fs = true) by (unfold openid_rule; bool_cases).
    assert (H7 : complain (negb (none_at "scopes" fs) && negb (one_of ["oauth2"; "openIdConnect"]%string (at_ "type_" fs))) "scopes can only be used with oauth2 or openIdConnect type" = None <-> scopes_rule fs = true) by (unfold scopes_rule; bool_cases).
    rewrite !or_else_none, H1, H2, H3, H4, H5, H6, H7. tauto. }
  destruct (String.eqb c "AMQPChannelBindings"); [unfold amqp_channel_says, amqp_channel_rule; bool_cases|].
  destruct (String.eqb c "IBMMQChannelBindings"); [unfold ibmmq_channel_says, ibmmq_channel_rule; bool_cases|].
  destruct (String.eqb c "IBMMQMessageBindings"); [unfold ibmmq_message_says, ibmmq_message_rule; bool_cases|].
  destruct (String.eqb c "KafkaServerBindings"); [unfold kafka_server_says, kafka_server_rule; bool_cases|].
  destruct (String.eqb c "SolaceDestination"); [unfold solace_destination_says, solace_destination_rule; bool_cases|].
  split; reflexivity.
Qed.

(** ** Reports *)
Fixpoint report_ok (t : ty) : bool :=
  match t with
  | TList t | TDict t | TOpt t | TRoot _ t => report_ok t
  | TUnion ts => match ts with [] => false | _ => true end && forallb report_ok ts
  | TModel _ _ fs => forallb (fun ft =>
      (match f_val (fst ft) with
       | FvNone => true
       | FvVersion => match snd ft with TStr _ => true | _ => false end
       | FvRuntimeExpr => str_eqb (f_name (fst ft)) (u "location")
       | FvNonNeg => str_eqb (f_name (fst ft)) (u "expiration") || str_eqb (f_name (fst ft)) (u "expiry")
       | FvPositive => str_eqb (f_name (fst ft)) (u "partitions") || str_eqb (f_name (fst ft)) (u "replicas")
       | FvHeartBeat => str_eqb (f_name (fst ft)) (u "heart_beat_interval")
       | FvMaxMsg => str_eqb (f_name (fst ft)) (u "max_msg_length")
       | FvPriority => str_eqb (f_name (fst ft)) (u "priority")
       end) && report_ok (snd ft)) fs
  | _ => true
  end.
Lemma all_report_ok : forallb report_ok all_types = true.
Proof. vm_compute. reflexivity. Qed.

Lemma in_under s l p c : In (p, c) (under s l) <-> exists p', p = s :: p' /\ In (p', c) l.
Proof.
  unfold under. rewrite in_map_iff. split.
  - intros ([p' c'] & [= <- <-] & H). eauto.
  - intros (p' & -> & H). exists (p', c). auto.
Qed.
Lemma in_rlist rep t p c l : forall i, In (p, c) (rlist rep t i l) <-> exists j x p', nth_error l j = Some x /\ p = AtIndex (i + j) :: p' /\ In (p', c) (rep t x).
Proof.
  induction l as [|x l IH]; intros i; cbn [rlist].
  - split; [intros []|]. intros ([|j] & x & p' & H & _); discriminate H.
  - rewrite in_app_iff, in_under, IH. split.
    + intros [(p' & -> & H)|(j & y & p' & H1 & -> & H2)]; [exists 0, x, p'; rewrite Nat.add_0_r; auto|exists (S j), y, p'; rewrite Nat.add_succ_r; auto].
    + intros ([|j] & y & p' & H1 & -> & H2); [left; injection H1 as ->; rewrite Nat.add_0_r; eauto|right; exists j, y, p'; rewrite Nat.add_succ_r; auto].
Qed.
Lemma in_rdict rep t p c d : In (p, c) (rdict rep t d) <-> exists k x p', In (k, x) d /\ p = AtKey k :: p' /\ In (p', c) (rep t x).
Proof.
  induction d as [|[k x] d IH]; cbn [rdict].
  - split; [intros []|]. intros (k & x & p' & [] & _).
  - rewrite in_app_iff, in_under, IH. split.
    + intros [(p' & -> & H)|(j & y & p' & H1 & -> & H2)]; [exists k, x, p'; cbn [In]; auto|exists j, y, p'; cbn [In]; auto].
    + intros (j & y & p' & [[= <- <-]|H1] & -> & H2); [left; eauto|right; eauto 6].
Qed.
Lemma in_members p c l : forall i, In (p, c) (members i l) <-> exists j es p', nth_error l j = Some es /\ p = AtMember (i + j) :: p' /\ In (p', c) es.
Proof.
  induction l as [|x l IH]; intros i; cbn [members].
  - split; [intros []|]. intros ([|j] & x & p' & H & _); discriminate H.
  - rewrite in_app_iff, in_under, IH. split.
    + intros [(p' & -> & H)|(j & y & p' & H1 & -> & H2)]; [exists 0, x, p'; rewrite Nat.add_0_r; auto|exists (S j), y, p'; rewrite Nat.add_succ_r; auto].
    + intros ([|j] & y & p' & H1 & -> & H2); [left; injection H1 as ->; rewrite Nat.add_0_r; eauto|right; exists j, y, p'; rewrite Nat.add_succ_r; auto].
Qed.
Lemma in_wrong_items p c l : forall i, In (p, c) (wrong_items i l) <-> exists j x, nth_error l j = Some x /\ is_proc x = false /\ p = [AtIndex (i + j)] /\ c = WrongInput.
Proof.
  induction l as [|x l IH]; intros i; cbn [wrong_items].
  - split; [intros []|]. intros ([|j] & x & H & _); discriminate H.
  - rewrite in_app_iff, IH. split.
    + intros [H|(j & y & H1 & H2 & -> & ->)].
      * destruct (is_proc x) eqn:Ex; [destruct H|]. destruct H as [[= <- <-]|[]]. exists 0, x. rewrite Nat.add_0_r. auto.
      * exists (S j), y. rewrite Nat.add_succ_r. auto.
    + intros ([|j] & y & H1 & H2 & -> & ->); [left; injection H1 as ->; rewrite H2, Nat.add_0_r; left; reflexivity|right; exists j, y; rewrite Nat.add_succ_r; auto].
Qed.
Lemma in_here_ o p c : In (p, c) (here_ o) <-> p = [] /\ o = Some c.
Proof. destruct o; cbn [here_]; [split; [intros [[= <- <-]|[]]; auto|intros [-> [= ->]]; left; reflexivity]|split; [intros []|intros [_ H]; discriminate H]]. Qed.
Lemma in_here_says o p c : In (p, c) (here_says o) <-> p = [] /\ exists m, o = Some m /\ c = Says m.
Proof.
  unfold here_says. rewrite in_here_. destruct o as [m|]; cbn [option_map].
  - split; [intros [-> [= <-]]; eauto|intros (-> & m' & [= <-] & ->); auto].
  - split; [intros [_ H]; discriminate H|intros (_ & m' & H & _); discriminate H].
Qed.
Lemma has_key_some k (d : fields) x : assoc k d = Some x -> has_key k d = true.
Proof.
  intros H. destruct (has_key k d) eqn:Eh; [reflexivity|]. assert (Hn : assoc k d = None); [|congruence]. apply assoc_None. intros Hin.
  unfold has_key in Eh. apply mem_str_In in Hin. congruence.
Qed.
Lemma has_key_none k (d : fields) : assoc k d = None -> has_key k d = false.
Proof. intros H. apply assoc_None in H. unfold has_key. destruct (mem_str k (map fst d)) eqn:Em; [|reflexivity]. apply mem_str_In in Em. contradiction. Qed.
Lemma given_iff fi kvs key x : lookup_field fi kvs = Some x /\ key = used_key kvs fi <-> given fi kvs key x.
Proof.
  unfold lookup_field, used_key. split.
  - intros [H ->]. destruct (assoc (f_alias fi) kvs) eqn:Ea.
    + injection H as ->. rewrite (has_key_some _ _ _ Ea). constructor. exact Ea.
    + rewrite (has_key_none _ _ Ea). constructor; assumption.
  - intros [y H|y H1 H2]; [rewrite H, (has_key_some _ _ _ H); auto|rewrite H1, H2, (has_key_none _ _ H1); auto].
Qed.
(** *** Field validators *)
Lemma version_says_none E s : version_says E s = None <-> version_ok E s = true.
Proof.
  unfold version_says, version_ok. destruct (py_full (version_rx E) s); cbn [andb]; [|split; discriminate].
  destruct (split 46 s) as [|major r]; [split; discriminate|]. destruct (py_int_digits E major) as [n|]; [|split; discriminate].
  destruct (N.eqb n 3); split; congruence.
Qed.
Lemma says_unless_none b text : says_unless b text = None <-> b = true.
Proof. destruct b; cbn [says_unless]; split; congruence. Qed.
Lemma field_says_none E name f v : field_says E name f v = None <-> fv_check E f v = true.
Proof.
  destruct f; cbn [field_says]; try apply says_unless_none; [split; reflexivity|].
  destruct v; try (split; discriminate). apply version_says_none.
Qed.
Lemma says_unless_some b text c : says_unless b text = Some c <-> b = false /\ c = Says text.
Proof. destruct b; cbn [says_unless]; split; try discriminate; [intros [H _]; discriminate H|intros [= <-]; auto|intros [_ ->]; reflexivity]. Qed.
Lemma fv_check_false E f v : fv_check E f v = false <-> ~ field_rule E f v.
Proof. rewrite <- fv_check_iff. destruct (fv_check E f v); split; congruence. Qed.
Definition text_ok (fi : finfo) (t : ty) : bool :=
  match f_val fi with
  | FvNone => true
  | FvVersion => match t with TStr _ => true | _ => false end
  | FvRuntimeExpr => str_eqb (f_name fi) (u "location")
  | FvNonNeg => str_eqb (f_name fi) (u "expiration") || str_eqb (f_name fi) (u "expiry")
  | FvPositive => str_eqb (f_name fi) (u "partitions") || str_eqb (f_name fi) (u "replicas")
  | FvHeartBeat => str_eqb (f_name fi) (u "heart_beat_interval")
  | FvMaxMsg => str_eqb (f_name fi) (u "max_msg_length")
  | FvPriority => str_eqb (f_name fi) (u "priority")
  end.
Lemma version_objection E fi s why : f_val fi = FvVersion -> (version_says E s = Some why <-> objection E fi (VStr s) why).
Proof.
  intros Hf. assert (Hsh : py_full (version_rx E) s = true <-> exists major, upto_nl (version_shape E major) s).
  { rewrite (py_full_upto _ (fun w => exists major, version_shape E major w)) by apply version_rx_iff. unfold upto_nl. split.
    - intros (w & [major Hm] & Hw). eauto.
    - intros (major & w & Hm & Hw). eauto. }
  assert (Hdig : forall major, upto_nl (version_shape E major) s -> digits E major).
  { intros major (w & (mi & pa & su & _ & Hd & _) & _). exact Hd. }
  assert (Hl : forall name text, ~ In (FvVersion, name, text) field_texts).
  { intros name text Hin. cbn [In field_texts] in Hin. repeat destruct Hin as [Hin|Hin]; try discriminate Hin. exact Hin. }
  unfold version_says. destruct (py_full (version_rx E) s) eqn:Ep.
  - destruct (proj1 Hsh eq_refl) as [major Hm]. assert (Hs := version_shape_split E major s Hm). destruct Hs as [_ [r Hr]]. rewrite Hr. unfold py_int_digits.
    assert (Huniq : forall major', upto_nl (version_shape E major') s -> major' = major).
    { intros major' Hm'. destruct (version_shape_split E major' s Hm') as [_ [r' Hr']]. rewrite Hr in Hr'. injection Hr' as -> _. reflexivity. }
    destruct (N.leb_spec (N.of_nat (length major)) 4300) as [Hle|Hgt].
    + assert (H3 := int_value_3 E major (Hdig _ Hm)). destruct (N.eqb_spec (int_value E major) 3) as [He|He].
      * split; [discriminate|]. intros Ho. inversion Ho as [v0 nm tx Hin Hnm Hr0|s0 Hfv Hno0|s0 mj Hfv Hm' Hle' Hn3|s0 mj Hfv Hm' Hgt']; subst.
        -- destruct (Hl nm tx). congruence.
        -- destruct (Hno0 major Hm).
        -- rewrite (Huniq _ Hm') in *. destruct Hn3. apply H3. exact He.
        -- rewrite (Huniq _ Hm') in *. lia.
      * split.
        -- intros [= <-]. apply (ob_major E fi s major Hf Hm Hle). intros Hd. apply H3 in Hd. contradiction.
        -- intros Ho. inversion Ho as [v0 nm tx Hin Hnm Hr0|s0 Hfv Hno0|s0 mj Hfv Hm' Hle' Hn3|s0 mj Hfv Hm' Hgt']; subst; [destruct (Hl nm tx); congruence|destruct (Hno0 major Hm)|reflexivity|rewrite (Huniq _ Hm') in *; lia].
    + split.
      * intros [= <-]. exact (ob_digits E fi s major Hf Hm Hgt).
      * intros Ho. inversion Ho as [v0 nm tx Hin Hnm Hr0|s0 Hfv Hno0|s0 mj Hfv Hm' Hle' Hn3|s0 mj Hfv Hm' Hgt']; subst; [destruct (Hl nm tx); congruence|destruct (Hno0 major Hm)|rewrite (Huniq _ Hm') in *; lia|reflexivity].
  - assert (Hno : forall major, ~ upto_nl (version_shape E major) s).
    { intros major Hm. assert (H : false = true) by (apply Hsh; eauto). discriminate H. }
    split.
    + intros [= <-]. apply ob_version; assumption.
    + intros Ho. inversion Ho as [v0 nm tx Hin Hnm Hr0|s0 Hfv Hno0|s0 mj Hfv Hm' Hle' Hn3|s0 mj Hfv Hm' Hgt']; subst; [destruct (Hl nm tx); congruence|reflexivity|destruct (Hno _ Hm')|destruct (Hno _ Hm')].
Qed.
Lemma objection_iff E fi t x why : text_ok fi t = true -> (f_val fi = FvVersion -> exists s, x = VStr s) ->
  (field_says E (f_name fi) (f_val fi) x = Some why <-> objection E fi x why).
Proof.
  intros Ht Hv. unfold text_ok in Ht.
  assert (Hlim : forall name text, In (f_val fi, name, text) field_texts -> f_name fi = u name -> f_val fi <> FvVersion ->
     (forall name' text', In (f_val fi, name', text') field_texts -> f_name fi = u name' -> text' = text) ->
     (says_unless (fv_check E (f_val fi) x) (u text) = Some why <-> objection E fi x why)).
  { intros name text Hi Hn Hne Hu. rewrite says_unless_some, fv_check_false. split.
    - intros [Hr ->]. exact (ob_limit E fi x name text Hi Hn Hr).
    - intros Ho. inversion Ho as [v0 nm tx Hin Hnm Hr0|s0 Hfv Hno0|s0 mj Hfv Hm' Hle' Hn3|s0 mj Hfv Hm' Hgt']; subst; try contradiction. rewrite (Hu _ _ Hin Hnm). auto. }
  Local Ltac table := let Hi := fresh in intros ? ? Hi Hn'; cbn [In field_texts] in Hi;
    repeat match type of Hi with _ \/ _ => destruct Hi as [Hi|Hi] end; try contradiction; try discriminate Hi; injection Hi as <- <-; first [reflexivity|exfalso; congruence|idtac].
  destruct (f_val fi) eqn:Ef; cbn [field_says].
  - split; [discriminate|]. intros Ho. inversion Ho as [v0 nm tx Hin Hnm Hr0|s0 Hfv Hno0|s0 mj Hfv Hm' Hle' Hn3|s0 mj Hfv Hm' Hgt']; subst; try congruence. rewrite Ef in Hin. cbn [In field_texts] in Hin. repeat destruct Hin as [Hin|Hin]; try discriminate Hin. destruct Hin.
  - destruct (Hv eq_refl) as [s ->]. apply version_objection. exact Ef.
  - apply str_eqb_eq in Ht. apply (Hlim "location"%string); [cbn; tauto|exact Ht|discriminate|table].
  - apply orb_prop in Ht as [Ht|Ht]; apply str_eqb_eq in Ht; rewrite Ht.
    + change (str_eqb (u "expiration") (u "expiration")) with true. cbv iota. apply (Hlim "expiration"%string); [cbn; tauto|exact Ht|discriminate|table]. rewrite Ht in Hn'. discriminate Hn'.
    + change (str_eqb (u "expiry") (u "expiration")) with false. cbv iota. apply (Hlim "expiry"%string); [cbn; tauto|exact Ht|discriminate|table]. rewrite Ht in Hn'. discriminate Hn'.
  - apply orb_prop in Ht as [Ht|Ht]; apply str_eqb_eq in Ht; rewrite Ht.
    + apply (Hlim "partitions"%string "partitions must be positive"%string); [cbn; tauto|exact Ht|discriminate|table]. rewrite Ht in Hn'. discriminate Hn'.
    + apply (Hlim "replicas"%string "replicas must be positive"%string); [cbn; tauto|exact Ht|discriminate|table]. rewrite Ht in Hn'. discriminate Hn'.
  - apply str_eqb_eq in Ht. apply (Hlim "heart_beat_interval"%string); [cbn; tauto|exact Ht|discriminate|table].
  - apply str_eqb_eq in Ht. apply (Hlim "max_msg_length"%string); [cbn; tauto|exact Ht|discriminate|table].
  - apply str_eqb_eq in Ht. apply (Hlim "priority"%string); [cbn; tauto|exact Ht|discriminate|table].
Qed.
(** *** Keys *)
Lemma first_bad_none ok (d : fields) : first_bad ok d = None <-> forallb (fun kv => ok (fst kv)) d = true.
Proof. induction d as [|[k x] d IH]; cbn [first_bad forallb fst]; [split; reflexivity|]. destruct (ok k); cbn [andb]; [exact IH|split; discriminate]. Qed.
Lemma first_bad_some ok (d : fields) k : first_bad ok d = Some k <-> exists a x b, d = a ++ (k, x) :: b /\ ok k = false /\ forall k', In k' (map fst a) -> ok k' = true.
Proof.
  induction d as [|[k0 x0] d IH]; cbn [first_bad].
  - split; [discriminate|]. intros ([|] & x & b & H & _); discriminate H.
  - destruct (ok k0) eqn:Eo.
    + rewrite IH. split.
      * intros (a & x & b & -> & Hk & Ha). exists ((k0, x0) :: a), x, b. split; [reflexivity|]. split; [exact Hk|]. intros k' [<-|H]; auto.
      * intros ([|[k1 x1] a] & x & b & H & Hk & Ha); cbn [app] in H; [injection H as -> -> ->; congruence|]. injection H as -> -> ->.
        exists a, x, b. split; [reflexivity|]. split; [exact Hk|]. intros k' H. apply Ha. right. exact H.
    + split.
      * intros [= <-]. exists [], x0, d. split; [reflexivity|]. split; [exact Eo|]. intros k' [].
      * intros ([|[k1 x1] a] & x & b & H & Hk & Ha); cbn [app] in H; [injection H as -> -> ->; reflexivity|]. injection H as -> -> ->.
        assert (Hc := Ha k1 (or_introl eq_refl)). congruence.
Qed.
(** restricted to the keys of a filter *)
Lemma first_bad_filter ok (p : pystr * pv -> bool) (conc : pystr -> Prop) d k :
  (forall kv, In kv d -> p kv = true <-> conc (fst kv)) ->
  (first_bad ok (filter p d) = Some k <-> first_key conc (fun k => ok k = true) d k).
Proof.
  unfold first_key. induction d as [|[k0 x0] d IH]; intros Hp; cbn [filter].
  - split; [discriminate|]. intros ([|] & x & b & H & _); discriminate H.
  - assert (IH' := IH (fun kv H => Hp kv (or_intror H))). assert (H0 := Hp (k0, x0) (or_introl eq_refl)). cbn [fst] in H0. destruct (p (k0, x0)) eqn:E0.
    + cbn [first_bad]. destruct (ok k0) eqn:Eo.
      * rewrite IH'. split.
        -- intros (a & x & b & -> & Hc & Hk & Ha). exists ((k0, x0) :: a), x, b. split; [reflexivity|]. split; [exact Hc|]. split; [exact Hk|]. intros k' [<-|H]; auto.
        -- intros ([|[k1 x1] a] & x & b & H & Hc & Hk & Ha); cbn [app] in H; [injection H as -> -> ->; congruence|]. injection H as -> -> ->.
           exists a, x, b. split; [reflexivity|]. split; [exact Hc|]. split; [exact Hk|]. intros k' H. apply Ha. right. exact H.
      * split.
        -- intros [= <-]. exists [], x0, d. split; [reflexivity|]. split; [apply H0; reflexivity|]. split; [congruence|]. intros k' [].
        -- intros ([|[k1 x1] a] & x & b & H & Hc & Hk & Ha); cbn [app] in H; [injection H as -> -> ->; reflexivity|]. injection H as -> -> ->.
           assert (Hx := Ha k1 (or_introl eq_refl) (proj1 H0 eq_refl)). congruence.
    + rewrite IH'. assert (Hn : ~ conc k0) by (intros Hc; apply H0 in Hc; discriminate Hc). split.
      * intros (a & x & b & -> & Hc & Hk & Ha). exists ((k0, x0) :: a), x, b. split; [reflexivity|]. split; [exact Hc|]. split; [exact Hk|]. intros k' [<-|H]; [intros; contradiction|auto].
      * intros ([|[k1 x1] a] & x & b & H & Hc & Hk & Ha); cbn [app] in H; [injection H as -> -> ->; contradiction|]. injection H as -> -> ->.
        exists a, x, b. split; [reflexivity|]. split; [exact Hc|]. split; [exact Hk|]. intros k' H. apply Ha. right. exact H.
Qed.
Lemma first_key_ext (conc : pystr -> Prop) (p q : pystr -> Prop) d k : (forall k, p k <-> q k) -> first_key conc p d k <-> first_key conc q d k.
Proof.
  intros H. unfold first_key. split; intros (a & x & b & H1 & H2 & H3 & H4); exists a, x, b; (split; [exact H1|]; split; [exact H2|]; split; [rewrite <- H || rewrite H; exact H3|]; intros k' Hi Hc; apply H; auto).
Qed.
Lemma extras_iff fs kvs kv : In kv kvs -> (negb (mem_str (fst kv) (map (fun ft => used_key kvs (fst ft)) fs)) = true <-> unclaimed fs kvs (fst kv)).
Proof.
  intros Hi. split.
  - intros H. apply (extras_unclaimed fs kvs kv). apply filter_In. auto.
  - intros H. destruct (unclaimed_extras _ _ _ H) as [v Hv]. apply filter_In in Hv as [_ Hv]. exact Hv.
Qed.
Lemma extension_says_iff E fs kvs k : first_bad (ext_key_ok E) (extras fs kvs) = Some k <-> first_key (unclaimed fs kvs) (upto_nl (extension_key E)) kvs k.
Proof. unfold extras. rewrite (first_bad_filter _ _ (unclaimed fs kvs)) by (apply extras_iff). apply first_key_ext. intros k'. apply ext_key_iff. Qed.
Lemma keys_say_iff d d' m : map fst d = map fst d' -> (keys_say d' = Some m <-> exists k, first_key (fun _ => True) (upto_nl doc_key) d k /\ m = key_text k).
Proof.
  intros Hd. unfold keys_say. assert (H : forall k, first_bad patterned_key_ok d' = Some k <-> first_key (fun _ => True) (upto_nl doc_key) d k).
  { intros k. assert (G : first_bad patterned_key_ok d' = first_bad patterned_key_ok d).
    { clear -Hd. revert d' Hd. induction d as [|[k1 x1] d IH]; intros [|[k2 x2] d'] H; cbn [map fst] in H; try discriminate H; [reflexivity|]. injection H as -> H. cbn [first_bad]. rewrite (IH _ H). reflexivity. }
    rewrite G, <- (first_key_ext _ (fun k => patterned_key_ok k = true)) by apply patterned_key_iff. rewrite <- (first_bad_filter _ (fun _ => true)) by (intros; tauto).
    replace (filter (fun _ => true) d) with d; [reflexivity|]. clear. induction d as [|x d IH]; cbn [filter]; [reflexivity|]. rewrite <- IH. reflexivity. }
  destruct (first_bad patterned_key_ok d') as [k|]; cbn [option_map].
  - split; [intros [= <-]; exists k; split; [apply H; reflexivity|reflexivity]|]. intros (k' & Hk & ->). apply H in Hk. injection Hk as ->. reflexivity.
  - split; [discriminate|]. intros (k' & Hk & _). apply H in Hk. discriminate Hk.
Qed.
(** *** Nothing is reported iff the value is accepted *)
Definition fine (E : env) (t : ty) (v : pv) : Prop := exists r, validate E t v = Some r.
Lemma fine_parse E t v : fine E t v <-> parse E t v <> None.
Proof. unfold fine, parse. destruct (validate E t v) as [r|]; cbn [option_map]; split; intros H; [congruence|eauto|destruct H as [r H]; discriminate H|destruct (H eq_refl)]. Qed.
Lemma under_nil s l : under s l = [] <-> l = [].
Proof. unfold under. destruct l; cbn [map]; split; intros H; (reflexivity || discriminate H). Qed.
Lemma app_nil_iff {X} (a b : list X) : a ++ b = [] <-> a = [] /\ b = [].
Proof. split; [apply app_eq_nil|intros [-> ->]; reflexivity]. Qed.
Ltac opt_cases := split; intros; repeat match goal with H : exists _, _ |- _ => destruct H | H : _ /\ _ |- _ => destruct H end; try discriminate; eauto.
Lemma rlist_nil E t l : (forall v, report E t v = [] <-> fine E t v) -> forall i, rlist (report E) t i l = [] <-> exists r, vlist (validate E) t l = Some r.
Proof.
  intros Ht. induction l as [|x l IH]; intros i; cbn [rlist vlist]; [split; eauto|].
  rewrite app_nil_iff, under_nil, Ht, IH. unfold fine. destruct (validate E t x) as [[x' n]|].
  - destruct (vlist (validate E) t l) as [[r m]|]; opt_cases.
  - split; [intros [[r H] _]; discriminate H|intros [r H]; discriminate H].
Qed.
Lemma rdict_nil E t d : (forall v, report E t v = [] <-> fine E t v) -> rdict (report E) t d = [] <-> exists r, vdict (validate E) t d = Some r.
Proof.
  intros Ht. induction d as [|[k x] d IH]; cbn [rdict vdict]; [split; eauto|].
  rewrite app_nil_iff, under_nil, Ht, IH. unfold fine. destruct (validate E t x) as [[x' n]|].
  - destruct (vdict (validate E) t d) as [[r m]|]; opt_cases.
  - split; [intros [[r H] _]; discriminate H|intros [r H]; discriminate H].
Qed.
Lemma here_nil o : here_ o = [] <-> o = None.
Proof. destruct o; cbn; split; congruence. Qed.
Lemma here_says_nil o : here_says o = [] <-> o = None.
Proof. unfold here_says. rewrite here_nil. destruct o; cbn; split; congruence. Qed.
Lemma rfields_nil E kvs fs : Forall (fun ft => forall v, report E (snd ft) v = [] <-> fine E (snd ft) v) fs ->
  rfields E (report E) kvs fs = [] <-> exists r, vfields E (validate E) kvs fs = Some r.
Proof.
  intros Hf. induction Hf as [|[fi t] fs Ht Hf IH]; cbn [rfields vfields]; [split; eauto|].
  rewrite app_nil_iff, IH. cbn [snd] in Ht. destruct (lookup_field fi kvs) as [x|].
  - rewrite under_nil, app_nil_iff, Ht. unfold fine. destruct (validate E t x) as [[x' n]|].
    + rewrite here_nil, field_says_none. destruct (fv_check E (f_val fi) x').
      * destruct (vfields E (validate E) kvs fs) as [[r m]|]; opt_cases.
      * split; [intros [[_ H] _]; discriminate H|intros [r H]; discriminate H].
    + split; [intros [[[r H] _] _]; discriminate H|intros [r H]; discriminate H].
  - destruct (f_def fi) as [d|].
    + destruct (vfields E (validate E) kvs fs) as [[r m]|]; opt_cases.
    + split; [intros [H _]; discriminate H|intros [r H]; discriminate H].
Qed.
Lemma after_says_none E c k fv (fs : list (finfo * ty)) kvs : rextras k (extras fs kvs) = [] /\ after_says E c k fv (extras fs kvs) = None <-> after_ok E c k fv (extras fs kvs) = true.
Proof.
  unfold after_says, after_ok, extras_ok, rextras. rewrite or_else_none, andb_true_iff, hook_says_none. destruct k.
  - rewrite <- first_bad_none. destruct (first_bad (ext_key_ok E) (extras fs kvs)); cbn [option_map]; [split; [intros (_ & H & _); discriminate H|intros [H _]; discriminate H]|tauto].
  - destruct (extras fs kvs) as [|kv ex]; cbn [map]; [tauto|]. split; [intros [H _]; discriminate H|intros [H _]; discriminate H].
  - tauto.
Qed.
Lemma rmodel_nil E c k fs kvs : Forall (fun ft => forall v, report E (snd ft) v = [] <-> fine E (snd ft) v) fs ->
  rmodel E (report E) c k fs kvs = [] <-> exists r, vmodel E (validate E) c k fs kvs = Some r.
Proof.
  intros Hf. unfold rmodel, vmodel. rewrite !app_nil_iff, (rfields_nil _ _ _ Hf). destruct (vfields E (validate E) kvs fs) as [[fv n]|].
  - assert (Ha := after_says_none E c k fv fs kvs). destruct (rextras k (extras fs kvs)).
    + rewrite here_says_nil. destruct (after_ok E c k fv (extras fs kvs)).
      * split; intros _; [eauto|]. split; [eauto|]. split; [reflexivity|]. apply Ha. reflexivity.
      * split; [intros (_ & _ & H)|intros [r H]; discriminate H]. exfalso. assert (false = true) by (apply Ha; auto). discriminate.
    + destruct (after_ok E c k fv (extras fs kvs)); [destruct (proj2 Ha eq_refl) as [H _]; discriminate H|].
      split; [intros (_ & H & _); discriminate H|intros [r H]; discriminate H].
  - split; [intros [[r H] _]; discriminate H|intros [r H]; discriminate H].
Qed.
Lemma rroot_nil E c t d : (forall v, report E t v = [] <-> fine E t v) ->
  rroot E (report E) t d = [] <-> exists r, match vdict (validate E) t d with Some (d', n) => if root_keys_ok d' then Some (VRoot c d', n) else None | None => None end = Some r.
Proof.
  intros Ht. unfold rroot. rewrite app_nil_iff, (rdict_nil _ _ _ Ht). destruct (vdict (validate E) t d) as [[d' n]|].
  - rewrite here_says_nil. assert (H : keys_say d' = None <-> root_keys_ok d' = true).
    { unfold keys_say, root_keys_ok. rewrite <- first_bad_none. destruct (first_bad patterned_key_ok d'); cbn; split; congruence. }
    rewrite H. destruct (root_keys_ok d'); [split; eauto|]. split; [intros [_ G]; discriminate G|intros [r G]; discriminate G].
  - split; [intros [[r H] _]; discriminate H|intros [r H]; discriminate H].
Qed.
Lemma best_of_none l : best_of l = None <-> Forall (fun o => o = None) l.
Proof.
  induction l as [|[[v n]|] l IH]; cbn [best_of].
  - split; auto.
  - destruct (best_of l) as [[v' n']|]; [destruct (Nat.ltb n n')|]; (split; [discriminate|intros H; inversion H; discriminate]).
  - rewrite IH. split; [constructor; auto|intros H; inversion H; auto].
Qed.
Lemma wrong_items_nil l : forall i, wrong_items i l = [] <-> forallb is_proc l = true.
Proof. induction l as [|x l IH]; intros i; cbn [wrong_items forallb]; [split; reflexivity|]. rewrite app_nil_iff, IH. destruct (is_proc x); cbn [andb]; intuition congruence. Qed.
Lemma union_none E ts v : validate E (TUnion ts) v = None <-> forall t, In t ts -> parse E t v = None.
Proof.
  cbn [validate]. rewrite best_of_none, Forall_map, Forall_forall. split; intros H t Ht; specialize (H t Ht); unfold parse in *; destruct (validate E t v); cbn in *; congruence.
Qed.
Lemma report_nil E t : report_ok t = true -> forall v, report E t v = [] <-> fine E t v.
Proof.
  assert (Hleaf : forall t v, (match validate E t v with Some _ => [] | None => [([], WrongInput)] end : list error) = [] <-> fine E t v).
  { intros t0 v. unfold fine. destruct (validate E t0 v); opt_cases. }
  assert (Hw : forall o : option (pv * nat), ([([], WrongInput)] : list error) = [] <-> exists r, (None : option (pv * nat)) = Some r).
  { intros _. split; [discriminate|intros [r H]; discriminate H]. }
  induction t as [|m| | | |h|l|l|t IH|t IH|t IH|ts IH| |c k fs IH|c t IH] using ty_ind'; intros Hok v; try apply Hleaf.
  - cbn [report]. unfold fine. cbn [validate]. destruct v; try (apply (Hw None)). destruct (email_ok s); opt_cases.
  - cbn [report]. unfold fine. cbn [validate]. destruct v; try (apply (Hw None)). rewrite (rlist_nil _ _ _ (IH Hok)). destruct (vlist (validate E) t l) as [[r n]|]; opt_cases.
  - cbn [report]. unfold fine. cbn [validate]. destruct v; try (apply (Hw None)). rewrite (rdict_nil _ _ _ (IH Hok)). destruct (vdict (validate E) t d) as [[r n]|]; opt_cases.
  - cbn [report]. unfold fine. cbn [validate]. destruct v; try (apply (IH Hok)). split; eauto.
  - cbn [report_ok] in Hok. apply andb_prop in Hok as [Hne Hok]. cbn [report]. destruct (validate E (TUnion ts) v) as [r|] eqn:Ev; [split; [exists r; exact Ev|reflexivity]|].
    split; [|intros [r H]; congruence]. intros H. exfalso. rewrite union_none in Ev. destruct ts as [|t ts]; [discriminate Hne|]. cbn [map members] in H.
    apply app_nil_iff in H as [H _]. apply under_nil in H. cbn [forallb] in Hok. apply andb_prop in Hok as [Hok _]. inversion IH as [|? ? Ht _]; subst. apply (Ht Hok) in H. apply fine_parse in H. apply H. apply Ev. left. reflexivity.
  - cbn [report]. unfold fine. cbn [validate]. destruct v; try (apply (Hw None)). rewrite wrong_items_nil. destruct (forallb is_proc l); opt_cases.
  - cbn [report_ok] in Hok. assert (Hf : Forall (fun ft => forall v, report E (snd ft) v = [] <-> fine E (snd ft) v) fs).
    { rewrite Forall_forall in *. intros ft Hft. apply (IH ft Hft). rewrite forallb_forall in Hok. specialize (Hok ft Hft). apply andb_prop in Hok as [_ Hok]. exact Hok. }
    cbn [report]. unfold fine. cbn [validate]. destruct v; try (apply (Hw None)); [apply rmodel_nil; exact Hf|].
    destruct (String.eqb c c0); [apply rmodel_nil; exact Hf|apply (Hw None)].
  - cbn [report]. unfold fine. cbn [validate]. destruct v; try (apply (Hw None)); [apply rroot_nil; apply IH; exact Hok|].
    destruct (String.eqb c c0); [apply rroot_nil; apply IH; exact Hok|apply (Hw None)].
Qed.
(** *** The report lists exactly the faults *)
Lemma in_rfields E rep kvs fs p c : In (p, c) (rfields E rep kvs fs) <-> exists fi t, In (fi, t) fs /\
  ((exists key x p', given fi kvs key x /\ p = AtKey key :: p' /\ In (p', c) (rep t x))
   \/ (exists key x x', given fi kvs key x /\ p = [AtKey key] /\ parse E t x = Some x' /\ field_says E (f_name fi) (f_val fi) x' = Some c)
   \/ (f_def fi = None /\ lookup_field fi kvs = None /\ p = [AtKey (f_alias fi)] /\ c = NoField)).
Proof.
  induction fs as [|[fi t] fs IH]; cbn [rfields].
  - split; [intros []|]. intros (fi & t & [] & _).
  - rewrite in_app_iff, IH. clear IH. split.
    + intros [H|(fi' & t' & Hi & H)]; [|exists fi', t'; split; [right; exact Hi|exact H]]. exists fi, t. split; [left; reflexivity|].
      destruct (lookup_field fi kvs) as [x|] eqn:El.
      * apply in_under in H as (p' & -> & H). assert (Hg : given fi kvs (used_key kvs fi) x) by (apply given_iff; auto).
        apply in_app_or in H as [H|H]; [left; eauto 7|]. right. left. destruct (validate E t x) as [[x' n]|] eqn:Ev; [|destruct H].
        apply in_here_ in H as [-> H]. exists (used_key kvs fi), x, x'. split; [exact Hg|]. split; [reflexivity|]. split; [|exact H]. unfold parse. rewrite Ev. reflexivity.
      * destruct (f_def fi) as [d|]; [destruct H|]. destruct H as [[= <- <-]|[]]. auto 7.
    + intros (fi' & t' & [He|Hi] & Hc); [|right; eauto]. left. injection He as <- <-.
      destruct Hc as [(key & x & p' & Hg & -> & H)|[(key & x & x' & Hg & -> & Hp & H)|(Hd & Hl & -> & ->)]].
      * apply given_iff in Hg as [-> ->]. apply in_under. exists p'. split; [reflexivity|]. apply in_or_app. left. exact H.
      * apply given_iff in Hg as [-> ->]. apply in_under. exists []. split; [reflexivity|]. apply in_or_app. right. unfold parse in Hp. destruct (validate E t x) as [[y n]|]; [|discriminate Hp].
        injection Hp as ->. apply in_here_. auto.
      * rewrite Hl, Hd. left. reflexivity.
Qed.
Lemma typed_extras_none (fs : list (finfo * ty)) kvs k : rextras k (extras fs kvs) = [] <-> (k = KForbid -> forall key, ~ unclaimed fs kvs key).
Proof.
  destruct k; cbn [rextras].
  - split; [discriminate|reflexivity].
  - destruct (extras fs kvs) as [|kv ex] eqn:Ex; cbn [map].
    + split; [|reflexivity]. intros _ _ key Hu. destruct (unclaimed_extras _ _ _ Hu) as [v Hv]. rewrite Ex in Hv. destruct Hv.
    + split; [discriminate|]. intros H. exfalso. assert (Hi : In kv (extras fs kvs)) by (rewrite Ex; left; reflexivity). apply extras_unclaimed in Hi as [_ Hu]. exact (H eq_refl _ Hu).
  - split; [discriminate|reflexivity].
Qed.
Lemma after_says_iff E c k fs kvs fv m : after_says E c k fv (extras fs kvs) = Some m <-> object_rule E c k fs kvs fv m.
Proof.
  unfold after_says. assert (Hh := hook_says_iff c fv m).
  assert (Hext : forall key, first_bad (ext_key_ok E) (extras fs kvs) = Some key <-> first_key (unclaimed fs kvs) (upto_nl (extension_key E)) kvs key) by apply extension_says_iff.
  assert (Hall : first_bad (ext_key_ok E) (extras fs kvs) = None <-> forall key, unclaimed fs kvs key -> upto_nl (extension_key E) key).
  { assert (H := extras_ok_iff E KExt fs kvs). cbn [extras_ok extra_policy] in H. rewrite <- H. apply first_bad_none. }
  split.
  - intros H. destruct k; cbn [or_else] in H.
    + destruct (first_bad (ext_key_ok E) (extras fs kvs)) as [key|] eqn:Eb; cbn [option_map or_else] in H.
      * injection H as <-. apply or_extension; [reflexivity|]. apply Hext. reflexivity.
      * apply Hh in H as (rules & H1 & H2). apply (or_rule _ _ _ _ _ _ rules); auto. intros _. apply Hall. reflexivity.
    + apply Hh in H as (rules & H1 & H2). apply (or_rule _ _ _ _ _ _ rules); auto. discriminate.
    + apply Hh in H as (rules & H1 & H2). apply (or_rule _ _ _ _ _ _ rules); auto. discriminate.
  - intros [key -> Hk|rules m' Hk Hi Hm].
    + apply Hext in Hk. rewrite Hk. reflexivity.
    + assert (H : hook_says c fv = Some m') by (apply hook_says_iff; eauto). rewrite H. destruct k; cbn [or_else]; try reflexivity.
      rewrite (proj2 Hall (Hk eq_refl)). reflexivity.
Qed.
Lemma fault_here E t v r c : broken E t v r c -> fault E t v r c.
Proof. intros H. exists [], r, t, v. split; [reflexivity|]. split; [constructor|exact H]. Qed.
Lemma in_rmodel E c k fs v kvs p why : mapping c v kvs -> forallb (fun ft => text_ok (fst ft) (snd ft)) fs = true ->
  (forall ft, In ft fs -> forall x p why, In (p, why) (report E (snd ft) x) <-> fault E (snd ft) x p why) ->
  (In (p, why) (rmodel E (report E) c k fs kvs) <-> fault E (TModel c k fs) v p why).
Proof.
  intros Hm Htx IH. unfold rmodel. rewrite !in_app_iff, in_rfields.
  assert (Hmap : forall kvs', mapping c v kvs' -> kvs' = kvs) by (intros kvs' Hm'; destruct Hm; inversion Hm'; subst; congruence).
  Local Ltac same_map := try match goal with Hm' : forall k', mapping _ _ k' -> k' = _, H : mapping _ _ ?k |- _ => pose proof (Hm' _ H); subst k end.
  assert (Hver : forall fi t x x', In (fi, t) fs -> parse E t x = Some x' -> f_val fi = FvVersion -> exists s, x' = VStr s).
  { intros fi t x x' Hi Hp Hf. rewrite forallb_forall in Htx. specialize (Htx _ Hi). cbn [fst snd] in Htx. unfold text_ok in Htx. rewrite Hf in Htx.
    destruct t; try discriminate Htx. unfold parse in Hp. cbn [validate] in Hp. destruct x; try discriminate Hp. destruct (len_ok maxlen s); [|discriminate Hp]. injection Hp as <-. eauto. }
  assert (Hobj : forall fi t x x', In (fi, t) fs -> parse E t x = Some x' -> field_says E (f_name fi) (f_val fi) x' = Some why <-> objection E fi x' why).
  { intros fi t x x' Hi Hp. apply (objection_iff E fi t); [rewrite forallb_forall in Htx; exact (Htx _ Hi)|]. intros Hf. exact (Hver _ _ _ _ Hi Hp Hf). }
  split.
  - intros [(fi & t & Hi & [(key & x & p' & Hg & -> & H)|[(key & x & x' & Hg & -> & Hp & H)|(Hd & Hl & -> & ->)]])|[H|H]].
    + apply (IH _ Hi) in H as (q & r & t' & v' & -> & H1 & H2). exists (AtKey key :: q), r, t', v'. split; [reflexivity|]. split; [|exact H2]. eapply lt_field; eauto.
    + apply fault_here. eapply br_field; eauto. apply (Hobj fi t x x' Hi Hp). exact H.
    + apply lookup_None in Hl as [Ha Hn]. apply fault_here. eapply br_missing; eauto.
    + unfold rextras in H. destruct k; try destruct H. apply in_map_iff in H as ([key x] & [= <- <-] & H). apply extras_unclaimed in H as [_ H]. apply fault_here. eapply br_extra; eauto.
    + destruct (vfields E (validate E) kvs fs) as [[fv n]|] eqn:Ev; [|destruct H]. destruct (rextras k (extras fs kvs)) eqn:Ex; [|destruct H].
      apply in_here_says in H as (-> & m & Hs & ->). apply fault_here. eapply br_object; [exact Hm|apply vfields_typed; eauto|apply typed_extras_none; exact Ex|apply after_says_iff; exact Hs].
  - intros (q & r & t' & v' & -> & Hl & Hb). inversion Hl; subst.
    + inversion Hb; subst; same_map.
      * match goal with H : leaf _ |- _ => destruct H end.
      * match goal with H : forall kvs, ~ mapping _ _ _ |- _ => destruct (H _ Hm) end.
      * left. eexists _, _. split; [eassumption|]. right. right. split; [assumption|]. split; [apply lookup_None; auto|]. auto.
      * right. left. match goal with H : unclaimed _ _ _ |- _ => destruct (unclaimed_extras _ _ _ H) as [y Hy] end. cbn [rextras]. apply in_map_iff. exists (key, y). split; [reflexivity|]. exact Hy.
      * left. eexists _, _. split; [eassumption|]. right. left. eexists _, _, _. split; [eassumption|]. split; [reflexivity|]. split; [eassumption|]. eapply Hobj; eauto.
      * right. right. match goal with H : typed_fields _ _ _ _ |- _ => apply vfields_typed in H as [n Hn] end. rewrite Hn.
        match goal with H : k = KForbid -> _ |- _ => apply typed_extras_none in H; rewrite H end. apply in_here_says. split; [reflexivity|]. eexists. split; [|reflexivity]. apply after_says_iff. assumption.
    + same_map.
      left. eexists _, _. split; [eassumption|]. left. eexists _, _, _. split; [eassumption|]. split; [reflexivity|]. match goal with H : In (fi, t) fs |- _ => apply (IH _ H) end. exists p, r, t', v'. auto.
Qed.
Lemma vdict_all E t (d : fields) : (exists r, vdict (validate E) t d = Some r) <-> forall k x, In (k, x) d -> parse E t x <> None.
Proof.
  induction d as [|[k x] d IH]; cbn [vdict].
  - split; [intros _ k x []|eauto].
  - assert (Hp : parse E t x = option_map fst (validate E t x)) by reflexivity. destruct (validate E t x) as [[x' n]|]; cbn [option_map fst] in Hp.
    + destruct (vdict (validate E) t d) as [[r m]|].
      * split; [|eauto]. intros _ k' y [[= <- <-]|Hi]; [congruence|]. apply (proj1 IH (ex_intro _ _ eq_refl) k' y Hi).
      * split; [intros [r H]; discriminate H|]. intros H. destruct (proj2 IH (fun k' y Hi => H k' y (or_intror Hi))) as [r Hr]. discriminate Hr.
    + split; [intros [r H]; discriminate H|]. intros H. destruct (H k x (or_introl eq_refl) Hp).
Qed.
Lemma in_rroot E c t v d p why : entries c v d ->
  (forall x p why, In (p, why) (report E t x) <-> fault E t x p why) ->
  (In (p, why) (rroot E (report E) t d) <-> fault E (TRoot c t) v p why).
Proof.
  intros Hm IH. unfold rroot. rewrite in_app_iff, in_rdict.
  assert (Hmap : forall d', entries c v d' -> d' = d) by (intros d' Hm'; destruct Hm; inversion Hm'; subst; congruence).
  Local Ltac same_ent := try match goal with Hm' : forall k', entries _ _ k' -> k' = _, H : entries _ _ ?k |- _ => pose proof (Hm' _ H); subst k end.
  split.
  - intros [(k & x & p' & Hi & -> & H)|H].
    + apply IH in H as (q & r & t' & v' & -> & H1 & H2). exists (AtKey k :: q), r, t', v'. split; [reflexivity|]. split; [|exact H2]. eapply lt_entry; eauto.
    + destruct (vdict (validate E) t d) as [[d' n]|] eqn:Ev; [|destruct H]. apply in_here_says in H as (-> & m & Hs & ->).
      apply (keys_say_iff d d' m) in Hs as (k & Hk & ->); [|apply vdict_ok in Ev as [H1 _]; symmetry; exact H1].
      apply fault_here. eapply br_key; [exact Hm|apply vdict_all; eauto|exact Hk].
  - intros (q & r & t' & v' & -> & Hl & Hb). inversion Hl; subst.
    + inversion Hb; subst; same_ent.
      * match goal with H : leaf _ |- _ => destruct H end.
      * match goal with H : forall kvs, ~ entries _ _ _ |- _ => destruct (H _ Hm) end.
      * right. match goal with H : forall k x, In _ _ -> _ |- _ => apply vdict_all in H as [[d' n] Hn] end. rewrite Hn. apply in_here_says. split; [reflexivity|].
        eexists. split; [|reflexivity]. apply (keys_say_iff d d'); [apply vdict_ok in Hn as [Hk1 _]; symmetry; exact Hk1|]. eexists. split; [eassumption|]. reflexivity.
    + same_ent. left. eexists _, _, _. split; [eassumption|]. split; [reflexivity|]. apply IH. eexists _, _, _, _. split; [reflexivity|]. eauto.
Qed.
Lemma report_iff E t : report_ok t = true -> forall v p why, In (p, why) (report E t v) <-> fault E t v p why.
Proof.
  assert (Hbad : forall q why, In (q, why) [([] : list locstep, WrongInput)] <-> q = [] /\ why = WrongInput).
  { intros q why. cbn [In]. split; [intros [[= <- <-]|[]]; auto|intros [-> ->]; auto]. }
  (* leaves *)
  assert (Hleaf : forall t, leaf t -> forall v p why, In (p, why) (unless_fine E t v) <-> fault E t v p why).
  { intros t0 Hl v p why. unfold unless_fine. assert (Hp : parse E t0 v = option_map fst (validate E t0 v)) by reflexivity. split.
    - destruct (validate E t0 v); cbn [In option_map] in *; [intros []|]. intros [[= <- <-]|[]]. apply fault_here. apply br_leaf; assumption.
    - intros (q & r & t' & v' & -> & H1 & H2). destruct t0; try destruct Hl; inversion H1; subst; inversion H2; subst; match goal with H : parse E ?t v' = None |- _ => unfold parse in H; destruct (validate E t v'); [discriminate H|left; reflexivity] end. }
  induction t as [|m| | | |h|l|l|t IH|t IH|t IH|ts IH| |c k fs IH|c t IH] using ty_ind'; intros Hok v p why; try (apply Hleaf; exact I).
  - (* email *) split.
    + destruct v; cbn [report]; rewrite ?Hbad; try (intros [-> ->]; apply fault_here; apply br_email_input; congruence).
      destruct (email_ok s) eqn:Es; [intros []|]. intros [[= <- <-]|[]]. apply fault_here. apply br_email. rewrite <- email_ok_iff. congruence.
    + intros (q & r & t' & v' & -> & H1 & H2). inversion H1; subst. inversion H2; subst; cbn [report app].
      * match goal with H : leaf _ |- _ => destruct H end.
      * destruct v'; try (left; reflexivity). match goal with H : forall s, _ <> _ |- _ => destruct (H s eq_refl) end.
      * match goal with H : ~ email_spec _ |- _ => rewrite <- email_ok_iff in H end. destruct (email_ok s); [destruct H; reflexivity|left; reflexivity].
  - (* list *) specialize (IH Hok). split.
    + destruct v; cbn [report]; rewrite ?Hbad; try (intros [-> ->]; apply fault_here; apply br_list; congruence).
      rewrite in_rlist. intros (j & x & p' & Hn & -> & H). apply IH in H as (q & r & t' & v' & -> & H1 & H2). exists (AtIndex j :: q), r, t', v'. split; [reflexivity|]. split; [|exact H2]. eapply lt_item; eauto.
    + intros (q & r & t' & v' & -> & H1 & H2). inversion H1; subst.
      * inversion H2; subst; [match goal with H : leaf _ |- _ => destruct H end|]. destruct v'; try (left; reflexivity). match goal with H : forall s, _ <> _ |- _ => destruct (H l eq_refl) end.
      * cbn [report]. apply in_rlist. eexists _, _, _. split; [eassumption|]. split; [reflexivity|]. apply IH. eexists _, _, _, _. eauto.
  - (* dict *) specialize (IH Hok). split.
    + destruct v; cbn [report]; rewrite ?Hbad; try (intros [-> ->]; apply fault_here; apply br_dict; congruence).
      rewrite in_rdict. intros (j & x & p' & Hn & -> & H). apply IH in H as (q & r & t' & v' & -> & H1 & H2). exists (AtKey j :: q), r, t', v'. split; [reflexivity|]. split; [|exact H2]. eapply lt_value; eauto.
    + intros (q & r & t' & v' & -> & H1 & H2). inversion H1; subst.
      * inversion H2; subst; [match goal with H : leaf _ |- _ => destruct H end|]. destruct v'; try (left; reflexivity). match goal with H : forall s, _ <> _ |- _ => destruct (H d eq_refl) end.
      * cbn [report]. apply in_rdict. eexists _, _, _. split; [eassumption|]. split; [reflexivity|]. apply IH. eexists _, _, _, _. eauto.
  - (* optional *) specialize (IH Hok). assert (Hv : In (p, why) (report E (TOpt t) v) <-> v <> VNone /\ In (p, why) (report E t v)).
    { cbn [report]. destruct v; (split; [intros H; try destruct H; (split; [discriminate|assumption])|intros [H1 H2]; try congruence; assumption]). }
    rewrite Hv, IH. split.
    + intros [Hn (q & r & t' & v' & -> & H1 & H2)]. exists q, r, t', v'. split; [reflexivity|]. split; [|exact H2]. apply lt_optional; assumption.
    + intros (q & r & t' & v' & -> & H1 & H2). inversion H1; subst; [inversion H2; subst; match goal with H : leaf _ |- _ => destruct H end|].
      split; [assumption|]. eexists _, _, _, _. eauto.
  - (* union *) cbn [report_ok] in Hok. apply andb_prop in Hok as [_ Hok]. rewrite forallb_forall in Hok. rewrite Forall_forall in IH. split.
    + cbn [report]. destruct (validate E (TUnion ts) v) eqn:Ev; [intros []|]. rewrite in_members. intros (j & es & p' & Hn & -> & H).
      rewrite nth_error_map in Hn. destruct (nth_error ts j) as [t|] eqn:Et; [|discriminate Hn]. cbn [option_map] in Hn. injection Hn as <-.
      assert (Hi := nth_error_In _ _ Et). apply (IH _ Hi (Hok _ Hi)) in H as (q & r & t' & v' & -> & H1 & H2).
      exists (AtMember j :: q), r, t', v'. split; [reflexivity|]. split; [|exact H2]. eapply lt_member; eauto. apply union_none. exact Ev.
    + intros (q & r & t' & v' & -> & H1 & H2). inversion H1; subst; [inversion H2; subst; match goal with H : leaf _ |- _ => destruct H end|].
      cbn [report]. match goal with H : forall s, In s ts -> _ |- _ => apply union_none in H; rewrite H end. apply in_members.
      eexists _, _, _. rewrite nth_error_map. match goal with H : nth_error ts _ = Some _ |- _ => rewrite H; apply nth_error_In in H; rename H into Hi end. split; [reflexivity|]. split; [reflexivity|].
      apply (IH _ Hi (Hok _ Hi)). eexists _, _, _, _. eauto.
  - (* processors *) split.
    + destruct v; cbn [report]; rewrite ?Hbad; try (intros [-> ->]; apply fault_here; apply br_processors; congruence).
      rewrite in_wrong_items. intros (j & x & Hn & Hx & -> & ->). apply fault_here. eapply br_processor; [exact Hn|]. intros n ->. discriminate Hx.
    + intros (q & r & t' & v' & -> & H1 & H2). inversion H1; subst. inversion H2; subst; cbn [report app].
      * match goal with H : leaf _ |- _ => destruct H end.
      * destruct v'; try (left; reflexivity). match goal with H : forall s, _ <> _ |- _ => destruct (H l eq_refl) end.
      * apply in_wrong_items. eexists _, _. split; [eassumption|]. split; [|auto]. destruct x; try reflexivity. match goal with H : forall s, _ <> _ |- _ => destruct (H _ eq_refl) end.
  - (* model *) cbn [report_ok] in Hok. assert (Hf : forall ft, In ft fs -> forall x p why, In (p, why) (report E (snd ft) x) <-> fault E (snd ft) x p why).
    { rewrite Forall_forall in IH. intros ft Hft. apply (IH ft Hft). rewrite forallb_forall in Hok. specialize (Hok ft Hft). apply andb_prop in Hok as [_ Hok]. exact Hok. }
    assert (Htx : forallb (fun ft => text_ok (fst ft) (snd ft)) fs = true).
    { rewrite forallb_forall in *. intros ft Hft. specialize (Hok ft Hft). apply andb_prop in Hok as [Hok _]. exact Hok. }
    assert (Hno : (forall kvs, ~ mapping c v kvs) -> (In (p, why) [([], WrongInput)] <-> fault E (TModel c k fs) v p why)).
    { intros Hn. rewrite Hbad. split; [intros [-> ->]; apply fault_here; apply br_model; exact Hn|].
      intros (q & r & t' & v' & -> & H1 & H2). inversion H1; subst; [inversion H2; subst|]; try match goal with H : mapping _ _ _ |- _ => destruct (Hn _ H) end; [match goal with H : leaf _ |- _ => destruct H end|auto]. }
    destruct v; cbn [report]; try (apply Hno; intros kvs Hm; inversion Hm).
    + apply (in_rmodel E c k fs (VDict d) d); [constructor|exact Htx|exact Hf].
    + destruct (String.eqb_spec c c0) as [<-|Hne]; [apply in_rmodel; [constructor|exact Htx|exact Hf]|]. apply Hno. intros kvs Hm. inversion Hm; subst. congruence.
  - (* root *) specialize (IH Hok).
    assert (Hno : (forall d, ~ entries c v d) -> (In (p, why) [([], WrongInput)] <-> fault E (TRoot c t) v p why)).
    { intros Hn. rewrite Hbad. split; [intros [-> ->]; apply fault_here; apply br_root; exact Hn|].
      intros (q & r & t' & v' & -> & H1 & H2). inversion H1; subst; [inversion H2; subst|]; try match goal with H : entries _ _ _ |- _ => destruct (Hn _ H) end; [match goal with H : leaf _ |- _ => destruct H end|auto]. }
    destruct v; cbn [report]; try (apply Hno; intros d' Hm; inversion Hm).
    + apply in_rroot; [constructor|exact IH].
    + destruct (String.eqb_spec c c0) as [<-|Hne]; [apply in_rroot; [constructor|exact IH]|]. apply Hno. intros d' Hm. inversion Hm; subst. congruence.
Qed.
