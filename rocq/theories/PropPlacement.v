(** C104: the documented rules on where references point, and what the unified validator guarantees of them. *)
From Verif Require Import PyStr Value Types Rules Pydantic ClassTable Classes Canon Fix Linked SpecParse Sample ProofRules ProofParse
  State SpecState ProofState PropState Resolve SpecResolve ProofResolve PropResolve Unified SpecUnified ProofUnified ProofCheck PropUnified
  ProofDump Dump SpecDump PropDump SpecDeep PropDeep PropWithin PropValidators SpecDeref ProofDeref SpecPlacement.
Local Open Scope string_scope.

(** ** Refuted: an accepted document may break each of them. *)
Definition accepted (v : pv) (doc : pv) : Prop := is_json v /\ parse E0 T_AsyncAPI3 v = Some doc /\ no_root_keyword doc /\ unified E0 doc = None.
Lemma accepted_dec v : all_within json_b v = true -> some_doc (parse E0 T_AsyncAPI3 v) = true -> all_within no_root_b (load_doc v) = true -> unified E0 (load_doc v) = None -> accepted v (load_doc v).
Proof. intros H1 H2 H3 H4. split; [apply json_dec; exact H1|]. split; [apply load_doc_ok; exact H2|]. split; [apply no_root_dec; exact H3|exact H4]. Qed.
Definition chan : pv := obj [("address", str "a"); ("messages", obj [("m", obj [])])].
Definition op (l : list (string * pv)) : pv := obj ([("action", str "send")] ++ l).
Definition doc_elsewhere : pv :=
  spec [("servers", obj [("s", obj [("host", str "h"); ("protocol", str "amqp")])]);
        ("channels", obj [("c", obj [("address", str "a"); ("servers", VList [ref "#/components/servers/t"])])]);
        ("operations", obj [("o", op [("channel", ref "#/components/channels/d"); ("messages", VList [ref "#/components/messages/n"]);
                                      ("reply", obj [("address", obj [("location", str "$message.header#/r")]); ("channel", ref "#/channels/c")])])]);
        ("components", obj [("servers", obj [("t", obj [("host", str "h"); ("protocol", str "amqp")])]); ("channels", obj [("d", chan)]); ("messages", obj [("n", obj [])])])].
Lemma elsewhere_ok : accepted doc_elsewhere (load_doc doc_elsewhere).
Proof. apply accepted_dec; vm_compute; reflexivity. Qed.
Lemma points_parts doc r path : points_to doc (u "#" ++ r)%list path -> parts_of r = path.
Proof. intros (v & r' & Hr & Hs & _). apply app_inv_head in Hr. subst r'. apply segments_parts. exact Hs. Qed.
Lemma op_elsewhere : exists fv fr er r0 r1 r2 a, root_operation (load_doc doc_elsewhere) (u "o") fv
  /\ assoc (u "channel") fv = Some r0 /\ as_reference r0 = Some (u "#/components/channels/d")
  /\ assoc (u "messages") fv = Some (VList [r1]) /\ as_reference r1 = Some (u "#/components/messages/n")
  /\ assoc (u "reply") fv = Some (VObj "OperationReply" fr er) /\ assoc (u "address") fr = Some a /\ a <> VNone
  /\ assoc (u "channel") fr = Some r2 /\ as_reference r2 = Some (u "#/channels/c").
Proof.
  unfold root_operation. do 7 eexists. split; [eexists; vm_compute; reflexivity|]. repeat (split; [vm_compute; reflexivity|]). split; [discriminate|]. split; vm_compute; reflexivity.
Qed.
Theorem c104_channel_refuted : ~ (forall v doc, accepted v doc -> channel_rule doc).
Proof.
  intros H. specialize (H _ _ elsewhere_ok). destruct op_elsewhere as (fv & fr & er & r0 & r1 & r2 & a & Ho & H0 & H1 & _). apply is_ref_dec in H1.
  destruct (H _ _ _ Ho (ex_intro _ r0 (conj H0 H1))) as [(x & [Hx|Hx])|[name Hp]]; [discriminate Hx|discriminate Hx|].
  apply (points_parts _ (u "/components/channels/d")) in Hp. vm_compute in Hp. discriminate Hp.
Qed.
Theorem c104_servers_refuted : ~ (forall v doc, accepted v doc -> servers_rule doc).
Proof.
  intros H. specialize (H _ _ elsewhere_ok).
  assert (Hc : exists fv r, root_channel (load_doc doc_elsewhere) (u "c") fv /\ assoc (u "servers") fv = Some (VList [r]) /\ as_reference r = Some (u "#/components/servers/t")).
  { unfold root_channel. do 2 eexists. split; [eexists; vm_compute; reflexivity|]. split; vm_compute; reflexivity. }
  destruct Hc as (fv & r & Hc & H0 & H1). apply is_ref_dec in H1.
  destruct (H _ _ (u "#/components/servers/t") Hc) as [(x & [Hx|Hx])|[name Hp]]; [exists [r], r; repeat split; [exact H0|left; reflexivity|exact H1]|discriminate Hx|discriminate Hx|].
  apply (points_parts _ (u "/components/servers/t")) in Hp. vm_compute in Hp. discriminate Hp.
Qed.
Theorem c104_messages_refuted : ~ (forall v doc, accepted v doc -> messages_rule doc).
Proof.
  intros H. specialize (H _ _ elsewhere_ok). destruct op_elsewhere as (fv & fr & er & r0 & r1 & r2 & a & Ho & H0 & H1 & H2 & H3 & _). apply is_ref_dec in H1, H3.
  destruct (H _ _ _ (u "#/components/messages/n") Ho (ex_intro _ r0 (conj H0 H1))) as [(x & [Hx|Hx])|(o & l & m & He & Hp)]; [exists [r1], r1; repeat split; [exact H2|left; reflexivity|exact H3]|discriminate Hx|discriminate Hx|].
  apply (points_parts _ (u "/components/messages/n")) in Hp. change (parts_of (u "/components/messages/n")) with [u "components"; u "messages"; u "n"] in Hp.
  assert (Hr : resolve (load_doc doc_elsewhere) (u "#/components/channels/d") = Resolved o (access_path l)).
  { apply c23_resolves_iff; [exact (proj1 (proj2 (proj2 elsewhere_ok)))|eauto]. }
  destruct l as [|x [|y l]]; [apply (f_equal (@length _)) in Hp; discriminate Hp| |apply (f_equal (@length _)) in Hp; rewrite app_length in Hp; cbn [length] in Hp; lia].
  apply (f_equal (@hd _ [])) in Hp. cbn [hd app] in Hp. subst x. vm_compute in Hr. discriminate Hr.
Qed.
Theorem c104_reply_address_refuted : ~ (forall v doc, accepted v doc -> reply_address_rule doc).
Proof.
  intros H. specialize (H _ _ elsewhere_ok). destruct op_elsewhere as (fv & fr & er & r0 & r1 & r2 & a & Ho & _ & _ & _ & _ & H4 & H5 & H6 & H7 & H8). apply is_ref_dec in H8.
  destruct (resolve (load_doc doc_elsewhere) (u "#/channels/c")) as [o q| |] eqn:Er; [|vm_compute in Er; discriminate Er|vm_compute in Er; discriminate Er].
  assert (He := proj1 (c23_resolves_iff _ _ _ _ (proj1 (proj2 (proj2 elsewhere_ok)))) Er). destruct He as (l & He & _).
  assert (Hc : exists fc ec, o = VObj "Channel" fc ec /\ assoc (u "address") fc = Some (str "a")).
  { vm_compute in Er. injection Er as <- _. do 2 eexists. split; [reflexivity|vm_compute; reflexivity]. }
  destruct Hc as (fc & ec & Hc & Ha). assert (Hx := H _ _ _ _ _ _ _ _ _ _ Ho H4 H5 H6 (ex_intro _ r2 (conj H7 H8)) He Hc). rewrite Ha in Hx. discriminate Hx.
Qed.

(** ** What holds: the targets are of the documented class... *)
Definition shown (fs : list (finfo * ty)) (f : pystr) : bool := forallb (fun ft => negb (str_eqb (f_name (fst ft)) f) || negb (f_excl (fst ft)))%bool fs.
Lemma shown_spec fs f : shown fs f = true -> forall fi t, In (fi, t) fs -> f_name fi = f -> f_excl fi = false.
Proof.
  intros Hs fi t Hin Hn. assert (H1 := proj1 (forallb_forall _ _) Hs (fi, t) Hin). cbn beta in H1. cbn [fst] in H1. rewrite Hn, str_eqb_refl in H1. apply negb_true_iff in H1. exact H1.
Qed.
Lemma child_of_field c fv ex f x : c <> "Reference" -> (forall fi t, In (fi, t) (class_fields c) -> f_name fi = f -> f_excl fi = false) ->
  assoc f fv = Some x -> x <> VNone -> exists i, child (VObj c fv ex) i (u "." ++ f)%list x.
Proof.
  intros Hc Hv Ha Hx. apply assoc_In in Ha. destruct (nth_of_In _ _ Ha) as [i Hi]. exists i. apply ch_field; [exact Hi| |exact Hx|exact Hv].
  intros s (? & ? & Heq & _). injection Heq as -> _ _. exact (Hc eq_refl).
Qed.
Definition fields_shown : list (string * string) := [("AsyncAPI3", "operations"); ("AsyncAPI3", "channels"); ("Operation", "channel"); ("Operation", "messages"); ("Channel", "servers")].
Lemma all_shown : forallb (fun cf => shown (class_fields (fst cf)) (u (snd cf))) fields_shown = true.
Proof. vm_compute. reflexivity. Qed.
Lemma field_shown c f : In (c, f) fields_shown -> forall fi t, In (fi, t) (class_fields c) -> f_name fi = u f -> f_excl fi = false.
Proof. intros Hi. assert (H1 := proj1 (forallb_forall _ _) all_shown _ Hi). cbn beta in H1. cbn [fst snd] in H1. revert H1. generalize (class_fields c). intros fs. apply shown_spec. Qed.
Lemma root_object E c k fs v doc : wf_ty (TModel c k fs) = true -> parse E (TModel c k fs) v = Some doc -> exists fv ex, doc = VObj c fv ex.
Proof. intros Hw Hp. destruct (parse_canon _ _ _ _ Hw Hp) as (fv & ex & -> & _). eauto. Qed.
Lemma document_object E v doc : parse E T_AsyncAPI3 v = Some doc -> exists fv ex, doc = VObj "AsyncAPI3" fv ex.
Proof. assert (Hw := wf_all _ in_root). unfold T_AsyncAPI3 in *. apply root_object. exact Hw. Qed.
Lemma entry_reached a k x fv ex : In ("AsyncAPI3", a) fields_shown -> entry_at (VObj "AsyncAPI3" fv ex) [a] k = Some x ->
  exists pos, reached (VObj "AsyncAPI3" fv ex) pos (flat_map step_text [LField (u a); LMapKey k]) x.
Proof.
  intros Ha He. cbn [entry_at] in He. destruct (get a fv) as [| | | | | | | | |c0 d| |] eqn:Eg; try discriminate He.
  assert (Hg : assoc (u a) fv = Some (VRoot c0 d)) by (unfold get, attr in Eg; destruct (assoc (u a) fv); [subst; reflexivity|discriminate Eg]).
  destruct (child_of_field "AsyncAPI3" fv ex (u a) _ ltac:(discriminate) (field_shown _ _ Ha) Hg ltac:(discriminate)) as [i Hi].
  apply assoc_In in He. destruct (nth_of_In _ _ He) as [j Hj]. exists [i; j]. cbn [flat_map step_text]. eapply re_step; [exact Hi|]. eapply re_step; [apply ch_map; exact Hj|constructor; reflexivity].
Qed.
Definition at_channel k : list lstep := [LField (u "operations"); LMapKey k; LField (u "channel")].
Definition at_message k i : list lstep := [LField (u "operations"); LMapKey k; LField (u "messages"); LIdx i].
Definition at_server k i : list lstep := [LField (u "channels"); LMapKey k; LField (u "servers"); LIdx i].
Lemma channel_location k : location T_AsyncAPI3 (at_channel k) ["Channel"].
Proof.
  unfold at_channel, T_AsyncAPI3. step 6. apply lo_opt. unfold T_Operations. apply lo_root. step 0. unfold T_Operation.
  match goal with |- location (TModel _ _ ?fs) _ _ => refine (lo_only "Operation" _ fs _ _ _ "channel" "Channel" (nth_error_In fs 1 eq_refl) eq_refl _ _) end; [left; reflexivity|constructor].
Qed.
Lemma message_location k i : location T_AsyncAPI3 (at_message k i) ["Message"].
Proof.
  unfold at_message, T_AsyncAPI3. step 6. apply lo_opt. unfold T_Operations. apply lo_root. step 0. unfold T_Operation.
  match goal with |- location (TModel _ _ ?fs) _ _ => refine (lo_only "Operation" _ fs _ _ _ "messages" "Message" (nth_error_In fs 10 eq_refl) eq_refl _ _) end; [right; left; reflexivity|repeat constructor].
Qed.
Lemma server_location k i : location T_AsyncAPI3 (at_server k i) ["Server"].
Proof.
  unfold at_server, T_AsyncAPI3. step 5. apply lo_opt. unfold T_Channels. apply lo_root. step 0. unfold T_Channel.
  match goal with |- location (TModel _ _ ?fs) _ _ => refine (lo_only "Channel" _ fs _ _ _ "servers" "Server" (nth_error_In fs 5 eq_refl) eq_refl _ _) end; [do 4 right; left; reflexivity|repeat constructor].
Qed.
Lemma ref_only fi t : In (fi, t) (class_fields "Reference") -> f_name fi <> u "messages" /\ f_alias fi <> u "messages".
Proof.
  assert (Hb : forallb (fun ft => negb (str_eqb (f_name (fst ft)) (u "messages")) && negb (str_eqb (f_alias (fst ft)) (u "messages")))%bool (class_fields "Reference") = true) by (vm_compute; reflexivity).
  revert Hb. generalize (class_fields "Reference"). intros fs Hb Hin. assert (H1 := proj1 (forallb_forall _ _) Hb _ Hin). cbn beta in H1. cbn [fst] in H1. apply andb_prop in H1 as [H1 H2].
  apply negb_true_iff in H1, H2. split; intros Hx; rewrite Hx, str_eqb_refl in *; discriminate.
Qed.
Definition leads (doc : pv) (s : pystr) (c : string) : Prop := (exists n s', hops doc n s s' /\ external s') \/ exists o l, ends_at doc s o l /\ type_name o = c.
Lemma field_reached a c k f fv ex fo exo x : In ("AsyncAPI3", a) fields_shown -> In (c, f) fields_shown -> c <> "Reference" ->
  entry_at (VObj "AsyncAPI3" fv ex) [a] k = Some (VObj c fo exo) -> assoc (u f) fo = Some x -> x <> VNone ->
  exists pos, reached (VObj "AsyncAPI3" fv ex) pos (flat_map step_text [LField (u a); LMapKey k; LField (u f)]) x.
Proof.
  intros Ha Hf Hc He Hx Hn. destruct (entry_reached _ _ _ _ _ Ha He) as [pos Hr]. destruct (child_of_field c fo exo (u f) x Hc (field_shown _ _ Hf) Hx Hn) as [i Hi].
  destruct (reached_app _ _ _ _ Hr [i] (flat_map step_text [LField (u f)]) x) as [pos' H'].
  - cbn [flat_map step_text]. eapply re_step; [exact Hi|constructor; reflexivity].
  - exists pos'. rewrite <- flat_map_app in H'. exact H'.
Qed.
Lemma item_reached v pos p l i x : reached v pos (flat_map step_text p) (VList l) -> nth_error l i = Some x -> exists pos', reached v pos' (flat_map step_text (p ++ [LIdx i])) x.
Proof.
  intros Hr Hi. destruct (reached_app _ _ _ _ Hr [i] (flat_map step_text [LIdx i]) x) as [pos' H'].
  - cbn [flat_map step_text]. eapply re_step; [constructor; exact Hi|constructor; reflexivity].
  - exists pos'. rewrite <- flat_map_app in H'. exact H'.
Qed.
Lemma leads_at E doc pos p D r s : no_root_keyword doc -> unified E doc = None -> location T_AsyncAPI3 p [D] -> (forall k, In k (keys_of p) -> ordinary E k) -> inline_abs (map abs p) = false ->
  reached doc pos (flat_map step_text p) r -> is_reference r s -> leads doc s D.
Proof.
  intros Hn Hu Hl Hk Ht Hr Hs. destruct (c34_sound_partial E doc pos p [D] r s Hn Hu Hl Hk) as [H1|(o & l & He & [Ho|[]])]; auto; [|left; exact H1|right; exists o, l; auto].
  intros Hx. apply inline_abs_iff in Hx. congruence.
Qed.
Theorem c104_targets_partial E v doc k fv s : parse E T_AsyncAPI3 v = Some doc -> no_root_keyword doc -> unified E doc = None -> ordinary E k ->
  (root_operation doc k fv -> holds_ref fv "channel" s -> leads doc s "Channel")
  /\ (root_operation doc k fv -> lists_ref fv "messages" s -> leads doc s "Message")
  /\ (root_channel doc k fv -> lists_ref fv "servers" s -> leads doc s "Server").
Proof.
  intros Hp Hn Hu Hk. destruct (document_object _ _ _ Hp) as (fd & ed & Hd). assert (Hk' : forall k0, In k0 [k] -> ordinary E k0) by (intros k0 [<-|[]]; exact Hk).
  split; [|split].
  - intros [ex He] (r & Ha & Hr). rewrite Hd in He. destruct (field_reached "operations" "Operation" k "channel" fd ed fv ex r) as [pos Hre]; try exact He; try exact Ha; try discriminate; try (cbn; tauto).
    + destruct Hr as (? & ? & -> & _). discriminate.
    + rewrite <- Hd in Hre. exact (leads_at E doc pos (at_channel k) _ r s Hn Hu (channel_location k) Hk' eq_refl Hre Hr).
  - intros [ex He] (l & r & Ha & Hin & Hr). rewrite Hd in He. destruct (field_reached "operations" "Operation" k "messages" fd ed fv ex (VList l)) as [pos Hre]; try exact He; try exact Ha; try discriminate; try (cbn; tauto).
    destruct (nth_of_In _ _ Hin) as [i Hi]. destruct (item_reached _ _ _ _ _ _ Hre Hi) as [pos' Hre']. rewrite <- Hd in Hre'.
    exact (leads_at E doc pos' (at_message k i) _ r s Hn Hu (message_location k i) Hk' eq_refl Hre' Hr).
  - intros [ex He] (l & r & Ha & Hin & Hr). rewrite Hd in He. destruct (field_reached "channels" "Channel" k "servers" fd ed fv ex (VList l)) as [pos Hre]; try exact He; try exact Ha; try discriminate; try (cbn; tauto).
    destruct (nth_of_In _ _ Hin) as [i Hi]. destruct (item_reached _ _ _ _ _ _ Hre Hi) as [pos' Hre']. rewrite <- Hd in Hre'.
    exact (leads_at E doc pos' (at_server k i) _ r s Hn Hu (server_location k i) Hk' eq_refl Hre' Hr).
Qed.

(** ... and the rules hold where the references are written as the rules ask. *)
Lemma leads_points doc s c : leads doc s c -> external s \/ exists l, points_to doc s l.
Proof.
  intros [(n & s' & Hh & Hx)|(o & l & (n & s' & Hh & Hd & _) & _)]; inversion Hh as [|n0 s0 l1 v0 s1 s2 Hd1 Hv Hh']; subst; auto; right; eexists; eexists; eassumption.
Qed.
Definition plain_name (n : pystr) : Prop := n <> [] /\ ~ In slash n.
Lemma parts_two a n : plain_name (u a) -> plain_name n -> parts_of (slash :: u a ++ slash :: n)%list = [u a; n].
Proof.
  intros [H1 H2] [H3 H4]. apply segments_parts. apply seg_slash. apply seg_name; [exact H1|exact H2| |right; eauto]. apply seg_slash.
  rewrite <- (app_nil_r n) at 1. apply seg_name; [exact H3|exact H4|constructor|left; reflexivity].
Qed.
Lemma parts_four a n b0 m : plain_name (u a) -> plain_name n -> plain_name (u b0) -> plain_name m -> parts_of (slash :: u a ++ slash :: n ++ slash :: u b0 ++ slash :: m)%list = [u a; n; u b0; m].
Proof.
  intros [H1 H2] [H3 H4] [H5 H6] [H7 H8]. apply segments_parts. apply seg_slash. apply seg_name; [exact H1|exact H2| |right; eauto]. apply seg_slash. apply seg_name; [exact H3|exact H4| |right; eauto].
  apply seg_slash. apply seg_name; [exact H5|exact H6| |right; eauto]. apply seg_slash. rewrite <- (app_nil_r m) at 1. apply seg_name; [exact H7|exact H8|constructor|left; reflexivity].
Qed.
Lemma plain_word a : forallb (fun x => negb (N.eqb slash x)) (u a) = true -> u a <> [] -> plain_name (u a).
Proof. intros H H0. split; [exact H0|]. intros Hi. assert (H1 := proj1 (forallb_forall _ _) H _ Hi). discriminate H1. Qed.
Theorem c104_built_partial E v doc : parse E T_AsyncAPI3 v = Some doc -> no_root_keyword doc -> unified E doc = None ->
  (forall k fv, root_operation doc k fv \/ root_channel doc k fv -> ordinary E k) ->
  ((forall k fv s, root_operation doc k fv -> holds_ref fv "channel" s -> exists n, plain_name n /\ s = (u "#/channels/" ++ n)%list) -> channel_rule doc)
  /\ ((forall k fv s, root_channel doc k fv -> lists_ref fv "servers" s -> exists n, plain_name n /\ s = (u "#/servers/" ++ n)%list) -> servers_rule doc)
  /\ ((forall k fv c s, root_operation doc k fv -> holds_ref fv "channel" c -> lists_ref fv "messages" s ->
        exists n m, plain_name n /\ plain_name m /\ c = (u "#/channels/" ++ n)%list /\ s = (u "#/channels/" ++ n ++ u "/messages/" ++ m)%list) -> messages_rule doc).
Proof.
  intros Hp Hn Hu Hk.
  assert (Hch : plain_name (u "channels")) by (apply plain_word; [reflexivity|discriminate]).
  assert (Hse : plain_name (u "servers")) by (apply plain_word; [reflexivity|discriminate]).
  assert (Hme : plain_name (u "messages")) by (apply plain_word; [reflexivity|discriminate]).
  split; [|split].
  - intros Hb k fv s Ho Hr. destruct (Hb k fv s Ho Hr) as (n & Hn1 & ->).
    destruct (leads_points _ _ _ (proj1 (c104_targets_partial E v doc k fv _ Hp Hn Hu (Hk _ _ (or_introl Ho))) Ho Hr)) as [Hx|[l Hl]]; [left; exact Hx|right].
    exists n. assert (Hq := points_parts doc (u "/channels/" ++ n)%list l Hl). change (u "/channels/" ++ n)%list with (slash :: u "channels" ++ slash :: n)%list in Hq.
    rewrite (parts_two _ _ Hch Hn1) in Hq. rewrite Hq. exact Hl.
  - intros Hb k fv s Ho Hr. destruct (Hb k fv s Ho Hr) as (n & Hn1 & ->).
    destruct (leads_points _ _ _ (proj2 (proj2 (c104_targets_partial E v doc k fv _ Hp Hn Hu (Hk _ _ (or_intror Ho)))) Ho Hr)) as [Hx|[l Hl]]; [left; exact Hx|right].
    exists n. assert (Hq := points_parts doc (u "/servers/" ++ n)%list l Hl). change (u "/servers/" ++ n)%list with (slash :: u "servers" ++ slash :: n)%list in Hq.
    rewrite (parts_two _ _ Hse Hn1) in Hq. rewrite Hq. exact Hl.
  - intros Hb k fv c s Ho Hc Hr. destruct (Hb k fv c s Ho Hc Hr) as (n & m & Hn1 & Hm1 & -> & ->).
    destruct (leads_points _ _ _ (proj1 (proj2 (c104_targets_partial E v doc k fv _ Hp Hn Hu (Hk _ _ (or_introl Ho)))) Ho Hr)) as [Hx|[l Hl]]; [left; exact Hx|right].
    assert (Hq := points_parts doc (u "/channels/" ++ n ++ u "/messages/" ++ m)%list l Hl).
    change (u "/channels/" ++ n ++ u "/messages/" ++ m)%list with (slash :: u "channels" ++ slash :: n ++ slash :: u "messages" ++ slash :: m)%list in Hq.
    rewrite (parts_four _ _ _ _ Hch Hn1 Hme Hm1) in Hq. subst l.
    assert (Hl' := Hl). destruct Hl as (w & r & _ & _ & _ & Hw). inversion Hw as [|v0 k0 w1 l1 x1 Hg1 Hw1]; subst. inversion Hw1 as [|v0 k0 w2 l2 x2 Hg2 Hw2]; subst. inversion Hw2 as [|v0 k0 w3 l3 x3 Hg3 Hw3]; subst.
    exists w2, [u "channels"; n], m. split.
    + exists 0, (u "#/channels/" ++ n)%list. split; [constructor|]. split.
      * exists (u "/channels/" ++ n)%list. split; [reflexivity|]. split; [|split; [discriminate|econstructor; [exact Hg1|econstructor; [exact Hg2|constructor]]]].
        change (u "/channels/" ++ n)%list with (slash :: u "channels" ++ slash :: n)%list. rewrite <- (parts_two "channels" n Hch Hn1). apply parts_segments.
      * intros s0 (fr & er & -> & _). inversion Hg3 as [| |c0 fv0 ex0 fi t w0 Hin Ha Hne|c0 fv0 ex0 fi t w0 Hin Ha Hne]; subst; destruct (ref_only _ _ Hin) as [Hx1 Hx2]; solve [apply Hx1; assumption|apply Hx2; assumption|apply Hx1; symmetry; assumption|apply Hx2; symmetry; assumption].
    + exact Hl'.
Qed.
Definition doc_placed : pv :=
  spec [("servers", obj [("s", obj [("host", str "h"); ("protocol", str "amqp")])]);
        ("channels", obj [("c", obj [("address", str "a"); ("servers", VList [ref "#/servers/s"]); ("messages", obj [("m", ref "#/components/messages/n")])])]);
        ("operations", obj [("o", op [("channel", ref "#/channels/c"); ("messages", VList [ref "#/channels/c/messages/m"])])]);
        ("components", obj [("messages", obj [("n", obj [])])])].
Example c104_ex : accepted doc_placed (load_doc doc_placed) /\ exists fv r0 r1,
  root_operation (load_doc doc_placed) (u "o") fv /\ ordinary E0 (u "o")
  /\ assoc (u "channel") fv = Some r0 /\ is_reference r0 (u "#/channels/" ++ u "c")%list
  /\ assoc (u "messages") fv = Some (VList [r1]) /\ is_reference r1 (u "#/channels/" ++ u "c" ++ u "/messages/" ++ u "m")%list.
Proof.
  split; [apply accepted_dec; vm_compute; reflexivity|]. unfold root_operation. do 3 eexists. split; [eexists; vm_compute; reflexivity|]. split; [apply ordinary_dec; vm_compute; reflexivity|].
  split; [vm_compute; reflexivity|]. split; [apply is_ref_dec; vm_compute; reflexivity|]. split; [vm_compute; reflexivity|apply is_ref_dec; vm_compute; reflexivity].
Qed.
Print Assumptions c104_targets_partial.
Print Assumptions c104_built_partial.
Print Assumptions c104_channel_refuted.
Print Assumptions c104_reply_address_refuted.
