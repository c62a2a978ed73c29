(** JSON text (README.md:256-257, 282).
    C91 the text entry points read exactly the JSON texts and read back what is written.
    C92 a file cut short or with something appended never loads as another document.
    C93 a saved document loads again, and is saved to the same text. *)
From Verif Require Import PyStr Regex Value Types Rules Pydantic ClassTable Classes Canon Fix Linked SpecParse ProofParse State SpecState ProofState Resolve SpecResolve ProofResolve Dump SpecDump ProofDump
  PropSame PropDump ProofEquality PropEquality JsonText SpecJsonText ProofJsonText ProofJsonRead ProofJsonWrite Sample.
Local Open Scope string_scope.

(** ** C91 *)
Theorem c91_reads_exactly_json F n s v : read F n s = Some v <-> json_text F n s v.
Proof. exact (read_iff F n s v). Qed.
Theorem c91_unambiguous F n m s v v' : json_text F n s v -> json_text F m s v' -> v = v'.
Proof.
  assert (Hd : forall k v, json_text F k s v -> json_text F (Nat.max n m) s v -> read F (Nat.max n m) s = Some v) by (intros k x _ Hx; apply read_iff; exact Hx).
  assert (Hm : forall k v, k <= Nat.max n m -> json_text F k s v -> json_text F (Nat.max n m) s v).
  { intros k x Hk Hx. destruct Hx as [w t w' x Hw Hw' Hv]. constructor; [exact Hw|exact Hw'|]. eapply (proj1 (text_deeper F)); [exact Hv|exact Hk]. }
  intros H1 H2. assert (R1 := Hd n v H1 (Hm n v (Nat.le_max_l _ _) H1)). assert (R2 := Hd m v' H2 (Hm m v' (Nat.le_max_r _ _) H2)). congruence.
Qed.
(** What is read is plain data: no instances, each key once, nested no deeper than the text. *)
Lemma json_sub x v : is_json v -> within x v -> is_json x.
Proof. intros Hj Hx y Hy. apply Hj. eapply within_trans; eassumption. Qed.
Definition plain (n : nat) (v : pv) : Prop := is_json v /\ python_dicts v /\ nesting v <= n.
Lemma plain_atom n v : match v with VNone | VBool _ | VInt _ | VFloat _ | VStr _ => True | _ => False end -> plain n v.
Proof. intros Hv. repeat split; [| |destruct v; try contradiction; cbn [nesting]; lia]; intros x Hx; destruct v; try contradiction; inversion Hx; subst; exact I. Qed.
Lemma plain_list n l : (forall x, In x l -> plain n x) -> plain (S n) (VList l).
Proof.
  intros Hl. repeat split.
  - intros x Hx. inversion Hx as [|? y Hi Hy| | | |]; subst; [exact I|]. apply (proj1 (Hl y Hi)). exact Hy.
  - intros x Hx. inversion Hx as [|? y Hi Hy| | | |]; subst; [exact I|]. apply (proj1 (proj2 (Hl y Hi))). exact Hy.
  - cbn [nesting]. apply le_n_S, list_max_le, Forall_forall. intros k Hk. apply in_map_iff in Hk as (x & <- & Hi). apply (Hl x Hi).
Qed.
Lemma plain_dict n d : NoDup (map fst d) -> (forall k x, In (k, x) d -> plain n x) -> plain (S n) (VDict d).
Proof.
  intros Hn Hl. repeat split.
  - intros x Hx. inversion Hx as [| |? k y Hi Hy| | |]; subst; [exact I|]. apply (proj1 (Hl k y Hi)). exact Hy.
  - intros x Hx. inversion Hx as [| |? k y Hi Hy| | |]; subst; [exact Hn|]. apply (proj1 (proj2 (Hl k y Hi))). exact Hy.
  - cbn [nesting]. apply le_n_S, list_max_le, Forall_forall. intros m Hk. apply in_map_iff in Hk as ([k x] & <- & Hi). apply (Hl k x Hi).
Qed.
Lemma text_plain F : (forall n t v, value_text F n t v -> plain n v) /\ (forall n t l, items_text F n t l -> forall x, In x l -> plain n x)
  /\ (forall n t d, members_text F n t d -> forall k x, In (k, x) d -> plain n x).
Proof.
  apply text_mutind.
  1-9: intros; apply plain_atom; exact I.
  - intros n w Hw. apply plain_list. intros x [].
  - intros n w t l Hw Hi IH. apply plain_list. exact IH.
  - intros n w Hw. apply plain_dict; [constructor|]. intros k x [].
  - intros n w t ms d Hw Hm IH Hb. apply plain_dict; [eapply built_nodup; exact Hb|]. intros k x Hi. eapply IH, built_in; eassumption.
  - intros n t v w Hv IH Hw x [<-|[]]. exact IH.
  - intros n t v w w' t' l Hv IH Hw Hw' Hi IHi x [<-|Hx]; [exact IH|apply IHi; exact Hx].
  - intros n tk k w1 w2 t v w Hk Hw1 Hw2 Hv IH Hw k' x [[= <- <-]|[]]. exact IH.
  - intros n tk k w1 w2 t v w w' t' d Hk Hw1 Hw2 Hv IH Hw Hw' Hm IHm k' x [[= <- <-]|Hx]; [exact IH|eapply IHm; exact Hx].
Qed.
Theorem c91_plain_data F n s v : read F n s = Some v -> is_json v /\ python_dicts v /\ nesting v <= n.
Proof. intros Hr. apply read_iff in Hr; destruct Hr as [w t w' v' Hw Hw' Hv]. exact (proj1 (text_plain F) _ _ _ Hv). Qed.

(** What is written is read back as the serialised data. *)
Lemma finite_sub F v x : finite F v -> within x v -> finite F x.
Proof. intros Hf Hx t Ht. apply Hf. eapply within_trans; eassumption. Qed.
Lemma update_once d : NoDup (map fst d) -> dict_update [] d = d.
Proof. intros Hn. rewrite dict_update_app; [reflexivity|exact Hn|intros k _ []]. Qed.
Lemma written_dump F v : finite F v -> python_dicts v -> writes_once v -> written F v = dump v.
Proof.
  induction v using pv_ind'; intros Hf Hd Ho; try reflexivity.
  - cbn [written dump]. assert (Ht := Hf t (w_self _)). destruct (f_text F t); [reflexivity|congruence].
  - cbn [written dump]. f_equal. rewrite Forall_forall in H. apply map_ext_in. intros x Hx.
    assert (Hw : within x (VList l)) by (eapply w_list; [exact Hx|constructor]). apply (H x Hx); [eapply finite_sub|eapply pd_list|eapply once_sub]; eassumption.
  - rewrite written_dict. change (dump (VDict d)) with (VDict (dump_entries d)). f_equal. rewrite Forall_forall in H. rewrite update_once by (rewrite map_map; exact (Hd _ (w_self _))).
    apply map_ext_in. intros [k x] Hx. unfold entry_of. cbn [fst snd]. f_equal. assert (Hw : within x (VDict d)) by (eapply w_dict; [exact Hx|constructor]). apply (H (k, x) Hx); [eapply finite_sub|eapply pd_dict|eapply once_sub]; eassumption.
  - rewrite written_obj, dump_obj. f_equal. rewrite Forall_forall in H, H0. destruct (Hd _ (w_self _)) as [Nf Nx]. assert (W := Ho _ _ _ (w_self _)). revert W. generalize (class_infos c). intros infos W.
    rewrite map_app. unfold dict_update. rewrite fold_left_app. fold (dict_update [] (map (entry_of F) (out_fields infos fs))).
    assert (H1 : map (entry_of F) (out_fields infos fs) = dump_fields infos fs).
    { rewrite <- out_fields_dump. apply map_ext_in. intros [a x] Hi. apply out_fields_in in Hi as (k & Hi). unfold entry_of. cbn [fst snd]. f_equal. assert (Hw : within x (VObj c fs ex)) by (eapply w_field; [exact Hi|constructor]). apply (H (k, x) Hi); [eapply finite_sub|eapply pd_field|eapply once_sub]; eassumption. }
    assert (H2 : map (entry_of F) ex = dump_entries ex).
    { apply map_ext_in. intros [k x] Hi. unfold entry_of. cbn [fst snd]. f_equal. assert (Hw : within x (VObj c fs ex)) by (eapply w_extra; [exact Hi|constructor]). apply (H0 (k, x) Hi); [eapply finite_sub|eapply pd_extra|eapply once_sub]; eassumption. }
    rewrite H1, H2, update_once by exact W. reflexivity.
  - rewrite written_root, written_dict. change (dump (VRoot c d)) with (VDict (dump_entries d)). f_equal. rewrite Forall_forall in H. rewrite update_once by (rewrite map_map; exact (Hd _ (w_self _))).
    apply map_ext_in. intros [k x] Hx. unfold entry_of. cbn [fst snd]. f_equal. assert (Hw : within x (VRoot c d)) by (eapply w_root; [exact Hx|constructor]). apply (H (k, x) Hx); [eapply finite_sub|eapply pd_root|eapply once_sub]; eassumption.
Qed.
Lemma read_written F n v s : faithful F -> write F v = Some s -> nesting v <= n -> read F n s = Some (written F v).
Proof.
  intros HF Hw Hn. apply read_iff. rewrite <- (app_nil_r s). apply (j_text F n [] s [] _ blanks_nil blanks_nil). eapply (proj1 (text_deeper F)); [apply write_text; eassumption|exact Hn].
Qed.
Lemma json_once v : is_json v -> writes_once v.
Proof. intros Hj c fv ex Hw. exfalso. exact (Hj _ Hw). Qed.
Lemma json_dump v : is_json v -> dump v = v.
Proof.
  induction v using pv_ind'; intros Hj; try reflexivity; try (exfalso; exact (Hj _ (w_self _))).
  - cbn [dump]. f_equal. rewrite <- (map_id l) at 2. rewrite Forall_forall in H. apply map_ext_in. intros x Hx. apply (H x Hx). eapply json_sub; [exact Hj|]. eapply w_list; [exact Hx|constructor].
  - cbn [dump]. f_equal. rewrite <- (map_id d) at 2. rewrite Forall_forall in H. apply map_ext_in. intros [k x] Hx. f_equal. apply (H (k, x) Hx). eapply json_sub; [exact Hj|]. eapply w_dict; [exact Hx|constructor].
Qed.
Theorem c91_data_roundtrip F n v s : faithful F -> is_json v -> python_dicts v -> finite F v -> nesting v <= n -> write F v = Some s -> read F n s = Some v.
Proof. intros HF Hj Hd Hf Hn Hw. rewrite (read_written F n v s HF Hw Hn), (written_dump F v Hf Hd (json_once v Hj)), (json_dump v Hj). reflexivity. Qed.
(** model_dump_json then reading the text gives what model_dump(mode="json") gives. *)
Theorem c91_instance_roundtrip E F n t v o s : faithful F -> In t all_types -> python_dicts v -> parse E t v = Some o -> json_data t o -> finite F o -> nesting o <= n ->
  write F o = Some s -> read F n s = Some (dump o).
Proof.
  intros HF Ht Hd Ho Hj Hf Hn Hw. rewrite (read_written F n o s HF Hw Hn). f_equal. apply written_dump; [exact Hf| |].
  - eapply parse_pd; [exact (wf_all _ Ht)|exact Hd|exact Ho].
  - eapply canon_once; [exact (linked_all _ Ht)|exact (wf_all _ Ht)|]. eapply parsed_json; eassumption.
Qed.
(** Writing raises exactly on text that has no Unicode encoding and on integers of more than 4300 digits. *)
Definition encodable (v : pv) : Prop := forall x, within x v ->
  match x with
  | VStr s => forall c, In c s -> is_scalar c
  | VInt z => exists t, natural_text t (Z.abs_N z) /\ (N.of_nat (List.length t) <= 4300)%N
  | VDict d => forall k c, In k (map fst d) -> In c k -> is_scalar c
  | _ => True
  end.
Lemma all_some_iff l : (exists ts, all_some l = Some ts) <-> forall o, In o l -> exists t, o = Some t.
Proof.
  induction l as [|[x|] l IH]; cbn [all_some].
  - split; [intros _ o []|intros _; eexists; reflexivity].
  - split.
    + intros [ts Hts] o [<-|Ho]; [eexists; reflexivity|]. apply IH; [|exact Ho]. destruct (all_some l) as [r|]; [eexists; reflexivity|discriminate].
    + intros Ha. destruct (proj2 IH) as [r ->]; [intros o Ho; apply Ha; right; exact Ho|]. eexists. reflexivity.
  - split; [intros [ts Hts]; discriminate|]. intros Ha. destruct (Ha None (or_introl eq_refl)) as [t Ht]. discriminate.
Qed.
Lemma bracket_iff o c l : (exists t, bracket o c l = Some t) <-> forall x, In x l -> exists t, x = Some t.
Proof. rewrite <- all_some_iff. unfold bracket. destruct (all_some l) as [ts|]; split; intros [t Ht]; try discriminate; eexists; reflexivity. Qed.
Lemma enc_sub x v : encodable v -> within x v -> encodable x.
Proof. intros He Hx y Hy. apply He. eapply within_trans; eassumption. Qed.
Theorem c91_writes_or_raises F v : is_json v -> ((exists s, write F v = Some s) <-> encodable v).
Proof.
  induction v using pv_ind'; intros Hj; try (exfalso; exact (Hj _ (w_self _))).
  - split; [intros _ x Hx; inversion Hx; exact I|intros _; eexists; reflexivity].
  - split; [intros _ x Hx; inversion Hx; exact I|intros _; destruct b; eexists; reflexivity].
  - cbn [write]. rewrite write_int_some. split; [intros Hz x Hx; inversion Hx; exact Hz|intros He; exact (He _ (w_self _))].
  - split; [intros _ x Hx; inversion Hx; exact I|intros _; cbn [write]; destruct (f_text F t); eexists; reflexivity].
  - cbn [write]. rewrite write_string_some. split; [intros Hz x Hx; inversion Hx; exact Hz|intros He; exact (He _ (w_self _))].
  - cbn [write]. rewrite bracket_iff. rewrite Forall_forall in H. split.
    + intros Ha x Hx. inversion Hx as [|? y Hi Hy| | | |]; subst; [exact I|]. assert (Hw : within y (VList l)) by (eapply w_list; [exact Hi|constructor]).
      refine (proj1 (H y Hi (json_sub _ _ Hj Hw)) _ x Hy). apply Ha, in_map. exact Hi.
    + intros He o Ho. apply in_map_iff in Ho as (y & <- & Hi). assert (Hw : within y (VList l)) by (eapply w_list; [exact Hi|constructor]). apply (H y Hi (json_sub _ _ Hj Hw)). eapply enc_sub; eassumption.
  - rewrite write_dict, bracket_iff. rewrite Forall_forall in H. split.
    + intros Ha. assert (Hm : forall k x, In (k, x) d -> (forall c, In c k -> is_scalar c) /\ exists t, write F x = Some t).
      { intros k x Hi. destruct (Ha (write_member k (write F x))) as [t Ht]; [rewrite map_map; apply in_map_iff; exists (k, x); split; [reflexivity|exact Hi]|]. unfold write_member in Ht.
        destruct (write_string k) as [tk|] eqn:Hk; [|discriminate]. destruct (write F x) as [tx|]; [|discriminate]. split; [apply write_string_some; exists tk; exact Hk|eexists; reflexivity]. }
      intros x Hx. inversion Hx as [| |? k y Hi Hy| | |]; subst.
      * intros k c Hk Hc. apply in_map_iff in Hk as ([k' y] & <- & Hi). apply (proj1 (Hm k' y Hi)). exact Hc.
      * assert (Hw : within y (VDict d)) by (eapply w_dict; [exact Hi|constructor]). exact (proj1 (H (k, y) Hi (json_sub _ _ Hj Hw)) (proj2 (Hm k y Hi)) x Hy).
    + intros He o Ho. rewrite map_map in Ho. apply in_map_iff in Ho as ([k y] & <- & Hi). cbn [member_of fst snd]. assert (Hw : within y (VDict d)) by (eapply w_dict; [exact Hi|constructor]).
      destruct (proj2 (H (k, y) Hi (json_sub _ _ Hj Hw)) (enc_sub _ _ He Hw)) as [t Ht]. cbn [snd] in Ht. unfold write_member. rewrite Ht.
      destruct (proj2 (write_string_some k)) as [tk ->]; [|eexists; reflexivity]. intros c Hc. apply (He _ (w_self _) k c); [apply (in_map fst _ (k, y)); exact Hi|exact Hc].
Qed.
(** What was read can be written again. *)
Lemma chars_scalar t s : chars_text t s -> forall c, In c s -> is_scalar c.
Proof.
  induction 1 as [|c t s H32 Hs Hq Hb Ht IH|e c t s Hi Ht IH|a b c d n t s Hh Hs Ht IH|a b c d h a' b' c' d' l t s Hh Hhi Hh' Hlo Ht IH]; intros x; [intros []|..]; intros [<-|Hx]; try (apply IH; exact Hx); try exact Hs.
  - cbn [In] in Hi. repeat (destruct Hi as [Hi|Hi]; [injection Hi as _ <-; left; reflexivity|]). contradiction.
  - unfold is_high, is_low, is_scalar in *. lia.
Qed.
Lemma string_scalar t s : string_text t s -> forall c, In c s -> is_scalar c.
Proof. intros [t' s' Hc]. eapply chars_scalar. exact Hc. Qed.
Lemma enc_atom v : match v with VNone | VBool _ | VFloat _ => True | VStr s => forall c, In c s -> is_scalar c
  | VInt z => exists t, natural_text t (Z.abs_N z) /\ (N.of_nat (List.length t) <= 4300)%N | _ => False end -> encodable v.
Proof. intros Hv x Hx. destruct v; try contradiction; inversion Hx; subst; exact Hv. Qed.
Lemma text_encodable F : (forall n t v, value_text F n t v -> encodable v) /\ (forall n t l, items_text F n t l -> forall x, In x l -> encodable x)
  /\ (forall n t d, members_text F n t d -> forall k x, In (k, x) d -> encodable x /\ forall c, In c k -> is_scalar c).
Proof.
  apply text_mutind.
  1-6: intros; apply enc_atom; exact I.
  - intros n t z Hz. apply enc_atom. destruct Hz as [t m Hm Hl|t m Hm Hl]; exists t; (split; [|exact Hl]); [replace (Z.abs_N (Z.of_N m)) with m by lia|replace (Z.abs_N (- Z.of_N m)) with m by lia]; exact Hm.
  - intros. apply enc_atom. exact I.
  - intros n t s Hs. apply enc_atom. eapply string_scalar. exact Hs.
  - intros n w Hw x Hx. inversion Hx as [|? y Hi Hy| | | |]; subst; [exact I|destruct Hi].
  - intros n w t l Hw Hi IH x Hx. inversion Hx as [|? y Hy Hyx| | | |]; subst; [exact I|]. apply (IH y Hy). exact Hyx.
  - intros n w Hw x Hx. inversion Hx as [| |? k y Hi Hy| | |]; subst; [intros k c []|destruct Hi].
  - intros n w t ms d Hw Hm IH Hb x Hx. inversion Hx as [| |? k y Hi Hy| | |]; subst.
    + intros k c Hk Hc. apply in_map_iff in Hk as ([k' y] & <- & Hi). apply (built_in _ _ _ _ Hb) in Hi. apply (proj2 (IH k' y Hi)). exact Hc.
    + apply (built_in _ _ _ _ Hb) in Hi. apply (proj1 (IH k y Hi)). exact Hy.
  - intros n t v w Hv IH Hw x [<-|[]]. exact IH.
  - intros n t v w w' t' l Hv IH Hw Hw' Hi IHi x [<-|Hx]; [exact IH|apply IHi; exact Hx].
  - intros n tk k w1 w2 t v w Hk Hw1 Hw2 Hv IH Hw k' x [[= <- <-]|[]]. split; [exact IH|eapply string_scalar; exact Hk].
  - intros n tk k w1 w2 t v w w' t' d Hk Hw1 Hw2 Hv IH Hw Hw' Hm IHm k' x [[= <- <-]|Hx]; [split; [exact IH|eapply string_scalar; exact Hk]|eapply IHm; exact Hx].
Qed.
Theorem c91_rewritable F n s v : read F n s = Some v -> exists s', write F v = Some s'.
Proof.
  intros Hr. apply c91_writes_or_raises; [eapply c91_plain_data; exact Hr|]. apply read_iff in Hr; destruct Hr as [w t w' v' Hw Hw' Hv]. exact (proj1 (text_encodable F) _ _ _ Hv).
Qed.
(** NaN and the infinities are the exception to the round trip: they are accepted, and written as null. *)
Definition F0 : floats := {| f_value := fun t => t; f_text := fun t => match numeral {| f_value := fun t => t; f_text := fun _ => None |} t with Some (VFloat _) => Some t | _ => None end |}.
Lemma F0_faithful : faithful F0.
Proof.
  intros t s. cbn [f_text F0 f_value]. destruct (numeral _ t) as [v|] eqn:Hn; [|discriminate]. destruct v; try discriminate. intros [= <-]. split; [|reflexivity].
  apply numeral_iff in Hn as [(z & Hz & _)|[_ Hf]]; [discriminate|exact Hf].
Qed.
Theorem c91_finite_needed F : f_text F (u "nan") = None ->
  ~ (forall n v s, is_json v -> python_dicts v -> nesting v <= n -> write F v = Some s -> read F n s = Some v).
Proof.
  intros Hn H. specialize (H 0 (VFloat (u "nan")) (u "null")). assert (Hr : read F 0 (u "null") = Some VNone) by reflexivity. rewrite Hr in H.
  assert (Hx : Some VNone = Some (VFloat (u "nan"))); [|discriminate]. apply H; [apply json_dec; reflexivity|apply python_dicts_dec; reflexivity|cbn [nesting]; lia|]. cbn [write]. rewrite Hn. reflexivity.
Qed.

(** ** C92 *)
Definition container (v : pv) : Prop := match v with VList _ | VDict _ | VRoot _ _ | VObj _ _ _ => True | _ => False end.
Lemma written_opens F v s : container v -> write F v = Some s -> exists c r, s = c :: r /\ (c = 91%N \/ c = 123%N).
Proof.
  intros Hc Hw. assert (Hb : forall o c l, bracket o c l = Some s -> exists r, s = o :: r) by (intros o c l; unfold bracket; destruct (all_some l); [intros [= <-]; eexists; reflexivity|discriminate]).
  destruct v; try contradiction; cbn [write] in Hw; apply Hb in Hw as [r ->]; eexists _, _; (split; [reflexivity|]); auto.
Qed.
Lemma opened_no_number F n c r v : value_text F n (c :: r) v -> c = 91%N \/ c = 123%N -> number v = false.
Proof.
  intros Hv Hc. destruct (number v) eqn:Hn; [|reflexivity]. exfalso. assert (Ht : exists t, t = c :: r /\ value_text F n t v) by (exists (c :: r); auto). destruct Ht as (t & Ht & Hv'). clear Hv.
  destruct Hv'; try discriminate Hn; try (injection Ht as <- _; destruct Hc; discriminate).
  - destruct (number_first F t (VInt z)) as (c' & r' & Ht' & Hd); [left; exists z; auto|]. rewrite Ht in Ht'. injection Ht' as <- <-. unfold is_digit in Hd. lia.
  - destruct (number_first F t (VFloat (f_value F t))) as (c' & r' & Ht' & Hd); [right; auto|]. rewrite Ht in Ht'. injection Ht' as <- <-. unfold is_digit in Hd. lia.
Qed.
(** Two texts one of which starts the other. *)
Lemma container_prefix F n m s p q v x : value_text F n s v -> (exists c r, s = c :: r /\ (c = 91%N \/ c = 123%N)) -> json_text F m p x -> s = (p ++ q)%list -> q = [] /\ x = v.
Proof.
  intros Hs (c & r & Hcr & Hc) Hp Heq. destruct Hp as [w t w' x Hw Hw' Ht].
  assert (w = []) as ->. { destruct w as [|b w]; [reflexivity|]. exfalso. rewrite Heq in Hcr. cbn [app] in Hcr. injection Hcr as -> _. specialize (Hw c (or_introl eq_refl)). lia. }
  cbn [app] in Heq. rewrite <- app_assoc in Heq.
  assert (Hnx : number x = false). { destruct (value_opens _ _ _ _ Ht) as (c' & r' & -> & _). rewrite Heq in Hcr. cbn [app] in Hcr. injection Hcr as -> _. eapply opened_no_number; eassumption. }
  assert (Hnv : number v = false) by (rewrite Hcr in Hs; eapply opened_no_number; eassumption).
  set (k := Nat.max n m). set (fuel := 2 * List.length s + 2).
  assert (R1 := proj1 (read_complete F) k s v (proj1 (text_deeper F) _ _ _ Hs k (Nat.le_max_l _ _)) fuel [] ltac:(unfold fuel; lia) ltac:(congruence)). rewrite app_nil_r in R1.
  assert (Hlen : 2 * List.length t + 1 <= fuel) by (unfold fuel; rewrite Heq, app_length; lia).
  assert (R2 := proj1 (read_complete F) k t x (proj1 (text_deeper F) _ _ _ Ht k (Nat.le_max_r _ _)) fuel (w' ++ q)%list Hlen ltac:(congruence)). rewrite <- Heq, R1 in R2. injection R2 as <- Hr.
  symmetry in Hr. apply app_eq_nil in Hr as [_ ->]. auto.
Qed.
(** A prefix of what was written for a document (a list, mapping or instance) is not JSON, unless it is all of it. *)
Theorem c92_cut_short F n v s p q : faithful F -> container v -> write F v = Some s -> s = (p ++ q)%list -> q <> [] -> read F n p = None.
Proof.
  intros HF Hc Hw Heq Hq. destruct (read F n p) as [x|] eqn:Hr; [|reflexivity]. exfalso. apply read_iff in Hr. apply Hq.
  eapply container_prefix; [apply write_text; eassumption|eapply written_opens; eassumption|exact Hr|exact Heq].
Qed.
(** Whatever follows it, other than blanks, makes it unreadable. *)
Theorem c92_appended F n v s q x : faithful F -> container v -> write F v = Some s -> read F n (s ++ q)%list = Some x -> blanks q /\ read F n s = Some x.
Proof.
  intros HF Hc Hw Hr. assert (Hs := write_text F v HF s Hw). destruct (written_opens F v s Hc Hw) as (c & r & Hcr & Hco). apply read_iff in Hr. inversion Hr as [w t w' y Hbw Hbw' Ht Heq Hy]; subst y.
  assert (w = []) as ->. { destruct w as [|b w]; [reflexivity|]. exfalso. rewrite Hcr in Heq. cbn [app] in Heq. injection Heq as -> _. specialize (Hbw c (or_introl eq_refl)). lia. }
  cbn [app] in Heq.
  assert (Hnx : number x = false). { destruct (value_opens _ _ _ _ Ht) as (c' & r' & -> & _). rewrite Hcr in Heq. cbn [app] in Heq. injection Heq as -> _. eapply opened_no_number; eassumption. }
  assert (Hnv : number (written F v) = false) by (rewrite Hcr in Hs; eapply opened_no_number; eassumption).
  set (k := Nat.max (nesting v) n). set (fuel := 2 * List.length (s ++ q)%list + 2).
  assert (L1 : 2 * List.length s + 1 <= fuel) by (unfold fuel; rewrite app_length; lia).
  assert (L2 : 2 * List.length t + 1 <= fuel) by (unfold fuel; rewrite <- Heq, app_length; lia).
  assert (R1 := proj1 (read_complete F) k s _ (proj1 (text_deeper F) _ _ _ Hs k (Nat.le_max_l _ _)) fuel q L1 ltac:(congruence)).
  assert (R2 := proj1 (read_complete F) k t x (proj1 (text_deeper F) _ _ _ Ht k (Nat.le_max_r _ _)) fuel w' L2 ltac:(congruence)).
  rewrite Heq, R1 in R2. injection R2 as Hx Hq. subst w'. split; [exact Hbw'|]. apply app_inv_tail in Heq. subst t. apply read_iff. rewrite <- (app_nil_r s). exact (j_text F n [] s [] x blanks_nil blanks_nil Ht).
Qed.
(** Saving and loading.  Under the conditions of C17, the text of a document loaded from JSON loads to the same document, processors aside. *)
Theorem c93_save_load_partial E F n t text o s : url_idem E -> faithful F -> In t all_types -> load_json E F n t text = Some o ->
  no_shadowing o -> no_null_over_default o -> no_ambiguity o -> finite F o -> nesting o <= n ->
  write F o = Some s -> load_json E F n t s = Some (without_processors o).
Proof.
  intros Hu HF Ht Hl Hs Hnu Ha Hf Hn Hw. unfold load_json in *. destruct (read F n text) as [v|] eqn:Hr; [|discriminate]. destruct (c91_plain_data _ _ _ _ Hr) as (Hj & Hd & _).
  rewrite (c91_instance_roundtrip E F n t v o s HF Ht Hd Hl (loaded_json_data E t v o Ht Hj Hl) Hf Hn Hw). exact (c17_reload_loaded_partial E t v o Hu Ht Hd Hj Hl Hs Hnu Ha).
Qed.
Lemma excluded_key k x : mem_str k [u "extra_converters"; u "extra_validators"] = true -> out_key (class_infos "AsyncAPI3") k x = None.
Proof. intros Hk. apply mem_str_In in Hk as [<-|[<-|[]]]; vm_compute; reflexivity. Qed.
Lemma write_without F o : write F (without_processors o) = write F o.
Proof.
  destruct o as [| | | | | | | |c fv ex| | |]; try reflexivity. cbn [without_processors]. rewrite !write_obj. do 3 f_equal. f_equal. destruct (String.eqb_spec c "AsyncAPI3") as [->|Hc].
  - assert (Hx := excluded_key). revert Hx. generalize (class_infos "AsyncAPI3"). intros infos Hx. induction fv as [|[k x] fv IH]; [reflexivity|]. cbn [map fst]. destruct (mem_str k [u "extra_converters"; u "extra_validators"]) eqn:Hk; cbn [andb out_fields].
    + rewrite !(Hx k _ Hk). exact IH.
    + destruct (out_key infos k x); [f_equal|]; exact IH.
  - f_equal. rewrite <- (map_id fv) at 2. apply map_ext. intros [k x]. rewrite andb_false_r. reflexivity.
Qed.
(** Saving what was loaded from a saved file gives the same text, character by character. *)
Theorem c93_text_stable_partial E F n t text o s o2 : url_idem E -> faithful F -> In t all_types -> load_json E F n t text = Some o ->
  no_shadowing o -> no_null_over_default o -> no_ambiguity o -> finite F o -> nesting o <= n ->
  write F o = Some s -> load_json E F n t s = Some o2 -> write F o2 = Some s.
Proof.
  intros Hu HF Ht Hl Hs Hnu Ha Hf Hn Hw H2. rewrite (c93_save_load_partial E F n t text o s) in H2 by assumption. injection H2 as <-. rewrite write_without. exact Hw.
Qed.
(** The text a crash leaves behind in a file being written, whatever the point, is all of it or is refused. *)
Theorem c92_crash_safe E F n m t t' text o s p q o' : faithful F -> In t all_types -> load_json E F n t text = Some o -> container o -> write F o = Some s -> s = (p ++ q)%list ->
  load_json E F m t' p = Some o' -> q = [].
Proof.
  intros HF Ht Hl Hc Hw Heq Hp. destruct q as [|c q]; [reflexivity|]. exfalso. unfold load_json in Hp. rewrite (c92_cut_short F m o s p (c :: q) HF Hc Hw Heq) in Hp by discriminate. discriminate.
Qed.

(** Concrete cases. *)
Definition q (s : string) : pystr := map (fun c => if N.eqb c 39 then 34%N else c) (u s).
Example c91_reads_ex : read F0 3 (q " { 'a' : [1, -20 ,3.5e+1,'\ud83d\ude00\n\u00e9',true ] ,'b':{}, 'a':null } ") = Some (obj [("a", VNone); ("b", obj [])])
  /\ read F0 3 (q "['\ud83d\ude00\n\u00e9', -20, 3.5e+1]") = Some (VList [VStr [128512; 10; 233]%N; VInt (-20); VFloat (u "3.5e+1")])
  /\ Forall (fun s => read F0 3 (q s) = None) ["[1,]"; "{'a':1,}"; "01"; "+1"; "1."; ".5"; "nul"; "'\ud83d'"; "'\x'"; "[[[[1]]]]"; "{'a' 1}"; "{a:1}"; "[1] 2"; "'a"; ""; "- 1"; "1e"; "[1 2]"].
Proof. split; [vm_compute; reflexivity|]. split; [vm_compute; reflexivity|]. repeat constructor; vm_compute; reflexivity. Qed.
Definition doc_text : pystr := q "{ 'asyncapi': '3.0.0', 'info': {'title': 'a \'quoted\' title\n', 'version': '1', 'x-n': [1, 2.5, {'k': null}]},
  'channels': {'c': {'address': null, 'messages': {'m': {'$ref': '#/components/messages/m'}}}}, 'components': {'messages': {'m': {'payload': {'type': 'object', 'maximum': 10}}}} }".
Definition finite_b (F : floats) (v : pv) : bool := match v with VFloat t => match f_text F t with Some _ => true | None => false end | _ => true end.
Lemma finite_dec F v : all_within (finite_b F) v = true -> finite F v.
Proof. intros H t Ht. assert (Hb := all_within_spec _ _ _ Ht H). cbn [finite_b] in Hb. destruct (f_text F t); discriminate. Qed.
Example c92_ex : exists o s, load_json E0 F0 8 T_AsyncAPI3 doc_text = Some o /\ no_shadowing o /\ no_null_over_default o /\ no_ambiguity o /\ finite F0 o /\ nesting o <= 8 /\ container o /\ write F0 o = Some s
  /\ load_json E0 F0 8 T_AsyncAPI3 s = Some (without_processors o) /\ load_json E0 F0 8 T_AsyncAPI3 (firstn 100 s) = None /\ starts_with (q "{'asyncapi':'3.0.0','info':{'title':'a \'quoted\' title\n','version':'1',") s = true.
Proof.
  eexists _, _. split; [vm_compute; reflexivity|]. split; [apply no_shadowing_dec; vm_compute; reflexivity|]. split; [apply null_dec; vm_compute; reflexivity|]. split; [apply ambiguity_dec; vm_compute; reflexivity|].
  split; [apply finite_dec; vm_compute; reflexivity|]. split; [apply Nat.leb_le; vm_compute; reflexivity|]. split; [exact I|]. split; [vm_compute; reflexivity|]. split; [vm_compute; reflexivity|]. split; vm_compute; reflexivity.
Qed.
(** The conditions on the float printer are met by [F0]; lone surrogates and over-long integers do raise. *)
Example c91_raises_ex : ~ encodable (obj [("a", VStr [55357%N])]) /\ write F0 (VStr [55357%N]) = None /\ write F0 (obj [("a", VList [VInt 0; VInt (-7); VStr [1; 128512; 34]%N])]) = Some (q "{'a':[0,-7,'\u0001" ++ [128512; 92; 34; 34; 93; 125]%N)%list.
Proof.
  split; [|split; vm_compute; reflexivity]. intros H. assert (Hs := H (VStr [55357%N]) ltac:(eapply w_dict; [left; reflexivity|constructor]) 55357%N (or_introl eq_refl)). unfold is_scalar in Hs. lia.
Qed.
(** Without the conditions of C17: an explicit null comes back as the default. *)
Theorem c93_save_load_refuted E F : ~ (forall n t text o s, In t all_types -> load_json E F n t text = Some o -> finite F o -> nesting o <= n -> write F o = Some s ->
  load_json E F n t s = Some (without_processors o)).
Proof.
  intros H. assert (Hi : In T_AnypointMQChannelBindings all_types) by in_table.
  assert (Hx : exists o s, load_json E F 2 T_AnypointMQChannelBindings (q "{'destination':'q','destinationType':null}") = Some o /\ all_within (finite_b F) o = true /\ Nat.leb (nesting o) 2 = true /\ write F o = Some s
    /\ load_json E F 2 T_AnypointMQChannelBindings s <> Some (without_processors o)).
  { eexists _, _. split; [vm_compute; reflexivity|]. split; [vm_compute; reflexivity|]. split; [vm_compute; reflexivity|]. split; [vm_compute; reflexivity|]. vm_compute. discriminate. }
  destruct Hx as (o & s & H1 & H2 & H3 & H4 & H5). apply H5. eapply H; [exact Hi|exact H1|apply finite_dec; exact H2|apply Nat.leb_le; exact H3|exact H4].
Qed.
Print Assumptions c93_save_load_refuted.
Print Assumptions c93_save_load_partial.
Print Assumptions c91_reads_exactly_json.
Print Assumptions c91_unambiguous.
Print Assumptions c91_plain_data.
Print Assumptions c91_data_roundtrip.
Print Assumptions c91_instance_roundtrip.
Print Assumptions c91_writes_or_raises.
Print Assumptions c91_rewritable.
Print Assumptions c91_finite_needed.
Print Assumptions c92_cut_short.
Print Assumptions c92_appended.
Print Assumptions c93_save_load_partial.
Print Assumptions c93_text_stable_partial.
Print Assumptions c92_crash_safe.
