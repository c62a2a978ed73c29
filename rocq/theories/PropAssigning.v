(** C84: what a refused attribute assignment is reported with, and that the report tells whether the value was stored. *)
From Verif Require Import PyStr Regex Value Types Rules Pydantic ClassTable Classes Canon Fix Linked SpecParse ProofRules ProofParse
  State SpecState ProofState ProofDump Sample Errors SpecErrors ProofErrors PropErrors Assigning.

(** What is wrong with an object whose fields are fine, and the sentence said about it: its first extra key that is not an extension; else the
    first violated rule relating its fields; else, for a document, what its processors object to. *)
Inductive wrong_now (E : env) (say : pv -> list pystr * option (option pystr)) (c : string) (k : kind) (fv ex : fields) : pystr -> Prop :=
| wn_extension key m : k = KExt -> first_key (fun _ => True) (upto_nl (extension_key E)) ex key ->
    m = u "Field '" ++ key ++ u "' does not match specification extension pattern. Extensions must start with 'x-' and contain only word characters, digits, dots, hyphens, and underscores." ->
    wrong_now E say c k fv ex m
| wn_rule rules m : (k = KExt -> forall key, In key (map fst ex) -> upto_nl (extension_key E) key) -> In (c, rules) (rules_of fv) -> first_violated rules m ->
    wrong_now E say c k fv ex m
| wn_processor m : c = "AsyncAPI3"%string -> (k = KExt -> forall key, In key (map fst ex) -> upto_nl (extension_key E) key) -> snd (say (VObj c fv ex)) = Some (Some m) ->
    wrong_now E say c k fv ex m.
(** The processors as State.v sees them: they return or raise, and leave the document alone. *)
Definition reading (say : pv -> list pystr * option (option pystr)) (o : pv) : bool * pv := (match snd (say o) with None => true | Some _ => false end, o).

Lemma first_bad_ext_none E (ex : fields) : first_bad (ext_key_ok E) ex = None <-> forall key, In key (map fst ex) -> upto_nl (extension_key E) key.
Proof.
  rewrite first_bad_none, forallb_forall. split.
  - intros H key Hk. apply in_map_iff in Hk as ([k x] & <- & Hk). apply ext_key_iff. exact (H _ Hk).
  - intros H [k x] Hk. apply ext_key_iff. apply H. apply in_map_iff. exists (k, x). auto.
Qed.
Lemma first_bad_ext_some E (ex : fields) key : first_bad (ext_key_ok E) ex = Some key <-> first_key (fun _ => True) (upto_nl (extension_key E)) ex key.
Proof.
  rewrite first_bad_some. unfold first_key. split; intros (a & x & b & H).
  - destruct H as (-> & H1 & H2). exists a, x, b. split; [reflexivity|]. split; [exact I|]. split; [rewrite <- ext_key_iff; congruence|]. intros k' Hk _. apply ext_key_iff. auto.
  - destruct H as (-> & _ & H1 & H2). exists a, x, b. split; [reflexivity|]. split; [|intros k' Hk; apply ext_key_iff; auto].
    rewrite <- ext_key_iff in H1. destruct (ext_key_ok E key); [destruct H1; reflexivity|reflexivity].
Qed.
Lemma after_says_wrong E say c k fv ex m : after_says E c k fv ex = Some m -> wrong_now E say c k fv ex m.
Proof.
  unfold after_says. intros H. assert (Hh : (k = KExt -> forall key, In key (map fst ex) -> upto_nl (extension_key E) key) -> hook_says c fv = Some m -> wrong_now E say c k fv ex m).
  { intros Hx Hs. apply hook_says_iff in Hs as (rules & H1 & H2). eapply wn_rule; eauto. }
  destruct k; cbn [or_else] in H; try (apply Hh; [discriminate|exact H]).
  destruct (first_bad (ext_key_ok E) ex) as [key|] eqn:Eb; cbn [option_map or_else] in H.
  - injection H as <-. apply first_bad_ext_some in Eb. eapply wn_extension; eauto.
  - apply Hh; [|exact H]. intros _. apply first_bad_ext_none. exact Eb.
Qed.
Lemma after_says_quiet E c k fv ex : after_says E c k fv ex = None -> k = KExt -> forall key, In key (map fst ex) -> upto_nl (extension_key E) key.
Proof.
  intros H ->. unfold after_says in H. apply or_else_none in H as [H _]. apply first_bad_ext_none. destruct (first_bad (ext_key_ok E) ex); [discriminate H|reflexivity].
Qed.
Lemma after_agrees E c k fv ex : (k = KForbid -> ex = []) -> (after_says E c k fv ex = None <-> after_ok E c k fv ex = true).
Proof.
  intros Hf. unfold after_says, after_ok, extras_ok. rewrite or_else_none, andb_true_iff, hook_says_none. destruct k.
  - rewrite <- first_bad_none. destruct (first_bad (ext_key_ok E) ex); cbn [option_map]; [split; [intros [H _]; discriminate H|intros [H _]; discriminate H]|tauto].
  - rewrite (Hf eq_refl). tauto.
  - tauto.
Qed.
Section Stored.
  Context (E : env) (say : pv -> list pystr * option (option pystr)) (c : string) (k : kind) (fs : list (finfo * ty)) (fv ex : fields) (name : pystr) (v : pv).
  Let new := dict_set name v (dict_update fv ex).
  Let fv' := map (fun ft : finfo * ty => (f_name (fst ft), attr (f_name (fst ft)) new)) fs.
  Let ex' := filter (fun kv : pystr * pv => negb (mem_str (fst kv) (map (fun ft : finfo * ty => f_name (fst ft)) fs))) new.
  Lemma stored : snd (store_in E (reading say) fs k c fv ex name v) = VObj c fv' ex'.
  Proof.
    unfold store_in. fold new. fold fv'. fold ex'. destruct (after_ok E c k fv' ex'); [|reflexivity]. destruct (String.eqb c "AsyncAPI3"); reflexivity.
  Qed.
  Lemma store_agrees : (k = KForbid -> ex' = []) -> (snd (store_says E say fs k c fv ex name v) = Returned <-> fst (store_in E (reading say) fs k c fv ex name v) = true).
  Proof.
    intros Hf. unfold store_says, store_in. fold new. fold fv'. fold ex'. assert (Ha := after_agrees E c k fv' ex' Hf).
    destruct (after_says E c k fv' ex') as [m|]; destruct (after_ok E c k fv' ex'); cbn [fst].
    - discriminate (proj2 Ha eq_refl).
    - split; discriminate.
    - destruct (String.eqb c "AsyncAPI3"); [|cbn; tauto]. unfold reading. cbn [fst]. destruct (say (VObj c fv' ex')) as [log [[m|]|]]; cbn [snd]; split; congruence.
    - discriminate (proj1 Ha eq_refl).
  Qed.
  Lemma store_refused errs : snd (store_says E say fs k c fv ex name v) = Refused errs -> exists m, errs = [([], Says m)] /\ wrong_now E say c k fv' ex' m.
  Proof.
    unfold store_says. fold new. fold fv'. fold ex'. destruct (after_says E c k fv' ex') as [m|] eqn:Ea.
    - intros [= <-]. exists m. split; [reflexivity|]. apply after_says_wrong. exact Ea.
    - destruct (String.eqb c "AsyncAPI3") eqn:Ec; [|discriminate]. apply String.eqb_eq in Ec. destruct (say (VObj c fv' ex')) as [log [[m|]|]] eqn:Es; try discriminate.
      intros [= <-]. exists m. split; [reflexivity|]. apply wn_processor; [exact Ec|eapply after_says_quiet; exact Ea|rewrite Es; reflexivity].
  Qed.
  Lemma new_has : assoc name new = Some v.
  Proof. unfold new. generalize (dict_update fv ex) as d. clear. induction d as [|[k0 x] d IH]; cbn [dict_set assoc]; [rewrite str_eqb_refl; reflexivity|]. destruct (str_eqb name k0) eqn:Ek; cbn [assoc]; rewrite Ek; [reflexivity|exact IH]. Qed.
  Lemma stored_field fi t : In (fi, t) fs -> f_name fi = name -> assoc name fv' = Some v.
  Proof.
    intros Hi Hn. unfold fv'. assert (Hv : attr name new = v) by (unfold attr; rewrite new_has; reflexivity). clearbody new. revert Hi. clear fv' ex'. induction fs as [|[gi s] r IH]; [intros []|]. cbn [map fst assoc].
    intros [[= -> ->]|Hi].
    - rewrite Hn, str_eqb_refl, Hv. reflexivity.
    - destruct (str_eqb name (f_name gi)) eqn:Ee; [apply str_eqb_eq in Ee; rewrite <- Ee, Hv; reflexivity|]. apply IH. exact Hi.
  Qed.
  Lemma assoc_filter_key (p : pystr -> bool) d : p name = true -> assoc name (filter (fun kv : pystr * pv => p (fst kv)) d) = assoc name d.
  Proof.
    intros Hp. induction d as [|[k0 x] d IH]; [reflexivity|]. cbn [filter fst assoc]. destruct (str_eqb name k0) eqn:Ek.
    - apply str_eqb_eq in Ek. subst k0. rewrite Hp. cbn [assoc]. rewrite str_eqb_refl. reflexivity.
    - destruct (p k0); cbn [assoc]; rewrite ?Ek; exact IH.
  Qed.
  Lemma stored_extra : (forall fi t, In (fi, t) fs -> f_name fi <> name) -> assoc name ex' = Some v.
  Proof.
    intros Hn. unfold ex'. rewrite (assoc_filter_key (fun k0 => negb (mem_str k0 (map (fun ft : finfo * ty => f_name (fst ft)) fs)))); [exact new_has|]. apply negb_true_iff. destruct (mem_str name _) eqn:Em; [|reflexivity].
    apply mem_str_In, in_map_iff in Em as ([fi t] & He & Hi). destruct (Hn _ _ Hi He).
  Qed.
End Stored.
Lemma says_declared E say c k fs fv ex fi t x : In (TModel c k fs) all_types -> In (fi, t) fs ->
  assign_says E say (VObj c fv ex) (f_name fi) x =
  match validate E t x with
  | None => ([], Refused (under (AtKey (f_name fi)) (report E t x)))
  | Some (v', _) => match field_says E (f_name fi) (f_val fi) v' with
                    | Some why => ([], Refused [([AtKey (f_name fi)], why)])
                    | None => store_says E say fs k c fv ex (f_name fi) v'
                    end
  end.
Proof.
  intros Ht Hin. assert (Hf := find_field_in fi t fs Hin (names_NoDup _ _ _ (wf_all _ Ht))). destruct (linked_fields _ _ _ (linked_all _ Ht)) as [H1 H2].
  unfold assign_says. rewrite H1, H2, Hf. reflexivity.
Qed.
Lemma says_undeclared E say c k fs fv ex name x : In (TModel c k fs) all_types -> (forall fi t, In (fi, t) fs -> f_name fi <> name) ->
  assign_says E say (VObj c fv ex) name x =
  match k with KForbid => ([], Refused [([AtKey name], WrongInput)]) | _ => store_says E say fs k c fv ex name x end.
Proof.
  intros Ht Hin. apply find_field_None in Hin. destruct (linked_fields _ _ _ (linked_all _ Ht)) as [H1 H2]. unfold assign_says. rewrite H1, H2, Hin. reflexivity.
Qed.
Lemma name_dec (fs : list (finfo * ty)) name : (exists fi t, In (fi, t) fs /\ f_name fi = name) \/ (forall fi t, In (fi, t) fs -> f_name fi <> name).
Proof.
  induction fs as [|[fi t] fs [(gi & s & Hi & He)|Hn]]; [right; intros fi t []|left; exists gi, s; split; [right; exact Hi|exact He]|].
  destruct (str_eqb (f_name fi) name) eqn:Ee; [apply str_eqb_eq in Ee; left; exists fi, t; split; [left; reflexivity|exact Ee]|].
  right. intros gi s [[= <- <-]|Hi]; [intros H; rewrite H, str_eqb_refl in Ee; discriminate Ee|eauto].
Qed.
Lemma closed_stays fs fv name (v : pv) : (forall kv, In kv fv -> In (fst kv) (map (fun ft : finfo * ty => f_name (fst ft)) fs)) -> In name (map (fun ft : finfo * ty => f_name (fst ft)) fs) ->
  filter (fun kv : pystr * pv => negb (mem_str (fst kv) (map (fun ft : finfo * ty => f_name (fst ft)) fs))) (dict_set name v (dict_update fv [])) = [].
Proof.
  intros Hf Hn. cbn [dict_update fold_left]. set (names := map _ fs) in *. clearbody names. revert Hf.
  assert (G : forall d : fields, (forall kv, In kv d -> In (fst kv) names) -> filter (fun kv => negb (mem_str (fst kv) names)) d = []).
  { induction d as [|[k0 x0] d IH]; intros H; [reflexivity|]. cbn [filter fst]. assert (Hm : mem_str k0 names = true) by (apply mem_str_In; exact (H _ (or_introl eq_refl))).
    rewrite Hm. cbn [negb]. apply IH. intros kv Hk. apply H. right. exact Hk. }
  intros Hf. apply G. clear G. induction fv as [|[k0 x0] d IH]; cbn [dict_set]; [intros kv [<-|[]]; exact Hn|].
  destruct (str_eqb name k0); intros kv [<-|Hk]; try exact (Hf _ (or_introl eq_refl)); try (apply Hf; right; exact Hk).
  apply IH; [intros kv' H; apply Hf; right; exact H|exact Hk].
Qed.

(** ** C84 *)
(** The instance is one of the class: its attributes are declared ones and a closed class has no others. *)
Definition instance_of (k : kind) (fs : list (finfo * ty)) (fv ex : fields) : Prop :=
  (forall f, In f (map fst fv) -> exists fi t, In (fi, t) fs /\ f_name fi = f) /\ (k = KForbid -> ex = []).
(** The assignment returns exactly when State.v says so. *)
Theorem c84_returns_iff E say c k fs fv ex name x : In (TModel c k fs) all_types -> instance_of k fs fv ex ->
  (snd (assign_says E say (VObj c fv ex) name x) = Returned <-> fst (assign E (reading say) (VObj c fv ex) name x) = true).
Proof.
  intros Ht [Hfv Hex]. destruct (name_dec fs name) as [(fi & t & Hi & <-)|Hn].
  - rewrite (says_declared E say c k fs fv ex fi t x Ht Hi), (assign_declared E _ c k fs fv ex fi t x (linked_all _ Ht) (wf_all _ Ht) Hi).
    destruct (validate E t x) as [[v' n]|]; [|split; discriminate]. assert (Hs := field_says_none E (f_name fi) (f_val fi) v').
    destruct (field_says E (f_name fi) (f_val fi) v'); destruct (fv_check E (f_val fi) v'); cbn [fst].
    + discriminate (proj2 Hs eq_refl).
    + split; discriminate.
    + apply store_agrees. intros Hk. rewrite (Hex Hk). apply closed_stays.
      * intros kv Hkv. destruct (Hfv (fst kv)) as (gi & s & Hg & He); [apply in_map; exact Hkv|]. rewrite <- He. apply in_map_iff. exists (gi, s). auto.
      * apply in_map_iff. exists (fi, t). auto.
    + discriminate (proj1 Hs eq_refl).
  - rewrite (says_undeclared E say c k fs fv ex name x Ht Hn), (assign_undeclared E _ c k fs fv ex name x (linked_all _ Ht) Hn).
    destruct k; [apply store_agrees; discriminate|split; discriminate|apply store_agrees; discriminate].
Qed.
(** A value the attribute does not admit: the errors are exactly the faults of the value, and the objection to it, located under the attribute's
    name; the object is as it was. *)
Theorem c84_bad_value E say c k fs fv ex fi t x : In (TModel c k fs) all_types -> In (fi, t) fs ->
  (parse E t x = None \/ exists y, parse E t x = Some y /\ ~ field_rule E (f_val fi) y) ->
  exists errs, assign_says E say (VObj c fv ex) (f_name fi) x = ([], Refused errs) /\ errs <> []
    /\ (forall p why, In (p, why) errs <->
          exists q, p = AtKey (f_name fi) :: q /\ (fault E t x q why \/ q = [] /\ exists y, parse E t x = Some y /\ objection E fi y why))
    /\ snd (assign E (reading say) (VObj c fv ex) (f_name fi) x) = VObj c fv ex.
Proof.
  intros Ht Hi Hbad. rewrite (says_declared E say c k fs fv ex fi t x Ht Hi), (assign_declared E _ c k fs fv ex fi t x (linked_all _ Ht) (wf_all _ Ht) Hi).
  assert (Hr := report_iff E t (field_report_ok _ _ _ _ _ Ht Hi) x). assert (Hnil := report_nil E t (field_report_ok _ _ _ _ _ Ht Hi) x). rewrite fine_parse in Hnil.
  assert (Hpar : parse E t x = option_map fst (validate E t x)) by reflexivity. destruct (validate E t x) as [[v' n]|]; cbn [option_map fst] in Hpar.
  - destruct Hbad as [Hb|(y & Hy & Hb)]; [congruence|]. rewrite Hpar in Hy. injection Hy as <-.
    assert (Hs := field_says_none E (f_name fi) (f_val fi) v'). assert (Hfc : fv_check E (f_val fi) v' = false) by (apply fv_check_false; exact Hb). rewrite Hfc in *.
    destruct (field_says E (f_name fi) (f_val fi) v') as [why0|] eqn:Ef; [|discriminate (proj1 Hs eq_refl)].
    eexists. split; [reflexivity|]. split; [discriminate|]. split; [|reflexivity]. intros p why. split.
    + intros [[= <- <-]|[]]. exists []. split; [reflexivity|]. right. split; [reflexivity|]. exists v'. split; [exact Hpar|]. apply (model_text c k fs fi t x v' why0 E Ht Hi Hpar). exact Ef.
    + intros (q & -> & [Hf|[-> (y & Hy & Ho)]]).
      * apply Hr in Hf. rewrite (proj2 Hnil) in Hf by congruence. destruct Hf.
      * rewrite Hpar in Hy. injection Hy as <-. apply (model_text c k fs fi t x v' why E Ht Hi Hpar) in Ho. left. congruence.
  - eexists. split; [reflexivity|]. split; [|split; [|reflexivity]].
    + destruct (report E t x) eqn:Er; [destruct (proj1 Hnil eq_refl Hpar)|discriminate].
    + intros p why. rewrite in_under. split.
      * intros (q & -> & Hq). exists q. split; [reflexivity|]. left. apply Hr. exact Hq.
      * intros (q & -> & [Hf|[_ (y & Hy & _)]]); [|congruence]. exists q. split; [reflexivity|]. apply Hr. exact Hf.
Qed.
(** An attribute a closed class does not declare: one error, under its name; the object is as it was. *)
Theorem c84_no_such_attribute E say c fs fv ex name x : In (TModel c KForbid fs) all_types -> (forall fi t, In (fi, t) fs -> f_name fi <> name) ->
  assign_says E say (VObj c fv ex) name x = ([], Refused [([AtKey name], WrongInput)]) /\ snd (assign E (reading say) (VObj c fv ex) name x) = VObj c fv ex.
Proof.
  intros Ht Hn. rewrite (says_undeclared E say c KForbid fs fv ex name x Ht Hn), (assign_undeclared E _ c KForbid fs fv ex name x (linked_all _ Ht) Hn). split; reflexivity.
Qed.
(** The report tells whether the value was stored: an error without location means that it was (and says what is wrong with the object as it is
    now); errors under the attribute's name mean that nothing has changed.  There is no third case. *)
Theorem c84_location_tells E say c k fs fv ex name x errs : In (TModel c k fs) all_types ->
  snd (assign_says E say (VObj c fv ex) name x) = Refused errs ->
  ((forall p why, In (p, why) errs -> exists q, p = AtKey name :: q) /\ errs <> [] /\ snd (assign E (reading say) (VObj c fv ex) name x) = VObj c fv ex)
  \/ (exists m fv' ex', errs = [([], Says m)] /\ snd (assign E (reading say) (VObj c fv ex) name x) = VObj c fv' ex' /\ wrong_now E say c k fv' ex' m
      /\ ((exists fi t y, In (fi, t) fs /\ f_name fi = name /\ parse E t x = Some y /\ field_rule E (f_val fi) y /\ assoc name fv' = Some y)
          \/ ((forall fi t, In (fi, t) fs -> f_name fi <> name) /\ assoc name ex' = Some x))).
Proof.
  intros Ht H. destruct (name_dec fs name) as [(fi & t & Hi & <-)|Hn].
  - destruct (parse E t x) as [y|] eqn:Ep.
    + destruct (fv_check E (f_val fi) y) eqn:Ef.
      * right. assert (Hr := proj1 (fv_check_iff _ _ _) Ef). rewrite (says_declared E say c k fs fv ex fi t x Ht Hi) in H.
        rewrite (assign_declared E _ c k fs fv ex fi t x (linked_all _ Ht) (wf_all _ Ht) Hi).
        assert (Ep0 := Ep). unfold parse in Ep. destruct (validate E t x) as [[v' n]|]; [|discriminate Ep]. cbn [option_map fst] in Ep. injection Ep as ->. rewrite Ef.
        rewrite (proj2 (field_says_none E (f_name fi) (f_val fi) y) Ef) in H. apply store_refused in H as (m & -> & Hw). rewrite stored. eexists m, _, _. split; [reflexivity|]. split; [reflexivity|]. split; [exact Hw|].
        left. exists fi, t, y. split; [exact Hi|]. split; [reflexivity|]. split; [first [exact Ep0|reflexivity]|]. split; [exact Hr|]. eapply stored_field; [exact Hi|reflexivity].
      * left. apply fv_check_false in Ef. destruct (c84_bad_value E say c k fs fv ex fi t x Ht Hi) as (errs' & Hs & Hne & Hin & Hst); [right; eauto|]. rewrite Hs in H. injection H as ->.
        split; [|split; assumption]. intros p why Hp. apply Hin in Hp as (q & -> & _). eauto.
    + left. destruct (c84_bad_value E say c k fs fv ex fi t x Ht Hi) as (errs' & Hs & Hne & Hin & Hst); [left; exact Ep|]. rewrite Hs in H. injection H as ->.
      split; [|split; assumption]. intros p why Hp. apply Hin in Hp as (q & -> & _). eauto.
  - rewrite (says_undeclared E say c k fs fv ex name x Ht Hn) in H. rewrite (assign_undeclared E _ c k fs fv ex name x (linked_all _ Ht) Hn).
    assert (G : snd (store_says E say fs k c fv ex name x) = Refused errs -> exists m fv' ex', errs = [([], Says m)] /\ snd (store_in E (reading say) fs k c fv ex name x) = VObj c fv' ex'
      /\ wrong_now E say c k fv' ex' m /\ assoc name ex' = Some x).
    { intros Hs. apply store_refused in Hs as (m & -> & Hw). rewrite stored. eexists m, _, _. split; [reflexivity|]. split; [reflexivity|]. split; [exact Hw|]. apply stored_extra. exact Hn. }
    destruct k; [| |]; try (right; apply G in H as (m & fv' & ex' & H1 & H2 & H3 & H4); exists m, fv', ex'; repeat (split; [assumption|]); right; split; assumption).
    left. injection H as <-. split; [|split; [discriminate|reflexivity]]. intros p why [[= <- <-]|[]]. exists []. reflexivity.
Qed.
(** Any other attribute of a patterned map: one error, under its name; the map is as it was. *)
Theorem c84_map_attribute E say c t d name x : In (TRoot c t) all_types -> name <> u "root" ->
  assign_says E say (VRoot c d) name x = ([], Refused [([AtKey name], WrongInput)]) /\ assign E (reading say) (VRoot c d) name x = (false, VRoot c d).
Proof.
  intros _ Hn. unfold assign_says, assign. destruct (str_eqb name (u "root")) eqn:Ee; [apply str_eqb_eq in Ee; contradiction|]. split; reflexivity.
Qed.
(** Replacing the contents of a patterned map: the errors are those of building the map from the data; an error without location that has a text means that the
    new contents are in place, anything else that the old ones are. *)
Theorem c84_map E say c t d x : In (TRoot c t) all_types ->
  match x with
  | VDict d0 =>
      (forall errs, snd (assign_says E say (VRoot c d) (u "root") x) = Refused errs -> errs <> [] /\ forall p why, In (p, why) errs <-> fault E (TRoot c t) x p why)
      /\ (snd (assign_says E say (VRoot c d) (u "root") x) = Returned <-> fst (assign E (reading say) (VRoot c d) (u "root") x) = true)
      /\ (forall errs, snd (assign_says E say (VRoot c d) (u "root") x) = Refused errs ->
            ((exists m, errs = [([], Says m)]) /\ exists d', snd (assign E (reading say) (VRoot c d) (u "root") x) = VRoot c d' /\ map fst d' = map fst d0)
            \/ ((forall p why, In (p, why) errs -> exists k q, p = AtKey k :: q) /\ snd (assign E (reading say) (VRoot c d) (u "root") x) = VRoot c d))
  | _ => assign_says E say (VRoot c d) (u "root") x = ([], Refused [([], WrongInput)]) /\ assign E (reading say) (VRoot c d) (u "root") x = (false, VRoot c d)
  end.
Proof.
  intros Ht. assert (Hf := linked_root _ _ (linked_all _ Ht)). assert (Hrt := table_report_ok _ Ht).
  unfold assign_says, assign. rewrite str_eqb_refl, Hf. destruct x as [| | | | | | |d0| | | |]; try (split; reflexivity).
  assert (Hrep : report E (TRoot c t) (VDict d0) = rroot E (report E) t d0) by reflexivity.
  assert (Hi := report_iff E _ Hrt (VDict d0)). assert (Hn := report_nil E _ Hrt (VDict d0)). rewrite fine_parse in Hn. rewrite Hrep in Hi, Hn. unfold rroot in Hi, Hn. unfold parse in Hn. cbn [validate] in Hn.
  assert (Hone := rdict_nil E t d0 (report_nil E t Hrt)).
  destruct (vdict (validate E) t d0) as [[d' n]|] eqn:Ev.
  - assert (Hrd : rdict (report E) t d0 = []) by (apply Hone; eauto). rewrite Hrd in Hi. cbn [app] in Hi.
    assert (Hk : keys_say d' = None <-> root_keys_ok d' = true).
    { unfold keys_say, root_keys_ok. rewrite <- first_bad_none. destruct (first_bad patterned_key_ok d'); cbn; split; congruence. }
    destruct (keys_say d') as [m|] eqn:Ek.
    + assert (Hfalse : root_keys_ok d' = false) by (destruct (root_keys_ok d'); [discriminate (proj2 Hk eq_refl)|reflexivity]). rewrite Hfalse. cbn [fst snd]. split; [|split].
      * intros errs [= <-]. split; [discriminate|]. exact Hi.
      * split; discriminate.
      * intros errs [= <-]. left. split; [eauto|]. exists d'. split; [reflexivity|]. apply vdict_ok in Ev as [H1 _]. exact H1.
    + rewrite (proj1 Hk eq_refl). cbn [fst snd]. split; [discriminate|]. split; [tauto|discriminate].
  - rewrite app_nil_r in Hi, Hn. cbn [fst snd]. split; [|split].
    + intros errs [= <-]. split; [|exact Hi]. intros Hx. apply Hn in Hx. apply Hx. reflexivity.
    + split; discriminate.
    + intros errs [= <-]. right. split; [|reflexivity]. intros p why Hp. apply in_rdict in Hp as (k & y & q & _ & -> & _). eauto.
Qed.
Local Open Scope string_scope.
(** A channel with parameters: removing the address is refused without location and kept; a wrong type is refused under its name and not kept. *)
Definition quiet (_ : pv) : list pystr * option (option pystr) := ([], None).
Example c84_ex : exists fv ex, parse E0 T_Channel (obj [("address", str "a/{p}"); ("parameters", obj [("p", obj [])])]) = Some (VObj "Channel" fv ex)
  /\ assign_says E0 quiet (VObj "Channel" fv ex) (u "address") VNone = ([], Refused [([], Says (u "parameters must not be provided when address is null or absent"))])
  /\ snd (assign E0 (reading quiet) (VObj "Channel" fv ex) (u "address") VNone) <> VObj "Channel" fv ex
  /\ assign_says E0 quiet (VObj "Channel" fv ex) (u "servers") (VList [ref "#/a"; VInt 1]) = ([], Refused [([AtKey (u "servers"); AtIndex 1], WrongInput)]).
Proof. eexists _, _. split; [vm_compute; reflexivity|]. split; [vm_compute; reflexivity|]. split; [vm_compute; discriminate|vm_compute; reflexivity]. Qed.
Print Assumptions c84_returns_iff. Print Assumptions c84_bad_value. Print Assumptions c84_location_tells. Print Assumptions c84_map. Print Assumptions c84_no_such_attribute. Print Assumptions c84_map_attribute.
