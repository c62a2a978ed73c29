(** C75, C76: messages and warnings of reference checking. *)
From Coq Require Import Sorted DecimalN.
From Verif Require Import PyStr Regex Value Types Rules Pydantic ClassTable Classes Canon Fix Linked SpecParse Sample ProofRules ProofParse
  State SpecState ProofState Resolve SpecResolve ProofResolve PropResolve Unified SpecUnified ProofUnified ProofCheck SpecRename PropRename PropUnified Messages SpecMessages.

(** ** The same verdicts as the models without texts *)
Lemma step_same ref v k full : match step_text_of ref v k full, resolve_part v k with
  | Returns x, Some y => x = y | Raises _, None => True | _, _ => False end.
Proof.
  unfold step_text_of, resolve_part. destruct (root_mapping v) as [d|].
  - destruct (assoc k d); auto.
  - destruct v as [| | | | | |l|d|c fv ex|c d| |]; auto; [destruct (assoc k d); auto|]. destruct (find_field_name k (class_infos c)) as [n|]; [|exact I].
    unfold attr. destruct (assoc n fv) as [[]|]; auto.
Qed.
Lemma steps_same ref l : forall v path, match steps_text_of ref v path l, resolve_parts v path l with
  | Returns x, Some y => x = y | Raises _, None => True | _, _ => False end.
Proof.
  induction l as [|k l IH]; intros v path; cbn [steps_text_of resolve_parts]; [reflexivity|]. destruct k as [|c k]; [apply IH|].
  set (key := c :: k). assert (H := step_same ref v key (path ++ u "." ++ key)). destruct (step_text_of ref v key _), (resolve_part v key); try contradiction; [exact I|].
  subst. apply IH.
Qed.
Definition agrees (a : outcome (option (pv * pystr))) (b : resolution) : Prop :=
  match a, b with
  | Raises _, Failed _ => True
  | Returns None, External => True
  | Returns (Some (o, p)), Resolved o' p' => o = o' /\ p = p'
  | _, _ => False
  end.
Lemma says_same doc : forall fuel visited s, match resolve_says_fuel fuel doc visited s, resolve_fuel fuel doc visited s with
  | Some (_, a), Some b => agrees a b | None, None => True | _, _ => False end.
Proof.
  induction fuel as [|n IH]; intros visited s; cbn [resolve_says_fuel resolve_fuel]; [exact I|].
  destruct (mem_str s visited); [exact I|]. destruct (is_external s); [exact I|]. destruct (parse_ref s) as [e|parts]; [destruct e; exact I|].
  assert (H := steps_same s parts doc (u "spec")). destruct (steps_text_of s doc (u "spec") parts) as [m|[v p]], (resolve_parts doc (u "spec") parts) as [[v' p']|]; try contradiction; [exact I|].
  injection H as <- <-. destruct (as_reference v); [apply IH|]. split; reflexivity.
Qed.
Lemma says_agrees doc s : agrees (snd (resolve_says doc s)) (resolve doc s).
Proof.
  unfold resolve_says. assert (H := says_same doc (2 + length (reference_strings doc)) [] s). rewrite (resolve_eq doc s) in H by lia.
  destruct (resolve_says_fuel _ doc [] s) as [[w a]|]; [exact H|contradiction].
Qed.

(** ** One hop *)
Lemma info_iff c k : find_field_name k (class_infos c) = None <-> forall fi t, In (fi, t) (class_fields c) -> k <> f_name fi /\ k <> f_alias fi.
Proof.
  split.
  - intros H fi t Hi. assert (Hx : forall name, find_field_name k (class_infos c) <> Some name) by (intros name; congruence).
    assert (Hf := find_name_spec k _ (class_keys_NoDup c) (f_name fi)).
    split; intros ->; apply (Hx (f_name fi)); apply Hf; exists fi; (split; [apply infos_in; eauto|auto]).
  - intros H. destruct (find_field_name k (class_infos c)) as [n|] eqn:Ef; [|reflexivity]. exfalso.
    apply (find_name_spec k _ (class_keys_NoDup c)) in Ef as (fi & Hi & _ & Hk). apply infos_in in Hi as [t Hi]. destruct (H _ _ Hi). destruct Hk; contradiction.
Qed.
Lemma info_some c k fi t : In (fi, t) (class_fields c) -> k = f_name fi \/ k = f_alias fi -> find_field_name k (class_infos c) = Some (f_name fi).
Proof. intros Hi Hk. apply (find_name_spec k _ (class_keys_NoDup c)). exists fi. split; [apply infos_in; eauto|auto]. Qed.
Lemma blocked_iff s v k full m : root_mapping v = match v with VRoot _ d => Some d | _ => None end ->
  (step_text_of s v k full = Raises m <-> blocked s v k full m).
Proof.
  intros Hr. unfold step_text_of. rewrite Hr. split.
  - destruct v as [| | | | | |l|d|c fv ex|c d| |]; try (intros H; injection H as <-; apply bl_value; discriminate).
    + destruct (assoc k d) eqn:Ea; [discriminate 1|]. intros H. injection H as <-. constructor. exact Ea.
    + destruct (find_field_name k (class_infos c)) as [n|] eqn:Ef.
      * apply (find_name_spec k _ (class_keys_NoDup c)) in Ef as (fi & Hi & <- & Hk). apply infos_in in Hi as [t Hi].
        destruct (assoc (f_name fi) fv) as [w|] eqn:Ea; [destruct w; try discriminate 1|]; intros H; injection H as <-.
        -- eapply bl_unset; eauto.
        -- eapply bl_missing; eauto.
      * intros H. injection H as <-. apply bl_no_field. apply info_iff. exact Ef.
    + destruct (assoc k d) eqn:Ea; [discriminate 1|]. intros H. injection H as <-. constructor. exact Ea.
  - intros H. inversion H as [c d k0 f0 Ha|d k0 f0 Ha|c fv ex k0 f0 Hf|c fv ex fi t k0 f0 Hi Hk Ha|c fv ex fi t k0 f0 Hi Hk Ha|v0 k0 f0 H1 H2 H3]; subst; cbn beta iota.
    + rewrite Ha. reflexivity.
    + rewrite Ha. reflexivity.
    + apply info_iff in Hf. rewrite Hf. reflexivity.
    + rewrite (info_some _ _ _ _ Hi Hk), Ha. reflexivity.
    + rewrite (info_some _ _ _ _ Hi Hk), Ha. reflexivity.
    + destruct v; try reflexivity; exfalso; [eapply H2|eapply H3|eapply H1]; reflexivity.
Qed.
Lemma step_goes s v k full w : root_mapping v = match v with VRoot _ d => Some d | _ => None end ->
  (step_text_of s v k full = Returns w <-> goes v k w).
Proof.
  intros Hr. rewrite <- (goes_iff v k w Hr). assert (H := step_same s v k full). destruct (step_text_of s v k full), (resolve_part v k); try contradiction.
  - split; discriminate.
  - subst. split; intros Hx; injection Hx as ->; reflexivity.
Qed.
Lemma steps_filter ref l : forall v path, steps_text_of ref v path l = steps_text_of ref v path (filter ne l).
Proof.
  induction l as [|k l IH]; intros v path; [reflexivity|]. cbn [filter]. destruct k as [|c k]; cbn [ne]; [apply IH|].
  cbn [steps_text_of]. destruct (step_text_of ref v (c :: k) _); [reflexivity|apply IH].
Qed.
Lemma steps_raise s l : forall v path m, no_root_keyword v -> Forall (fun p => p <> []) l ->
  (steps_text_of s v path l = Raises m <-> exists pre k post w, l = pre ++ k :: post /\ walks v pre w /\ blocked s w k (path ++ dotted (pre ++ [k])) m).
Proof.
  induction l as [|k l IH]; intros v path m Hn Hl.
  - cbn [steps_text_of]. split; [discriminate 1|]. intros (pre & k & post & w & H & _). destruct pre; discriminate H.
  - inversion Hl as [|? ? Hk Hl']; subst. destruct k as [|c k]; [congruence|]. cbn [steps_text_of]. set (key := c :: k) in *. clearbody key.
    assert (Hr := no_root_mapping v Hn). destruct (step_text_of s v key (path ++ u "." ++ key)) as [m'|w] eqn:Es.
    + assert (Eb := Es). apply (blocked_iff _ _ _ _ _ Hr) in Eb. split.
      * intros H. injection H as <-. exists [], key, l, v. split; [reflexivity|]. split; [constructor|]. cbn [app dotted]. rewrite app_nil_r. exact Eb.
      * intros (pre & k0 & post & w & He & Hw & Hb). destruct pre as [|k1 pre]; cbn [app] in He; injection He as -> ->.
        -- inversion Hw; subst. cbn [app dotted] in Hb. rewrite app_nil_r in Hb. apply (blocked_iff _ _ _ _ _ Hr) in Hb. rewrite Es in Hb. injection Hb as ->. reflexivity.
        -- exfalso. inversion Hw as [|? ? w' ? ? Hg Hw']; subst. apply (step_goes s _ _ (path ++ u "." ++ k1) _ Hr) in Hg. rewrite Hg in Es. discriminate Es.
    + assert (Hg := Es). apply (step_goes _ _ _ _ _ Hr) in Hg. assert (Hn' : no_root_keyword w) by (eapply no_root_sub; [exact Hn|eapply goes_within; exact Hg]).
      rewrite (IH w _ m Hn' Hl'). split.
      * intros (pre & k0 & post & w' & -> & Hw & Hb). exists (key :: pre), k0, post, w'. split; [reflexivity|]. split; [econstructor; eauto|].
        cbn [app dotted]. rewrite <- !app_assoc in Hb. exact Hb.
      * intros (pre & k0 & post & w' & He & Hw & Hb). destruct pre as [|k1 pre]; cbn [app] in He; injection He as -> ->.
        -- exfalso. inversion Hw; subst. cbn [app dotted] in Hb. rewrite app_nil_r in Hb. apply (blocked_iff _ _ _ _ _ Hr) in Hb. rewrite Hb in Es. discriminate Es.
        -- inversion Hw as [|? ? w2 ? ? Hg2 Hw']; subst. rewrite (goes_fun _ _ _ _ Hg Hg2). exists pre, k0, post, w'. split; [reflexivity|]. split; [exact Hw'|].
           cbn [app dotted] in Hb. rewrite <- !app_assoc. exact Hb.
Qed.
Definition hop_error (doc : pv) (s : pystr) : option pystr :=
  match parse_ref s with
  | inl EPath => Some (u "Invalid reference path: " ++ s)
  | inl _ => Some (u "Unsupported reference format: " ++ s)
  | inr parts => match steps_text_of s doc (u "spec") parts with Raises m => Some m | Returns _ => None end
  end.
Lemma hop_error_iff doc s m : no_root_keyword doc -> ~ external s -> (hop_error doc s = Some m <-> dead_end doc s m).
Proof.
  intros Hn He. unfold hop_error. split.
  - destruct (parse_ref s) as [e|parts] eqn:Ep.
    + destruct (parse_ref_cases s) as [[p Hp]|[Hp|Hp]]; [congruence| |]; rewrite Hp in Ep; injection Ep as <-; intros H; injection H as <-.
      * apply de_format; [exact He|]. apply parse_ref_format. exact Hp.
      * apply parse_ref_path in Hp as (r & Hr & Hs). eapply de_empty; eauto.
    + apply parse_ref_ok in Ep as (r & -> & -> & l & Hl & Hne). rewrite steps_filter. change (filter ne (split 47 (strip 47 r))) with (parts_of (strip 47 r)).
      rewrite strip_segments, (segments_parts _ _ Hl). destruct (steps_text_of _ doc (u "spec") l) as [m'|] eqn:Es; [|discriminate 1].
      intros H. injection H as ->. apply (steps_raise _ _ _ _ _ Hn (segments_ne _ _ Hl)) in Es as (pre & k & post & w & -> & Hw & Hb).
      eapply de_step; eauto.
  - intros H. inversion H as [He' Hf|r Hs Hr|r pre k post v m0 Hs Hr Hw Hb]; subst.
    + apply parse_ref_format in Hf. rewrite Hf. reflexivity.
    + assert (Hp : parse_ref (u "#" ++ r) = inl EPath) by (apply parse_ref_path; eauto). rewrite Hp. reflexivity.
    + assert (Hp : parse_ref (u "#" ++ r) = inr (split 47 (strip 47 r))).
      { apply parse_ref_ok. exists r. split; [reflexivity|]. split; [reflexivity|]. eexists. split; [exact Hr|]. destruct pre; discriminate. }
      rewrite Hp, steps_filter. change (filter ne (split 47 (strip 47 r))) with (parts_of (strip 47 r)).
      rewrite strip_segments, (segments_parts _ _ Hr).
      assert (Hx : steps_text_of (u "#" ++ r) doc (u "spec") (pre ++ k :: post) = Raises m).
      { apply (steps_raise _ _ _ _ _ Hn (segments_ne _ _ Hr)). exists pre, k, post, v. auto. }
      rewrite Hx. reflexivity.
Qed.
Lemma dead_not_external doc s m : dead_end doc s m -> ~ external s.
Proof. intros H. destruct H; subst; auto using hash_not_external. Qed.
Lemma dead_fun doc s m m' : no_root_keyword doc -> dead_end doc s m -> dead_end doc s m' -> m = m'.
Proof.
  intros Hn H H'. assert (He := dead_not_external _ _ _ H). apply (hop_error_iff _ _ _ Hn He) in H, H'. congruence.
Qed.
Lemma dead_stuck doc s m : no_root_keyword doc -> dead_end doc s m -> stuck doc s.
Proof.
  intros Hn H l v s' Hd _. assert (He := dead_not_external _ _ _ H). apply (hop_error_iff _ _ _ Hn He) in H. unfold hop_error in H.
  destruct (designates_parse _ _ _ _ Hd) as [parts Hp]. rewrite Hp in H.
  assert (Hx := proj2 (designates_iff doc s Hn parts Hp v (access_path l)) (ex_intro _ l (conj Hd eq_refl))).
  assert (Hs := steps_same s parts doc (u "spec")). rewrite Hx in Hs. destruct (steps_text_of s doc (u "spec") parts); [contradiction|discriminate H].
Qed.

(** ** Chains *)
Lemma repeated_circular doc s x : first_repeated doc s x -> circular doc s.
Proof. intros (i & n & Hi & H1 & H2 & _). exists i, n, x. auto. Qed.
Lemma repeated_fun doc s x y : first_repeated doc s x -> first_repeated doc s y -> x = y.
Proof.
  intros (i & n & Hi & H1 & H2 & H3) (j & m & Hj & H4 & H5 & H6). destruct (Nat.lt_trichotomy n m) as [Hl|[<-|Hl]].
  - destruct (H6 i n x Hi Hl H1 H2).
  - exact (hops_fun _ _ _ _ H2 _ H5).
  - destruct (H3 j m y Hj Hl H4 H5).
Qed.
Lemma fails_fun doc s m m' : no_root_keyword doc -> fails_with doc s m -> fails_with doc s m' -> m = m'.
Proof.
  intros Hn [x Hx|n a k Ha Hk] [y Hy|n' b k' Hb Hk'].
  - rewrite (repeated_fun _ _ _ _ Hx Hy). reflexivity.
  - exfalso. eapply circular_not_stuck; [eapply repeated_circular; exact Hx|exact Hb|eapply dead_stuck; eauto].
  - exfalso. eapply circular_not_stuck; [eapply repeated_circular; exact Hy|exact Ha|eapply dead_stuck; eauto].
  - destruct (stuck_unique _ _ _ _ _ _ Ha (dead_stuck _ _ _ Hn Hk) Hb (dead_stuck _ _ _ Hn Hk')) as [_ <-]. eapply dead_fun; eauto.
Qed.
Inductive said (doc : pv) (s : pystr) : list pystr * outcome (option (pv * pystr)) -> Prop :=
| sa_obj o l : ends_at doc s o l -> said doc s ([], Returns (Some (o, access_path l)))
| sa_ext n s' : hops doc n s s' -> external s' -> said doc s ([u "External reference '" ++ s' ++ u "' cannot be validated locally"], Returns None)
| sa_fail m : fails_with doc s m -> said doc s ([], Raises m).
Lemma says_sound doc s0 : no_root_keyword doc -> forall fuel visited s n r,
  hops doc n s0 s -> (forall x, In x visited -> exists i, i < n /\ hops doc i s0 x) ->
  (forall a b y, a < b -> b < n -> hops doc a s0 y -> ~ hops doc b s0 y) ->
  (forall i y, i < n -> hops doc i s0 y -> In y visited) ->
  resolve_says_fuel fuel doc visited s = Some r -> said doc s0 r.
Proof.
  intros Hn. induction fuel as [|fuel IH]; intros visited s n r Hh Hv Hd Hc H; [discriminate|]. cbn [resolve_says_fuel] in H.
  destruct (mem_str s visited) eqn:Em.
  { injection H as <-. apply mem_str_In in Em. destruct (Hv _ Em) as (i & Hi & Hx). apply sa_fail, fw_circular. exists i, n. auto. }
  destruct (is_external s) eqn:Ee.
  { injection H as <-. apply external_iff in Ee. eapply sa_ext; eauto. }
  assert (Hne : ~ external s) by (intros He; apply external_iff in He; congruence).
  assert (Hx := fun m => proj1 (hop_error_iff doc s m Hn Hne)). unfold hop_error in Hx.
  destruct (parse_ref s) as [e|parts] eqn:Ep.
  { destruct e; injection H as <-; apply sa_fail; eapply fw_dead; eauto. }
  assert (Hdi := designates_iff doc s Hn parts Ep). assert (Hs := steps_same s parts doc (u "spec")).
  destruct (steps_text_of s doc (u "spec") parts) as [m|[v p]] eqn:Es.
  { injection H as <-. apply sa_fail. eapply fw_dead; eauto. }
  destruct (resolve_parts doc (u "spec") parts) as [[v' p']|]; [|contradiction]. injection Hs as <- <-.
  destruct (proj1 (Hdi v p) eq_refl) as (l & Hl & ->). destruct (as_reference v) as [s'|] eqn:Ea.
  - apply as_reference_iff in Ea. apply (IH (s :: visited) s' (S n)); [eapply hops_snoc; eauto| | | |exact H].
    + intros x [<-|Hxx]; [exists n; split; [lia|exact Hh]|]. destruct (Hv x Hxx) as (i & Hi & Hxy). exists i. split; [lia|exact Hxy].
    + intros a b y Hab Hb Hya Hyb. destruct (Nat.eq_dec b n) as [->|Hnn]; [|apply (Hd a b y Hab) in Hya; [contradiction|lia]].
      rewrite <- (hops_fun _ _ _ _ Hh _ Hyb) in Hya. apply (Hc a s Hab) in Hya. apply mem_str_In in Hya. congruence.
    + intros i y Hi Hy. destruct (Nat.eq_dec i n) as [->|Hnn]; [left; eapply hops_fun; eauto|right; eapply Hc; [|exact Hy]; lia].
  - injection H as <-. apply sa_obj. exists n, s. split; [exact Hh|]. split; [exact Hl|]. intros x Hr. apply as_reference_iff in Hr. congruence.
Qed.
Lemma says_said doc s : no_root_keyword doc -> said doc s (resolve_says doc s).
Proof.
  intros Hn. unfold resolve_says. assert (H := says_same doc (2 + length (reference_strings doc)) [] s). rewrite (resolve_eq doc s) in H by lia.
  destruct (resolve_says_fuel _ doc [] s) as [r|] eqn:Er; [|contradiction]. eapply (says_sound doc s Hn _ [] s 0); [constructor|intros ? []|lia|lia|exact Er].
Qed.

(** ** The traversal *)
Lemma check_says_kids E doc v path :
  check_says E doc v path = match as_reference v with
                       | Some s => reference_says E doc path s
                       | None => fold_right (fun k r => then_ (check_says E doc (snd (snd k)) (path ++ fst (snd k))) r) ([], None) (kids v)
                       end.
Proof.
  destruct v as [| | | | | |l|d|c fv ex|c d| |]; try reflexivity.
  - cbn [check_says as_reference kids]. generalize 0. induction l as [|x l IH]; intros i; [reflexivity|]. cbn [numbered map fold_right fst snd].
    rewrite IH. reflexivity.
  - cbn [check_says as_reference kids]. generalize 0. induction d as [|[k x] l IH]; intros i; [reflexivity|]. cbn [numbered map fold_right fst snd].
    rewrite <- IH. reflexivity.
  - assert (Hm : forall i fv, (fix go (fv : list (pystr * pv)) : list pystr * option pystr :=
             match fv with
             | [] => ([], None)
             | (f, x) :: r => then_ (if is_none x || excluded c f then ([], None) else check_says E doc x (path ++ u "." ++ f)) (go r)
             end) fv = fold_right (fun k r => then_ (check_says E doc (snd (snd k)) (path ++ fst (snd k))) r) ([], None)
        (map (fun ix => (fst ix, (u "." ++ fst (snd ix), snd (snd ix)))) (filter (fun ix => negb (is_none (snd (snd ix)) || excluded c (fst (snd ix)))) (numbered i fv)))).
    { intros i fv0. revert i. induction fv0 as [|[k x] l IH]; intros i; [reflexivity|]. cbn [numbered filter fst snd].
      rewrite (IH (S i)). destruct (is_none x || excluded c k); cbn [negb map fold_right fst snd]; [|reflexivity].
      unfold then_ at 1. cbn [fst snd app]. destruct (fold_right _ _ _); reflexivity. }
    cbn [check_says kids]. rewrite (Hm 0). reflexivity.
  - cbn [check_says as_reference kids]. generalize 0. induction d as [|[k x] l IH]; intros i; [reflexivity|]. cbn [numbered map fold_right fst snd].
    rewrite <- IH. replace ((path ++ u ".root") ++ u "." ++ escape k) with (path ++ u ".root." ++ escape k) by (rewrite <- app_assoc; reflexivity).
    reflexivity.
Qed.
(** The references below a value, in visiting order, with path [p] of the value. *)
Definition lists_below (v : pv) (path : pystr) (l : list found) : Prop :=
  StronglySorted before (map fst l)
  /\ forall pos p s, In (pos, (p, s)) l <-> exists rel r, reached v pos rel r /\ is_reference r s /\ p = path ++ rel.
Inductive goes_on (E : env) (doc : pv) : list found -> list pystr * option pystr -> Prop :=
| gn_nil : goes_on E doc [] ([], None)
| gn_stop pos p s l w m : reference_says E doc p s = (w, Some m) -> goes_on E doc ((pos, (p, s)) :: l) (w, Some m)
| gn_next pos p s l w w' r : reference_says E doc p s = (w, None) -> goes_on E doc l (w', r) -> goes_on E doc ((pos, (p, s)) :: l) (w ++ w', r).
Lemma goes_on_app E doc a x b y : goes_on E doc a x -> goes_on E doc b y -> goes_on E doc (a ++ b) (then_ x y).
Proof.
  intros H. revert b y. induction H as [|pos p s l w m Hr|pos p s l w w' r Hr Hg IH]; intros b y Hb.
  - unfold then_. cbn [fst snd app]. destruct y. exact Hb.
  - unfold then_. cbn [fst snd app]. apply gn_stop. exact Hr.
  - specialize (IH _ _ Hb). unfold then_ in *. cbn [fst snd app] in *. destruct r as [m|].
    + apply gn_next; assumption.
    + rewrite <- app_assoc. apply gn_next; assumption.
Qed.
Lemma goes_on_shift E doc i l x : goes_on E doc l x -> goes_on E doc (map (fun f => (i :: fst f, snd f)) l) x.
Proof. induction 1; cbn [map fst snd]; [constructor|constructor; assumption|constructor; assumption]. Qed.
Lemma sorted_app (a b : list (list nat)) : StronglySorted before a -> StronglySorted before b ->
  (forall x y, In x a -> In y b -> before x y) -> StronglySorted before (a ++ b).
Proof.
  intros Ha Hb H. induction Ha as [|x a Hs IH Hf]; [exact Hb|]. cbn [app]. constructor.
  - apply IH. intros y z Hy. apply H. right. exact Hy.
  - rewrite Forall_forall in *. intros y Hy. apply in_app_or in Hy as [Hy|Hy]; [auto|]. apply H; [left; reflexivity|exact Hy].
Qed.
Lemma traversal E doc v : forall path, exists l, lists_below v path l /\ goes_on E doc l (check_says E doc v path).
Proof.
  induction v as [v IH] using kids_ind. intros path. rewrite check_says_kids. destruct (ref_cases v) as [(s & Hs & ->)|[Hn ->]].
  - exists [([], (path, s))]. split; [split|].
    + cbn. constructor; [constructor|constructor].
    + intros pos p s'. split.
      * intros [H|[]]. injection H as <- <- <-. exists [], v. rewrite app_nil_r. split; [constructor; reflexivity|]. auto.
      * intros (rel & r & Hr & Hs' & ->). inversion Hr as [p0 Hp0|i text w pos' path' x Hc Hr']; subst.
        -- rewrite app_nil_r, (is_reference_fun _ _ _ Hs' Hs). left. reflexivity.
        -- destruct (reference_childless _ _ _ _ _ Hs Hc).
    + destruct (reference_says E doc path s) as [w [m|]] eqn:Er; [apply gn_stop; exact Er|].
      rewrite <- (app_nil_r w). eapply gn_next; [exact Er|constructor].
  - assert (Hk : forall ks, incl ks (kids v) -> increasing ks -> exists l,
        (StronglySorted before (map fst l)
         /\ forall pos p s, In (pos, (p, s)) l <-> exists i text w pos' rel r, In (i, (text, w)) ks /\ pos = i :: pos' /\ reached w pos' rel r /\ is_reference r s /\ p = path ++ text ++ rel)
        /\ goes_on E doc l (fold_right (fun k r => then_ (check_says E doc (snd (snd k)) (path ++ fst (snd k))) r) ([], None) ks)).
    { induction ks as [|[i [text w]] ks IHk]; intros Hi Hinc.
      - exists []. split; [split; [constructor|]|constructor]. intros pos p s. split; [intros []|]. intros (i & text & w & pos' & rel & r & [] & _).
      - inversion Hinc as [|? ? Hlt Hinc']; subst. destruct (IHk (fun k Hk => Hi k (or_intror Hk)) Hinc') as (l2 & [Hs2 Hm2] & Hg2).
        destruct (IH i text w (Hi _ (or_introl eq_refl)) (path ++ text)) as (l1 & [Hs1 Hm1] & Hg1).
        exists (map (fun f => (i :: fst f, snd f)) l1 ++ l2). split; [split|].
        + rewrite map_app, map_map. cbn [fst]. apply sorted_app; [|exact Hs2|].
          * clear -Hs1. induction l1 as [|x l1 IH]; [constructor|]. cbn [map] in *. inversion Hs1 as [|? ? Ha Hb]; subst. constructor; [apply IH; exact Ha|].
            rewrite Forall_forall in *. intros y Hy. rewrite <- map_map in Hy. apply in_map_iff in Hy as (z & <- & Hz). apply be_same. auto.
          * intros x y Hx Hy. apply in_map_iff in Hx as ([px fx] & <- & _). cbn [fst]. apply in_map_iff in Hy as ([py [p s]] & <- & Hy). cbn [fst].
            apply Hm2 in Hy as (j & text' & w' & pos' & rel & r & Hin & -> & _). apply be_less. exact (Hlt _ Hin).
        + intros pos p s. rewrite in_app_iff, Hm2. split.
          * intros [H|(j & text' & w' & pos' & rel & r & Hin & H)].
            -- apply in_map_iff in H as ([q [p' s']] & Heq & Hin). cbn [fst snd] in Heq. injection Heq as <- <- <-. apply Hm1 in Hin as (rel & r & Hr & Hs & ->).
               exists i, text, w, q, rel, r. split; [left; reflexivity|]. rewrite <- app_assoc. auto.
            -- exists j, text', w', pos', rel, r. split; [right; exact Hin|exact H].
          * intros (j & text' & w' & pos' & rel & r & [Heq|Hin] & -> & Hr & Hs & ->).
            -- injection Heq as <- <- <-. left. apply in_map_iff. exists (pos', (path ++ text ++ rel, s)). split; [reflexivity|]. apply Hm1.
               exists rel, r. rewrite <- app_assoc. auto.
            -- right. exists j, text', w', pos', rel, r. auto.
        + cbn [fold_right fst snd]. apply goes_on_app; [apply goes_on_shift; exact Hg1|exact Hg2]. }
    destruct (Hk (kids v) (incl_refl _) (kids_increasing v)) as (l & [Hs Hm] & Hg). exists l. split; [split; [exact Hs|]|exact Hg].
    intros pos p s. rewrite Hm. split.
    + intros (i & text & w & pos' & rel & r & Hin & -> & Hr & Hsr & ->). exists (text ++ rel), r. split; [|auto]. eapply re_step; [apply (kids_child _ _ _ _ Hn); exact Hin|exact Hr].
    + intros (rel & r & Hr & Hsr & ->). inversion Hr as [p0 Hp0|i text w pos' path' x Hc Hr']; subst; [destruct (Hn _ Hsr)|].
      apply (kids_child _ _ _ _ Hn) in Hc. exists i, text, w, pos', path', r. auto 8.
Qed.

(** ** A path names one place *)
Lemma uint_inj a b : uint_str a = uint_str b -> a = b.
Proof. revert b. induction a; intros b; destruct b; cbn [uint_str]; intros H; try discriminate H; try reflexivity; injection H as H; f_equal; auto. Qed.
Lemma str_of_nat_inj i j : str_of_nat i = str_of_nat j -> i = j.
Proof. intros H. apply uint_inj in H. apply (f_equal N.of_uint) in H. rewrite !DecimalN.Unsigned.of_to in H. lia. Qed.
Definition stop (c : N) : bool := (N.eqb c 46 || N.eqb c 91 || N.eqb c 93)%bool.
Lemma cut_unique (a b x y : pystr) : forallb (fun c => negb (stop c)) a = true -> forallb (fun c => negb (stop c)) b = true ->
  (match x with [] => True | c :: _ => stop c = true end) -> (match y with [] => True | c :: _ => stop c = true end) -> a ++ x = b ++ y -> a = b /\ x = y.
Proof.
  revert b. induction a as [|c a IH]; intros b Ha Hb Hx Hy H; destruct b as [|d b]; cbn [app] in H.
  - auto.
  - subst x. cbn in Hb. rewrite Hx in Hb. discriminate Hb.
  - subst y. cbn in Ha. rewrite Hy in Ha. discriminate Ha.
  - injection H as -> H. cbn [forallb] in Ha, Hb. apply andb_prop in Ha as [_ Ha]. apply andb_prop in Hb as [_ Hb]. destruct (IH _ Ha Hb Hx Hy H) as [-> ->]. auto.
Qed.
Lemma tail_stop p : match flat_map step_text p with [] => True | c :: _ => stop c = true end.
Proof. destruct p as [|[]]; cbn [flat_map step_text]; [exact I|reflexivity..]. Qed.
Lemma escape_inj a b : escape a = escape b -> a = b.
Proof.
  rewrite !escape_map. revert b. induction a as [|c a IH]; intros b H; destruct b as [|d b]; [reflexivity| | |]; cbn [flat_map] in H.
  - exfalso. unfold esc1 in H. destruct (N.eqb d 92); [discriminate H|]. destruct (N.eqb d 46); discriminate H.
  - exfalso. unfold esc1 in H. destruct (N.eqb c 92); [discriminate H|]. destruct (N.eqb c 46); discriminate H.
  - unfold esc1 in H. destruct (N.eqb_spec c 92) as [->|Hc], (N.eqb_spec d 92) as [->|Hd].
    + f_equal. apply IH. injection H as H. exact H.
    + exfalso. destruct (N.eqb d 46); [discriminate H|]. injection H as H _. congruence.
    + exfalso. destruct (N.eqb c 46); [discriminate H|]. injection H as H _. congruence.
    + destruct (N.eqb_spec c 46) as [->|Hc'], (N.eqb_spec d 46) as [->|Hd'].
      * f_equal. apply IH. injection H as H. exact H.
      * exfalso. injection H as H _. congruence.
      * exfalso. injection H as H _. congruence.
      * injection H as -> H. f_equal. apply IH. exact H.
Qed.
Definition clean_name (f : pystr) : bool := forallb (fun c => negb (stop c)) f.
(** Field names contain no path syntax; the values of a dict are references or contain none. *)
Fixpoint plain_paths (t : ty) : bool :=
  match t with
  | TDict t' => match t' with TUnion ts => forallb (fun t => no_refs t || match t with TModel _ _ fs => forallb (fun ft => no_refs (snd ft)) fs | _ => false end) ts | _ => no_refs t' end
  | TList t' | TOpt t' | TRoot _ t' => plain_paths t'
  | TUnion ts => forallb plain_paths ts
  | TModel _ _ fs => forallb (fun ft => match ft with (fi, t) => clean_name (f_name fi) && plain_paths t end) fs
  | _ => true
  end.
Lemma root_plain_paths : plain_paths T_AsyncAPI3 = true.
Proof. vm_compute. reflexivity. Qed.
Lemma digits_clean i : clean_name (str_of_nat i) = true.
Proof.
  apply forallb_forall. intros c Hc. assert (H := str_of_nat_digits i). rewrite forallb_forall in H. specialize (H _ Hc). unfold ascii_digit in H. unfold stop.
  apply andb_prop in H as [H1 H2]. apply N.leb_le in H1, H2. destruct (N.eqb_spec c 46), (N.eqb_spec c 91), (N.eqb_spec c 93); try reflexivity; exfalso; lia.
Qed.
Lemma key_clean k : upto_nl doc_key k -> clean_name k = true /\ escape k = k.
Proof.
  intros (w & [_ HF] & Hk). rewrite Forall_forall in HF.
  assert (Hc : forall c, In c k -> (letter c \/ digit09 c \/ c = 45%N \/ c = 95%N) \/ c = 10%N).
  { intros c Hc. destruct Hk as [->| ->]; [left; auto|]. apply in_app_or in Hc as [Hc|[<-|[]]]; [left; auto|right; reflexivity]. }
  split.
  - apply forallb_forall. intros c Hi. apply Hc in Hi. unfold stop. unfold letter, digit09 in Hi.
    destruct (N.eqb_spec c 46), (N.eqb_spec c 91), (N.eqb_spec c 93); try reflexivity; exfalso; lia.
  - apply escape_clean; intros Hi; apply Hc in Hi; unfold letter, digit09 in Hi; lia.
Qed.
Lemma nth_key (d : fields) i j k x y : NoDup (map fst d) -> nth_error d i = Some (k, x) -> nth_error d j = Some (k, y) -> i = j.
Proof.
  intros Hn Hi Hj. apply (NoDup_nth_error (map fst d)); [exact Hn| |].
  - apply nth_error_Some. rewrite (map_nth_error fst _ _ Hi). discriminate.
  - rewrite (map_nth_error fst _ _ Hi), (map_nth_error fst _ _ Hj). reflexivity.
Qed.
Lemma pd_sub v w : python_dicts v -> within w v -> python_dicts w.
Proof. intros H Hw x Hx. apply H. eapply within_trans; eauto. Qed.
Lemma ref_route v pos p r s : is_reference v s -> route v pos p r -> pos = [] /\ p = [].
Proof.
  intros Hs H. destruct H as [|i st w pos p x Hst _]; [auto|]. exfalso. destruct Hst; try (destruct Hs as (? & ? & Hx & _); discriminate Hx).
  match goal with H : forall s, ~ is_reference _ s |- _ => exact (H _ Hs) end.
Qed.
(** A value with no references below has no routes to references; a value that is a reference has only the empty one. *)
Lemma flat_value E ts y : forallb (fun t => no_refs t || match t with TModel _ _ fs => forallb (fun ft => no_refs (snd ft)) fs | _ => false end) ts = true ->
  canon no_objects E (TUnion ts) y -> forall pos p r s, route y pos p r -> is_reference r s -> pos = [] /\ p = [].
Proof.
  intros Hf Hc pos p r s Hro Hs. apply canon_union_each in Hc as (t & Ht & Hc). rewrite forallb_forall in Hf. specialize (Hf t Ht).
  assert (Hw := route_within _ _ _ _ Hro). apply orb_prop in Hf as [Hf|Hf].
  - exfalso. destruct Hs as (fv & ex & -> & _). exact (no_refs_spec E t Hf _ Hc _ _ _ Hw).
  - destruct t as [| | | | | | | | | | | | |c k fs|]; try discriminate Hf. cbn [canon] in Hc. destruct Hc as (fv & ex & -> & Hfv & _).
    inversion Hro as [|i st w pos' p' x Hst Hro']; subst; [auto|]. exfalso. inversion Hst as [| | |c' fv' ex' i' q y' Hn _ _ _]; subst.
    apply nth_error_In in Hn. destruct (canon_fields_named _ _ _ _ Hfv _ _ Hn) as (fi & t & Hin & _ & Hct). rewrite forallb_forall in Hf.
    destruct Hs as (fv0 & ex0 & -> & _). exact (no_refs_spec E t (Hf _ Hin) w Hct _ _ _ (route_within _ _ _ _ Hro')).
Qed.
Lemma step_key_text f x : step_text (LField f) ++ x = 46%N :: f ++ x.
Proof. reflexivity. Qed.
Lemma place_unique E t : plain_paths t = true -> forall v, canon no_objects E t v -> python_dicts v ->
  forall pos p r s, route v pos p r -> is_reference r s -> forall pos' p' r' s', route v pos' p' r' -> is_reference r' s' ->
  flat_map step_text p = flat_map step_text p' -> pos = pos'.
Proof.
  induction t using ty_ind'; intros Hp v Hc Hd pos p r s Hro Hs pos2 p2 r2 s2 Hro2 Hs2 Ht; assert (Hr := route_within _ _ _ _ Hro); cbn [canon] in Hc;
    try (exfalso; destruct Hs as (fv0 & ex0 & -> & _); (destruct Hc as (z & -> & _) || destruct Hc as (z & ->)); apply within_atom in Hr; discriminate Hr).
  - exfalso. destruct Hs as (fv0 & ex0 & -> & _). exact (Hc _ _ _ Hr).
  - destruct Hc as (l & -> & HF). rewrite Forall_forall in HF.
    inversion Hro as [|i st y q1 q2 x Hst Hro']; subst; [destruct Hs as (? & ? & Hx & _); discriminate Hx|]. inversion Hst as [l' i' y' Hn| | |]; subst.
    inversion Hro2 as [|j st y2 q3 q4 x Hst2 Hro2']; subst; [destruct Hs2 as (? & ? & Hx & _); discriminate Hx|]. inversion Hst2 as [l' i' y' Hn2| | |]; subst.
    cbn [flat_map step_text app] in Ht. change (u "[") with [91%N] in Ht. cbn [app] in Ht. injection Ht as Ht. rewrite <- !app_assoc in Ht.
    apply cut_unique in Ht as [Hi Ht]; [|apply digits_clean|apply digits_clean|reflexivity|reflexivity]. apply str_of_nat_inj in Hi. subst j.
    rewrite Hn in Hn2. injection Hn2 as <-. apply app_inv_head in Ht. f_equal. apply nth_error_In in Hn.
    eapply (IHt Hp y (HF _ Hn)); eauto. eapply pd_sub; [exact Hd|]. eapply w_list; [exact Hn|constructor].
  - destruct Hc as (d & -> & HF). rewrite Forall_forall in HF.
    inversion Hro as [|i st y q1 q2 x Hst Hro']; subst; [destruct Hs as (? & ? & Hx & _); discriminate Hx|]. inversion Hst as [|d' i' k y' Hn| |]; subst.
    inversion Hro2 as [|j st y2 q3 q4 x Hst2 Hro2']; subst; [destruct Hs2 as (? & ? & Hx & _); discriminate Hx|]. inversion Hst2 as [|d' i' k2 y' Hn2| |]; subst.
    assert (Hfl : forall a z pos p r s, nth_error d a = Some z -> route (snd z) pos p r -> is_reference r s -> pos = [] /\ p = []).
    { intros a z pos p r0 s0 Hz Hq Hq'. cbn [plain_paths] in Hp. apply nth_error_In, HF in Hz.
      destruct t; try (exfalso; destruct Hq' as (fv0 & ex0 & -> & _); exact (no_refs_spec E _ Hp _ Hz _ _ _ (route_within _ _ _ _ Hq))).
      exact (flat_value E ts _ Hp Hz _ _ _ _ Hq Hq'). }
    destruct (Hfl _ _ _ _ _ _ Hn Hro' Hs) as [-> ->]. destruct (Hfl _ _ _ _ _ _ Hn2 Hro2' Hs2) as [-> ->].
    cbn [flat_map step_text app] in Ht. rewrite !app_nil_r in Ht. apply app_inv_head, escape_inj in Ht. subst k2. f_equal.
    eapply nth_key; eauto. exact (Hd _ (w_self _)).
  - destruct Hc as [->|Hc]; [exfalso; destruct Hs as (? & ? & -> & _); apply within_atom in Hr; discriminate Hr|]. eapply (IHt Hp v Hc); eauto.
  - apply canon_union_each in Hc as (t & Hin & Hc). rewrite Forall_forall in H. cbn [plain_paths] in Hp. rewrite forallb_forall in Hp. eapply (H t Hin (Hp t Hin) v Hc); eauto.
  - exfalso. destruct Hs as (fv0 & ex0 & -> & _). refine (no_refs_spec E TProcs eq_refl v _ _ _ _ Hr). exact Hc.
  - destruct Hc as (fv & ex & -> & Hf & _). cbn [plain_paths] in Hp. rewrite forallb_forall in Hp. rewrite Forall_forall in H.
    inversion Hro as [|i st y q1 q2 x Hst Hro']; subst.
    { destruct (ref_route _ _ _ _ _ Hs Hro2) as [-> _]. reflexivity. }
    inversion Hst as [| | |c' fv' ex' i' k1 y' Hn Hnr _ _]; subst.
    inversion Hro2 as [|j st y2 q3 q4 x Hst2 Hro2']; subst; [destruct (Hnr _ Hs2)|]. inversion Hst2 as [| | |c' fv' ex' i' k2 y' Hn2 _ _ _]; subst.
    destruct (canon_fields_named _ _ _ _ Hf _ _ (nth_error_In _ _ Hn)) as (fi & t & Hin & Hnm & Hct).
    destruct (canon_fields_named _ _ _ _ Hf _ _ (nth_error_In _ _ Hn2)) as (fi2 & t2 & Hin2 & Hnm2 & _).
    assert (Hcl := Hp _ Hin). assert (Hcl2 := Hp _ Hin2). cbn beta iota in Hcl, Hcl2. apply andb_prop in Hcl as [Hcl Hpl]. apply andb_prop in Hcl2 as [Hcl2 _].
    cbn [flat_map] in Ht. rewrite !step_key_text in Ht. injection Ht as Ht. subst k1 k2.
    apply cut_unique in Ht as [Hk Ht]; [|exact Hcl|exact Hcl2|apply tail_stop|apply tail_stop]. rewrite <- Hk in Hn2.
    assert (i = j) by (eapply nth_key; eauto; exact (proj1 (Hd _ (w_self _)))). subst j. rewrite Hn in Hn2. injection Hn2 as <-. f_equal.
    eapply (H (fi, t) Hin Hpl y Hct); eauto. eapply pd_sub; [exact Hd|]. eapply w_field; [exact (nth_error_In _ _ Hn)|constructor].
  - destruct Hc as (d & -> & HF & Hk). rewrite Forall_forall in HF.
    inversion Hro as [|i st y q1 q2 x Hst Hro']; subst; [destruct Hs as (? & ? & Hx & _); discriminate Hx|]. inversion Hst as [| |c' d' i' k1 y' Hn|]; subst.
    inversion Hro2 as [|j st y2 q3 q4 x Hst2 Hro2']; subst; [destruct Hs2 as (? & ? & Hx & _); discriminate Hx|]. inversion Hst2 as [| |c' d' i' k2 y' Hn2|]; subst.
    rewrite root_keys_iff in Hk. assert (Hk1 := Hk k1 (in_map fst _ _ (nth_error_In _ _ Hn))). assert (Hk2 := Hk k2 (in_map fst _ _ (nth_error_In _ _ Hn2))).
    apply key_clean in Hk1 as [Hc1 He1]. apply key_clean in Hk2 as [Hc2 He2].
    cbn [flat_map step_text] in Ht. rewrite He1, He2, <- !app_assoc in Ht. apply app_inv_head in Ht.
    apply cut_unique in Ht as [Heq Ht]; [|exact Hc1|exact Hc2|apply tail_stop|apply tail_stop]. subst k2.
    assert (i = j) by (eapply nth_key; eauto; exact (Hd _ (w_self _))). subst j. rewrite Hn in Hn2. injection Hn2 as <-. f_equal.
    eapply (IHt Hp y (HF (k1, y) (nth_error_In _ _ Hn))); eauto. eapply pd_sub; [exact Hd|]. eapply w_root; [exact (nth_error_In _ _ Hn)|constructor].
Qed.

(** ** One reference *)
Lemma ends_stuck doc s o l : ends_at doc s o l -> exists n s', hops doc n s s' /\ stuck doc s' /\ designates doc s' l o.
Proof. intros (n & s' & H1 & H2 & H3). exists n, s'. split; [exact H1|]. split; [eapply stuck_obj; eauto|exact H2]. Qed.
Lemma fails_stuck doc s m : no_root_keyword doc -> fails_with doc s m -> circular doc s \/ exists n s', hops doc n s s' /\ stuck doc s' /\ dead_end doc s' m.
Proof.
  intros Hn [x Hx|n s' m' H1 H2]; [left; eapply repeated_circular; exact Hx|]. right. exists n, s'. split; [exact H1|]. split; [eapply dead_stuck; eauto|exact H2].
Qed.
Lemma dead_designates doc s m l o : no_root_keyword doc -> dead_end doc s m -> ~ designates doc s l o.
Proof.
  intros Hn H Hd. assert (He := dead_not_external _ _ _ H). apply (hop_error_iff _ _ _ Hn He) in H. unfold hop_error in H.
  destruct (designates_parse _ _ _ _ Hd) as [parts Hp]. rewrite Hp in H.
  assert (Hx := proj2 (designates_iff doc s Hn parts Hp o (access_path l)) (ex_intro _ l (conj Hd eq_refl))).
  assert (Hs := steps_same s parts doc (u "spec")). rewrite Hx in Hs. destruct (steps_text_of s doc (u "spec") parts); [contradiction|discriminate H].
Qed.
Lemma fails_not_ends doc s m o l : no_root_keyword doc -> fails_with doc s m -> ~ ends_at doc s o l.
Proof.
  intros Hn Hf He. apply ends_stuck in He as (n & a & H1 & H2 & H3). apply (fails_stuck _ _ _ Hn) in Hf as [Hc|(k & b & H4 & H5 & H6)].
  - eapply circular_not_stuck; eauto.
  - destruct (stuck_unique _ _ _ _ _ _ H1 H2 H4 H5) as [_ <-]. eapply dead_designates; eauto.
Qed.
Lemma fails_not_external doc s m n s' : no_root_keyword doc -> fails_with doc s m -> hops doc n s s' -> ~ external s'.
Proof.
  intros Hn Hf Hh He. assert (Hst := stuck_ext doc s' He). apply (fails_stuck _ _ _ Hn) in Hf as [Hc|(k & b & H4 & H5 & H6)].
  - eapply circular_not_stuck; eauto.
  - destruct (stuck_unique _ _ _ _ _ _ Hh Hst H4 H5) as [_ <-]. exact (dead_not_external _ _ _ H6 He).
Qed.
Lemma ends_not_external doc s o l n s' : ends_at doc s o l -> hops doc n s s' -> ~ external s'.
Proof.
  intros Hf Hh He. assert (Hst := stuck_ext doc s' He). apply ends_stuck in Hf as (k & b & H4 & H5 & H6).
  destruct (stuck_unique _ _ _ _ _ _ Hh Hst H4 H5) as [_ <-]. eapply designates_not_external; eauto.
Qed.
Lemma ends_fun doc s o l o' l' : ends_at doc s o l -> ends_at doc s o' l' -> o = o' /\ l = l'.
Proof.
  intros H H'. apply ends_stuck in H as (k & b & H4 & H5 & H6). apply ends_stuck in H' as (k' & b' & H4' & H5' & H6').
  destruct (stuck_unique _ _ _ _ _ _ H4 H5 H4' H5') as [_ <-]. destruct (designates_fun _ _ _ _ _ _ H6 H6'). auto.
Qed.
Lemma alternatives_text tys : type_text tys = alternatives tys.
Proof. unfold type_text. induction tys as [|t [|t' r] IH]; [reflexivity|reflexivity|]. cbn [map join alternatives] in *. rewrite IH. reflexivity. Qed.
Lemma reference_says_sound E doc p s : no_root_keyword doc ->
  match reference_says E doc p s with
  | (w, None) => acceptable E doc p s /\ warns doc s w
  | (w, Some m) => w = [] /\ warns doc s w /\ complaint E doc p s m
  end.
Proof.
  intros Hn. unfold reference_says. destruct (says_said doc s Hn) as [o l He|n s' Hh Hx|m Hf].
  - destruct (expected E p) as [tys|] eqn:Ee.
    + destruct (compatible (type_name o) tys) eqn:Ec.
      * split; [right; exists o, l, tys; split; [exact He|split; [exact Ee|apply compatible_iff; exact Ec]]|].
        apply wa_none. intros n s'. eapply ends_not_external; eauto.
      * split; [reflexivity|]. split; [apply wa_none; intros n s'; eapply ends_not_external; eauto|]. rewrite alternatives_text. apply (co_type _ _ _ _ o l tys); [exact He|exact Ee|].
        intros Hi. apply compatible_iff in Hi. congruence.
    + split; [reflexivity|]. split; [apply wa_none; intros n s'; eapply ends_not_external; eauto|]. eapply co_unknown; eauto.
  - split; [left; eauto|]. eapply wa_external; eauto.
  - split; [reflexivity|]. split; [apply wa_none; intros n s'; eapply fails_not_external; eauto|]. apply co_invalid. exact Hf.
Qed.
Lemma complaint_fun E doc p s m m' : no_root_keyword doc -> complaint E doc p s m -> complaint E doc p s m' -> m = m'.
Proof.
  intros Hn [k Hk|o l Ho He|o l tys Ho He Ht] [k' Hk'|o' l' Ho' He'|o' l' tys' Ho' He' Ht']; try congruence;
    try (exfalso; eapply fails_not_ends; eauto; fail).
  - rewrite (fails_fun _ _ _ _ Hn Hk Hk'). reflexivity.
  - destruct (ends_fun _ _ _ _ _ _ Ho Ho') as [-> ->]. rewrite He in He'. injection He' as ->. reflexivity.
Qed.
Lemma complaint_refused E doc p s m : no_root_keyword doc -> complaint E doc p s m -> ~ acceptable E doc p s.
Proof.
  intros Hn Hc [(n & s' & Hh & Hx)|(o & l & tys & He & Ht & Hi)].
  - destruct Hc as [k Hk|o l Ho He|o l tys Ho He Ht]; [eapply fails_not_external; eauto|eapply ends_not_external; eauto|eapply ends_not_external; eauto].
  - destruct Hc as [k Hk|o' l' Ho' He'|o' l' tys' Ho' He' Ht']; [eapply fails_not_ends; eauto|congruence|].
    destruct (ends_fun _ _ _ _ _ _ He Ho') as [<- <-]. rewrite Ht in He'. injection He' as <-. contradiction.
Qed.
Lemma warns_fun doc s w w' : warns doc s w -> warns doc s w' -> w = w'.
Proof.
  intros [n a Ha Hx|Hx] [n' b Hb Hy|Hy]; [|exfalso; eapply Hy; eauto|exfalso; eapply Hx; eauto|reflexivity].
  destruct (stuck_unique _ _ _ _ _ _ Ha (stuck_ext _ _ Hx) Hb (stuck_ext _ _ Hy)) as [_ <-]. reflexivity.
Qed.

(** ** C75.  Messages *)
(** [resolve_says] (result or error text, and the warnings) resolves like [resolve], for every document. *)
Theorem c75_same_resolution doc s :
  match snd (resolve_says doc s), resolve doc s with
  | Raises _, Failed _ => True
  | Returns None, External => True
  | Returns (Some (o, p)), Resolved o' p' => o = o' /\ p = p'
  | _, _ => False
  end.
Proof. exact (says_agrees doc s). Qed.
(** The text of the error of resolve_reference. *)
Theorem c75_resolution_message doc s m : no_root_keyword doc -> (snd (resolve_says doc s) = Raises m <-> fails_with doc s m).
Proof.
  intros Hn. split.
  - intros H. destruct (says_said doc s Hn) as [o l He|n s' Hh Hx|m' Hf]; [discriminate H|discriminate H|]. injection H as <-. exact Hf.
  - intros Hf. destruct (says_said doc s Hn) as [o l He|n s' Hh Hx|m' Hf']; cbn [snd].
    + destruct (fails_not_ends _ _ _ _ _ Hn Hf He).
    + destruct (fails_not_external _ _ _ _ _ Hn Hf Hh Hx).
    + rewrite (fails_fun _ _ _ _ Hn Hf Hf'). reflexivity.
Qed.
(** The unified validator refuses the same documents. *)
Theorem c75_same_verdict E doc : snd (unified_says E doc) = None <-> unified E doc = None.
Proof.
  assert (Hr : forall p s, snd (reference_says E doc p s) = None <-> check_reference E doc p s = None).
  { intros p s. unfold reference_says, check_reference. assert (H := says_agrees doc s). destruct (resolve_says doc s) as [w [m|[[o q]|]]]; cbn [snd] in H; destruct (resolve doc s); cbn [agrees] in H; try contradiction; cbn [snd].
    - split; discriminate.
    - destruct H as [<- <-]. destruct (expected E p) as [tys|]; [|split; discriminate]. destruct (compatible (type_name o) tys); [split; reflexivity|split; discriminate].
    - split; reflexivity. }
  unfold unified_says, unified. destruct (traversal E doc doc (u "spec")) as (l & [_ Hm] & Hg). rewrite check_none.
  assert (Hl : snd (check_says E doc doc (u "spec")) = None <-> forall pos p s, In (pos, (p, s)) l -> check_reference E doc p s = None).
  { clear Hm. induction Hg as [|pos p s l w m Hw|pos p s l w w' r Hw Hg IH]; cbn [snd].
    - split; [intros _ ? ? ? []|reflexivity].
    - split; [discriminate|]. intros H. specialize (H pos p s (or_introl eq_refl)). apply Hr in H. rewrite Hw in H. discriminate H.
    - assert (Hc : check_reference E doc p s = None) by (apply Hr; rewrite Hw; reflexivity). cbn [snd] in IH. rewrite IH. split.
      + intros H pos0 p0 s0 [Heq|Hi]; [injection Heq as <- <- <-; exact Hc|eauto].
      + intros H pos0 p0 s0 Hi. apply (H pos0). right. exact Hi. }
  rewrite Hl. split.
  - intros H pos rel r s H1 H2. apply (H pos). apply Hm. eauto.
  - intros H pos p s Hi. apply Hm in Hi as (rel & r & H1 & H2 & ->). eauto.
Qed.
Lemma before_irrefl a : ~ before a a.
Proof. induction a as [|i a IH]; intros H; inversion H; subst; [lia|contradiction]. Qed.
Lemma before_trans a b c : before a b -> before b c -> before a c.
Proof.
  intros H. revert c. induction H as [i j p q Hl|i p q H IH]; intros c Hc; inversion Hc as [i' j' p' q' Hl'|i' p' q' H']; subst; first [apply be_less; lia|apply be_same; auto].
Qed.
Lemma run_split E doc l x : no_root_keyword doc -> goes_on E doc l x ->
  match snd x with
  | None => Forall (fine E doc) l /\ warned doc l (fst x)
  | Some m => exists a f b, l = a ++ f :: b /\ Forall (fine E doc) a /\ complaint E doc (fst (snd f)) (snd (snd f)) m /\ warned doc a (fst x)
  end.
Proof.
  intros Hn. induction 1 as [|pos p s l w m Hr|pos p s l w w' r Hr Hg IH]; cbn [snd fst].
  - split; constructor.
  - assert (H := reference_says_sound E doc p s Hn). rewrite Hr in H. destruct H as (-> & _ & Hc). exists [], (pos, (p, s)), l. split; [reflexivity|]. split; [constructor|]. split; [exact Hc|constructor].
  - assert (H := reference_says_sound E doc p s Hn). rewrite Hr in H. destruct H as [Ha Hw]. cbn [snd fst] in IH. destruct r as [m|].
    + destruct IH as (a & f & b & -> & H1 & H2 & H3). exists ((pos, (p, s)) :: a), f, b. split; [reflexivity|]. split; [constructor; assumption|]. split; [exact H2|constructor; assumption].
    + destruct IH as [H1 H2]. split; constructor; assumption.
Qed.
(** The error names the first Reference that is not acceptable, in visiting order, and says what is wrong with it. *)
Theorem c75_message E doc m : no_root_keyword doc ->
  (snd (unified_says E doc) = Some m <->
   exists pos rel r s, reached doc pos rel r /\ is_reference r s /\ complaint E doc (u "spec" ++ rel) s m
     /\ forall pos' rel' r' s', reached doc pos' rel' r' -> is_reference r' s' -> before pos' pos -> acceptable E doc (u "spec" ++ rel') s').
Proof.
  intros Hn. unfold unified_says. destruct (traversal E doc doc (u "spec")) as (l & [Hs Hm] & Hg). assert (Hx := run_split E doc l _ Hn Hg).
  assert (Hfirst : forall m0, snd (check_says E doc doc (u "spec")) = Some m0 -> exists pos rel r s, reached doc pos rel r /\ is_reference r s /\ complaint E doc (u "spec" ++ rel) s m0
     /\ forall pos' rel' r' s', reached doc pos' rel' r' -> is_reference r' s' -> before pos' pos -> acceptable E doc (u "spec" ++ rel') s').
  { intros m0 H. rewrite H in Hx. destruct Hx as (a & [pos [p s]] & b & -> & H1 & H2 & _). cbn [fst snd] in H2.
    destruct (proj1 (Hm pos p s)) as (rel & r & Hr & Hrs & ->); [apply in_or_app; right; left; reflexivity|].
    exists pos, rel, r, s. split; [exact Hr|]. split; [exact Hrs|]. split; [exact H2|]. intros pos' rel' r' s' Hr' Hs' Hb.
    assert (Hi : In (pos', (u "spec" ++ rel', s')) (a ++ (pos, (u "spec" ++ rel, s)) :: b)) by (apply Hm; eauto).
    apply in_app_or in Hi as [Hi|[Hi|Hi]].
    - rewrite Forall_forall in H1. exact (H1 _ Hi).
    - injection Hi as -> _ _. destruct (before_irrefl _ Hb).
    - exfalso. rewrite map_app in Hs. cbn [map fst] in Hs. clear -Hs Hi Hb. induction a as [|x a IH]; cbn [map app] in Hs; inversion Hs as [|? ? H1 H2]; subst; [|auto].
      rewrite Forall_forall in H2. assert (Hz := H2 pos' (in_map fst _ _ Hi)). exact (before_irrefl _ (before_trans _ _ _ Hb Hz)). }
  split; [apply Hfirst|]. intros (pos & rel & r & s & Hr & Hrs & Hc & Hb).
  destruct (snd (check_says E doc doc (u "spec"))) as [m'|] eqn:E1.
  - destruct (Hfirst m' eq_refl) as (pos' & rel' & r' & s' & Hr' & Hrs' & Hc' & Hb').
    destruct (list_eq_dec Nat.eq_dec pos pos') as [<-|Hne].
    + assert (Hi : In (pos, (u "spec" ++ rel, s)) l) by (apply Hm; eauto). assert (Hi' : In (pos, (u "spec" ++ rel', s')) l) by (apply Hm; eauto).
      assert (Heq : (u "spec" ++ rel, s) = (u "spec" ++ rel', s')).
      { clear -Hs Hi Hi'. induction l as [|x l IH]; [contradiction|]. cbn [map] in Hs. inversion Hs as [|? ? H1 H2]; subst. rewrite Forall_forall in H2.
        destruct Hi as [->|Hi], Hi' as [Hi'|Hi'].
        - congruence.
        - destruct (before_irrefl _ (H2 _ (in_map fst _ _ Hi'))).
        - subst x. destruct (before_irrefl _ (H2 _ (in_map fst _ _ Hi))).
        - auto. }
      injection Heq as Hp <-. rewrite Hp in Hc. f_equal. exact (complaint_fun _ _ _ _ _ _ Hn Hc' Hc).
    + exfalso. destruct (c28_order_total doc pos pos' rel rel' r r' s s' Hr Hrs Hr' Hrs' Hne) as [Ho|Ho].
      * exact (complaint_refused _ _ _ _ _ Hn Hc (Hb' _ _ _ _ Hr Hrs Ho)).
      * exact (complaint_refused _ _ _ _ _ Hn Hc' (Hb _ _ _ _ Hr' Hrs' Ho)).
  - exfalso. destruct Hx as [HF _]. rewrite Forall_forall in HF. apply (complaint_refused _ _ _ _ _ Hn Hc).
    exact (HF (pos, (u "spec" ++ rel, s)) (proj2 (Hm _ _ _) (ex_intro _ rel (ex_intro _ r (conj Hr (conj Hrs eq_refl)))))).
Qed.
(** In a document built from plain data the path in the message belongs to one Reference only. *)
Theorem c75_path_names_one_place E v doc pos pos' rel r r' s s' : parse E T_AsyncAPI3 v = Some doc -> no_objects v -> python_dicts v ->
  reached doc pos rel r -> is_reference r s -> reached doc pos' rel r' -> is_reference r' s' -> pos = pos' /\ r = r' /\ s = s'.
Proof.
  intros Hp Hn Hd Hr Hs Hr' Hs'. assert (Hc := document_canon _ _ _ Hp Hn).
  assert (HinA : In T_AsyncAPI3 all_types) by in_table. assert (Hpd := parse_pd _ _ _ _ (wf_all _ HinA) Hd Hp).
  assert (Hpos : pos = pos').
  { apply reached_route in Hr as (p & Hr & Ht). apply reached_route in Hr' as (p' & Hr' & Ht'). rewrite Ht in Ht'.
    exact (place_unique E _ root_plain_paths _ Hc Hpd _ _ _ _ Hr Hs _ _ _ _ Hr' Hs' Ht'). }
  subst pos'. assert (Heq : r = r').
  { assert (G : forall v pos rel r, reached v pos rel r -> forall rel' r', reached v pos rel' r' -> r = r'); [|exact (G _ _ _ _ Hr _ _ Hr')].
    clear. intros v pos rel r Hr. induction Hr as [v p0 Hp0|v i text w pos path x Hc Hr IH]; intros rel' r' Hr'; inversion Hr' as [? ?|i' t' w' pos' path' x' Hc' Hr'']; subst; [reflexivity|].
    assert (w = w') by (destruct Hc; inversion Hc'; subst; congruence). subst w'. eauto. }
  subst r'. split; [reflexivity|]. split; [reflexivity|]. eapply is_reference_fun; eauto.
Qed.
(** Every chain that does not end at an object of the document and does not leave it has such a message. *)
Theorem c75_always_a_message doc s : no_root_keyword doc -> (exists m, fails_with doc s m) <->
  (forall o l, ~ ends_at doc s o l) /\ (forall n s', hops doc n s s' -> ~ external s').
Proof.
  intros Hn. split.
  - intros [m Hm]. split; [intros o l; eapply fails_not_ends; eauto|intros n s'; eapply fails_not_external; eauto].
  - intros [H1 H2]. destruct (says_said doc s Hn) as [o l He|n s' Hh Hx|m Hf]; [destruct (H1 _ _ He)|destruct (H2 _ _ Hh Hx)|eauto].
Qed.

(** ** C76.  Warnings *)
(** The warnings of one resolution. *)
Theorem c76_resolution doc s : no_root_keyword doc -> warns doc s (fst (resolve_says doc s)).
Proof.
  intros Hn. destruct (says_said doc s Hn) as [o l He|n s' Hh Hx|m Hf]; cbn [fst].
  - apply wa_none. intros n s'. eapply ends_not_external; eauto.
  - eapply wa_external; eauto.
  - apply wa_none. intros n s'. eapply fails_not_external; eauto.
Qed.
(** The warnings of the unified validator: those of the references in visiting order, up to the first one that is refused. *)
Theorem c76_warnings E doc : no_root_keyword doc -> exists l, lists_references doc l /\
  match unified_says E doc with
  | (log, None) => Forall (fine E doc) l /\ warned doc l log
  | (log, Some m) => exists a f b, l = a ++ f :: b /\ Forall (fine E doc) a /\ ~ fine E doc f /\ warned doc a log
  end.
Proof.
  intros Hn. destruct (traversal E doc doc (u "spec")) as (l & Hl & Hg). exists l. split; [exact Hl|]. assert (Hx := run_split E doc l _ Hn Hg).
  fold (unified_says E doc) in Hx. destruct (unified_says E doc) as [log [m|]]; cbn [fst snd] in Hx; [|exact Hx].
  destruct Hx as (a & f & b & H1 & H2 & H3 & H4). exists a, f, b. split; [exact H1|]. split; [exact H2|]. split; [|exact H4]. exact (complaint_refused _ _ _ _ _ Hn H3).
Qed.
(** Both lists are determined by the document. *)
Lemma sorted_unique (l l' : list found) : StronglySorted before (map fst l) -> StronglySorted before (map fst l') ->
  (forall x, In x l <-> In x l') -> l = l'.
Proof.
  revert l'. induction l as [|x l IH]; intros l' H H' Hi.
  - destruct l' as [|y l']; [reflexivity|]. destruct (proj2 (Hi y) (or_introl eq_refl)).
  - destruct l' as [|y l']; [destruct (proj1 (Hi x) (or_introl eq_refl))|]. cbn [map] in H, H'. inversion H as [|? ? H1 H2]; subst. inversion H' as [|? ? H3 H4]; subst.
    rewrite Forall_forall in H2, H4.
    assert (x = y).
    { destruct (proj1 (Hi x) (or_introl eq_refl)) as [Hx|Hx]; [auto|]. destruct (proj2 (Hi y) (or_introl eq_refl)) as [Hy|Hy]; [auto|]. exfalso.
      exact (before_irrefl _ (before_trans _ _ _ (H2 _ (in_map fst _ _ Hy)) (H4 _ (in_map fst _ _ Hx)))). }
    subst y. f_equal. apply IH; [exact H1|exact H3|]. intros z. split; intros Hz.
    + destruct (proj1 (Hi z) (or_intror Hz)) as [<-|Hz']; [destruct (before_irrefl _ (H2 _ (in_map fst _ _ Hz)))|exact Hz'].
    + destruct (proj2 (Hi z) (or_intror Hz)) as [<-|Hz']; [destruct (before_irrefl _ (H4 _ (in_map fst _ _ Hz)))|exact Hz'].
Qed.
Theorem c76_determined doc l l' log log' : lists_references doc l -> lists_references doc l' -> warned doc l log -> warned doc l' log' -> l = l' /\ log = log'.
Proof.
  intros [H1 H2] [H3 H4] H5 H6. assert (l = l').
  { apply sorted_unique; [exact H1|exact H3|]. intros [pos [p s]]. rewrite H2, H4. reflexivity. }
  subst l'. split; [reflexivity|]. clear -H5 H6. revert log' H6. induction H5 as [|pos p s l w log Hw Hd IH]; intros log' H6; inversion H6 as [|? ? ? ? w' log2 Hw' Hd']; subst; [reflexivity|].
  rewrite (warns_fun _ _ _ _ Hw Hw'), (IH _ Hd'). reflexivity.
Qed.
(** Hence an accepted document without outside references is accepted silently, and every outside reference of an accepted document is reported. *)
Theorem c76_silent E doc log : no_root_keyword doc -> unified_says E doc = (log, None) ->
  (log = [] <-> forall pos rel r s n s', reached doc pos rel r -> is_reference r s -> hops doc n s s' -> ~ external s').
Proof.
  intros Hn H. destruct (c76_warnings E doc Hn) as (l & [_ Hm] & Hx). rewrite H in Hx. destruct Hx as [_ Hw]. split.
  - intros -> pos rel r s n s' Hr Hs Hh He. assert (Hi : In (pos, (u "spec" ++ rel, s)) l) by (apply Hm; eauto). clear -Hw Hi Hh He.
    remember [] as log eqn:El. induction Hw as [|pos' p' s0 l w log Hw Hd IH]; [contradiction|]. destruct w; [|discriminate El]. cbn [app] in El.
    destruct Hi as [Heq|Hi]; [|auto]. injection Heq as -> -> ->. inversion Hw as [|Hno]; subst. exact (Hno _ _ Hh He).
  - intros Hno. assert (Hall : forall pos p s, In (pos, (p, s)) l -> forall n s', hops doc n s s' -> ~ external s').
    { intros pos p s Hi. apply Hm in Hi as (rel & r & Hr & Hs & _). intros n s' Hh. eapply Hno; eauto. }
    clear -Hw Hall. induction Hw as [|pos' p' s0 l w log Hw Hd IH]; [reflexivity|]. destruct Hw as [n s' Hh He|_].
    + destruct (Hall pos' p' s0 (or_introl eq_refl) _ _ Hh He).
    + apply IH. intros pos p s Hi. apply (Hall pos p s). right. exact Hi.
Qed.
Section Cases.
Local Open Scope string_scope.
Definition docM : pv :=
  spec [("channels", obj [("c1", ref "https://e.org/c"); ("c2", ref "#/channels/c1"); ("c3", ref "#/servers/s")]);
        ("servers", obj [("s", obj [("host", str "h"); ("protocol", str "kafka")]); ("a", ref "#/servers/b"); ("b", ref "#/servers/c"); ("c", ref "#/servers/b")]);
        ("components", obj [("schemas", obj [("x", obj [("type", str "object")])])])].
Definition parsedM : pv := load_doc docM.
Example c75_ex : parse E0 T_AsyncAPI3 docM = Some parsedM /\ no_root_keyword parsedM /\ no_objects docM /\ python_dicts docM
  /\ snd (unified_says E0 parsedM) = Some (u "Invalid reference at spec.servers.root.a: Circular reference detected: #/servers/b")
  /\ fails_with parsedM (u "#/servers/a") (u "Circular reference detected: #/servers/b")
  /\ fails_with parsedM (u "#/components/schemas/y/z") (u "Reference key 'y' not found in spec.components.schemas.y")
  /\ fails_with parsedM (u "#//components/tags/") (u "Reference path 'spec.components.tags' is None")
  /\ fails_with parsedM (u "#/componentz") (u "Field 'componentz' not found in model at spec.componentz")
  /\ fails_with parsedM (u "#/asyncapi/x") (u "Cannot navigate to 'x' in spec.asyncapi.x (not a model or dict)")
  /\ fails_with parsedM (u "#//") (u "Invalid reference path: #//")
  /\ fails_with parsedM (u "other.yaml") (u "Unsupported reference format: other.yaml")
  /\ snd (unified_says E0 (load_doc docU_bad)) = Some (u "Reference at spec.channels.root.c2 resolved to spec.servers.s with type Server, expected Channel").
Proof.
  assert (Hn : no_root_keyword parsedM) by (apply no_root_dec; vm_compute; reflexivity).
  split; [apply load_doc_ok; vm_compute; reflexivity|]. split; [exact Hn|]. split; [apply plain_dec; vm_compute; reflexivity|].
  split; [apply python_dicts_dec; vm_compute; reflexivity|]. split; [vm_compute; reflexivity|].
  repeat split; try (apply (c75_resolution_message _ _ _ Hn); vm_compute; reflexivity); vm_compute; reflexivity.
Qed.
Example c76_ex : unified_says E0 (load_doc doc_web) =
  ([u "External reference 'http://e.org/c' cannot be validated locally"; u "External reference 'https://e.org/d' cannot be validated locally"], None)
  /\ unified_says E0 (load_doc docU_bad) = ([u "External reference 'https://e.org/c' cannot be validated locally"],
       Some (u "Reference at spec.channels.root.c2 resolved to spec.servers.s with type Server, expected Channel"))
  /\ fst (resolve_says parsedM (u "#/channels/c2")) = [u "External reference 'https://e.org/c' cannot be validated locally"].
Proof. split; [vm_compute; reflexivity|]. split; vm_compute; reflexivity. Qed.
End Cases.
Print Assumptions c75_message.
Print Assumptions c75_path_names_one_place.
Print Assumptions c76_warnings.
