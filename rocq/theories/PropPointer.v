(** Property C68: reference resolution and JSON Pointer. *)
From Verif Require Import PyStr Regex Value Types Rules Pydantic ClassTable Classes Canon Fix Linked SpecParse Sample ProofRules ProofParse
  State SpecState ProofState PropState Resolve SpecResolve ProofResolve PropResolve Dump SpecDump ProofDump PropDump SpecPointer.
Local Open Scope string_scope.

(** ** Strings *)
Lemma unescaped_ordinary w w' : unescaped w w' -> ~ In slash w' -> ~ In tilde w' -> w = w'.
Proof.
  induction 1 as [|w w' H IH|w w' H IH|c w w' Hc H IH]; intros H1 H2; [reflexivity| | |].
  - exfalso. apply H1. left. reflexivity.
  - exfalso. apply H2. left. reflexivity.
  - f_equal. apply IH; intros Hx; [apply H1|apply H2]; right; exact Hx.
Qed.
Lemma pointer_start p l : pointer p l -> p = [] \/ exists p', p = slash :: p'.
Proof. intros H; inversion H; subst; eauto. Qed.
Lemma pointer_segments p l : pointer p l -> ordinary l -> segments p l.
Proof.
  unfold ordinary. induction 1 as [|w w' s l Hw Hu Hp IH]; intros Ho; [constructor|]. inversion Ho as [|? ? (H1 & H2 & H3 & _) H4]; subst.
  rewrite (unescaped_ordinary _ _ Hu H2 H3). apply seg_slash. apply seg_name; auto. eapply pointer_start; eauto.
Qed.
Lemma unescaped_fun w a : unescaped w a -> forall b, unescaped w b -> a = b.
Proof. induction 1; intros b Hb; inversion Hb; subst; try reflexivity; try (f_equal; auto); congruence. Qed.
Lemma before_slash (a b : pystr) : ~ In slash a -> ~ In slash b -> forall x y, (x = [] \/ exists x', x = slash :: x') -> (y = [] \/ exists y', y = slash :: y') ->
  (a ++ x = b ++ y)%list -> a = b /\ x = y.
Proof.
  revert b. induction a as [|c a IH]; intros [|d b] Ha Hb x y Hx Hy He; cbn [app] in He.
  - auto.
  - exfalso. destruct Hx as [->|(x' & ->)]; [discriminate He|]. injection He as <- _. apply Hb. left. reflexivity.
  - exfalso. destruct Hy as [->|(y' & ->)]; [discriminate He|]. injection He as -> _. apply Ha. left. reflexivity.
  - injection He as -> He. destruct (IH b (fun h => Ha (or_intror h)) (fun h => Hb (or_intror h)) x y Hx Hy He) as [-> ->]. auto.
Qed.
Lemma pointer_fun p l : pointer p l -> forall l', pointer p l' -> l = l'.
Proof.
  induction 1 as [|w w' s l Hw Hu Hp IH]; intros l' H'; inversion H' as [|a a' s2 l2 Ha Hua Hp2 He]; subst; [reflexivity|].
  destruct (before_slash _ _ Ha Hw _ _ (pointer_start _ _ Hp2) (pointer_start _ _ Hp) ltac:(eassumption)) as [-> ->].
  rewrite (unescaped_fun _ _ Hu _ Hua). f_equal. apply IH. exact Hp2.
Qed.
Lemma unescaped_self w : ~ In tilde w -> unescaped w w.
Proof. induction w as [|c w IH]; intros H; [constructor|]. constructor; [intros ->; apply H; left; reflexivity|apply IH; intros Hx; apply H; right; exact Hx]. Qed.
Fixpoint pointer_of (l : list pystr) : pystr := match l with [] => [] | w :: r => slash :: w ++ pointer_of r end.
Lemma pointer_of_spec l : ordinary l -> pointer (pointer_of l) l.
Proof.
  induction 1 as [|w l (H1 & H2 & H3 & _) _ IH]; [constructor|]. cbn [pointer_of]. constructor; [exact H2|apply unescaped_self; exact H3|exact IH].
Qed.
Lemma pointer_of_percent l : ordinary l -> ~ In percent (pointer_of l).
Proof.
  induction 1 as [|w l (_ & _ & _ & H4) _ IH]; [intros []|]. cbn [pointer_of In]. rewrite in_app_iff. intros [H|[H|H]]; [discriminate H|auto|auto].
Qed.
Lemma fragment_of l : ordinary l -> fragment (u "#" ++ pointer_of l)%list l.
Proof. intros H. exists (pointer_of l). split; [reflexivity|]. split; [apply pointer_of_percent; exact H|apply pointer_of_spec; exact H]. Qed.
Lemma fragment_designates o s l x : fragment s l -> ordinary l -> l <> [] -> (designates o s l x <-> walks o l x).
Proof.
  intros (p & -> & _ & Hp) Ho Hl. split.
  - intros (r & _ & _ & _ & Hw). exact Hw.
  - intros Hw. exists p. split; [reflexivity|]. split; [apply pointer_segments; assumption|]. auto.
Qed.

(** ** One step *)
Lemma assoc_dump k d : assoc k (map (fun kv => match kv with (a, x) => (a, dump x) end) d) = option_map dump (assoc k d).
Proof. induction d as [|[a x] d IH]; [reflexivity|]. cbn [map assoc]. destruct (str_eqb k a); [reflexivity|exact IH]. Qed.
Definition apart (c : string) (ex : fields) : Prop := forall k, In k (map fst ex) -> ~ declared (class_fields c) k.
Definition typed_obj (E : env) (c : string) (fv ex : fields) : Prop :=
  exists k fs, linked (TModel c k fs) = true /\ wf_ty (TModel c k fs) = true /\ canon is_json E (TModel c k fs) (VObj c fv ex).
Lemma in_field_keys f k : k = f_name f \/ k = f_alias f -> In k (field_keys f).
Proof.
  intros H. unfold field_keys. destruct (str_eqb (f_name f) (f_alias f)) eqn:Ee; [apply str_eqb_eq in Ee; left; destruct H; congruence|].
  destruct H as [->| ->]; [left|right; left]; reflexivity.
Qed.
Lemma declared_all_keys fs k : declared fs k -> In k (all_keys (map fst fs)).
Proof.
  intros (fi & t & Hi & Hk). unfold all_keys. apply in_flat_map. exists fi. split; [change fi with (fst (fi, t)); apply in_map; exact Hi|apply in_field_keys; exact Hk].
Qed.
Lemma typed_apart E c fv ex : typed_obj E c fv ex -> no_shadowing (VObj c fv ex) -> apart c ex.
Proof.
  intros (k & fs & Hl & Hw & Hc) Hs key Hk. rewrite (proj1 (linked_fields _ _ _ Hl)). intros Hdc. apply declared_all_keys in Hdc. revert Hdc.
  cbn [canon] in Hc. destruct Hc as (fv' & ex' & He & _ & _ & Ha). injection He as <- <-. eapply extras_apart; eauto.
Qed.
(** What the JSON form of an object has under a key. *)
Lemma member_cases E c fv ex d key y : typed_obj E c fv ex -> dump (VObj c fv ex) = VDict d -> assoc key d = Some y ->
  (exists x, In (key, x) ex) \/ exists fi t x, In (fi, t) (class_fields c) /\ f_excl fi = false /\ key = f_alias fi /\ assoc (f_name fi) fv = Some x /\ y = dump x.
Proof.
  intros (k & fs & Hl & Hw & Hc) Hd Ha. rewrite (proj1 (linked_fields _ _ _ Hl)).
  destruct (keys_spec E c k fs fv ex d Hl Hw Hc Hd key y Ha) as [H|(fi & t & x & H1 & H2 & H3 & H4 & H5 & _)].
  - left. apply dump_entries_In in H as (x & H & _). eauto.
  - right. exists fi, t, x. auto.
Qed.
Lemma member_found E c fv ex d fi t x : typed_obj E c fv ex -> apart c ex -> dump (VObj c fv ex) = VDict d -> In (fi, t) (class_fields c) ->
  f_excl fi = false -> assoc (f_name fi) fv = Some x -> x <> VNone -> assoc (f_alias fi) d = Some (dump x).
Proof.
  intros (k & fs & Hl & Hw & Hc) Hap Hd Hi He Hx Hn.
  assert (Hne : ~ In (f_alias fi) (map fst ex)).
  { intros H. apply (Hap _ H). exists fi, t. auto. }
  rewrite (proj1 (linked_fields _ _ _ Hl)) in Hi. eapply present_spec; eauto. unfold written. rewrite He. destruct x; try (rewrite andb_false_r; reflexivity). congruence.
Qed.
Lemma owner c fi t fj t' k : In (fi, t) (class_fields c) -> In (fj, t') (class_fields c) -> (k = f_name fi \/ k = f_alias fi) -> (k = f_name fj \/ k = f_alias fj) -> fi = fj.
Proof.
  intros Hi Hj Hk Hl. assert (Hd := class_keys_NoDup c).
  apply (key_owner (class_infos c) fi fj k Hd); [apply infos_in; eauto|apply infos_in; eauto|apply in_field_keys; exact Hk|apply in_field_keys; exact Hl].
Qed.
Lemma goes_obj c fv ex k x : goes (VObj c fv ex) k x -> exists fi t, In (fi, t) (class_fields c) /\ (k = f_name fi \/ k = f_alias fi) /\ assoc (f_name fi) fv = Some x /\ x <> VNone.
Proof. intros H; inversion H; subst; eauto 8. Qed.

(** ** Paths *)
Section Doc.
  Context (E : env) (o : pv).
  Hypothesis typed : forall c fv ex, within (VObj c fv ex) o -> typed_obj E c fv ex.
  Hypothesis clear : forall c fv ex, within (VObj c fv ex) o -> apart c ex.


  Lemma agree l : forall y x j, within y o -> walks y l x -> at_pointer (dump y) l j -> j = dump x.
  Proof.
    induction l as [|k l IH]; intros y x j Hy Hw Ha; inversion Hw as [|? ? w ? ? Hg Hw']; subst; inversion Ha as [|d ? z ? ? Hk Ha' Hd|xs i z ? ? Hk Ha' Hd]; subst; [reflexivity| |].
    - assert (Hz : z = dump w); [|subst z; apply (IH w x j); [eapply within_trans; [eapply goes_within; exact Hg|exact Hy]|exact Hw'|exact Ha']].
      destruct y as [| | | | | | |dd|c fv ex|c dd| |]; try discriminate Hd.
      + cbn [dump] in Hd. injection Hd as ->. rewrite assoc_dump in Hk. inversion Hg as [|? ? ? Hx| |]; subst. rewrite Hx in Hk. cbn in Hk. congruence.
      + apply goes_obj in Hg as (fi & t & Hi & Hkk & Hx & Hn).
        destruct (member_cases E c fv ex d k z (typed _ _ _ Hy) (eq_sym Hd) Hk) as [(e & He)|(fj & t' & w' & Hj & _ & -> & Hx' & ->)].
        * exfalso. apply (clear _ _ _ Hy k); [change k with (fst (k, e)); apply in_map; exact He|]. exists fi, t. auto.
        * assert (fi = fj) by (eapply owner; eauto). subst fj. congruence.
      + cbn [dump] in Hd. injection Hd as ->. rewrite assoc_dump in Hk. inversion Hg as [? ? ? ? Hx| | |]; subst. rewrite Hx in Hk. cbn in Hk. congruence.
    - destruct y; try discriminate Hd. inversion Hg.
  Qed.
  Lemma found l : forall y j, within y o -> at_pointer (dump y) l j ->
    (exists x, walks y l x /\ j = dump x)
    \/ exists a k b w, l = (a ++ k :: b)%list /\ walks y a w
       /\ ((exists xs, w = VList xs) \/ exists c fv ex, w = VObj c fv ex /\ (In k (map fst ex) \/ exists fi t, In (fi, t) (class_fields c) /\ k = f_alias fi /\ assoc (f_name fi) fv = Some VNone)).
  Proof.
    induction l as [|k l IH]; intros y j Hy Ha; inversion Ha as [|d ? z ? ? Hk Ha' Hd|xs i z ? ? Hk Ha' Hd]; subst.
    - left. exists y. split; [constructor|reflexivity].
    - assert (Hstep : (exists w, goes y k w /\ z = dump w) \/ exists c fv ex, y = VObj c fv ex /\ (In k (map fst ex) \/ exists fi t, In (fi, t) (class_fields c) /\ k = f_alias fi /\ assoc (f_name fi) fv = Some VNone)).
      { destruct y as [| | | | | | |dd|c fv ex|c dd| |]; try discriminate Hd.
        - cbn [dump] in Hd. injection Hd as ->. rewrite assoc_dump in Hk. destruct (assoc k dd) as [w|] eqn:Ex; [|discriminate Hk]. injection Hk as <-. left. exists w. split; [apply go_dict; exact Ex|reflexivity].
        - destruct (member_cases E c fv ex d k z (typed _ _ _ Hy) (eq_sym Hd) Hk) as [(e & He)|(fj & t' & w' & Hj & _ & -> & Hx' & ->)].
          + right. exists c, fv, ex. split; [reflexivity|]. left. change k with (fst (k, e)). apply in_map. exact He.
          + destruct (is_none w') eqn:En.
            * apply is_none_iff in En. subst w'. right. exists c, fv, ex. split; [reflexivity|]. right. eauto.
            * left. exists w'. split; [|reflexivity]. eapply go_alias; eauto. intros ->. discriminate En.
        - cbn [dump] in Hd. injection Hd as ->. rewrite assoc_dump in Hk. destruct (assoc k dd) as [w|] eqn:Ex; [|discriminate Hk]. injection Hk as <-. left. exists w. split; [apply go_map; exact Ex|reflexivity]. }
      destruct Hstep as [(w & Hg & ->)|(c & fv & ex & -> & H)].
      + destruct (IH w j (within_trans _ _ _ (goes_within _ _ _ Hg) Hy) Ha') as [(x & Hx & ->)|(a & k' & b & w' & -> & Hw & H)].
        * left. exists x. split; [econstructor; eassumption|reflexivity].
        * right. exists (k :: a), k', b, w'. split; [reflexivity|]. split; [econstructor; eassumption|exact H].
      + right. exists [], k, l, (VObj c fv ex). split; [reflexivity|]. split; [constructor|]. right. exists c, fv, ex. auto.
    - right. destruct y as [| | | | | |ys| | | | |]; try discriminate Hd. eexists [], _, l, (VList ys). split; [reflexivity|]. split; [constructor|]. left. eauto.
  Qed.
  Lemma known l : forall y x, within y o -> walks y l x ->
    at_pointer (dump y) l (dump x)
    \/ exists a k b c fv ex fi t, l = (a ++ k :: b)%list /\ walks y a (VObj c fv ex) /\ In (fi, t) (class_fields c) /\ ((k = f_name fi /\ k <> f_alias fi) \/ ((k = f_name fi \/ k = f_alias fi) /\ f_excl fi = true)).
  Proof.
    induction l as [|k l IH]; intros y x Hy Hw; inversion Hw as [|? ? w ? ? Hg Hw']; subst; [left; constructor|].
    assert (Hstep : (exists d, dump y = VDict d /\ assoc k d = Some (dump w)) \/ exists c fv ex fi t, y = VObj c fv ex /\ In (fi, t) (class_fields c) /\ ((k = f_name fi /\ k <> f_alias fi) \/ ((k = f_name fi \/ k = f_alias fi) /\ f_excl fi = true))).
    { assert (Hg' := Hg). destruct Hg' as [c d k v H|d k v H|c fv ex fi t v Hin Ha Hv|c fv ex fi t v Hin Ha Hv].
      - left. eexists. split; [reflexivity|]. rewrite assoc_dump, H. reflexivity.
      - left. eexists. split; [reflexivity|]. rewrite assoc_dump, H. reflexivity.
      - destruct (f_excl fi) eqn:Ef; [right; exists c, fv, ex, fi, t; split; [reflexivity|]; split; [exact Hin|]; right; auto|]. destruct (str_eqb (f_name fi) (f_alias fi)) eqn:En.
        + apply str_eqb_eq in En. left. rewrite dump_obj. eexists. split; [reflexivity|]. rewrite En. eapply member_found; eauto using typed, dump_obj.
        + right. exists c, fv, ex, fi, t. split; [reflexivity|]. split; [exact Hin|]. left. split; [reflexivity|]. intros Hx. rewrite <- Hx, str_eqb_refl in En. discriminate En.
      - destruct (f_excl fi) eqn:Ef; [right; exists c, fv, ex, fi, t; split; [reflexivity|]; split; [exact Hin|]; right; auto|]. left. rewrite dump_obj. eexists. split; [reflexivity|]. eapply member_found; eauto using typed, dump_obj. }
    destruct Hstep as [(d & Hd & Hk)|(c & fv & ex & fi & t & -> & H)].
    - destruct (IH w x (within_trans _ _ _ (goes_within _ _ _ Hg) Hy) Hw') as [H|(a & k' & b & c & fv & ex & fi & t & -> & Hwa & H)].
      + left. rewrite Hd. econstructor; eauto.
      + right. exists (k :: a), k', b, c, fv, ex, fi, t. split; [reflexivity|]. split; [econstructor; eassumption|exact H].
    - right. exists [], k, l, c, fv, ex, fi, t. split; [reflexivity|]. split; [constructor|exact H].
  Qed.
End Doc.

Lemma parsed_typed E t v o : In t all_types -> parse E t v = Some o -> json_data t o -> forall c fv ex, within (VObj c fv ex) o -> typed_obj E c fv ex.
Proof. intros Hi Hp Hj c fv ex Hx. exact (obj_in E t o c fv ex (linked_all _ Hi) (wf_all _ Hi) (parsed_json _ _ _ _ Hi Hp Hj) Hx). Qed.
Lemma parsed_apart E t v o : In t all_types -> parse E t v = Some o -> json_data t o -> no_shadowing o -> forall c fv ex, within (VObj c fv ex) o -> apart c ex.
Proof.
  intros Hi Hp Hj Hs c fv ex Hx. apply (typed_apart E c fv ex (parsed_typed _ _ _ _ Hi Hp Hj _ _ _ Hx)).
  intros c' fv' ex' k Hk. exact (Hs c' fv' ex' k (within_trans _ _ _ Hk Hx)).
Qed.

(** ** C68.  Refuted: there are JSON values the document has, and the resolver does not find. *)
Definition resolves_to (o : pv) (s : pystr) (j : pv) : Prop := exists x path, resolve o s = Resolved x path /\ dump x = j.
Definition doc_ptr : pv :=
  obj [("info", obj [("title", str "T"); ("version", str "1"); ("tags", VList [obj [("name", str "a")]]); ("x-owner", obj [("team", str "core")])]);
       ("components", obj [("schemas", obj [("Pet", obj [("type", str "object"); ("properties", obj [("name", obj [("type", str "string")])])])]);
                           ("securitySchemes", obj [("k", obj [("type", str "oauth2"); ("flows", obj [("implicit", obj [("authorizationUrl", str "https://a/"); ("availableScopes", obj [("a/b", str "read")])])])])])])].
Definition parsed_ptr : pv := match parse E0 T_AsyncAPI3 doc_ptr with Some o => o | None => VNone end.
Lemma parsed_ptr_ok : parse E0 T_AsyncAPI3 doc_ptr = Some parsed_ptr.
Proof. vm_compute. reflexivity. Qed.
(** An array element, extension data, a property of a schema, a key with an escaped slash. *)
Definition missed : list (pystr * list pystr) :=
  [(u "#/info/tags/0", [u "info"; u "tags"; u "0"]);
   (u "#/info/x-owner", [u "info"; u "x-owner"]);
   (u "#/components/schemas/Pet/properties/name", [u "components"; u "schemas"; u "Pet"; u "properties"; u "name"]);
   (u "#/components/securitySchemes/k/flows/implicit/availableScopes/a~1b", [u "components"; u "securitySchemes"; u "k"; u "flows"; u "implicit"; u "availableScopes"; u "a/b"])].
Fixpoint look (v : pv) (l : list pystr) : option pv :=
  match l with
  | [] => Some v
  | k :: r => match v with VDict d => match assoc k d with Some x => look x r | None => None end
                         | VList xs => match k with [48%N] => match xs with x :: _ => look x r | [] => None end | _ => None end
                         | _ => None end
  end.
Lemma look_at l : forall v j, look v l = Some j -> at_pointer v l j.
Proof.
  induction l as [|k l IH]; intros v j H; cbn [look] in H; [injection H as <-; constructor|].
  destruct v as [| | | | | |xs|d| | | |]; try discriminate H.
  - destruct k as [|c k]; [discriminate H|]. destruct (N.eqb_spec c 48) as [->|Hc].
    + destruct k; [|discriminate H]. destruct xs as [|x xs]; [discriminate H|]. exact (at_element (x :: xs) 0 x l j eq_refl (IH _ _ H)).
    + exfalso. destruct c as [|c]; [discriminate H|]. repeat (destruct c as [c|c|]; try discriminate H). apply Hc. reflexivity.
  - destruct (assoc k d) as [x|] eqn:Ex; [|discriminate H]. econstructor; eauto.
Qed.
Lemma ptr_step w w' s l : existsb (N.eqb slash) w = false -> unescaped w w' -> pointer s l -> pointer (slash :: w ++ s)%list (w' :: l).
Proof.
  intros H. apply ptr_token. intros Hi. assert (existsb (N.eqb slash) w = true); [|congruence]. apply existsb_exists. exists slash. split; [exact Hi|apply N.eqb_refl].
Qed.
Fixpoint unesc (w : pystr) : option pystr :=
  match w with
  | [] => Some []
  | c :: w' => if N.eqb c tilde then match w' with
                 | e :: w'' => if N.eqb e 49 then option_map (cons slash) (unesc w'') else if N.eqb e 48 then option_map (cons tilde) (unesc w'') else None
                 | [] => None end
               else option_map (cons c) (unesc w')
  end.
Lemma unesc_spec n : forall w w', length w <= n -> unesc w = Some w' -> unescaped w w'.
Proof.
  induction n as [|n IH]; intros [|c w] w' Hn H; cbn [length] in Hn; try lia; try (injection H as <-; constructor).
  cbn [unesc] in H. destruct (N.eqb_spec c tilde) as [->|Hc].
  - destruct w as [|e w]; [discriminate H|]. cbn [length] in Hn. destruct (N.eqb_spec e 49) as [->|]; [|destruct (N.eqb_spec e 48) as [->|]; [|discriminate H]];
      (destruct (unesc w) as [r|] eqn:Er; [|discriminate H]); injection H as <-; constructor; apply IH; try exact Er; lia.
  - destruct (unesc w) as [r|] eqn:Er; [|discriminate H]. injection H as <-. constructor; [exact Hc|]. apply IH; [lia|exact Er].
Qed.
(** Deciding pointers, for the examples: the text before the next slash, and the rest. *)
Fixpoint cut (s : pystr) : pystr * pystr :=
  match s with [] => ([], []) | c :: r => if N.eqb c slash then ([], s) else let (a, b) := cut r in (c :: a, b) end.
Lemma cut_spec s : forall a b, cut s = (a, b) -> s = (a ++ b)%list /\ ~ In slash a.
Proof.
  induction s as [|c s IH]; intros a b H; cbn [cut] in H; [injection H as <- <-; split; [reflexivity|intros []]|].
  destruct (N.eqb_spec c slash) as [->|Hc]; [injection H as <- <-; split; [reflexivity|intros []]|].
  destruct (cut s) as [a' b'] eqn:Ec. injection H as <- <-. destruct (IH _ _ eq_refl) as [-> Hi]. split; [reflexivity|].
  intros [Hx|Hx]; [exact (Hc Hx)|exact (Hi Hx)].
Qed.
Fixpoint tokens (n : nat) (s : pystr) : option (list pystr) :=
  match n with
  | O => None
  | S n => match s with
           | [] => Some []
           | c :: r => if N.eqb c slash then let (a, b) := cut r in match unesc a, tokens n b with Some w, Some l => Some (w :: l) | _, _ => None end else None
           end
  end.
Lemma tokens_spec n : forall s l, tokens n s = Some l -> pointer s l.
Proof.
  induction n as [|n IH]; intros s l H; [discriminate H|]. cbn [tokens] in H. destruct s as [|c r]; [injection H as <-; constructor|].
  destruct (N.eqb_spec c slash) as [->|]; [|discriminate H]. destruct (cut r) as [a b] eqn:Ec. destruct (unesc a) as [w|] eqn:Eu; [|discriminate H].
  destruct (tokens n b) as [l'|] eqn:Et; [|discriminate H]. injection H as <-. apply cut_spec in Ec as [-> Hi]. constructor; [exact Hi|exact (unesc_spec _ _ _ (le_n _) Eu)|apply IH; exact Et].
Qed.
Lemma fragment_dec p l : tokens (S (length p)) p = Some l -> existsb (N.eqb percent) p = false -> fragment (u "#" ++ p)%list l.
Proof.
  intros H1 H2. exists p. split; [reflexivity|]. split; [|eapply tokens_spec; exact H1]. intros Hi. assert (existsb (N.eqb percent) p = true); [|congruence].
  apply existsb_exists. exists percent. split; [exact Hi|apply N.eqb_refl].
Qed.
Definition fragment_b (s : pystr) (l : list pystr) : bool :=
  match s with
  | c :: p => N.eqb c 35 && match tokens (S (length p)) p with Some l' => list_eqb str_eqb l' l | None => false end && negb (existsb (N.eqb percent) p)
  | [] => false
  end.
Lemma fragment_b_spec s l : fragment_b s l = true -> fragment s l.
Proof.
  destruct s as [|c p]; [discriminate|]. cbn [fragment_b]. intros H. apply andb_prop in H as [H H3]. apply andb_prop in H as [H1 H2]. apply N.eqb_eq in H1. subst c.
  destruct (tokens (S (length p)) p) as [l'|] eqn:Et; [|discriminate H2]. apply list_eqb_eq in H2; [|intros; apply str_eqb_eq; assumption]. subst l'.
  apply negb_true_iff in H3. exact (fragment_dec p l Et H3).
Qed.
Lemma doc_ptr_json : is_json doc_ptr.
Proof. apply json_dec. vm_compute. reflexivity. Qed.
Lemma doc_ptr_dicts : python_dicts doc_ptr.
Proof. apply python_dicts_dec. vm_compute. reflexivity. Qed.
Theorem c68_missed : is_json doc_ptr /\ python_dicts doc_ptr /\ parse E0 T_AsyncAPI3 doc_ptr = Some parsed_ptr /\
  forall s l, In (s, l) missed -> fragment s l /\ (exists j, at_pointer (dump parsed_ptr) l j /\ j <> VNone) /\ exists e, resolve parsed_ptr s = Failed e.
Proof.
  split; [exact doc_ptr_json|]. split; [exact doc_ptr_dicts|]. split; [exact parsed_ptr_ok|].
  intros s l Hin. cbn [missed In] in Hin.
  destruct Hin as [H|[H|[H|[H|[]]]]]; injection H as <- <-;
    (split; [apply fragment_b_spec; vm_compute; reflexivity|]);
    (split; [eexists; split; [apply look_at; vm_compute; reflexivity|discriminate]|]); eexists; vm_compute; reflexivity.
Qed.
Theorem c68_json_pointer_refuted : ~ (forall E v o s l j, is_json v -> python_dicts v -> parse E T_AsyncAPI3 v = Some o ->
  fragment s l -> l <> [] -> at_pointer (dump o) l j -> j <> VNone -> (forall s', ~ json_reference j s') -> resolves_to o s j).
Proof.
  intros H. assert (Hl : at_pointer (dump parsed_ptr) [u "info"; u "tags"; u "0"] (obj [("name", str "a")])) by (apply look_at; vm_compute; reflexivity).
  assert (Hf : fragment (u "#/info/tags/0") [u "info"; u "tags"; u "0"]).
  { apply fragment_b_spec; vm_compute; reflexivity. }
  assert (Hn : obj [("name", str "a")] <> VNone) by discriminate.
  assert (Hj : forall s', ~ json_reference (obj [("name", str "a")]) s') by (intros s' Hx; discriminate Hx).
  destruct (H E0 doc_ptr parsed_ptr _ _ _ doc_ptr_json doc_ptr_dicts parsed_ptr_ok Hf (ne_cons _ _) Hl Hn Hj) as (x & path & Hr & _).
  vm_compute in Hr. discriminate Hr.
Qed.
(** The converse fails too: strings that are no pointers, or point to nothing in the JSON document, are resolved (a missing slash, doubled slashes, Python names). *)
Definition beyond : list pystr :=
  [u "#components/schemas/Pet"; u "#/components//schemas/Pet"; u "#/components/security_schemes/k"].
Lemma no_location s p l : s = (u "#" ++ p)%list -> pointer p l -> look (dump parsed_ptr) l = None -> existsb (fun k => match k with c :: _ => ascii_digit c | [] => false end) l = false ->
  forall l' j, fragment s l' -> ~ at_pointer (dump parsed_ptr) l' j.
Proof.
  intros -> Hp Hn Hd l' j (p' & He & _ & Hp') Ha. apply app_inv_head in He. subst p'. rewrite <- (pointer_fun _ _ Hp _ Hp') in Ha. clear Hp Hp' l'.
  revert Hn Hd Ha. generalize (dump parsed_ptr). induction l as [|k l IH]; intros v Hn Hd Ha; cbn [look] in Hn; [discriminate Hn|].
  cbn [existsb] in Hd. apply orb_false_elim in Hd as [Hk Hd]. inversion Ha as [|d ? x ? ? Hx Ha'|xs i x ? ? Hx Ha']; subst.
  - rewrite Hx in Hn. exact (IH _ Hn Hd Ha').
  - assert (Hdg := str_of_nat_digits i). assert (Hne := str_of_nat_nonempty i). destruct (str_of_nat i) as [|c r]; [congruence|].
    cbn [forallb] in Hdg. apply andb_prop in Hdg as [Hdg _]. congruence.
Qed.
Theorem c68_beyond : forall s, In s beyond -> (exists x path, resolve parsed_ptr s = Resolved x path) /\ forall l j, fragment s l -> ~ at_pointer (dump parsed_ptr) l j.
Proof.
  intros s Hin. cbn [beyond In] in Hin. destruct Hin as [<-|[<-|[<-|[]]]]; (split; [eexists; eexists; vm_compute; reflexivity|]).
  - intros l j (p & He & _ & Hp) _. change (u "#components/schemas/Pet") with (u "#" ++ u "components/schemas/Pet")%list in He. apply app_inv_head in He. subst p.
    apply pointer_start in Hp as [Hp|(p' & Hp)]; discriminate Hp.
  - eapply (no_location _ (u "/components//schemas/Pet") [u "components"; []; u "schemas"; u "Pet"]); [reflexivity|apply (tokens_spec 40); vm_compute; reflexivity|vm_compute; reflexivity|vm_compute; reflexivity].
  - eapply (no_location _ (u "/components/security_schemes/k") [u "components"; u "security_schemes"; u "k"]); [reflexivity|apply (tokens_spec 40); vm_compute; reflexivity|vm_compute; reflexivity|vm_compute; reflexivity].
Qed.

(** What holds.  For tokens that need no escaping: where both find something, it is the same thing. *)
Theorem c68_agree_partial E t v o s l x j :
  In t all_types -> parse E t v = Some o -> json_data t o -> no_shadowing o ->
  fragment s l -> ordinary l -> l <> [] -> designates o s l x -> at_pointer (dump o) l j -> j = dump x.
Proof.
  intros Hi Hp Hj Hs Hf Ho Hl Hd Ha. apply (fragment_designates o s l x Hf Ho Hl) in Hd.
  exact (agree E o (parsed_typed _ _ _ _ Hi Hp Hj) (parsed_apart _ _ _ _ Hi Hp Hj Hs) l o x j (w_self _) Hd Ha).
Qed.
(** The resolver itself: it returns what the pointer selects, or the pointer selects a JSON Reference, which it follows. *)
Theorem c68_resolver_partial E v o s l x path j :
  parse E T_AsyncAPI3 v = Some o -> json_data T_AsyncAPI3 o -> no_shadowing o -> no_root_keyword o ->
  fragment s l -> ordinary l -> l <> [] -> resolve o s = Resolved x path -> at_pointer (dump o) l j ->
  j = dump x \/ exists s', json_reference j s' /\ resolve o s' = Resolved x path.
Proof.
  intros Hp Hj Hs Hn Hf Ho Hl Hr Ha. assert (Hi : In T_AsyncAPI3 all_types) by in_table.
  apply (c23_resolves_iff o s x path Hn) in Hr as (l' & (n & s' & Hh & Hd & Hx) & ->). inversion Hh as [|m ? l1 y s1 ? Hd1 Hy Hh1]; subst.
  - left. assert (Hd' := Hd). destruct Hf as (p & Hps & Hpc & Hpp). assert (Hf : fragment s' l) by (exists p; auto).
    assert (l' = l).
    { destruct Hd as (r & He & Hsg & _). rewrite Hps in He. apply app_inv_head in He. subst r. eapply segments_fun; [exact Hsg|apply pointer_segments; assumption]. }
    subst l'. eapply c68_agree_partial; eauto.
  - right. assert (l1 = l).
    { destruct Hf as (p & Hps & Hpc & Hpp). destruct Hd1 as (r & He & Hsg & _). rewrite Hps in He. apply app_inv_head in He. subst r. eapply segments_fun; [exact Hsg|apply pointer_segments; assumption]. }
    subst l1. exists s1. split.
    + assert (Hjy := c68_agree_partial E _ v o s l y j Hi Hp Hj Hs Hf Ho Hl Hd1 Ha). subst j.
      destruct Hy as (fv & ex & -> & Hrf). assert (Hwr : within (VObj "Reference" fv ex) o).
      { destruct Hd1 as (r & _ & _ & _ & Hw). clear -Hw. remember (VObj "Reference" fv ex) as y. induction Hw as [|? ? ? ? ? Hg Hw IH]; [constructor|].
        eapply within_trans; [apply IH; assumption|eapply goes_within; exact Hg]. }
      destruct (parsed_typed _ _ _ _ Hi Hp Hj _ _ _ Hwr) as (k & fs & Hlk & Hwf & Hc).
      assert (HiR : In T_Reference all_types) by in_table. assert (HlR := linked_class _ _ _ (linked_all _ HiR)). assert (Hlk' := linked_class _ _ _ Hlk).
      assert (Hfs : k = KForbid /\ fs = [(fld "ref" "$ref" None false false FvNone, TStr None)]).
      { revert HlR Hlk'. clear. generalize (find_class "Reference" all_types). intros z H1 H2. rewrite H1 in H2. injection H2 as <- <-. auto. }
      destruct Hfs as [-> ->]. assert (Hn' := dump_zip "Reference" KForbid _ fv ex Hlk Hwf). cbn [canon] in Hc. destruct Hc as (fv' & ex' & He & Hcf & _ & Hao). injection He as <- <-.
      rewrite (Hn' (canon_fields_names _ _ _ _ Hcf)). destruct fv as [|[k1 x1] [|]]; cbn [canon_fields] in Hcf; try (destruct Hcf; contradiction).
      destruct Hcf as [(-> & _) _]. cbn [assoc] in Hrf. injection Hrf as ->. destruct ex; [|discriminate Hao]. reflexivity.
    + apply (c23_resolves_iff o s1 x _ Hn). exists l'. split; [|reflexivity]. exists m, s'. auto.
Qed.
(** The only existing locations that are not found lie beyond an array, in extra data, or hold null. *)
Theorem c68_found_partial E t v o s l j :
  In t all_types -> parse E t v = Some o -> json_data t o -> no_shadowing o ->
  fragment s l -> ordinary l -> l <> [] -> at_pointer (dump o) l j ->
  (exists x, designates o s l x /\ j = dump x)
  \/ exists a k b w, l = (a ++ k :: b)%list /\ walks o a w
     /\ ((exists xs, w = VList xs)
         \/ exists c fv ex, w = VObj c fv ex
            /\ (In k (map fst ex) \/ exists fi t', In (fi, t') (class_fields c) /\ k = f_alias fi /\ assoc (f_name fi) fv = Some VNone)).
Proof.
  intros Hi Hp Hj Hs Hf Ho Hl Ha.
  destruct (found E o (parsed_typed _ _ _ _ Hi Hp Hj) l o j (w_self _) Ha) as [(x & Hw & ->)|H]; [left|right; exact H].
  exists x. split; [|reflexivity]. apply fragment_designates; assumption.
Qed.
(** What is found has a location in the JSON document, unless a field was named by its Python name or is never written. *)
Theorem c68_known_partial E t v o s l x :
  In t all_types -> parse E t v = Some o -> json_data t o -> no_shadowing o ->
  fragment s l -> ordinary l -> l <> [] -> designates o s l x ->
  at_pointer (dump o) l (dump x)
  \/ exists a k b c fv ex fi t', l = (a ++ k :: b)%list /\ walks o a (VObj c fv ex) /\ In (fi, t') (class_fields c)
     /\ ((k = f_name fi /\ k <> f_alias fi) \/ ((k = f_name fi \/ k = f_alias fi) /\ f_excl fi = true)).
Proof.
  intros Hi Hp Hj Hs Hf Ho Hl Hd. apply (fragment_designates o s l x Hf Ho Hl) in Hd.
  exact (known E o (parsed_typed _ _ _ _ Hi Hp Hj) (parsed_apart _ _ _ _ Hi Hp Hj Hs) l o x (w_self _) Hd).
Qed.

(** ** The factories produce JSON References in the sense of the RFC. *)
Definition ordinary_b (w : pystr) : bool :=
  negb (str_eqb w []) && negb (existsb (fun c => N.eqb c slash || N.eqb c tilde || N.eqb c percent) w).
Lemma ordinary_b_spec w : ordinary_b w = true -> w <> [] /\ ~ In slash w /\ ~ In tilde w /\ ~ In percent w.
Proof.
  unfold ordinary_b. intros H. apply andb_prop in H as [H1 H2]. apply negb_true_iff in H1, H2. split; [intros ->; discriminate H1|].
  assert (G : forall c, (N.eqb c slash || N.eqb c tilde || N.eqb c percent) = true -> ~ In c w).
  { intros c Hc Hi. assert (existsb (fun c => N.eqb c slash || N.eqb c tilde || N.eqb c percent) w = true); [|congruence]. apply existsb_exists. eauto. }
  repeat split; apply G; reflexivity.
Qed.
Lemma doc_key_ordinary name : doc_key name -> name <> [] /\ ~ In slash name /\ ~ In tilde name /\ ~ In percent name.
Proof.
  intros [H1 H2]. split; [exact H1|]. rewrite Forall_forall in H2.
  repeat split; intros Hi; apply H2 in Hi; unfold letter, digit09, slash, tilde, percent in Hi; lia.
Qed.
Definition map_field (a : pystr) (fs : list (finfo * ty)) (rest : pystr) : bool :=
  match find_field a fs with
  | Some (fi, TOpt (TRoot _ _)) => negb (f_excl fi) && ordinary_b (f_alias fi) && str_eqb rest (slash :: f_alias fi ++ [slash])
  | _ => false
  end.
Lemma map_field_shape a fs r : map_field a fs r = true -> exists s, ordinary_b s = true /\ r = (slash :: s ++ [slash])%list.
Proof.
  unfold map_field. destruct (find_field a fs) as [[gi [| | | | | | | | | |t'| | | |]]|]; try discriminate. destruct t'; try discriminate. intros Hm.
  apply andb_prop in Hm as [Hm H3]. apply andb_prop in Hm as [_ H2]. apply str_eqb_eq in H3. eauto.
Qed.
Definition factory_ptr (prefix : string) (path : list string) : bool :=
  match path with
  | [a] => match u prefix with c :: r => N.eqb c 35 && map_field (u a) (class_fields "AsyncAPI3") r | [] => false end
  | [a; b] => String.eqb a "components" && starts_with (u "#/components") (u prefix)
              && map_field (u b) (class_fields "Components") (skipn 12 (u prefix))
  | _ => false
  end.
Lemma factories_ptr : forallb (fun fp => forallb (fun fq => if String.eqb (fst fp) (fst fq) then factory_ptr (snd fp) (snd fq) else true) factory_places) factories = true.
Proof. vm_compute. reflexivity. Qed.
Lemma ext_apart E c fs fv ex : linked (TModel c KExt fs) = true -> wf_ty (TModel c KExt fs) = true -> canon is_json E (TModel c KExt fs) (VObj c fv ex) -> typed_obj E c fv ex /\ apart c ex.
Proof.
  intros Hl Hw Hc. assert (Ht : typed_obj E c fv ex) by (exists KExt, fs; auto). split; [exact Ht|]. intros key Hk. rewrite (proj1 (linked_fields _ _ _ Hl)). intros Hd. apply declared_all_keys in Hd.
  cbn [canon] in Hc. destruct Hc as (fv' & ex' & He & _ & _ & Ha). injection He as <- <-. unfold after_ok in Ha. apply andb_prop in Ha as [Ha _].
  cbn [wf_ty] in Hw. apply andb_prop in Hw as [Hm _]. unfold model_ok in Hm.
  apply andb_prop in Hm as [Hm _]. apply andb_prop in Hm as [Hm _]. apply andb_prop in Hm as [Hm _]. apply andb_prop in Hm as [_ Hxk].
  cbn [extras_ok] in Ha. rewrite forallb_forall in Ha, Hxk. apply in_map_iff in Hk as (kv & <- & Hi). apply Ha in Hi. apply Hxk in Hd.
  rewrite (ext_key_starts E (fst kv) Hi) in Hd. discriminate Hd.
Qed.
Lemma field_step E c fv ex fi t l j x : typed_obj E c fv ex -> apart c ex -> (exists gs, class_fields c = gs /\ In (fi, t) gs) -> f_excl fi = false -> attr (f_name fi) fv = x ->
  (x <> VNone -> at_pointer (dump x) l j -> at_pointer (dump (VObj c fv ex)) (f_alias fi :: l) j)
  /\ (at_pointer (dump (VObj c fv ex)) (f_alias fi :: l) j -> at_pointer (dump x) l j).
Proof.
  intros Ht Hap (gs & Hgs & Hi) He Hx. rewrite <- Hgs in Hi. clear gs Hgs. rewrite dump_obj. assert (Hd := dump_obj c fv ex). revert Hd. generalize (dict_update (dump_fields (class_infos c) fv) (dump_entries ex)). intros d Hd. split.
  - intros Hn Ha. econstructor; [|exact Ha]. unfold attr in Hx. destruct (assoc (f_name fi) fv) as [y|] eqn:Ey; [subst y|congruence]. eapply member_found; eauto.
  - intros Ha. inversion Ha as [|d' ? z ? ? Hk Ha'|]; subst.
    destruct (member_cases E c fv ex d _ z Ht Hd Hk) as [(e & Hee)|(fj & t' & w & Hj & _ & Hka & Hw & ->)].
    + exfalso. apply (Hap (f_alias fi)); [change (f_alias fi) with (fst (f_alias fi, e)); apply in_map; exact Hee|]. exists fi, t. auto.
    + assert (fi = fj) by (eapply owner; eauto). subst fj. unfold attr. rewrite Hw. exact Ha'.
Qed.
Definition entry_of (x : pv) (name : pystr) : option pv := match x with VRoot _ d => assoc name d | _ => None end.
Lemma map_step E c fs fv ex a rest name : linked (TModel c KExt fs) = true -> wf_ty (TModel c KExt fs) = true -> canon is_json E (TModel c KExt fs) (VObj c fv ex) ->
  map_field a fs rest = true -> exists s, ordinary_b s = true /\ rest = (slash :: s ++ [slash])%list
    /\ (forall x, entry_of (attr a fv) name = Some x -> at_pointer (dump (VObj c fv ex)) [s; name] (dump x))
    /\ (entry_of (attr a fv) name = None -> forall j, ~ at_pointer (dump (VObj c fv ex)) [s; name] j).
Proof.
  intros Hl Hw Hc Hm. destruct (ext_apart _ _ _ _ _ Hl Hw Hc) as [Ht Hap]. unfold map_field in Hm. assert (Hfs := proj1 (linked_fields _ _ _ Hl)).
  destruct (find_field a fs) as [[fi t]|] eqn:Ef; [|discriminate Hm]. apply find_field_spec in Ef as [Hin <-]. destruct t; try discriminate Hm. destruct t; try discriminate Hm.
  apply andb_prop in Hm as [Hm H3]. apply andb_prop in Hm as [H1 H2]. apply negb_true_iff in H1. apply str_eqb_eq in H3.
  exists (f_alias fi). split; [exact H2|]. split; [exact H3|].
  destruct (canon_field _ _ _ _ _ _ _ _ _ Hc (names_NoDup _ _ _ Hw) Hin) as [Hct _].
  assert (Hin' : exists gs, class_fields c = gs /\ In (fi, TOpt (TRoot c0 t)) gs) by (exists fs; split; [exact Hfs|exact Hin]). clear Hl Hw Hc Hin Hfs. cbn [canon] in Hct. split.
  - intros x Hx. destruct Hct as [Hct|(d & Hct & _)]; rewrite Hct in Hx; [discriminate Hx|]. cbn [entry_of] in Hx.
    apply (proj1 (field_step E c fv ex fi _ [name] (dump x) _ Ht Hap Hin' H1 Hct)); [discriminate|]. econstructor; [rewrite assoc_dump, Hx; reflexivity|constructor].
  - intros Hx j Ha. destruct Hct as [Hct|(d & Hct & _)]; rewrite Hct in Hx; apply (proj2 (field_step E c fv ex fi _ [name] j _ Ht Hap Hin' H1 Hct)) in Ha.
    + inversion Ha.
    + cbn [entry_of] in Hx. inversion Ha as [|d' ? z ? ? Hk Ha'|]; subst. rewrite assoc_dump, Hx in Hk. discriminate Hk.
Qed.
Theorem c68_factories E v doc f prefix path name :
  parse E T_AsyncAPI3 v = Some doc -> json_data T_AsyncAPI3 doc -> In (f, prefix) factories -> In (f, path) factory_places -> doc_key name ->
  exists l, fragment (u prefix ++ name)%list l
    /\ (forall x, entry_at doc path name = Some x -> at_pointer (dump doc) l (dump x))
    /\ (entry_at doc path name = None -> forall j, ~ at_pointer (dump doc) l j).
Proof.
  intros Hp Hj Hf Hq Hk. assert (Hn := doc_key_ordinary _ Hk).
  assert (Hok : factory_ptr prefix path = true).
  { assert (H := factories_ptr). rewrite forallb_forall in H. specialize (H _ Hf). rewrite forallb_forall in H. specialize (H _ Hq).
    cbn [fst snd] in H. rewrite String.eqb_refl in H. exact H. }
  assert (HiA : In T_AsyncAPI3 all_types) by in_table. assert (HiC : In T_Components all_types) by in_table.
  assert (HlA := linked_all _ HiA). assert (HwA := wf_all _ HiA). assert (HlC := linked_all _ HiC). assert (HwC := wf_all _ HiC).
  assert (HfA := proj1 (linked_fields _ _ _ HlA)). assert (HfC := proj1 (linked_fields _ _ _ HlC)).
  assert (Hc := parsed_json _ _ _ _ HiA Hp Hj).
  assert (Hobj : exists fv ex, doc = VObj "AsyncAPI3" fv ex) by (destruct Hc as (fv & ex & -> & _); eauto). destruct Hobj as (fv & ex & ->).
  destruct path as [|a [|b [|]]]; try discriminate Hok; unfold factory_ptr in Hok.
  - destruct (u prefix) as [|c r] eqn:Eu; [discriminate Hok|]. apply andb_prop in Hok as [H1 Hok]. apply N.eqb_eq in H1. subst c.
    rewrite HfA in Hok. destruct (map_step E _ _ fv ex _ _ name HlA HwA Hc Hok) as (s & Hs & -> & Hsome & Hnone). exists [s; name]. split.
    + assert (Ho : ordinary [s; name]) by (constructor; [apply ordinary_b_spec; exact Hs|constructor; [exact Hn|constructor]]).
      assert (Hfr := fragment_of _ Ho). cbn [pointer_of] in Hfr. rewrite app_nil_r in Hfr.
      replace ((35%N :: slash :: s ++ [slash]) ++ name)%list with (u "#" ++ slash :: s ++ slash :: name)%list; [exact Hfr|]. cbn. rewrite <- app_assoc. reflexivity.
    + cbn [entry_at]. unfold get. split; assumption.
  - apply andb_prop in Hok as [Hok Hm]. apply andb_prop in Hok as [H1 H2]. apply String.eqb_eq in H1. subst a.
    apply starts_with_iff in H2 as (r & Hr). rewrite Hr in Hm. change (skipn 12 (u "#/components" ++ r)%list) with r in Hm. rewrite HfC in Hm. rewrite Hr.
    assert (Hcomp : exists fi, In (fi, TOpt T_Components) (class_fields "AsyncAPI3") /\ f_name fi = u "components" /\ f_alias fi = u "components" /\ f_excl fi = false).
    { rewrite HfA. eexists. split; [do 7 right; left; reflexivity|]. split; [reflexivity|]. split; reflexivity. }
    destruct Hcomp as (fi & Hin & Hnm & Hal & Hex). rewrite HfA in Hin.
    destruct (canon_field _ _ _ _ _ _ _ _ _ Hc (names_NoDup _ _ _ HwA) Hin) as [Hct _]. rewrite Hnm in Hct.
    destruct (ext_apart _ _ _ _ _ HlA HwA Hc) as [Ht Hap].
    assert (Hgs : exists gs, class_fields "AsyncAPI3" = gs /\ In (fi, TOpt T_Components) gs) by (eexists; split; [exact HfA|exact Hin]).
    clear Hin HfA HfC HlA HwA Hc Hp Hj Hf Hq.
    assert (Hstep := fun l j x Hx => field_step E "AsyncAPI3" fv ex fi _ l j x Ht Hap Hgs Hex Hx). rewrite Hnm, Hal in Hstep. clear Ht Hap Hgs.
    assert (Hs : exists s, ordinary_b s = true /\ r = (slash :: s ++ [slash])%list).
    { exact (map_field_shape _ _ _ Hm). }
    destruct Hs as (s & Hs & Hrs). exists [u "components"; s; name].
    assert (Ho : ordinary [u "components"; s; name]).
    { constructor; [apply ordinary_b_spec; vm_compute; reflexivity|]. constructor; [apply ordinary_b_spec; exact Hs|constructor; [exact Hn|constructor]]. }
    split.
    { assert (Hfr := fragment_of _ Ho). cbn [pointer_of] in Hfr. rewrite app_nil_r in Hfr. rewrite Hrs.
      replace ((u "#/components" ++ slash :: s ++ [slash]) ++ name)%list with (u "#" ++ slash :: u "components" ++ slash :: s ++ slash :: name)%list; [exact Hfr|].
      cbn. rewrite <- app_assoc. reflexivity. }
    cbn [entry_at]. unfold get. remember (attr (u "components") fv) as comp eqn:Hce. symmetry in Hce. cbn [canon] in Hct.
    destruct Hct as [->|Hct].
    { split; [intros x Hx; discriminate Hx|]. intros _ j Ha. apply (proj2 (Hstep _ _ _ eq_refl)) in Ha. inversion Ha. }
    assert (Hco : exists cfv cex, comp = VObj "Components" cfv cex) by (destruct Hct as (cfv & cex & -> & _); eauto). destruct Hco as (cfv & cex & ->).
    destruct (map_step E _ _ cfv cex _ _ name HlC HwC Hct Hm) as (s' & _ & Hrs' & Hsome & Hnone).
    assert (s' = s).
    { rewrite Hrs in Hrs'. injection Hrs' as Hx. apply app_inj_tail in Hx as [Hx _]. congruence. }
    subst s'. cbn [entry_at]. unfold get. split.
    + intros x Hx. apply (proj1 (Hstep _ _ _ eq_refl)); [discriminate|]. apply Hsome. exact Hx.
    + intros Hx j Ha. apply (proj2 (Hstep _ _ _ eq_refl)) in Ha. exact (Hnone Hx j Ha).
Qed.
(** Non-vacuity: an accepted document with a location found by both, and the value it holds. *)
Lemma parsed_ptr_shadow : no_shadowing parsed_ptr.
Proof. apply no_shadowing_dec. vm_compute. reflexivity. Qed.
Lemma parsed_ptr_data : json_data T_AsyncAPI3 parsed_ptr.
Proof.
  assert (Hin : In T_AsyncAPI3 all_types) by in_table. exact (loaded_json_data E0 _ _ _ Hin doc_ptr_json parsed_ptr_ok).
Qed.
Definition scopes_tokens : list pystr := [u "components"; u "securitySchemes"; u "k"; u "flows"; u "implicit"; u "authorizationUrl"].
Example c68_ex : parse E0 T_AsyncAPI3 doc_ptr = Some parsed_ptr /\ json_data T_AsyncAPI3 parsed_ptr /\ no_shadowing parsed_ptr /\ no_root_keyword parsed_ptr
  /\ fragment (u "#/components/securitySchemes/k/flows/implicit/authorizationUrl") scopes_tokens /\ ordinary scopes_tokens
  /\ at_pointer (dump parsed_ptr) scopes_tokens (str "https://a/")
  /\ exists path, resolve parsed_ptr (u "#/components/securitySchemes/k/flows/implicit/authorizationUrl") = Resolved (VUrl (u "https://a/")) path.
Proof.
  split; [exact parsed_ptr_ok|]. split; [exact parsed_ptr_data|]. split; [exact parsed_ptr_shadow|].
  split; [apply no_root_dec; vm_compute; reflexivity|]. split; [apply fragment_b_spec; vm_compute; reflexivity|].
  split; [repeat constructor; vm_compute; intuition discriminate|]. split; [apply look_at; vm_compute; reflexivity|]. eexists. vm_compute. reflexivity.
Qed.
Print Assumptions c68_factories.
