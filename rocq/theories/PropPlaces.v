(** Property C77: what the tag and external-documentation validators say, and about which place. *)
From Coq Require Import DecimalN.
From Verif Require Import PyStr Regex Value Types Rules Pydantic ClassTable Classes Canon Linked SpecParse Sample ProofRules ProofParse
  State SpecState ProofState Resolve SpecResolve ProofResolve PropResolve Unified SpecUnified PropUnified Validators SpecValidators ProofValidators PropValidators
  Texts SpecPlaces ProofPlaces.
Local Open Scope string_scope.

(** ** Reading a sentence back *)
Inductive tok := Tx (s : pystr) | Qx (k : pystr) | Dx (i : nat).
Definition tok_text (x : tok) : pystr := match x with Tx s => s | Qx k => u "'" ++ k ++ u "'" | Dx i => str_of_nat i end%list.
Definition special (c : N) : bool := N.eqb c 39 || ascii_digit c.
Inductive kind := KT (s : pystr) | KQ | KD.
Definition kind_of (x : tok) : kind := match x with Tx s => KT s | Qx _ => KQ | Dx _ => KD end.
Fixpoint normal (l : list tok) : Prop :=
  match l with
  | [] => True
  | x :: r =>
      normal r /\
      match x with
      | Tx s => s <> [] /\ forallb (fun c => negb (special c)) s = true /\ (forall s' r', r <> Tx s' :: r')
      | Qx k => ~ In 39%N k
      | Dx _ => forall i r', r <> Dx i :: r'
      end
  end.
Definition strict_prefix {X} (a b : list X) : Prop := exists x r, b = (a ++ x :: r)%list.
Lemma maximal (P : N -> bool) : forall s s' R R', forallb P s = true -> forallb P s' = true -> (forall c r, R = c :: r -> P c = false) -> (forall c r, R' = c :: r -> P c = false) ->
  R <> [] -> R' <> [] -> (s ++ R = s' ++ R')%list -> s = s' /\ R = R'.
Proof.
  induction s as [|c s IH]; intros [|c' s'] R R' Hs Hs' HR HR' Hn Hn' H; cbn [app forallb] in *.
  - auto.
  - apply andb_prop in Hs' as [Hc _]. subst R. rewrite (HR _ _ eq_refl) in Hc. discriminate Hc.
  - apply andb_prop in Hs as [Hc _]. subst R'. rewrite (HR' _ _ eq_refl) in Hc. discriminate Hc.
  - apply andb_prop in Hs as [_ Hs]. apply andb_prop in Hs' as [_ Hs']. injection H as <- H. destruct (IH _ _ _ Hs Hs' HR HR' Hn Hn' H) as [-> ->]. auto.
Qed.
Definition txt (l : list tok) (X : pystr) : pystr := (flat_map tok_text l ++ 39%N :: X)%list.
Lemma txt_cons x l X : txt (x :: l) X = (tok_text x ++ txt l X)%list.
Proof. unfold txt. cbn [flat_map]. rewrite <- app_assoc. reflexivity. Qed.
Lemma txt_ne l X : txt l X <> [].
Proof. unfold txt. destruct (flat_map tok_text l); discriminate. Qed.
Lemma digits_head i : exists c r, str_of_nat i = c :: r /\ ascii_digit c = true.
Proof.
  assert (Hd := str_of_nat_digits i). assert (Hn := str_of_nat_nonempty i). destruct (str_of_nat i) as [|c r]; [congruence|]. cbn [forallb] in Hd.
  apply andb_prop in Hd as [Hd _]. eauto.
Qed.
Lemma digit_not_quote c : ascii_digit c = true -> c <> 39%N.
Proof. unfold ascii_digit. intros H ->. discriminate H. Qed.
(** What can follow a text: a special character. *)
Lemma after_text l X : normal l -> (forall s r, l <> Tx s :: r) -> forall c r, txt l X = c :: r -> negb (special c) = false.
Proof.
  intros Hn Ht c r H. destruct l as [|[s|k|i] l].
  - injection H as <- _. reflexivity.
  - destruct (Ht _ _ eq_refl).
  - rewrite txt_cons in H. injection H as <- _. reflexivity.
  - rewrite txt_cons in H. cbn [tok_text] in H. destruct (digits_head i) as (c' & r' & E & Hd). rewrite E in H. injection H as <- _. unfold special. rewrite Hd, orb_true_r. reflexivity.
Qed.
(** What can follow a number: not a digit. *)
Lemma after_number l X : normal l -> (forall i r, l <> Dx i :: r) -> forall c r, txt l X = c :: r -> ascii_digit c = false.
Proof.
  intros Hn Ht c r H. destruct l as [|[s|k|i] l].
  - injection H as <- _. reflexivity.
  - rewrite txt_cons in H. cbn [tok_text] in H. destruct Hn as (_ & Hs & Hc & _). destruct s as [|c0 s]; [congruence|]. injection H as -> _. cbn [forallb] in Hc.
    apply andb_prop in Hc as [Hc _]. unfold special in Hc. destruct (ascii_digit c); [rewrite orb_true_r in Hc; discriminate Hc|reflexivity].
  - rewrite txt_cons in H. injection H as <- _. reflexivity.
  - destruct (Ht _ _ eq_refl).
Qed.
Lemma str_of_nat_inj i j : str_of_nat i = str_of_nat j -> i = j.
Proof.
  unfold str_of_nat. intros H. apply Nnat.Nat2N.inj.
  assert (Hu : forall a b, uint_str a = uint_str b -> a = b) by (induction a; intros [] Hab; cbn in Hab; try discriminate Hab; try reflexivity; injection Hab as Hab; f_equal; auto).
  apply Hu in H. rewrite <- (DecimalN.Unsigned.of_to (N.of_nat i)), <- (DecimalN.Unsigned.of_to (N.of_nat j)), H. reflexivity.
Qed.
Lemma read_back : forall a b X Y, normal a -> normal b -> txt a X = txt b Y ->
  (a = b /\ X = Y) \/ strict_prefix (map kind_of a) (map kind_of b) \/ strict_prefix (map kind_of b) (map kind_of a).
Proof.
  assert (Hq : forall s l X Y k R, s <> [] -> forallb (fun c => negb (special c)) s = true -> txt (Tx s :: l) X <> (39%N :: k ++ R)%list /\ txt (Tx s :: l) X <> 39%N :: Y).
  { intros s l X Y k R Hs Hc. rewrite txt_cons. cbn [tok_text]. destruct s as [|c s]; [congruence|]. cbn [forallb] in Hc. apply andb_prop in Hc as [Hc _].
    split; intros HH; injection HH as -> HH; discriminate Hc. }
  induction a as [|x a IH]; intros [|y b] X Y Ha Hb H.
  - left. unfold txt in H. injection H as ->. auto.
  - right. left. exists (kind_of y), (map kind_of b). reflexivity.
  - right. right. exists (kind_of x), (map kind_of a). reflexivity.
  - destruct Ha as [Ha Hx]. destruct Hb as [Hb Hy].
    assert (Hstep : forall z, x = z -> y = z -> txt a X = txt b Y ->
      (x :: a = y :: b /\ X = Y) \/ strict_prefix (map kind_of (x :: a)) (map kind_of (y :: b)) \/ strict_prefix (map kind_of (y :: b)) (map kind_of (x :: a))).
    { intros z -> -> Hr. destruct (IH b X Y Ha Hb Hr) as [[-> ->]|[(k & r & Hk)|(k & r & Hk)]]; [auto| |].
      - right. left. exists k, r. cbn [map app]. rewrite Hk. reflexivity.
      - right. right. exists k, r. cbn [map app]. rewrite Hk. reflexivity. }
    assert (Hqk : forall k l Z, txt (Qx k :: l) Z = 39%N :: (k ++ 39%N :: txt l Z)%list).
    { intros k l Z. rewrite txt_cons. cbn [tok_text]. change (u "'") with [39%N]. cbn [app]. rewrite <- app_assoc. reflexivity. }
    assert (Hkind : forall k k' l l' Z Z', ~ In 39%N k -> ~ In 39%N k' -> txt (Qx k :: l) Z = txt (Qx k' :: l') Z' -> k = k' /\ txt l Z = txt l' Z').
    { intros k k' l l' Z Z' Hk Hk' E. rewrite !Hqk in E. injection E as E.
      assert (Hf : forall k, ~ In 39%N k -> forallb (fun c => negb (N.eqb c 39)) k = true).
      { intros k0 H0. apply forallb_forall. intros c Hc. destruct (N.eqb_spec c 39) as [->|]; [contradiction|reflexivity]. }
      destruct (maximal (fun c => negb (N.eqb c 39)) k k' (39%N :: txt l Z) (39%N :: txt l' Z') (Hf _ Hk) (Hf _ Hk') ltac:(let HH := fresh in intros ? ? HH; injection HH as <- HH; reflexivity) ltac:(let HH := fresh in intros ? ? HH; injection HH as <- HH; reflexivity) ltac:(discriminate) ltac:(discriminate) E) as [-> E'].
      injection E' as E'. auto. }
    assert (Hdq : forall i l Z R, txt (Dx i :: l) Z <> 39%N :: R).
    { intros i l Z R E. rewrite txt_cons in E. cbn [tok_text] in E. destruct (digits_head i) as (c & r & Ei & Hd). rewrite Ei in E. injection E as -> _. discriminate Hd. }
    assert (Hdt : forall i l Z s l' Z', s <> [] -> forallb (fun c => negb (special c)) s = true -> txt (Dx i :: l) Z <> txt (Tx s :: l') Z').
    { intros i l Z s l' Z' Hs Hc E. rewrite !txt_cons in E. cbn [tok_text] in E. destruct (digits_head i) as (c & r & Ei & Hd). rewrite Ei in E. destruct s as [|c' s]; [congruence|].
      injection E as <- _. cbn [forallb] in Hc. apply andb_prop in Hc as [Hc _]. unfold special in Hc. rewrite Hd, orb_true_r in Hc. discriminate Hc. }
    destruct x as [s|k|i], y as [s'|k'|i'].
    + destruct Hx as (H1 & H2 & H3). destruct Hy as (H1' & H2' & H3'). rewrite !txt_cons in H. cbn [tok_text] in H.
      destruct (maximal _ _ _ _ _ H2 H2' (after_text _ _ Ha H3) (after_text _ _ Hb H3') (txt_ne _ _) (txt_ne _ _) H) as [-> Hr].
      exact (Hstep _ eq_refl eq_refl Hr).
    + exfalso. destruct Hx as (H1 & H2 & _). rewrite Hqk in H. destruct (Hq s a X (k' ++ 39%N :: txt b Y)%list [] [] H1 H2) as [_ Hz]. exact (Hz H).
    + exfalso. destruct Hx as (H1 & H2 & _). exact (Hdt _ _ _ _ _ _ H1 H2 (eq_sym H)).
    + exfalso. destruct Hy as (H1 & H2 & _). rewrite Hqk in H. destruct (Hq s' b Y (k ++ 39%N :: txt a X)%list [] [] H1 H2) as [_ Hz]. exact (Hz (eq_sym H)).
    + destruct (Hkind _ _ _ _ _ _ Hx Hy H) as [-> Hr]. exact (Hstep _ eq_refl eq_refl Hr).
    + exfalso. rewrite Hqk in H. exact (Hdq _ _ _ _ (eq_sym H)).
    + exfalso. destruct Hy as (H1 & H2 & _). exact (Hdt _ _ _ _ _ _ H1 H2 H).
    + exfalso. rewrite Hqk in H. exact (Hdq _ _ _ _ H).
    + rewrite !txt_cons in H. cbn [tok_text] in H.
      destruct (maximal _ _ _ _ _ (str_of_nat_digits i) (str_of_nat_digits i') (after_number _ _ Ha Hx) (after_number _ _ Hb Hy) (txt_ne _ _) (txt_ne _ _) H) as [Hi Hr].
      apply str_of_nat_inj in Hi. subst i'. exact (Hstep _ eq_refl eq_refl Hr).
Qed.

(** ** Which names a place has *)
(** true: a key of a map, false: an index of a list. *)
Definition is_kind (b : bool) (n : name) : Prop := match n with Key _ => b = true | Index _ => b = false end.
Definition shaped (E : env) (t : ty) (p : list dstep) (ks : list bool) : Prop :=
  forall x, well_typed E t x -> forall ns s, In (ns, s) (sites p x) -> Forall2 is_kind ks ns.
Section Shaped.
  Context (E : env).
  Lemma shaped_leaf t : shaped E t [] [].
  Proof. intros x _ ns s H. cbn [sites] in H. destruct (as_reference x); [|destruct H]. destruct H as [[= <- <-]|[]]. constructor. Qed.
  Lemma sites_flat p : (forall e, In e p -> e <> Each) -> forall x ns s, In (ns, s) (sites p x) -> ns = [].
  Proof.
    induction p as [|[f|] p IH]; intros Hp x ns s H; cbn [sites] in H.
    - destruct (as_reference x); [|destruct H]. destruct H as [[= <- <-]|[]]. reflexivity.
    - destruct x; try destruct H. destruct (assoc (u f) fs); [|destruct (assoc (u f) ex); [|destruct H]]; (eapply IH; [|exact H]); intros e He; apply Hp; right; exact He.
    - destruct (Hp Each (or_introl eq_refl) eq_refl).
  Qed.
  Lemma shaped_flat t p : (forall e, In e p -> e <> Each) -> shaped E t p [].
  Proof. intros Hp x _ ns s H. rewrite (sites_flat p Hp x ns s H). constructor. Qed.
  Lemma shaped_dot c k fs f fi t p ks : find_field (u f) fs = Some (fi, t) -> shaped E t p ks -> shaped E (TModel c k fs) (Attr f :: p) ks.
  Proof.
    intros Hf HK v Hv. apply obj_shape in Hv as (fv & ex & -> & Hv & _). destruct (find_typed _ _ _ _ _ _ Hv Hf) as (x & Hx & Ht). cbn [sites]. rewrite Hx. exact (HK x Ht).
  Qed.
  Lemma shaped_opt t p ks : shaped E t p ks -> shaped E (TOpt t) p ks.
  Proof. intros HK v [->|Hv]; [|exact (HK v Hv)]. intros ns s H. rewrite sites_falsy in H; [destruct H|reflexivity]. Qed.
  Lemma shaped_items c t p ks : shaped E t p ks -> shaped E (TRoot c t) (Each :: p) (true :: ks).
  Proof.
    intros HK v Hv ns s H. cbn [well_typed] in Hv. destruct Hv as (d & -> & Hd). cbn [sites] in H. apply in_flat_map in H as ([n x] & Hi & H). apply in_map_iff in Hi as ([k y] & [= <- <-] & Hi).
    apply in_map_iff in H as ([ns' s'] & [= <- <-] & H). constructor; [reflexivity|]. rewrite Forall_forall in Hd. cbn [fst snd] in *. exact (HK y (Hd _ Hi) _ _ H).
  Qed.
  Lemma shaped_elements t p ks : shaped E t p ks -> shaped E (TList t) (Each :: p) (false :: ks).
  Proof.
    intros HK v Hv ns s H. cbn [well_typed] in Hv. destruct Hv as (l & -> & Hl). cbn [sites] in H. apply in_flat_map in H as ([n x] & Hi & H).
    assert (Hn := in_combine_l _ _ _ _ Hi). apply in_combine_r in Hi. apply in_map_iff in Hn as (i & <- & _).
    apply in_map_iff in H as ([ns' s'] & [= <- <-] & H). constructor; [reflexivity|]. rewrite Forall_forall in Hl. exact (HK x (Hl _ Hi) _ _ H).
  Qed.
  Lemma shaped_union c k fs f p ks : str_eqb (u f) (u "ref") = false -> shaped E (TModel c k fs) (Attr f :: p) ks -> shaped E (TUnion [TModel c k fs; T_Reference]) (Attr f :: p) ks.
  Proof.
    intros Hf HK v Hv. destruct Hv as [Hv|[Hv|[]]]; [exact (HK v Hv)|]. destruct (reference_shape _ _ Hv) as (s & ->). intros ns s0. cbn [sites assoc]. rewrite Hf. intros [].
  Qed.
End Shaped.
Ltac shead := lazymatch goal with |- shaped ?E ?t ?p ?k => let t' := eval hnf in t in change (shaped E t' p k) end.
Ltac shape_step := first [apply shaped_flat; solve [intros e He; repeat (destruct He as [<-|He]; [discriminate|]); destruct He]|shead; lazymatch goal with
  | |- shaped _ (TModel _ _ _) (Attr _ :: _) _ => eapply shaped_dot; [reflexivity|]
  | |- shaped _ (TOpt _) _ _ => apply shaped_opt
  | |- shaped _ (TRoot _ _) (Each :: _) _ => apply shaped_items
  | |- shaped _ (TList _) (Each :: _) _ => apply shaped_elements
  | |- shaped _ (TUnion _) (Attr _ :: _) _ => refine (shaped_union _ _ _ _ _ _ _ _ _); [reflexivity|]
  end].
Definition tag_kinds : list (list bool) :=
  [[false]; [true; false]; [true; false]; [true; true; false]; [true; false]; [true; false]; [true; false]; [true; false]; [true; false]; [true; false]; [true; false]; [true; true; false]; [true]].
Definition docs_kinds : list (list bool) :=
  [[]; [false]; [true]; [true]; [true; true]; [true; true]; [true; true]; [true; true; false]; [true; true; false]; [true; true; false]; [true; true; false; false];
   [true]; [true; false]; [true; false]; [true; false; false]; [true]; [true]; [true]; [true]; [true]; [true]; [true]; [true]; [true]; [true]; [true]; [true]].
Lemma tags_shaped E : Forall2 (fun p ks => shaped E T_AsyncAPI3 p ks) tag_locations tag_kinds.
Proof. unfold tag_locations, tag_kinds. repeat (apply Forall2_cons; [repeat shape_step|]). apply Forall2_nil. Qed.
Lemma docs_shaped E : Forall2 (fun p ks => shaped E T_AsyncAPI3 p ks) docs_locations docs_kinds.
Proof. unfold docs_locations, docs_kinds. repeat (apply Forall2_cons; [repeat shape_step|]). apply Forall2_nil. Qed.

(** ** Which place a sentence is about *)
Definition inst (ns : list name) (x : piece) : tok :=
  match x with
  | T s => Tx (map to_lower (u s))
  | Q i => Qx (the ns i)
  | D i => Dx (match nth_error ns i with Some (Index j) => j | _ => 0 end)
  end.
Definition tkind (x : piece) : kind := match x with T s => KT (map to_lower (u s)) | Q _ => KQ | D _ => KD end.
Lemma kind_inst ns t : map kind_of (map (inst ns) t) = map tkind t.
Proof. rewrite map_map. apply map_ext. intros [s|i|i]; reflexivity. Qed.
Fixpoint close (t : list piece) (m : string) : list piece :=
  match t with
  | [] => [T m]
  | [T s] => [T (s ++ m)]
  | x :: r => x :: close r m
  end.
Lemma u_append a b : u (a ++ b) = (u a ++ u b)%list.
Proof. induction a as [|c a IH]; [reflexivity|]. cbn [append]. change (u (String c (a ++ b))) with (N_of_ascii c :: u (a ++ b)). rewrite IH. reflexivity. Qed.
Lemma called_close t m ns : called (close t m) ns = (called t ns ++ u m)%list.
Proof.
  unfold called. induction t as [|x t IH]; [cbn; rewrite app_nil_r; reflexivity|]. destruct t as [|y t].
  - destruct x; cbn [close flat_map say]; rewrite ?app_nil_r; [apply u_append|reflexivity|reflexivity].
  - assert (Hc : close (x :: y :: t) m = x :: close (y :: t) m) by (destruct x; reflexivity). rewrite Hc. cbn [flat_map] in *. rewrite IH, <- !app_assoc. reflexivity.
Qed.
Fixpoint tnormal (t : list piece) : bool :=
  match t with
  | [] => true
  | x :: r => tnormal r && match x with
      | T s => match u s with [] => false | _ => true end && forallb (fun c => N.ltb c 128) (u s) && forallb (fun c => negb (special c)) (map to_lower (u s)) && match r with T _ :: _ => false | _ => true end
      | Q _ => true
      | D _ => match r with D _ :: _ => false | _ => true end
      end
  end.
Lemma inst_normal ns t : tnormal t = true -> (forall i, ~ In 39%N (the ns i)) -> normal (map (inst ns) t).
Proof.
  intros Ht Hk. induction t as [|x t IH]; [exact I|]. cbn [tnormal] in Ht. apply andb_prop in Ht as [Ht Hx]. cbn [map normal]. split; [auto|]. destruct x as [s|i|i]; cbn [inst].
  - apply andb_prop in Hx as [Hx H4]. apply andb_prop in Hx as [Hx H3]. apply andb_prop in Hx as [H1 H2]. split; [destruct (u s); [discriminate H1|discriminate]|].
    split; [exact H3|]. intros s' r'. destruct t as [|[]]; cbn; discriminate.
  - apply Hk.
  - intros j r'. destruct t as [|[]]; cbn; discriminate.
Qed.
(** Keys stand at [Q], indices at [D]. *)
Definition suits (ns : list name) (x : piece) : Prop :=
  match x with T _ => True | Q i => exists k, nth_error ns i = Some (Key k) | D i => exists j, nth_error ns i = Some (Index j) end.
Lemma lower_digits s : forallb ascii_digit s = true -> map to_lower s = s.
Proof.
  induction s as [|c s IH]; [reflexivity|]. cbn [forallb map]. intros H. apply andb_prop in H as [Hc H]. rewrite (IH H). f_equal. unfold to_lower, ascii_upper, ascii_digit in *.
  destruct (N.leb_spec 65 c), (N.leb_spec c 90); cbn [andb]; try reflexivity. destruct (N.leb_spec 48 c), (N.leb_spec c 57); cbn [andb] in Hc; try discriminate Hc. lia.
Qed.
Definition small_key_char (c : N) : Prop := (c < 128)%N /\ ~ (65 <= c <= 90)%N /\ c <> 39%N.
Lemma lower_small k : Forall small_key_char k -> map to_lower k = k.
Proof.
  induction 1 as [|c k (H1 & H2 & _) _ IH]; [reflexivity|]. cbn [map]. rewrite IH. f_equal. unfold to_lower, ascii_upper. destruct (N.leb_spec 65 c), (N.leb_spec c 90); cbn [andb]; lia.
Qed.
Lemma the_small ns i : Forall small_key ns -> Forall (fun c => (c < 128)%N) (the ns i) /\ ~ In 39%N (the ns i) /\ map to_lower (the ns i) = the ns i.
Proof.
  intros H. unfold the. destruct (nth_error ns i) as [n|] eqn:E; [|repeat split; [constructor|intros []]]. apply nth_error_In in E. rewrite Forall_forall in H. specialize (H _ E).
  destruct n as [k|j]; cbn [spelled small_key] in *.
  - assert (Hk : Forall small_key_char k) by exact H. split; [|split; [|exact (lower_small k Hk)]].
    + eapply Forall_impl; [|exact Hk]. intros c (H1 & _). exact H1.
    + intros Hi. rewrite Forall_forall in Hk. destruct (Hk _ Hi) as (_ & _ & Hq). congruence.
  - assert (Hd := str_of_nat_digits j). split; [|split; [|exact (lower_digits _ Hd)]].
    + apply Forall_forall. intros c Hc. rewrite forallb_forall in Hd. specialize (Hd _ Hc). unfold ascii_digit in Hd. apply andb_prop in Hd as [_ Hd]. apply N.leb_le in Hd. lia.
    + intros Hc. rewrite forallb_forall in Hd. specialize (Hd _ Hc). discriminate Hd.
Qed.
Lemma inst_text ns t : Forall small_key ns -> Forall (suits ns) t -> flat_map tok_text (map (inst ns) t) = map to_lower (called t ns).
Proof.
  intros Hs H. unfold called. induction H as [|x t Hx Ht IH]; [reflexivity|]. cbn [map flat_map]. rewrite map_app, IH. f_equal. destruct x as [s|i|i]; cbn [inst tok_text say].
  - reflexivity.
  - destruct (the_small ns i Hs) as (_ & _ & Hl). rewrite !map_app, Hl. reflexivity.
  - destruct Hx as [j Hj]. unfold the. rewrite Hj. cbn [spelled]. rewrite lower_digits; [reflexivity|apply str_of_nat_digits].
Qed.
Lemma called_ascii ns t : tnormal t = true -> Forall small_key ns -> Forall ascii_char (called t ns).
Proof.
  intros Ht Hs. unfold called. induction t as [|x t IH]; [constructor|]. cbn [tnormal] in Ht. apply andb_prop in Ht as [Ht Hx]. cbn [flat_map]. apply Forall_app. split; [|auto].
  destruct x as [s|i|i]; cbn [say].
  - apply andb_prop in Hx as [Hx _]. apply andb_prop in Hx as [Hx _]. apply andb_prop in Hx as [_ Hx]. apply ascii_iff. exact Hx.
  - destruct (the_small ns i Hs) as (Ha & _). apply Forall_app. split; [repeat constructor|]. apply Forall_app. split; [exact Ha|repeat constructor].
  - exact (proj1 (the_small ns i Hs)).
Qed.
Lemma to_lower_upper c : to_lower (to_upper c) = to_lower c.
Proof.
  unfold to_lower, to_upper, ascii_upper, ascii_lower. destruct (N.leb_spec 97 c), (N.leb_spec c 122); cbn [andb]; try reflexivity.
  destruct (N.leb_spec 65 (c - 32)), (N.leb_spec (c - 32) 90); cbn [andb]; try lia. destruct (N.leb_spec 65 c), (N.leb_spec c 90); cbn [andb]; lia.
Qed.
Lemma to_lower_idem c : to_lower (to_lower c) = to_lower c.
Proof.
  unfold to_lower, ascii_upper. destruct (N.leb_spec 65 c), (N.leb_spec c 90); cbn [andb]; try reflexivity;
    destruct (N.leb_spec 65 (c + 32)), (N.leb_spec (c + 32) 90), (N.leb_spec 65 c), (N.leb_spec c 90); cbn [andb]; lia.
Qed.
Lemma subject_lower low s sub : Forall ascii_char s -> subject low s sub -> map to_lower sub = map to_lower s /\ forall low', subject low' s sub.
Proof.
  intros Ha Hs. assert (Hc := proj1 (subject_iff low s sub) Hs). split.
  - rewrite Hc. unfold capitalize. apply ascii_iff in Ha. rewrite Ha. destruct s as [|c r]; [reflexivity|]. cbn [map]. rewrite to_lower_upper, map_map. f_equal.
    apply map_ext. exact to_lower_idem.
  - intros low'. apply subject_iff. rewrite Hc. unfold capitalize. apply ascii_iff in Ha. rewrite Ha. reflexivity.
Qed.

Definition kind_eqb (a b : kind) : bool := match a, b with KT s, KT s' => str_eqb s s' | KQ, KQ => true | KD, KD => true | _, _ => false end.
Lemma kind_eqb_refl a : kind_eqb a a = true.
Proof. destruct a; cbn; [apply str_eqb_refl|reflexivity|reflexivity]. Qed.
Fixpoint prefixb (a b : list kind) : bool :=
  match a, b with [], _ => true | x :: a, y :: b => kind_eqb x y && prefixb a b | _, _ => false end.
Lemma prefixb_app a b : prefixb a (a ++ b)%list = true.
Proof. induction a as [|x a IH]; [destruct b; reflexivity|]. cbn [app prefixb]. rewrite kind_eqb_refl, IH. reflexivity. Qed.
Definition indexed {X} (l : list X) : list (nat * X) := combine (seq 0 (length l)) l.
Lemma indexed_In {X} (l : list X) n x : nth_error l n = Some x -> In (n, x) (indexed l).
Proof.
  unfold indexed. assert (G : forall k, nth_error l n = Some x -> In (k + n, x) (combine (seq k (length l)) l)).
  { revert n. induction l as [|y l IH]; intros [|n] k H; cbn in H; try discriminate H.
    - injection H as ->. left. rewrite Nat.add_0_r. reflexivity.
    - right. replace (k + S n) with (S k + n) by lia. apply IH. exact H. }
  exact (G 0).
Qed.
Definition entries (places : list (list dstep * list piece)) (mids : list string) : list ((nat * nat) * list piece) :=
  flat_map (fun npt => map (fun mm => ((fst npt, fst mm), close (snd (snd npt)) (snd mm))) (indexed mids)) (indexed places).
Definition pair_eqb (a b : nat * nat) : bool := Nat.eqb (fst a) (fst b) && Nat.eqb (snd a) (snd b).
Definition readable (l : list ((nat * nat) * list piece)) : bool :=
  forallb (fun x => tnormal (snd x)) l
  && forallb (fun x => forallb (fun y => pair_eqb (fst x) (fst y) || negb (prefixb (map tkind (snd x)) (map tkind (snd y)))) l) l.
(** Every name is mentioned, at the right sort of piece: keys always; indices only if [all]. *)
Definition mentions (all : bool) (pt : list piece) (ks : list bool) : bool :=
  forallb (fun x => match x with T _ => true | Q i => match nth_error ks i with Some true => true | _ => false end | D i => match nth_error ks i with Some false => true | _ => false end end) pt
  && forallb (fun ik => let '(i, k) := ik : nat * bool in
       existsb (fun x => match x with Q j => k && Nat.eqb i j | D j => negb k && Nat.eqb i j | T _ => false end) pt || (negb all && negb k)) (indexed ks).
Definition mid_of (x : sentence) : nat := match x with Warned _ | GoesElsewhere _ => 0 | IsMissing _ => 1 end.

Lemma forall2_nth {A B} (R : A -> B -> Prop) a b n x : Forall2 R a b -> nth_error a n = Some x -> exists y, nth_error b n = Some y /\ R x y.
Proof. intros H. revert n. induction H as [|x0 y0 a b Hr H IH]; intros [|n] Hn; cbn in Hn; try discriminate Hn; [injection Hn as ->; exists y0; auto|exact (IH n Hn)]. Qed.
Lemma combine_nth_In {A B} (a : list A) (b : list B) n x y : nth_error a n = Some x -> nth_error b n = Some y -> In (x, y) (combine a b).
Proof.
  revert b n. induction a as [|x0 a IH]; intros [|y0 b] [|n] H H'; cbn in H, H'; try discriminate H; try discriminate H'; [injection H as ->; injection H' as ->; left; reflexivity|].
  right. exact (IH b n H H').
Qed.
Lemma forall2_len {A B} (R : A -> B -> Prop) a b : Forall2 R a b -> length a = length b.
Proof. induction 1; cbn; congruence. Qed.
Section Identify.
  Context (places : list (list dstep * list piece)) (kinds : list (list bool)) (tx : family_texts) (mids : list string) (all : bool).
  Hypothesis Hread : readable (entries places mids) = true.
  Hypothesis Hplaces : forallb (fun pt => tnormal (snd pt)) places = true.
  Hypothesis Hment : forallb (fun tk => mentions all (fst tk) (snd tk)) (combine (map snd places) kinds) = true.
  Hypothesis Hlen : length kinds = length places.
  Hypothesis Hmids : exists m0 m1, mids = [m0; m1] /\ (u (warn_mid tx) = u m0 ++ [39%N])%list /\ (u (else_mid tx) = u m0 ++ [39%N])%list /\ (u (miss_mid tx) = u m1 ++ [39%N])%list.
  Hypothesis Hends : forall s s', (s ++ u (warn_end tx) <> s' ++ u (else_end tx))%list.
  Context (E : env).
  Hypothesis Hshape : Forall2 (fun p ks => shaped E T_AsyncAPI3 p ks) (map fst places) kinds.
  Lemma kinds_at n p t : nth_error places n = Some (p, t) -> exists ks, nth_error kinds n = Some ks /\ shaped E T_AsyncAPI3 p ks /\ mentions all t ks = true.
  Proof.
    intros H. destruct (nth_error kinds n) as [ks|] eqn:Ek; [|apply nth_error_None in Ek; assert (n < length places) by (apply nth_error_Some; congruence); lia].
    exists ks. split; [reflexivity|]. split.
    - apply (f_equal (option_map fst)) in H. cbn [option_map fst] in H. rewrite <- nth_error_map in H. destruct (forall2_nth _ _ _ _ _ Hshape H) as (y & Hy & Hr). rewrite Ek in Hy. injection Hy as <-. exact Hr.
    - rewrite forallb_forall in Hment. apply (Hment (t, ks)). apply (f_equal (option_map snd)) in H. cbn [option_map snd] in H. rewrite <- nth_error_map in H.
      exact (combine_nth_In _ _ _ _ _ H Ek).
  Qed.
  Lemma suits_of ks t ns : mentions all t ks = true -> Forall2 is_kind ks ns -> Forall (suits ns) t.
  Proof.
    intros Hm Hk. unfold mentions in Hm. apply andb_prop in Hm as [Hm _]. rewrite forallb_forall in Hm. apply Forall_forall. intros x Hx. specialize (Hm _ Hx).
    assert (Hn : forall i b, nth_error ks i = Some b -> exists n, nth_error ns i = Some n /\ is_kind b n).
    { clear -Hk. induction Hk as [|b n ks ns Hb Hk IH]; intros [|i] b0 H; cbn in H; try discriminate H; [injection H as ->; exists n; auto|]. exact (IH i b0 H). }
    destruct x as [s|i|i]; [exact I| |].
    - destruct (nth_error ks i) as [[|]|] eqn:Ei; try discriminate Hm. destruct (Hn _ _ Ei) as ([k|j] & E1 & E2); [exists k; exact E1|discriminate E2].
    - destruct (nth_error ks i) as [[|]|] eqn:Ei; try discriminate Hm. destruct (Hn _ _ Ei) as ([k|j] & E1 & E2); [discriminate E2|exists j; exact E1].
  Qed.
  Lemma suits_close ns t m : Forall (suits ns) t -> Forall (suits ns) (close t m).
  Proof.
    induction 1 as [|x t Hx Ht IH]; [repeat constructor|]. destruct t as [|y t].
    - destruct x; cbn [close]; repeat constructor; assumption.
    - assert (Hc : close (x :: y :: t) m = x :: close (y :: t) m) by (destruct x; reflexivity). rewrite Hc. constructor; assumption.
  Qed.
  Lemma entry_In n p t m mid : nth_error places n = Some (p, t) -> nth_error mids m = Some mid -> In ((n, m), close t mid) (entries places mids).
  Proof.
    intros H1 H2. unfold entries. apply in_flat_map. exists (n, (p, t)). split; [apply indexed_In; exact H1|]. apply in_map_iff. exists (m, mid). split; [reflexivity|apply indexed_In; exact H2].
  Qed.
  Lemma sentence_split sub x : exists mid R, nth_error mids (mid_of x) = Some mid /\ sentence_text tx sub x = (sub ++ u mid ++ 39%N :: R)%list.
  Proof.
    destruct Hmids as (m0 & m1 & -> & H1 & H2 & H3).
    destruct x as [s|s|s]; cbn [mid_of nth_error sentence_text]; [exists m0, (s ++ u (warn_end tx))%list|exists m0, (s ++ u (else_end tx))%list|exists m1, (s ++ u (miss_end tx))%list];
      (split; [reflexivity|]); rewrite ?H1, ?H2, ?H3, <- app_assoc; reflexivity.
  Qed.
  Lemma close_inst ns ns' t m : map (inst ns) (close t m) = map (inst ns') (close t m) -> map (inst ns) t = map (inst ns') t.
  Proof.
    induction t as [|x t IH]; [reflexivity|]. destruct t as [|y t].
    - destruct x; cbn [close map]; intros H; [reflexivity|apply (f_equal (firstn 1)) in H; exact H|apply (f_equal (firstn 1)) in H; exact H].
    - assert (Hc : close (x :: y :: t) m = x :: close (y :: t) m) by (destruct x; reflexivity). rewrite Hc. cbn [map] in *. intros H. injection H as H1 H2. rewrite H1. f_equal. exact (IH H2).
  Qed.
  Lemma nth_ext_some {X} (a b : list X) : length a = length b -> (forall i x, nth_error a i = Some x -> nth_error b i = Some x) -> a = b.
  Proof.
    revert b. induction a as [|x a IH]; intros [|y b] Hl H; try discriminate Hl; [reflexivity|]. f_equal.
    - specialize (H 0 x eq_refl). injection H as ->. reflexivity.
    - apply IH; [injection Hl as Hl; exact Hl|]. intros i z Hz. exact (H (S i) z Hz).
  Qed.
  Lemma identify doc doc' p t p' t' ns ns' s0 s0' low low' sub sub' x x' :
    well_typed E T_AsyncAPI3 doc -> well_typed E T_AsyncAPI3 doc' -> In (p, t) places -> In (p', t') places ->
    In (ns, s0) (sites p doc) -> In (ns', s0') (sites p' doc') -> Forall small_key ns -> Forall small_key ns' ->
    subject low (called t ns) sub -> subject low' (called t' ns') sub' -> sentence_text tx sub x = sentence_text tx sub' x' ->
    p = p' /\ x = x' /\ keys_of ns = keys_of ns' /\ (all = true -> ns = ns').
  Proof.
    intros Hwt Hwt' Hp Hp' Hi Hi' Hs Hs' Hsub Hsub' Htext.
    apply In_nth_error in Hp as [n Hn]. apply In_nth_error in Hp' as [n' Hn'].
    destruct (kinds_at _ _ _ Hn) as (ks & Hk & Hsh & Hm). destruct (kinds_at _ _ _ Hn') as (ks' & Hk' & Hsh' & Hm').
    assert (Hks := Hsh _ Hwt _ _ Hi). assert (Hks' := Hsh' _ Hwt' _ _ Hi').
    assert (Hu := suits_of _ _ _ Hm Hks). assert (Hu' := suits_of _ _ _ Hm' Hks').
    destruct (sentence_split sub x) as (mid & R & Hmid & Hx). destruct (sentence_split sub' x') as (mid' & R' & Hmid' & Hx').
    assert (He := entry_In _ _ _ _ _ Hn Hmid). assert (He' := entry_In _ _ _ _ _ Hn' Hmid').
    assert (Hr := Hread). unfold readable in Hr. apply andb_prop in Hr as [Hr1 Hr2]. rewrite forallb_forall in Hr1, Hr2.
    assert (Ht := Hr1 _ He). assert (Ht' := Hr1 _ He'). cbn [snd] in Ht, Ht'.
    assert (Hpl := Hplaces). rewrite forallb_forall in Hpl. assert (Hpt := Hpl _ (nth_error_In _ _ Hn)). assert (Hpt' := Hpl _ (nth_error_In _ _ Hn')). cbn [snd] in Hpt, Hpt'.
    assert (Htxt : forall ns0 t0 low0 sub0 mid0 R0, Forall small_key ns0 -> Forall (suits ns0) t0 -> tnormal t0 = true -> subject low0 (called t0 ns0) sub0 ->
      map to_lower (sub0 ++ u mid0 ++ 39%N :: R0)%list = txt (map (inst ns0) (close t0 mid0)) (map to_lower R0)).
    { intros ns0 t0 low0 sub0 mid0 R0 G1 G2 G3 G4. unfold txt. rewrite (inst_text _ _ G1 (suits_close _ _ _ G2)), called_close, !map_app, <- app_assoc.
      rewrite (proj1 (subject_lower _ _ _ (called_ascii _ _ G3 G1) G4)). reflexivity. }
    rewrite Hx, Hx' in Htext. assert (Hlow := f_equal (map to_lower) Htext). rewrite (Htxt ns t low sub mid R Hs Hu Hpt Hsub), (Htxt ns' t' low' sub' mid' R' Hs' Hu' Hpt' Hsub') in Hlow.
    assert (Hq : forall i, ~ In 39%N (the ns i)) by (intros i; exact (proj1 (proj2 (the_small ns i Hs)))).
    assert (Hq' : forall i, ~ In 39%N (the ns' i)) by (intros i; exact (proj1 (proj2 (the_small ns' i Hs')))).
    apply read_back in Hlow; [|apply inst_normal; assumption|apply inst_normal; assumption]. rewrite !kind_inst in Hlow.
    assert (Hpre : forall a b (Ha : In a (entries places mids)) (Hb : In b (entries places mids)), prefixb (map tkind (snd a)) (map tkind (snd b)) = true -> fst a = fst b).
    { intros a b Ha Hb Hpr. specialize (Hr2 _ Ha). rewrite forallb_forall in Hr2. specialize (Hr2 _ Hb). rewrite Hpr in Hr2. rewrite orb_false_r in Hr2. unfold pair_eqb in Hr2.
      apply andb_prop in Hr2 as [E1 E2]. apply Nat.eqb_eq in E1, E2. destruct (fst a), (fst b). cbn [fst snd] in *. congruence. }
    assert (Hno : forall tt tt', (n, mid_of x) = (n', mid_of x') -> tt = close t mid -> tt' = close t' mid' -> (strict_prefix (map tkind tt) (map tkind tt') -> False) /\ (strict_prefix (map tkind tt') (map tkind tt) -> False)).
    { intros tt tt' Heq -> ->. injection Heq as -> Heq. rewrite Heq, Hmid' in Hmid. injection Hmid as ->. rewrite Hn in Hn'. injection Hn' as -> ->.
      split; intros (k & r & Hl); apply (f_equal (@length _)) in Hl; rewrite app_length in Hl; cbn in Hl; lia. }
    assert (Hmain : (n, mid_of x) = (n', mid_of x') /\ map (inst ns) (close t mid) = map (inst ns') (close t' mid')).
    { destruct Hlow as [[Hl _]|[Hl|Hl]].
      - split; [|exact Hl]. apply (Hpre _ _ He He'). cbn [snd]. rewrite <- (kind_inst ns), <- (kind_inst ns'), Hl. rewrite <- (app_nil_r (map kind_of _)) at 2. apply prefixb_app.
      - exfalso. destruct Hl as (k & r & Hl). assert (Hf := Hpre _ _ He He'). cbn [fst snd] in Hf. rewrite Hl in Hf. specialize (Hf (prefixb_app _ _)).
        destruct (Hno _ _ Hf eq_refl eq_refl) as [Hz _]. apply Hz. exists k, r. exact Hl.
      - exfalso. destruct Hl as (k & r & Hl). assert (Hf := Hpre _ _ He' He). cbn [fst snd] in Hf. rewrite Hl in Hf. specialize (Hf (prefixb_app _ _)).
        destruct (Hno _ _ (eq_sym Hf) eq_refl eq_refl) as [_ Hz]. apply Hz. exists k, r. exact Hl. }
    destruct Hmain as [Heq Htok]. injection Heq as <- Hmm. rewrite <- Hmm, Hmid in Hmid'. injection Hmid' as <-. rewrite Hn in Hn'. injection Hn' as <- <-.
    rewrite Hk in Hk'. injection Hk' as <-. apply close_inst in Htok.
    assert (Hnames : forall i k, nth_error ks i = Some k -> (all || k = true)%bool -> nth_error ns i = nth_error ns' i).
    { intros i k Hik Hall. unfold mentions in Hm. apply andb_prop in Hm as [_ Hm]. rewrite forallb_forall in Hm. specialize (Hm (i, k) (indexed_In _ _ _ Hik)). cbn beta iota in Hm.
      apply orb_prop in Hm as [Hm|Hm]; [|destruct all, k; discriminate].
      apply existsb_exists in Hm as (y & Hy & Hm). rewrite Forall_forall in Hu, Hu'. specialize (Hu _ Hy). specialize (Hu' _ Hy).
      assert (Hyy : inst ns y = inst ns' y). { clear -Htok Hy. induction t as [|z t IH]; [destruct Hy|]. cbn [map] in Htok. injection Htok as H1 H2. destruct Hy as [->|Hy]; [exact H1|exact (IH Hy H2)]. }
      destruct y as [s|j|j]; [discriminate Hm| |]; apply andb_prop in Hm as [_ Hj]; apply Nat.eqb_eq in Hj; subst j; cbn [suits inst] in *.
      - destruct Hu as [a Ha]. destruct Hu' as [b Hb]. unfold the in Hyy. rewrite Ha, Hb in *. cbn [spelled] in Hyy. congruence.
      - destruct Hu as [a Ha]. destruct Hu' as [b Hb]. rewrite Ha, Hb in *. congruence. }
    split; [reflexivity|]. split; [|split].
    - assert (Hc : called t ns = called t ns').
      { unfold called. clear -Htok Hu Hu'. induction t as [|y t IH]; [reflexivity|]. inversion Hu as [|? ? Hu1 Hu2]; subst. inversion Hu' as [|? ? Hu1' Hu2']; subst. cbn [map] in Htok. injection Htok as H1 H2. cbn [flat_map]. rewrite (IH Hu2 Hu2' H2). f_equal.
        destruct y as [s|j|j]; cbn [suits inst say] in *; [reflexivity| |].
        - injection H1 as H1. rewrite H1. reflexivity.
        - destruct Hu1 as [a Ha]. destruct Hu1' as [b Hb]. unfold the. rewrite Ha, Hb in *. injection H1 as ->. reflexivity. }
      assert (Hsu : sub = sub').
      { rewrite Hc in Hsub. assert (Hz := proj2 (subject_lower _ _ _ (called_ascii _ _ Hpt Hs') Hsub) low').
        apply subject_iff in Hz. apply subject_iff in Hsub'. congruence. }
      subst sub'. rewrite <- Hx, <- Hx' in Htext.
      destruct Hmids as (m0 & m1 & _ & G1 & G2 & G3).
      destruct x as [s|s|s], x' as [s'|s'|s']; cbn [mid_of sentence_text] in *; try discriminate Hmm; apply app_inv_head in Htext; rewrite ?G1, ?G2, ?G3, <- ?app_assoc in Htext; apply app_inv_head in Htext; cbn [app] in Htext; injection Htext as Htext.
      + apply app_inv_tail in Htext. subst. reflexivity.
      + destruct (Hends _ _ Htext).
      + symmetry in Htext. destruct (Hends _ _ Htext).
      + apply app_inv_tail in Htext. subst. reflexivity.
      + apply app_inv_tail in Htext. subst. reflexivity.
    - assert (G : forall ks ns ns', Forall2 is_kind ks ns -> Forall2 is_kind ks ns' -> (forall i k, nth_error ks i = Some k -> (all || k = true)%bool -> nth_error ns i = nth_error ns' i) -> keys_of ns = keys_of ns').
      { clear. induction ks as [|b ks IH]; intros ns ns' H H' Hx; inversion H as [|? n ? ? Hb Hr]; inversion H' as [|? n' ? ? Hb' Hr']; subst; [reflexivity|].
        unfold keys_of. cbn [flat_map]. fold (keys_of l') (keys_of l'0). rewrite (IH _ _ Hr Hr').
        - f_equal. destruct b.
          + specialize (Hx 0 true eq_refl). rewrite orb_true_r in Hx. specialize (Hx eq_refl). cbn in Hx. injection Hx as ->. reflexivity.
          + destruct n, n'; cbn in *; try discriminate; reflexivity.
        - intros i k Hi Ha. exact (Hx (S i) k Hi Ha). }
      exact (G _ _ _ Hks Hks' Hnames).
    - intros Hall. assert (Hll := forall2_len _ _ _ Hks). assert (Hll' := forall2_len _ _ _ Hks'). apply nth_ext_some; [congruence|]. intros i y Hy.
      destruct (nth_error ks i) as [k|] eqn:Ei.
      + rewrite <- (Hnames i k Ei); [exact Hy|]. rewrite Hall. reflexivity.
      + apply nth_error_None in Ei. assert (i < length ns) by (apply nth_error_Some; congruence). lia.
  Qed.
End Identify.

(** ** C77 *)
Lemma docs_readable : readable (entries docs_places [" external documentation reference "; " references external documentation "]) = true.
Proof. vm_compute. reflexivity. Qed.
Lemma docs_plain : forallb (fun pt => tnormal (snd pt)) docs_places = true.
Proof. vm_compute. reflexivity. Qed.
Lemma docs_mention : forallb (fun tk => mentions true (fst tk) (snd tk)) (combine (map snd docs_places) docs_kinds) = true.
Proof. vm_compute. reflexivity. Qed.
Lemma docs_mids : exists m0 m1, [" external documentation reference "; " references external documentation "] = [m0; m1] /\ (u (warn_mid docs_texts) = u m0 ++ [39%N])%list /\ (u (else_mid docs_texts) = u m0 ++ [39%N])%list /\ (u (miss_mid docs_texts) = u m1 ++ [39%N])%list.
Proof. eexists _, _. split; [reflexivity|]. repeat split. Qed.
Lemma docs_ends s s' : (s ++ u (warn_end docs_texts) <> s' ++ u (else_end docs_texts))%list.
Proof. intros Hs. apply (f_equal (@rev N)) in Hs. rewrite !rev_app_distr in Hs. discriminate Hs. Qed.
Lemma tag_readable : readable (entries tag_places [" tag reference "; " references tag "]) = true.
Proof. vm_compute. reflexivity. Qed.
Lemma tag_plain : forallb (fun pt => tnormal (snd pt)) tag_places = true.
Proof. vm_compute. reflexivity. Qed.
Lemma tag_mention : forallb (fun tk => mentions false (fst tk) (snd tk)) (combine (map snd tag_places) tag_kinds) = true.
Proof. vm_compute. reflexivity. Qed.
Lemma tag_mids : exists m0 m1, [" tag reference "; " references tag "] = [m0; m1] /\ (u (warn_mid tag_texts) = u m0 ++ [39%N])%list /\ (u (else_mid tag_texts) = u m0 ++ [39%N])%list /\ (u (miss_mid tag_texts) = u m1 ++ [39%N])%list.
Proof. eexists _, _. split; [reflexivity|]. repeat split. Qed.
Lemma tag_ends s s' : (s ++ u (warn_end tag_texts) <> s' ++ u (else_end tag_texts))%list.
Proof. intros Hs. apply (f_equal (@rev N)) in Hs. rewrite !rev_app_distr in Hs. discriminate Hs. Qed.
Lemma tags_reports E low doc : well_typed E T_AsyncAPI3 doc -> exists e, tags_says low doc = (fst (tags_says low doc), option_map Some e)
  /\ report tag_texts low doc tag_prefix "tags" (agenda tag_places doc) (fst (tags_says low doc)) e.
Proof.
  intros Hwt. unfold tags_says. replace (tags_validator doc) with (for_each (see tag_prefix "tags" doc) (agenda tag_places doc)) by (symmetry; exact (run_named _ _ _ _ _ (tags_named E doc Hwt))).
  apply (run_reports E tag_texts low doc tag_prefix "tags" Hwt fam_tags); reflexivity.
Qed.
Lemma docs_reports E low doc : well_typed E T_AsyncAPI3 doc -> whole doc -> exists e, docs_says low doc = (fst (docs_says low doc), option_map Some e)
  /\ report docs_texts low doc docs_prefix "external_docs" (agenda docs_places doc) (fst (docs_says low doc)) e.
Proof.
  intros Hwt Hw. unfold docs_says. replace (docs_validator doc) with (for_each (see docs_prefix "external_docs" doc) (agenda docs_places doc)) by (symmetry; exact (run_named _ _ _ _ _ (docs_named E doc Hwt Hw))).
  apply (run_reports E docs_texts low doc docs_prefix "external_docs" Hwt fam_docs); reflexivity.
Qed.
Lemma erased_fun p s k k' : p <> [] -> erased p s k -> erased p s k' -> k = k'.
Proof. intros Hp H H'. apply erased_replace in H; [|exact Hp]. apply erased_replace in H'; [|exact Hp]. congruence. Qed.
Lemma subject_fun low s a b : subject low s a -> subject low s b -> a = b.
Proof. intros H H'. apply subject_iff in H, H'. congruence. Qed.
Lemma bad_missing doc prefix f s key : prefix <> [] -> erased prefix s key -> entry_at doc ["components"; f] key = None -> (exists r, s = u "#" ++ r)%list -> ~ reference_ok doc prefix f s.
Proof.
  intros Hp He Hn Hr [Ho|(_ & k & v & Hk & Hv)]; [destruct Hr as [r Hr]; exact (Ho r Hr)|]. rewrite (erased_fun _ _ _ _ Hp He Hk) in Hn. congruence.
Qed.
Lemma report_fun tx low doc prefix f l : family prefix f -> forall log e log' e', report tx low doc prefix f l log e -> report tx low doc prefix f l log' e' -> log = log' /\ e = e'.
Proof.
  intros Hf. assert (Hp := family_nonempty _ _ Hf).
  assert (Hin : forall x, ~ outside (prefix ++ x)%list) by (intros x Ho; destruct Hf as [[-> _]|[-> _]]; exact (Ho _ eq_refl)).
  intros log e log' e' H. revert log' e'. induction H as [|w s l log err Ho Hok Hr IH|w sub s l log err Ho Hs Hr IH|w sub s l Ho Hn Hs|w sub s x key l Hx He Hk Hs];
    intros log' e' H'; inversion H' as [|? ? ? ? ? Ho' Hok' Hr'|? ? ? ? ? ? Ho' Hs' Hr'|? ? ? ? Ho' Hn' Hs'|? ? ? ? ? ? Hx' He' Hk' Hs']; subst; try contradiction; try (destruct (Hn _ eq_refl)); try (destruct (Hn' _ eq_refl)); try (destruct (Hin _ Ho)); try (destruct (Hin _ Ho')).
  - auto.
  - exact (IH _ _ Hr').
  - destruct Hok as [Hok|((r & Hr1) & _)]; [contradiction|destruct (Hn' _ Hr1)].
  - destruct Hok as [Hok|(_ & k & v & He & Hv)]; [contradiction|]. rewrite (erased_fun _ _ _ _ Hp He He') in Hv. congruence.
  - destruct (IH _ _ Hr') as [-> ->]. rewrite (subject_fun _ _ _ _ Hs Hs'). auto.
  - destruct Hok' as [Hok'|((r & Hr1) & _)]; [contradiction|destruct (Hn _ Hr1)].
  - rewrite (subject_fun _ _ _ _ Hs Hs'). auto.
  - destruct Hok' as [Hok'|(_ & k & v & He' & Hv)]; [contradiction|]. rewrite (erased_fun _ _ _ _ Hp He' He) in Hv. congruence.
  - rewrite (subject_fun _ _ _ _ Hs Hs'), (erased_fun _ _ _ _ Hp He He'). auto.
Qed.
(** The log and the error are those of the references at the verified locations, in order, each sentence about its own place; Python itself never fails. *)
Theorem c77_tags E low doc log err : well_typed E T_AsyncAPI3 doc ->
  (tags_says low doc = (log, err) <-> exists e, err = option_map Some e /\ report tag_texts low doc tag_prefix "tags" (agenda tag_places doc) log e).
Proof.
  intros Hwt. destruct (tags_reports E low doc Hwt) as (e & H1 & H2). split.
  - intros H. rewrite H in H1, H2. cbn [fst] in *. injection H1 as ->. eauto.
  - intros (e' & -> & H). destruct (report_fun _ _ _ _ _ _ fam_tags _ _ _ _ H H2) as [-> ->]. exact H1.
Qed.
Theorem c77_docs E low doc log err : well_typed E T_AsyncAPI3 doc -> whole doc ->
  (docs_says low doc = (log, err) <-> exists e, err = option_map Some e /\ report docs_texts low doc docs_prefix "external_docs" (agenda docs_places doc) log e).
Proof.
  intros Hwt Hw. destruct (docs_reports E low doc Hwt Hw) as (e & H1 & H2). split.
  - intros H. rewrite H in H1, H2. cbn [fst] in *. injection H1 as ->. eauto.
  - intros (e' & -> & H). destruct (report_fun _ _ _ _ _ _ fam_docs _ _ _ _ H H2) as [-> ->]. exact H1.
Qed.
(** The places are the ones the names lead to. *)
Theorem c77_sites p : forall v ns s, In (ns, s) (sites p v) <-> exists r, leads v p ns r /\ is_reference r s.
Proof.
  induction p as [|[f|] p IH]; intros v ns s; cbn [sites].
  - split.
    + destruct (as_reference v) as [s'|] eqn:E; [|intros []]. intros [[= <- <-]|[]]. exists v. split; [constructor|]. apply as_reference_iff. exact E.
    + intros (r & H & Hr). inversion H; subst. apply as_reference_iff in Hr. rewrite Hr. left. reflexivity.
  - split.
    + destruct v; try (intros []). destruct (assoc (u f) fs) as [x|] eqn:E1.
      * intros H. apply IH in H as (r & H & Hr). exists r. split; [|exact Hr]. eapply le_field; eauto.
      * destruct (assoc (u f) ex) as [x|] eqn:E2; [|intros []]. intros H. apply IH in H as (r & H & Hr).
        exists r. split; [|exact Hr]. eapply le_extra; eauto.
    + intros (r & H & Hr). inversion H as [|c fv ex g x p0 ns0 r0 Ha Hs|c fv ex g x p0 ns0 r0 Hn Ha Hs| |]; subst.
      * rewrite Ha. apply IH. eauto.
      * rewrite Hn, Ha. apply IH. eauto.
  - assert (Hcomb : forall (l : list pv) k n x, In (n, x) (combine (map Index (seq k (length l))) l) <-> exists i, n = Index (k + i) /\ nth_error l i = Some x).
    { clear. induction l as [|y l IH]; intros k n x; cbn [length seq map combine].
      - split; [intros []|intros (i & _ & H); destruct i; discriminate H].
      - cbn [In]. rewrite IH. split.
        + intros [[= <- <-]|(i & -> & Hi)]; [exists 0; rewrite Nat.add_0_r; auto|]. exists (S i). split; [f_equal; lia|exact Hi].
        + intros ([|i] & -> & Hi); [left; cbn in Hi; injection Hi as ->; rewrite Nat.add_0_r; reflexivity|]. right. exists i. split; [f_equal; lia|exact Hi]. }
    split.
    + destruct v as [| | | | | |l|d|c fv ex|c d| |]; try (intros []); intros H; apply in_flat_map in H as ([n x] & Hx & H); apply in_map_iff in H as ([ns' s'] & [= <- <-] & H); cbn [fst snd] in *.
      * apply Hcomb in Hx as (i & -> & Hi). apply IH in H as (r & H & Hr). exists r. split; [|exact Hr]. eapply le_item; eauto.
      * apply in_map_iff in Hx as ([k y] & [= <- <-] & Hx). apply IH in H as (r & H & Hr). exists r. split; [|exact Hr]. eapply le_entry; eauto.
    + intros (r & H & Hr). inversion H as [| | |l i x p0 ns0 r0 Hi Hs|c d k x p0 ns0 r0 Hi Hs]; subst; apply in_flat_map.
      * exists (Index i, x). split; [apply Hcomb; exists i; auto|]. apply in_map_iff. exists (ns0, s). split; [reflexivity|]. apply IH. eauto.
      * exists (Key k, x). split; [apply in_map_iff; exists (k, x); auto|]. apply in_map_iff. exists (ns0, s). split; [reflexivity|]. apply IH. eauto.
Qed.

(** Refuted: a sentence does not tell which object it is about, because capitalize() destroys the case of the names. *)
Definition doc_case (good bad : string) : pv :=
  spec [("channels", obj [(good, obj [("address", str "a"); ("tags", VList [obj [("name", str "x")]])]);
                          (bad, obj [("address", str "a"); ("tags", VList [ref "#/components/tags/gone"])])])].
Theorem c77_names_refuted : ~ (forall E low v v' doc doc' ns ns' m,
  parse E T_AsyncAPI3 v = Some doc -> parse E T_AsyncAPI3 v' = Some doc' -> no_objects v -> no_objects v' ->
  only_culprit tag_locations doc tag_prefix "tags" ns -> only_culprit tag_locations doc' tag_prefix "tags" ns' ->
  tags_says low doc = ([], Some (Some m)) -> tags_says low doc' = ([], Some (Some m)) -> keys_of ns = keys_of ns').
Proof.
  intros H. set (A := doc_case "userevents" "userEvents"). set (B := doc_case "userEvents" "userevents").
  assert (HA : parse E0 T_AsyncAPI3 A = Some (load_doc A)) by (apply load_doc_ok; vm_compute; reflexivity).
  assert (HB : parse E0 T_AsyncAPI3 B = Some (load_doc B)) by (apply load_doc_ok; vm_compute; reflexivity).
  assert (Hbad : forall v doc, parse E0 T_AsyncAPI3 v = Some doc -> entry_at doc ["components"; "tags"] (u "gone") = None -> ~ reference_ok doc tag_prefix "tags" (u "#/components/tags/gone")).
  { intros v doc Hp Hn. apply (bad_missing _ _ _ _ (u "gone")); [discriminate| |exact Hn|eexists; reflexivity].
    apply (er_hit tag_prefix (u "gone")). repeat (apply er_miss; [intros r Hr; discriminate Hr|]). constructor. }
  assert (Hall : forall good bad, flat_map (fun p => map (fun x => (p, x)) (sites p (load_doc (doc_case good bad)))) tag_locations
      = [([Attr "channels"; Each; Attr "tags"; Each], ([Key (u bad); Index 0], u "#/components/tags/gone"))] ->
      parse E0 T_AsyncAPI3 (doc_case good bad) = Some (load_doc (doc_case good bad)) -> entry_at (load_doc (doc_case good bad)) ["components"; "tags"] (u "gone") = None ->
      only_culprit tag_locations (load_doc (doc_case good bad)) tag_prefix "tags" [Key (u bad); Index 0]).
  { intros good bad Hl Hp Hn. split.
    - assert (Hi : In ([Attr "channels"; Each; Attr "tags"; Each], ([Key (u bad); Index 0], u "#/components/tags/gone"))
        (flat_map (fun p => map (fun x => (p, x)) (sites p (load_doc (doc_case good bad)))) tag_locations)) by (rewrite Hl; left; reflexivity).
      apply in_flat_map in Hi as (p & Hp' & Hi). apply in_map_iff in Hi as (x & [= -> ->] & Hi). eexists _, _. split; [exact Hp'|]. split; [exact Hi|]. exact (Hbad _ _ Hp Hn).
    - intros p ns s Hp' Hi _. assert (Hx : In (p, (ns, s)) (flat_map (fun p => map (fun x => (p, x)) (sites p (load_doc (doc_case good bad)))) tag_locations)).
      { apply in_flat_map. exists p. split; [exact Hp'|]. apply in_map. exact Hi. }
      rewrite Hl in Hx. destruct Hx as [[= <- <- <-]|[]]. reflexivity. }
  assert (Hk := H E0 (fun s => s) A B _ _ [Key (u "userEvents"); Index 0] [Key (u "userevents"); Index 0] (u "Channel 'userevents' references tag 'gone' but tag does not exist in components/tags.")
    HA HB ltac:(apply plain_dec; vm_compute; reflexivity) ltac:(apply plain_dec; vm_compute; reflexivity)
    (Hall "userevents" "userEvents" ltac:(vm_compute; reflexivity) HA ltac:(vm_compute; reflexivity))
    (Hall "userEvents" "userevents" ltac:(vm_compute; reflexivity) HB ltac:(vm_compute; reflexivity)) ltac:(vm_compute; reflexivity) ltac:(vm_compute; reflexivity)).
  vm_compute in Hk. discriminate Hk.
Qed.
(** Proved instead: between objects whose names have no capital letters and no quotes, a sentence tells the location, the keys on the way, what is wrong and with which text. *)
Theorem c77_names_partial E doc doc' p t p' t' ns ns' s0 s0' low low' sub sub' x x' :
  well_typed E T_AsyncAPI3 doc -> well_typed E T_AsyncAPI3 doc' -> In (p, t) tag_places -> In (p', t') tag_places ->
  In (ns, s0) (sites p doc) -> In (ns', s0') (sites p' doc') -> Forall small_key ns -> Forall small_key ns' ->
  subject low (called t ns) sub -> subject low' (called t' ns') sub' -> sentence_text tag_texts sub x = sentence_text tag_texts sub' x' ->
  p = p' /\ x = x' /\ keys_of ns = keys_of ns'.
Proof.
  intros H1 H2 H3 H4 H5 H6 H7 H8 H9 H10 H11.
  destruct (identify tag_places tag_kinds tag_texts [" tag reference "; " references tag "] false tag_readable tag_plain tag_mention eq_refl tag_mids tag_ends E (tags_shaped E)
    doc doc' p t p' t' ns ns' s0 s0' low low' sub sub' x x' H1 H2 H3 H4 H5 H6 H7 H8 H9 H10 H11) as (G1 & G2 & G3 & G4). auto.
Qed.
(** The external-documentation validator also tells the indices, hence the very object. *)
Theorem c77_docs_names_partial E doc doc' p t p' t' ns ns' s0 s0' low low' sub sub' x x' :
  well_typed E T_AsyncAPI3 doc -> well_typed E T_AsyncAPI3 doc' -> In (p, t) docs_places -> In (p', t') docs_places ->
  In (ns, s0) (sites p doc) -> In (ns', s0') (sites p' doc') -> Forall small_key ns -> Forall small_key ns' ->
  subject low (called t ns) sub -> subject low' (called t' ns') sub' -> sentence_text docs_texts sub x = sentence_text docs_texts sub' x' ->
  p = p' /\ x = x' /\ ns = ns'.
Proof.
  intros H1 H2 H3 H4 H5 H6 H7 H8 H9 H10 H11.
  destruct (identify docs_places docs_kinds docs_texts [" external documentation reference "; " references external documentation "] true docs_readable docs_plain docs_mention eq_refl docs_mids docs_ends E (docs_shaped E)
    doc doc' p t p' t' ns ns' s0 s0' low low' sub sub' x x' H1 H2 H3 H4 H5 H6 H7 H8 H9 H10 H11) as (G1 & G2 & G3 & G4). auto.
Qed.
(** Patterned keys without capital letters are such names. *)
Theorem c77_small_keys k : upto_nl doc_key k -> Forall (fun c => ~ (65 <= c <= 90)%N) k -> small_key (Key k).
Proof.
  intros (w & [_ Hw] & Hk) Hs. assert (Ha : Forall (fun c => (c < 128)%N /\ c <> 39%N) k).
  { assert (G : Forall (fun c => (c < 128)%N /\ c <> 39%N) w).
    { eapply Forall_impl; [|exact Hw]. intros c Hc. cbn beta in Hc. change ((c < 128)%N /\ c <> 39%N). revert Hc. unfold letter, digit09. lia. }
    destruct Hk as [->| ->]; [exact G|]. apply Forall_app. split; [exact G|]. repeat constructor. discriminate. }
  cbn [small_key]. rewrite Forall_forall in *. intros c Hc. destruct (Ha c Hc). split; [assumption|]. split; [exact (Hs c Hc)|assumption].
Qed.
Example c77_ex : let doc := load_doc (doc_case "a" "b-1") in
  parse E0 T_AsyncAPI3 (doc_case "a" "b-1") = Some doc /\ sites [Attr "channels"; Each; Attr "tags"; Each] doc = [([Key (u "b-1"); Index 0], u "#/components/tags/gone")]
  /\ tags_says (fun s => s) doc = ([], Some (Some (u "Channel 'b-1' references tag 'gone' but tag does not exist in components/tags.")))
  /\ small_key (Key (u "b-1"))
  /\ docs_says (fun s => s) (load_doc docV) = ([u "Payload in components message 'k' external documentation reference 'other.json#/e' is external. Cannot validate external references."], None).
Proof.
  cbn zeta. split; [apply load_doc_ok; vm_compute; reflexivity|]. split; [vm_compute; reflexivity|]. split; [vm_compute; reflexivity|]. split; [|vm_compute; reflexivity].
  cbn [small_key]. apply Forall_forall. intros c Hc. vm_compute in Hc. repeat (destruct Hc as [<-|Hc]; [repeat split; [lia|discriminate]|]). destruct Hc.
Qed.
Print Assumptions c77_tags.
Print Assumptions c77_docs.
Print Assumptions c77_names_refuted.
Print Assumptions c77_names_partial.
Print Assumptions c77_docs_names_partial.
