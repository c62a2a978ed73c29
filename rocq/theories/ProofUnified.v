(** Proofs about the unified reference validator. *)
From Coq Require Import Permutation.
From Verif Require Import PyStr Regex Value Types Rules Pydantic ClassTable Classes Canon Fix Linked SpecParse ProofRules ProofParse
  State SpecState ProofState Resolve SpecResolve ProofResolve Unified SpecUnified.

(** ** Escaping and splitting *)
Lemma replace_one c new s : replace [c] new s = flat_map (fun x => if N.eqb c x then new else [x]) s.
Proof.
  unfold replace. induction s as [|x s IH]; [reflexivity|]. cbn [replace_go flat_map starts_with length Nat.sub].
  rewrite andb_true_r. destruct (N.eqb c x); rewrite IH; reflexivity.
Qed.
Definition esc1 (c : N) : pystr := if N.eqb c 92 then [92; 92]%N else if N.eqb c 46 then [92; 46]%N else [c].
Lemma escape_map s : escape s = flat_map esc1 s.
Proof.
  unfold escape. change (u ".") with [46%N]. change (u "\") with [92%N]. rewrite !replace_one.
  induction s as [|c s IH]; [reflexivity|]. cbn [flat_map]. rewrite flat_map_app, IH. f_equal. unfold esc1.
  rewrite (N.eqb_sym 92 c). destruct (N.eqb_spec c 92) as [->|H1]; [reflexivity|]. cbn [flat_map].
  rewrite (N.eqb_sym 46 c). destruct (N.eqb_spec c 46) as [->|H2]; reflexivity.
Qed.
Lemma escape_cons c s : escape (c :: s) = esc1 c ++ escape s.
Proof. rewrite !escape_map. reflexivity. Qed.
Lemma escape_app a b : escape (a ++ b) = escape a ++ escape b.
Proof. rewrite !escape_map. apply flat_map_app. Qed.
Lemma split_escaped s : forall cur rest, split_path_go cur false (escape s ++ rest) = split_path_go (rev s ++ cur) false rest.
Proof.
  induction s as [|c s IH]; intros cur rest; [reflexivity|]. rewrite escape_cons, <- app_assoc. unfold esc1.
  destruct (N.eqb_spec c 92) as [->|H1]; [cbn; rewrite IH; simpl; rewrite <- app_assoc; reflexivity|].
  destruct (N.eqb_spec c 46) as [->|H2]; [cbn; rewrite IH; simpl; rewrite <- app_assoc; reflexivity|].
  cbn [app split_path_go]. apply N.eqb_neq in H1, H2. rewrite H1, H2, IH. simpl. rewrite <- app_assoc. reflexivity.
Qed.
Lemma split_dotted l : forall w cur, split_path_go cur false (escape w ++ flat_map (fun k => u "." ++ escape k) l) = (rev cur ++ w) :: l.
Proof.
  induction l as [|k l IH]; intros w cur; rewrite split_escaped.
  - cbn. rewrite rev_app_distr, rev_involutive. reflexivity.
  - cbn [flat_map]. rewrite <- app_assoc. cbn [u app split_path_go N_of_ascii]. cbn. rewrite IH, rev_app_distr, rev_involutive. reflexivity.
Qed.
Lemma join_dotted l : forall w, join (u ".") (map escape (w :: l)) = escape w ++ flat_map (fun k => u "." ++ escape k) l.
Proof.
  induction l as [|k l IH]; intros w; [cbn [map join flat_map]; rewrite app_nil_r; reflexivity|].
  cbn [map] in *. cbn [join flat_map]. rewrite <- app_assoc. f_equal. rewrite <- IH. reflexivity.
Qed.
Lemma split_join segs : segs <> [] -> split_path (join (u ".") (map escape segs)) = segs.
Proof. intros H. destruct segs as [|w l]; [contradiction|]. rewrite join_dotted. unfold split_path. rewrite split_dotted. reflexivity. Qed.

(** ** Matching *)
Lemma glob_any p' : forall s,
  (fix any (s : pystr) : bool := glob p' s || match s with [] => false | _ :: s' => any s' end) s = true <-> exists w t, s = w ++ t /\ glob p' t = true.
Proof.
  induction s as [|c s IH].
  - rewrite orb_false_r. split; [intros H; exists [], []; auto|]. intros (w & t & H & Hg). destruct w; [|discriminate]. simpl in H. subst. exact Hg.
  - rewrite orb_true_iff, IH. split.
    + intros [H|(w & t & -> & H)]; [exists [], (c :: s); auto|exists (c :: w), t; auto].
    + intros (w & t & H & Hg). destruct w as [|x w]; simpl in H; [subst; auto|]. inversion H; subst. right. eauto.
Qed.
Lemma glob_iff p : forall s, glob p s = true <-> globs p s.
Proof.
  induction p as [|c p IH]; intros s.
  - cbn [glob]. destruct s; split; intros H; try discriminate; try constructor. inversion H.
  - cbn [glob]. destruct (N.eqb_spec c 42) as [->|Hc].
    + rewrite glob_any. split.
      * intros (w & t & -> & H). constructor. apply IH. exact H.
      * intros H. inversion H; subst; [|contradiction]. exists w, s0. split; [reflexivity|]. apply IH. assumption.
    + destruct s as [|x s]; [split; [discriminate|intros H; inversion H; subst; congruence]|].
      rewrite andb_true_iff, orb_true_iff, IH, !N.eqb_eq. split.
      * intros [[->| ->] H]; [constructor; exact H|]. destruct (N.eq_dec x 63) as [->|Hx]; constructor; assumption.
      * intros H. inversion H; subst; [congruence|auto|auto].
Qed.
Lemma has_star_iff p : has_star p = true <-> In 42%N p.
Proof. unfold has_star. rewrite existsb_exists. split; [intros (x & Hx & E); apply N.eqb_eq in E; subst; exact Hx|intros H; exists 42%N; auto]. Qed.
Lemma contains_star p : contains (u "*") p = has_star p.
Proof.
  apply eq_true_iff_eq. rewrite contains_iff, has_star_iff. split.
  - intros (a & b & ->). apply in_or_app. right. left. reflexivity.
  - intros H. apply in_split in H as (a & b & ->). exists a, b. reflexivity.
Qed.
Lemma globs_star s : globs (u "*") s.
Proof. change (u "*") with [42%N]. rewrite <- (app_nil_r s). constructor. constructor. Qed.
Lemma segment_iff p s : segment_matches p s = true <-> segment_spec p s.
Proof.
  unfold segment_matches, segment_spec. rewrite contains_star. destruct (str_eqb p (u "*")) eqn:E1.
  - apply str_eqb_eq in E1. subst. split; [|reflexivity]. intros _. left. split; [left; reflexivity|apply globs_star].
  - destruct (has_star p) eqn:E2.
    + assert (In 42%N p) by (apply has_star_iff; exact E2). rewrite glob_iff. tauto.
    + assert (~ In 42%N p) by (intros H; apply has_star_iff in H; congruence). rewrite str_eqb_eq. tauto.
Qed.
Lemma any_suffix ps' : forall xs,
  (fix any (xs : list pystr) : bool := parts_match ps' xs || match xs with [] => false | _ :: r => any r end) xs = true
  <-> exists a b, xs = a ++ b /\ parts_match ps' b = true.
Proof.
  induction xs as [|x xs IH].
  - rewrite orb_false_r. split; [intros H; exists [], []; auto|]. intros (a & b & H & Hm). destruct a; [|discriminate]. simpl in H. subst. exact Hm.
  - rewrite orb_true_iff, IH. split.
    + intros [H|(a & b & -> & H)]; [exists [], (x :: xs); auto|exists (x :: a), b; auto].
    + intros (a & b & H & Hm). destruct a as [|y a]; simpl in H; [subst; auto|]. inversion H; subst. right. eauto.
Qed.
Lemma parts_match_double ps xs : parts_match (u "**" :: ps) xs = true <-> exists a b, xs = a ++ b /\ parts_match ps b = true.
Proof.
  cbn [parts_match]. rewrite str_eqb_refl. destruct ps as [|p ps]; [|apply any_suffix].
  split; [|reflexivity]. intros _. exists xs, []. rewrite app_nil_r. auto.
Qed.
Lemma parts_match_one p ps x xs : p <> u "**" -> parts_match (p :: ps) (x :: xs) = segment_matches p x && parts_match ps xs.
Proof. intros H. cbn [parts_match]. apply str_eqb_neq in H. rewrite H. reflexivity. Qed.
Lemma parts_match_nil p ps : p <> u "**" -> parts_match (p :: ps) [] = false.
Proof. intros H. cbn [parts_match]. apply str_eqb_neq in H. rewrite H. reflexivity. Qed.
Lemma parts_match_iff ps : forall xs, parts_match ps xs = true <-> matches ps xs.
Proof.
  induction ps as [|p ps IH]; intros xs.
  - destruct xs; split; intros H; try discriminate; try constructor. inversion H.
  - destruct (str_eq_dec p (u "**")) as [->|Hp].
    + rewrite parts_match_double. split.
      * intros (a & b & -> & H). constructor. apply IH. exact H.
      * intros H. inversion H as [|ps0 xs0 ys Hm|p0 x ps0 xs0 Hn]; subst; [|exfalso; apply Hn; reflexivity]. exists xs0, ys. split; [reflexivity|]. apply IH. assumption.
    + destruct xs as [|x xs].
      * rewrite (parts_match_nil _ _ Hp). split; [discriminate|]. intros H. inversion H; subst. exfalso; apply Hp; reflexivity.
      * rewrite (parts_match_one _ _ _ _ Hp), andb_true_iff, segment_iff, IH. split.
        -- intros [H1 H2]. constructor; assumption.
        -- intros H. inversion H; subst; [exfalso; apply Hp; reflexivity|auto].
Qed.

(** ** Best match *)
Lemma score_gtb_iff p q : score_gtb (specificity p) (specificity q) = true <-> more_specific (split_path p) (split_path q).
Proof.
  unfold specificity, more_specific, score_gtb. generalize (split_path p) (split_path q). clear p q. intros p q.
  assert (Hl : forall l, length (filter (fun p => negb (str_eqb p (u "**")) && negb (contains (u "*") p)) l) = literals l).
  { intros l. unfold literals, count. f_equal. apply filter_ext. intros a. rewrite contains_star. destruct (str_eqb a (u "**")) eqn:E; [|reflexivity].
    apply str_eqb_eq in E. subst. reflexivity. }
  assert (Hw : forall l, length (filter (fun p => str_eqb p (u "**") || contains (u "*") p) l) = wildcards l).
  { intros l. unfold wildcards, count. f_equal. apply filter_ext. intros a. rewrite contains_star. destruct (str_eqb a (u "**")) eqn:E; [|reflexivity].
    apply str_eqb_eq in E. subst. reflexivity. }
  assert (Hd : forall l, length (filter (fun p => str_eqb p (u "**")) l) = doubles l).
  { intros l. unfold doubles, count. f_equal. apply filter_ext. intros a. apply str_eqb_sym. }
  rewrite !Hl, !Hw, !Hd.
  rewrite !orb_true_iff, !andb_true_iff, !orb_true_iff, !andb_true_iff, !orb_true_iff, !andb_true_iff, !Z.ltb_lt, !Z.eqb_eq. lia.
Qed.
Definition ge_score (a b : score) : Prop := score_gtb b a = false.
Lemma score_total a b c : score_gtb a b = false -> score_gtb b c = false -> score_gtb a c = false.
Proof.
  destruct a as [[[a1 a2] a3] a4], b as [[[b1 b2] b3] b4], c as [[[c1 c2] c3] c4]. unfold score_gtb.
  intros H1 H2. apply not_true_iff_false. apply not_true_iff_false in H1, H2.
  rewrite !orb_true_iff, !andb_true_iff, !orb_true_iff, !andb_true_iff, !orb_true_iff, !andb_true_iff, !Z.ltb_lt, !Z.eqb_eq in *. lia.
Qed.
Lemma score_antisym a b : score_gtb a b = false -> score_gtb b a = false -> a = b.
Proof.
  destruct a as [[[a1 a2] a3] a4], b as [[[b1 b2] b3] b4]. unfold score_gtb.
  intros H1 H2. apply not_true_iff_false in H1, H2.
  rewrite !orb_true_iff, !andb_true_iff, !orb_true_iff, !andb_true_iff, !orb_true_iff, !andb_true_iff, !Z.ltb_lt, !Z.eqb_eq in *.
  assert (a1 = b1) by lia. assert (a2 = b2) by lia. assert (a3 = b3) by lia. assert (a4 = b4) by lia. congruence.
Qed.
Lemma score_gtb_trans a b c : score_gtb a b = true -> score_gtb b c = true -> score_gtb a c = true.
Proof.
  destruct a as [[[a1 a2] a3] a4], b as [[[b1 b2] b3] b4], c as [[[c1 c2] c3] c4]. unfold score_gtb.
  rewrite !orb_true_iff, !andb_true_iff, !orb_true_iff, !andb_true_iff, !orb_true_iff, !andb_true_iff, !Z.ltb_lt, !Z.eqb_eq in *. lia.
Qed.
Lemma score_gtb_irrefl a b : score_gtb a b = true -> score_gtb b a = false.
Proof.
  destruct a as [[[a1 a2] a3] a4], b as [[[b1 b2] b3] b4]. unfold score_gtb. intros H. apply not_true_iff_false. revert H.
  rewrite !orb_true_iff, !andb_true_iff, !orb_true_iff, !andb_true_iff, !orb_true_iff, !andb_true_iff, !Z.ltb_lt, !Z.eqb_eq. lia.
Qed.
Lemma best_match_spec path table : forall best r, best_match path best table = r ->
  match r with
  | None => best = None /\ forall p ty, In (p, ty) table -> path_matches p path = false
  | Some (s, ty) =>
      (best = Some (s, ty) \/ exists p, In (p, ty) table /\ specificity p = s /\ path_matches p path = true)
      /\ (forall s' ty', best = Some (s', ty') -> score_gtb s' s = false)
      /\ (forall p ty', In (p, ty') table -> path_matches p path = true -> score_gtb (specificity p) s = false)
  end.
Proof.
  induction table as [|[p ty] table IH]; intros best r H; cbn [best_match] in H.
  - subst r. destruct best as [[s ty]|]; [|split; [reflexivity|intros ? ? []]].
    split; [auto|]. split; [|intros ? ? []]. intros s' ty' H. inversion H; subst.
    destruct (score_gtb s' s') eqn:E; [|reflexivity]. assert (E' := score_gtb_irrefl _ _ E). congruence.
  - assert (Hself : forall s, score_gtb s s = false).
    { intros s. destruct (score_gtb s s) eqn:E; [|reflexivity]. assert (E' := score_gtb_irrefl _ _ E). congruence. }
    destruct (path_matches p path) eqn:Em.
    + assert (Hc : (exists s0 ty0, best = Some (s0, ty0) /\ score_gtb (specificity p) s0 = false /\ best_match path best table = r)
                   \/ ((forall s0 ty0, best = Some (s0, ty0) -> score_gtb (specificity p) s0 = true) /\ best_match path (Some (specificity p, ty)) table = r)).
      { destruct best as [[s0 ty0]|]; [|right; split; [discriminate|exact H]].
        destruct (score_gtb (specificity p) s0) eqn:Es; [right; split; [|exact H]|left; eauto].
        intros ? ? Hx. inversion Hx; subst. exact Es. }
      destruct Hc as [(s0 & ty0 & -> & Hs & Hr)|[Hs Hr]].
      * apply IH in Hr. destruct r as [[s t]|]; [|destruct Hr; discriminate]. destruct Hr as (H1 & H2 & H3).
        split; [destruct H1 as [H1|(q & Hq)]; [auto|right; exists q; intuition]|]. split; [exact H2|].
        intros q ty' [Hq|Hq] Hm; [inversion Hq; subst; eapply score_total; [exact Hs|eapply H2; reflexivity]|eapply H3; eauto].
      * apply IH in Hr. destruct r as [[s t]|]; [|destruct Hr; discriminate]. destruct Hr as (H1 & H2 & H3).
        split; [right; destruct H1 as [H1|(q & Hq & Hq2)]; [inversion H1; subst; exists p; split; [left; reflexivity|auto]|exists q; split; [right; exact Hq|exact Hq2]]|].
        split.
        -- intros s' ty' Hb. apply Hs in Hb. eapply score_total; [apply score_gtb_irrefl; exact Hb|]. eapply H2. reflexivity.
        -- intros q ty' [Hq|Hq] Hm; [inversion Hq; subst; eapply H2; reflexivity|eapply H3; eauto].
    + apply IH in H. destruct r as [[s t]|].
      * destruct H as (H1 & H2 & H3). split; [destruct H1 as [H1|(q & Hq)]; [auto|right; exists q; intuition]|]. split; [exact H2|].
        intros q ty' [Hq|Hq] Hm; [inversion Hq; subst; congruence|eapply H3; eauto].
      * destruct H as [H1 H2]. split; [exact H1|]. intros q ty' [Hq|Hq]; [inversion Hq; subst; exact Em|eapply H2; eauto].
Qed.

(** Two entries with the same specificity and different types never match the same path. *)
Definition seg_disjoint (a b : pystr) : bool :=
  if has_star a then (if has_star b then false else negb (glob a b)) else if has_star b then negb (glob b a) else negb (str_eqb a b).
Fixpoint some_disjoint (a b : list pystr) : bool :=
  match a, b with x :: a', y :: b' => seg_disjoint x y || some_disjoint a' b' | _, _ => false end.
Definition simple_tail (p : list pystr) : option (list pystr) :=
  match p with d :: t => if str_eqb d (u "**") && negb (existsb (str_eqb (u "**")) t) then Some t else None | [] => None end.
Definition apart (p q : pystr) : bool :=
  match simple_tail (split_path p), simple_tail (split_path q) with
  | Some a, Some b => Nat.eqb (length a) (length b) && some_disjoint a b
  | _, _ => false
  end.
Definition score_eqb (a b : score) : bool := negb (score_gtb a b) && negb (score_gtb b a).
Lemma mappings_apart : forallb (fun a => forallb (fun b => negb (score_eqb (specificity (fst a)) (specificity (fst b)))
   || list_eqb String.eqb (snd a) (snd b) || apart (fst a) (fst b)) mappings) mappings = true.
Proof. vm_compute. reflexivity. Qed.
Lemma simple_tail_match p t xs : simple_tail p = Some t -> parts_match p xs = true ->
  exists a b, xs = a ++ b /\ Forall2 (fun q x => segment_matches q x = true) t b.
Proof.
  unfold simple_tail. destruct p as [|d p]; [discriminate|]. destruct (str_eqb d (u "**")) eqn:Ed; [|discriminate].
  destruct (existsb (str_eqb (u "**")) p) eqn:Ee; [discriminate|]. simpl. intros H; inversion H; subst. apply str_eqb_eq in Ed. subst d.
  intros Hm. apply parts_match_double in Hm as (a & b & -> & Hm). exists a, b. split; [reflexivity|].
  clear H. revert b Hm. induction t as [|q t IH]; intros b Hm; cbn [existsb] in Ee.
  - destruct b; [constructor|discriminate].
  - apply orb_false_iff in Ee as [E1 E2]. rewrite str_eqb_sym in E1. apply str_eqb_neq in E1.
    destruct b as [|x b]; [rewrite parts_match_nil in Hm by assumption; discriminate|]. rewrite parts_match_one in Hm by assumption.
    apply andb_prop in Hm as [H1 H2]. constructor; auto.
Qed.
Lemma disjoint_no_match a b xs : Forall2 (fun q x => segment_matches q x = true) a xs -> Forall2 (fun q x => segment_matches q x = true) b xs ->
  some_disjoint a b = false.
Proof.
  intros H. revert b. induction H as [|q x a xs Hq Ha IH]; intros b Hb; inversion Hb as [|q' x' b' xs' Hq' Hb']; subst; [reflexivity|]. cbn [some_disjoint].
  rewrite (IH _ Hb'), orb_false_r. unfold seg_disjoint. unfold segment_matches in Hq, Hq'. rewrite contains_star in Hq, Hq'.
  assert (Hg : forall q, (if str_eqb q (u "*") then true else if has_star q then glob q x else str_eqb q x) = true -> if has_star q then glob q x = true else q = x).
  { intros z Hz. destruct (str_eqb z (u "*")) eqn:E.
    - apply str_eqb_eq in E. subst z. change (has_star (u "*")) with true. cbn iota. apply glob_iff, globs_star.
    - destruct (has_star z); [exact Hz|apply str_eqb_eq; exact Hz]. }
  apply Hg in Hq, Hq'. destruct (has_star q), (has_star q'); subst.
  - reflexivity.
  - rewrite Hq. reflexivity.
  - rewrite Hq'. reflexivity.
  - rewrite str_eqb_refl. reflexivity.
Qed.
Lemma Forall2_len {X Y} (P : X -> Y -> Prop) a b : Forall2 P a b -> length a = length b.
Proof. induction 1; cbn; congruence. Qed.
Lemma Forall2_mono {X Y} (P Q : X -> Y -> Prop) a b : (forall x y, P x y -> Q x y) -> Forall2 P a b -> Forall2 Q a b.
Proof. intros H. induction 1; constructor; auto. Qed.
Lemma app_same_length {X} (a b c d : list X) : a ++ b = c ++ d -> length b = length d -> b = d.
Proof.
  intros H Hl. assert (Hl2 : length a = length c).
  { assert (E := f_equal (@length X) H). rewrite !app_length in E. lia. }
  revert c H Hl2. induction a as [|x a IH]; intros [|y c] H Hl2; try discriminate; [exact H|]. inversion H. injection Hl2 as Hl2. eapply IH; eauto.
Qed.
Lemma apart_no_match p q path : apart p q = true -> path_matches p path = true -> path_matches q path = true -> False.
Proof.
  unfold apart, path_matches. destruct (simple_tail (split_path p)) as [a|] eqn:Ea; [|discriminate].
  destruct (simple_tail (split_path q)) as [b|] eqn:Eb; [|discriminate]. intros H Hp Hq. apply andb_prop in H as [Hl Hd]. apply Nat.eqb_eq in Hl.
  destruct (simple_tail_match _ _ _ Ea Hp) as (x1 & y1 & H1 & F1). destruct (simple_tail_match _ _ _ Eb Hq) as (x2 & y2 & H2 & F2).
  assert (y1 = y2). { eapply app_same_length; [rewrite <- H1; exact H2|]. apply Forall2_len in F1, F2. lia. }
  subst. rewrite (disjoint_no_match _ _ _ F1 F2) in Hd. discriminate.
Qed.
Lemma list_eqb_string a b : list_eqb String.eqb a b = true -> a = b.
Proof. apply list_eqb_eq. intros x y _ H. apply String.eqb_eq. exact H. Qed.
Lemma expected_perm E path table : Permutation mappings table -> expected_in E table path = expected_in E mappings path.
Proof.
  intros Hp. unfold expected_in. set (np := normalize E path). clearbody np.
  assert (H1 := best_match_spec np mappings None _ eq_refl). assert (H2 := best_match_spec np table None _ eq_refl).
  destruct (best_match np None mappings) as [[s ty]|], (best_match np None table) as [[s' ty']|]; cbn [option_map snd].
  - destruct H1 as ([H1|(p & Hp1 & Hs1 & Hm1)] & _ & H1c); [discriminate|]. destruct H2 as ([H2|(q & Hq1 & Hs2 & Hm2)] & _ & H2c); [discriminate|].
    apply (Permutation_in _ (Permutation_sym Hp)) in Hq1 as Hq1'. apply (Permutation_in _ Hp) in Hp1 as Hp1'.
    assert (A := H1c _ _ Hq1' Hm2). assert (B := H2c _ _ Hp1' Hm1). subst s s'.
    assert (C := mappings_apart). rewrite forallb_forall in C. specialize (C _ Hp1). rewrite forallb_forall in C. specialize (C _ Hq1').
    cbn [fst snd] in C. unfold score_eqb in C. rewrite A, B in C. simpl in C. apply orb_prop in C as [C|C].
    + apply list_eqb_string in C. subst. reflexivity.
    + exfalso. eapply apart_no_match; eauto.
  - exfalso. destruct H1 as ([H1|(p & Hp1 & Hs1 & Hm1)] & _ & H1c); [discriminate|]. destruct H2 as [_ H2].
    apply (Permutation_in _ Hp) in Hp1. rewrite (H2 _ _ Hp1) in Hm1. discriminate.
  - exfalso. destruct H2 as ([H2|(p & Hp1 & Hs1 & Hm1)] & _ & _); [discriminate|]. destruct H1 as [_ H1].
    apply (Permutation_in _ (Permutation_sym Hp)) in Hp1. rewrite (H1 _ _ Hp1) in Hm1. discriminate.
  - reflexivity.
Qed.

(** ** Normalisation of the path of a location *)
(** What follows a segment: nothing, a dot or an index. *)
Definition boundary (s : pystr) : Prop := s = [] \/ (exists t, s = 46%N :: t) \/ exists t, s = 91%N :: t.
Lemma esc1_head c : exists t, esc1 c = (if N.eqb c 46 then 92%N else c) :: t /\ (c <> 46%N -> c <> 92%N -> t = []).
Proof.
  unfold esc1. destruct (N.eqb_spec c 92) as [->|H]; [exists [92%N]; split; [reflexivity|congruence]|].
  destruct (N.eqb_spec c 46) as [->|H2]; [exists [46%N]; split; [reflexivity|congruence]|exists []; auto].
Qed.
(** a word of ordinary characters at the start of an escaped key *)
Lemma esc_starts w : ~ In 46%N w -> ~ In 92%N w -> ~ In 91%N w -> forall k rest, boundary rest -> starts_with (w ++ [46%N]) (escape k ++ rest) = true -> k = w.
Proof.
  induction w as [|c w IH]; intros H1 H2 H3 k rest Hb H.
  - destruct k as [|x k]; [reflexivity|]. exfalso. rewrite escape_cons in H. destruct (esc1_head x) as (t & Ht & _). rewrite Ht in H.
    apply starts_with_iff in H as [z Hz]. cbn [app] in Hz. injection Hz as Hz _. destruct (N.eqb_spec x 46); [discriminate|contradiction].
  - destruct k as [|x k].
    + exfalso. change (escape []) with (@nil N) in H. cbn [app] in H. destruct Hb as [->|[[t ->]|[t ->]]]; [discriminate| |];
        apply starts_with_iff in H as [z Hz]; injection Hz as Hz _; subst; [apply H1|apply H3]; left; reflexivity.
    + rewrite escape_cons in H. destruct (esc1_head x) as (t & Ht & Ht2). rewrite Ht in H.
      cbn [app starts_with] in H. apply andb_prop in H as [Hc H]. apply N.eqb_eq in Hc.
      destruct (N.eqb_spec x 46) as [->|Hx]; [exfalso; apply H2; left; congruence|].
      destruct (N.eq_dec x 92) as [->|Hx2]; [exfalso; apply H2; left; congruence|]. subst x. rewrite (Ht2 Hx Hx2) in H. f_equal.
      eapply IH; [| | |exact Hb|exact H]; intros Hi; [apply H1|apply H2|apply H3]; right; exact Hi.
Qed.
Definition unroot : pystr -> pystr := replace (u ".root.") (u ".").
Lemma unroot_char c s : c <> 46%N -> unroot (c :: s) = c :: unroot s.
Proof. intros H. unfold unroot, replace. cbn [replace_go]. destruct (starts_with (u ".root.") (c :: s)) eqn:E; [|reflexivity].
  apply starts_with_iff in E as [t E]. injection E as E _. congruence. Qed.
Lemma unroot_word w s : ~ In 46%N w -> unroot (w ++ s) = w ++ unroot s.
Proof. induction w as [|c w IH]; intros H; [reflexivity|]. cbn [app]. rewrite unroot_char; [rewrite IH; [reflexivity|]|]; intros Hi; apply H; [right; exact Hi|left; exact Hi]. Qed.
Lemma unroot_dot s : starts_with (u "root.") s = false -> unroot (46%N :: s) = 46%N :: unroot s.
Proof. intros H. unfold unroot, replace. cbn [replace_go]. change (starts_with (u ".root.") (46%N :: s)) with (starts_with (u "root.") s). rewrite H. reflexivity. Qed.
Lemma not_root k rest : boundary rest -> k <> u "root" -> starts_with (u "root.") (escape k ++ rest) = false.
Proof.
  intros Hb H. destruct (starts_with _ _) eqn:E; [|reflexivity]. exfalso. apply H. eapply (esc_starts (u "root")); [| | |exact Hb|exact E];
  vm_compute; intuition discriminate.
Qed.
Lemma unroot_key k rest : boundary rest -> (~ exists a, k = a ++ u ".root") -> unroot (escape k ++ rest) = escape k ++ unroot rest.
Proof.
  intros Hb. induction k as [|c k IH]; intros H; [reflexivity|]. rewrite escape_cons, <- !app_assoc.
  assert (Hk : unroot (escape k ++ rest) = escape k ++ unroot rest). { apply IH. intros [a ->]. apply H. exists (c :: a). reflexivity. }
  unfold esc1. destruct (N.eqb_spec c 92) as [->|H1].
  - change ([92%N; 92%N] ++ escape k ++ rest) with (92%N :: 92%N :: escape k ++ rest). rewrite !unroot_char by discriminate. rewrite Hk. reflexivity.
  - destruct (N.eqb_spec c 46) as [->|H2].
    + change ([92%N; 46%N] ++ escape k ++ rest) with (92%N :: 46%N :: escape k ++ rest). rewrite unroot_char by discriminate.
      rewrite unroot_dot; [rewrite Hk; reflexivity|]. apply not_root; [exact Hb|]. intros ->. apply H. exists []. reflexivity.
    + cbn [app]. rewrite unroot_char by assumption. rewrite Hk. reflexivity.
Qed.
Lemma unroot_root s : unroot (u ".root." ++ s) = 46%N :: unroot s.
Proof. unfold unroot, replace. reflexivity. Qed.

(** The segments of a location, after normalisation. *)
Definition step_seg (s : lstep) : list pystr := match s with LField f => [f] | LKey k | LMapKey k => [k] | LIdx _ => [] end.
Definition segs (p : list lstep) : list pystr := flat_map step_seg p.
Definition tame (E : env) (k : pystr) : Prop :=
  k <> u "root" /\ (~ exists a, k = a ++ u ".root") /\ (~ exists a x b, index_text E x /\ k = a ++ x ++ b).
Definition clean_field (f : pystr) : bool := negb (mem_str [46%N] (map (fun c => [c]) f)) && negb (mem_str [92%N] (map (fun c => [c]) f)) && negb (mem_str [91%N] (map (fun c => [c]) f)) && negb (str_eqb f (u "root")).
Lemma mem_char c (f : pystr) : mem_str [c] (map (fun c => [c]) f) = true <-> In c f.
Proof. rewrite mem_str_In, in_map_iff. split; [intros (x & Hx & Hi); injection Hx as ->; exact Hi|intros H; exists c; auto]. Qed.
Lemma clean_field_spec f : clean_field f = true -> ~ In 46%N f /\ ~ In 92%N f /\ ~ In 91%N f /\ f <> u "root".
Proof.
  unfold clean_field. rewrite !andb_true_iff, !negb_true_iff. intros [[[H1 H2] H3] H4]. apply str_eqb_neq in H4.
  repeat split; try assumption; intros Hi; apply mem_char in Hi; congruence.
Qed.
Lemma escape_clean f : ~ In 46%N f -> ~ In 92%N f -> escape f = f.
Proof.
  induction f as [|c f IH]; intros H1 H2; [reflexivity|]. rewrite escape_cons, IH; [|intros Hi; apply H1; right; exact Hi|intros Hi; apply H2; right; exact Hi].
  unfold esc1. destruct (N.eqb_spec c 92); [exfalso; apply H2; left; congruence|]. destruct (N.eqb_spec c 46); [exfalso; apply H1; left; congruence|reflexivity].
Qed.
Lemma clean_tame E f : clean_field f = true -> escape f = f /\ tame E f.
Proof.
  intros H. apply clean_field_spec in H as (H1 & H2 & H3 & H4). split; [apply escape_clean; assumption|]. split; [exact H4|]. split.
  - intros [a ->]. apply H1. apply in_or_app. right. left. reflexivity.
  - intros (a & x & b & (d & _ & ->) & ->). apply H3. apply in_or_app. right. left. reflexivity.
Qed.
Definition step_ok (E : env) (s : lstep) : Prop := match s with LField f => clean_field f = true | LKey k | LMapKey k => tame E k | LIdx _ => True end.
Lemma boundary_steps p : boundary (flat_map step_text p).
Proof. destruct p as [|[f|k|k|i] p]; [left; reflexivity| | | |]; right; [left|left|left|right]; cbn [flat_map step_text]; rewrite <- ?app_assoc; eexists; reflexivity. Qed.
(** text of a step once ".root." is gone *)
Definition step_text' (s : lstep) : pystr := match s with LMapKey k => u "." ++ escape k | _ => step_text s end.
Lemma digits_not c n : (c < 48)%N \/ (57 < c)%N -> ~ In c (str_of_nat n).
Proof.
  intros Hc Hi. assert (H := str_of_nat_digits n). rewrite forallb_forall in H. apply H in Hi. unfold ascii_digit in Hi.
  apply andb_prop in Hi as [H1 H2]. apply N.leb_le in H1, H2. lia.
Qed.
Lemma unroot_steps E p : Forall (step_ok E) p -> unroot (flat_map step_text p) = flat_map step_text' p.
Proof.
  induction 1 as [|s p Hs Hp IH]; [reflexivity|]. cbn [flat_map]. assert (Hb := boundary_steps p).
  assert (Hkey : forall k, tame E k -> unroot (46%N :: escape k ++ flat_map step_text p) = 46%N :: escape k ++ flat_map step_text' p).
  { intros k (H1 & H2 & _). rewrite unroot_dot by (apply not_root; assumption). rewrite unroot_key by assumption. rewrite IH. reflexivity. }
  destruct s as [f|k|k|i]; cbn [step_text step_text' step_ok] in *; rewrite <- ?app_assoc.
  - destruct (clean_tame E _ Hs) as [He Ht]. rewrite <- He. apply Hkey. exact Ht.
  - apply Hkey. exact Hs.
  - rewrite unroot_root, unroot_key; [rewrite IH; reflexivity|exact Hb|apply Hs].
  - rewrite unroot_word by (vm_compute; intuition discriminate). rewrite unroot_word by (apply digits_not; left; reflexivity).
    rewrite unroot_word by (vm_compute; intuition discriminate). rewrite IH. reflexivity.
Qed.

(** no trailing ".root" *)
Lemma snoc_inv (a b : pystr) x y : a ++ [x] = b ++ [y] -> a = b /\ x = y.
Proof. apply app_inj_tail. Qed.
Lemma esc_snoc k t c : c <> 46%N -> c <> 92%N -> escape k = t ++ [c] -> exists k', k = k' ++ [c] /\ t = escape k'.
Proof.
  intros H1 H2. destruct k as [|x k _] using rev_ind; [intros H; symmetry in H; apply app_eq_nil in H as [_ H]; discriminate|].
  rewrite escape_app. rewrite (escape_cons x []). change (escape []) with (@nil N). rewrite app_nil_r. unfold esc1.
  destruct (N.eqb_spec x 92) as [->|Hx1].
  - change [92%N; 92%N] with ([92%N] ++ [92%N]). rewrite app_assoc. intros H. apply snoc_inv in H as [_ H]. congruence.
  - destruct (N.eqb_spec x 46) as [->|Hx2].
    + change [92%N; 46%N] with ([92%N] ++ [46%N]). rewrite app_assoc. intros H. apply snoc_inv in H as [_ H]. congruence.
    + intros H. apply snoc_inv in H as [H ->]. exists k. auto.
Qed.
Lemma esc_snoc_dot k t : escape k = t ++ [46%N] -> exists k', k = k' ++ [46%N].
Proof.
  destruct k as [|x k _] using rev_ind; [intros H; symmetry in H; apply app_eq_nil in H as [_ H]; discriminate|].
  rewrite escape_app. rewrite (escape_cons x []). change (escape []) with (@nil N). rewrite app_nil_r. unfold esc1.
  destruct (N.eqb_spec x 92) as [->|Hx1].
  - change [92%N; 92%N] with ([92%N] ++ [92%N]). rewrite app_assoc. intros H. apply snoc_inv in H as [_ H]. discriminate.
  - destruct (N.eqb_spec x 46) as [->|Hx2]; [eauto|]. intros H. apply snoc_inv in H as [_ H]. congruence.
Qed.
Lemma esc_ends_root k t : 46%N :: escape k = t ++ u ".root" -> k = u "root" \/ exists a, k = a ++ u ".root".
Proof.
  intros H.
  assert (Hs : forall k c t w, c <> 46%N -> c <> 92%N -> 46%N :: escape k = t ++ (46%N :: w) ++ [c] -> exists k', k = k' ++ [c] /\ 46%N :: escape k' = t ++ 46%N :: w).
  { clear. intros k c t w H1 H2 H. rewrite app_assoc in H. destruct (t ++ 46%N :: w) as [|y z] eqn:E; [apply app_eq_nil in E as [_ E]; discriminate|].
    cbn [app] in H. injection H as <- H. destruct (esc_snoc _ _ _ H1 H2 H) as (k' & -> & ->). eauto. }
  change (u ".root") with ((46%N :: u "roo") ++ [116%N]) in H. destruct (Hs _ 116%N _ _ ltac:(discriminate) ltac:(discriminate) H) as (k1 & -> & H1).
  change (46%N :: u "roo") with ((46%N :: u "ro") ++ [111%N]) in H1. destruct (Hs _ 111%N _ _ ltac:(discriminate) ltac:(discriminate) H1) as (k2 & -> & H2).
  change (46%N :: u "ro") with ((46%N :: u "r") ++ [111%N]) in H2. destruct (Hs _ 111%N _ _ ltac:(discriminate) ltac:(discriminate) H2) as (k3 & -> & H3).
  change (46%N :: u "r") with ((46%N :: []) ++ [114%N]) in H3. destruct (Hs _ 114%N _ _ ltac:(discriminate) ltac:(discriminate) H3) as (k4 & -> & H4).
  destruct t as [|y t].
  - injection H4 as H4. destruct k4 as [|c k4]; [left; reflexivity|]. rewrite escape_cons in H4. unfold esc1 in H4. destruct (N.eqb c 92), (N.eqb c 46); discriminate.
  - injection H4 as <- H4. destruct (esc_snoc_dot _ _ H4) as [k5 ->]. right. exists k5. rewrite <- !app_assoc. reflexivity.
Qed.
Lemma ends_app (t a b x : pystr) : t ++ x = a ++ b -> length x <= length b -> exists t', b = t' ++ x.
Proof.
  revert a. induction t as [|c t IH]; intros a H Hl.
  - assert (a = []). { apply (f_equal (@length N)) in H. cbn [app] in H. rewrite app_length in H. destruct a; [reflexivity|]. cbn in H. lia. }
    subst. exists []. symmetry. exact H.
  - destruct a as [|y a]; [exists (c :: t); symmetry; exact H|]. injection H as -> H. eapply IH; eauto.
Qed.
Lemma ends_app2 (w b : pystr) t c x : t ++ c :: x = w ++ b -> length b < S (length x) -> ~ In c x -> (exists r, b = c :: r) -> False.
Proof.
  intros H Hl Hn [r ->]. assert (exists z, x = z ++ c :: r).
  { revert w H. induction t as [|y t IH]; intros w H.
    - destruct w as [|y w]; cbn [app] in H; [injection H as ->; cbn in Hl; lia|]. injection H as -> H. eauto.
    - destruct w as [|z w]; cbn [app] in H; [|injection H as -> H; eauto].
      exfalso. injection H as -> H. apply (f_equal (@length N)) in H. rewrite app_length in H. cbn in H. cbn in Hl. lia. }
  destruct H0 as [z ->]. apply Hn. apply in_or_app. right. left. reflexivity.
Qed.
Lemma no_trailing_root E p : Forall (step_ok E) p -> ends_with (u ".root") (u "spec" ++ flat_map step_text' p) = false.
Proof.
  intros Hp. destruct (ends_with _ _) eqn:Ee; [|reflexivity]. exfalso. apply ends_with_iff in Ee as [t Ht].
  destruct p as [|s p _] using rev_ind.
  - cbn in Ht. apply (f_equal (@length N)) in Ht. rewrite app_length in Ht. cbn in Ht. lia.
  - apply Forall_app in Hp as [_ Hs]. inversion Hs as [|? ? Hs' _]; subst. rewrite flat_map_app in Ht. cbn [flat_map] in Ht. rewrite app_nil_r, app_assoc in Ht.
    assert (Hkey : forall k, tame E k -> t ++ u ".root" = (u "spec" ++ flat_map step_text' p) ++ 46%N :: escape k -> False).
    { intros k (H1 & H2 & _) H. destruct (le_lt_dec (length (u ".root")) (length (46%N :: escape k))) as [Hl|Hl].
      - destruct (ends_app _ _ _ _ H Hl) as [t' Ht']. apply esc_ends_root in Ht' as [Ht'|Ht']; auto.
      - eapply (ends_app2 _ _ t 46%N (u "root")); [exact H|exact Hl| |eauto]. vm_compute; intuition discriminate. }
    destruct s as [f|k|k|i]; cbn [step_text' step_text step_ok] in *.
    + destruct (clean_tame E _ Hs') as [He Htm]. eapply Hkey; [exact Htm|]. rewrite He. symmetry. exact Ht.
    + eapply Hkey; [exact Hs'|]. symmetry. exact Ht.
    + eapply Hkey; [exact Hs'|]. symmetry. exact Ht.
    + change (u ".root") with (u ".roo" ++ [116%N]) in Ht. rewrite !app_assoc in Ht. change (u "]") with [93%N] in Ht. apply snoc_inv in Ht as [_ Ht]. discriminate.
Qed.

(** indices disappear *)
Lemma is_digit_ascii E c : (c < 128)%N -> is_digit E c = ascii_digit c.
Proof. intros H. unfold is_digit, digit_val. apply N.ltb_lt in H. rewrite H. destruct (ascii_digit c); reflexivity. Qed.
Lemma digits_close_app E d s : forallb (is_digit E) d = true -> digits_close E (d ++ 93%N :: s) = Some (S (length d)).
Proof.
  induction d as [|c d IH]; intros H; cbn [app digits_close forallb] in *.
  - rewrite is_digit_ascii by reflexivity. reflexivity.
  - apply andb_prop in H as [H1 H2]. rewrite H1, (IH H2). reflexivity.
Qed.
Lemma sub_skip E n : forall s, sub_idx E n s = sub_idx E 0 (skipn n s).
Proof. induction n as [|n IH]; intros s; [reflexivity|]. destruct s as [|c s]; [reflexivity|]. cbn [sub_idx skipn]. apply IH. Qed.
Lemma sub_cons E c s : sub_idx E 0 (c :: s) = match idx_len E (c :: s) with Some n => sub_idx E (n - 1) s | None => c :: sub_idx E 0 s end.
Proof. reflexivity. Qed.
Lemma sub_index E i s : sub_idx E 0 (u "[" ++ str_of_nat i ++ u "]" ++ s) = sub_idx E 0 s.
Proof.
  change (u "[") with [91%N]. change (u "]") with [93%N]. cbn [app]. set (d := str_of_nat i).
  assert (Hd : forallb (is_digit E) d = true).
  { apply forallb_forall. intros c Hc. assert (H := str_of_nat_digits i). rewrite forallb_forall in H. specialize (H _ Hc).
    rewrite is_digit_ascii; [exact H|]. unfold ascii_digit in H. apply andb_prop in H as [_ H]. apply N.leb_le in H. lia. }
  assert (Hn : d <> []) by apply str_of_nat_nonempty. clearbody d. destruct d as [|c d]; [contradiction|].
  cbn [forallb] in Hd. apply andb_prop in Hd as [H1 H2]. cbn [app].
  assert (Hi : idx_len E (91%N :: c :: d ++ 93%N :: s) = Some (S (S (S (length d))))). { cbn [idx_len]. rewrite H1, digits_close_app by assumption. reflexivity. }
  rewrite sub_cons, Hi. cbn [Nat.sub sub_idx]. rewrite sub_skip. f_equal.
  clear. induction d as [|c d IH]; [reflexivity|exact IH].
Qed.
Lemma digits_close_key E k rest n : boundary rest -> digits_close E (escape k ++ rest) = Some n ->
  exists d b, forallb (is_digit E) d = true /\ k = d ++ 93%N :: b.
Proof.
  intros Hb. revert n. induction k as [|c k IH]; intros n H.
  - exfalso. change (escape [] ++ rest) with rest in H. destruct Hb as [->|[[t ->]|[t ->]]]; cbn [digits_close] in H; [discriminate| |]; rewrite is_digit_ascii in H by reflexivity; discriminate.
  - rewrite escape_cons, <- app_assoc in H. unfold esc1 in H. destruct (N.eqb_spec c 92) as [->|H1].
    + exfalso. cbn [app digits_close] in H. rewrite is_digit_ascii in H by reflexivity. discriminate.
    + destruct (N.eqb_spec c 46) as [->|H2]; [exfalso; cbn [app digits_close] in H; rewrite is_digit_ascii in H by reflexivity; discriminate|].
      cbn [app digits_close] in H. destruct (is_digit E c) eqn:Ed.
      * destruct (digits_close E (escape k ++ rest)) as [m|]; [|discriminate]. destruct (IH _ eq_refl) as (d & b & Hd & ->).
        exists (c :: d), b. split; [cbn; rewrite Ed; exact Hd|reflexivity].
      * destruct (N.eqb_spec c 93) as [->|]; [|discriminate]. exists [], k. auto.
Qed.
Lemma sub_char E c s : c <> 91%N -> sub_idx E 0 (c :: s) = c :: sub_idx E 0 s.
Proof.
  intros H. rewrite sub_cons. replace (idx_len E (c :: s)) with (@None nat); [reflexivity|].
  unfold idx_len. destruct c as [|p]; [reflexivity|]. repeat (destruct p as [p|p|]; try reflexivity; try congruence).
Qed.
Lemma sub_key E k rest : boundary rest -> (~ exists a x b, index_text E x /\ k = a ++ x ++ b) ->
  sub_idx E 0 (escape k ++ rest) = escape k ++ sub_idx E 0 rest.
Proof.
  intros Hb. induction k as [|c k IH]; intros H; [reflexivity|]. rewrite escape_cons, <- !app_assoc.
  assert (Hk : sub_idx E 0 (escape k ++ rest) = escape k ++ sub_idx E 0 rest).
  { apply IH. intros (a & x & b & Hx & ->). apply H. exists (c :: a), x, b. auto. }
  unfold esc1. destruct (N.eqb_spec c 92) as [->|H1]; [cbn [app]; rewrite !sub_char by discriminate; rewrite Hk; reflexivity|].
  destruct (N.eqb_spec c 46) as [->|H2]; [cbn [app]; rewrite !sub_char by discriminate; rewrite Hk; reflexivity|].
  cbn [app]. destruct (N.eq_dec c 91) as [->|H3]; [|rewrite sub_char by assumption; rewrite Hk; reflexivity].
  rewrite sub_cons. replace (idx_len E (91%N :: escape k ++ rest)) with (@None nat); [rewrite Hk; reflexivity|].
  symmetry. destruct (idx_len E (91%N :: escape k ++ rest)) as [n|] eqn:En; [exfalso|reflexivity].
  cbn [idx_len] in En. destruct (escape k ++ rest) as [|x s] eqn:Es; [discriminate|]. destruct (is_digit E x) eqn:Ex; [|discriminate].
  assert (Hdc : digits_close E (x :: s) <> None). { cbn [digits_close]. rewrite Ex. destruct (digits_close E s); discriminate. }
  destruct (digits_close E (x :: s)) as [m|] eqn:Em; [|contradiction]. rewrite <- Es in Em.
  destruct (digits_close_key _ _ _ _ Hb Em) as (d & b & Hd & ->).
  apply H. exists [], (u "[" ++ d ++ u "]"), b. split; [|cbn; rewrite <- app_assoc; reflexivity].
  exists d. split; [|reflexivity]. split.
  - intros ->. cbn [app] in Es. rewrite escape_cons in Es. unfold esc1 in Es. cbn in Es. injection Es as <- _. rewrite is_digit_ascii in Ex by reflexivity. discriminate.
  - apply Forall_forall. rewrite forallb_forall in Hd. exact Hd.
Qed.
Lemma boundary_steps' p : boundary (flat_map step_text' p).
Proof. destruct p as [|[f|k|k|i] p]; [left; reflexivity| | | |]; right; [left|left|left|right]; cbn [flat_map step_text step_text']; rewrite <- ?app_assoc; eexists; reflexivity. Qed.
Lemma sub_steps E p : Forall (step_ok E) p -> sub_idx E 0 (flat_map step_text' p) = flat_map (fun k => u "." ++ escape k) (segs p).
Proof.
  induction 1 as [|s p Hs Hp IH]; [reflexivity|]. unfold segs in *. cbn [flat_map]. rewrite flat_map_app. assert (Hb := boundary_steps' p).
  assert (Hkey : forall k, tame E k -> sub_idx E 0 (46%N :: escape k ++ flat_map step_text' p) = 46%N :: escape k ++ flat_map (fun k => u "." ++ escape k) (flat_map step_seg p)).
  { intros k (_ & _ & H). rewrite sub_char by discriminate. rewrite sub_key by assumption. rewrite IH. reflexivity. }
  destruct s as [f|k|k|i]; cbn [step_text' step_text step_seg step_ok flat_map] in *; rewrite <- ?app_assoc.
  - destruct (clean_tame E _ Hs) as [He Ht]. rewrite He. cbn [app]. rewrite <- He at 1. change (u "." ++ ?x) with (46%N :: x). rewrite (Hkey _ Ht), He. reflexivity.
  - apply (Hkey _ Hs).
  - apply (Hkey _ Hs).
  - rewrite sub_index. exact IH.
Qed.
Theorem normalize_steps E p : Forall (step_ok E) p -> split_path (normalize E (location_path p)) = u "spec" :: segs p.
Proof.
  intros Hp. unfold normalize, location_path. fold unroot. rewrite unroot_word by (vm_compute; intuition discriminate).
  rewrite (unroot_steps E) by assumption. rewrite (no_trailing_root E) by assumption.
  change (u "spec" ++ flat_map step_text' p) with (115%N :: 112%N :: 101%N :: 99%N :: flat_map step_text' p).
  rewrite !sub_char by discriminate. rewrite sub_steps by assumption.
  exact (split_dotted (segs p) (u "spec") []).
Qed.

(** ** The reference positions of a type, with user-chosen names and indices left out *)
Inductive aseg := AField (f : pystr) | AMapKey | ADictKey | AIndex.
Definition abs (s : lstep) : aseg := match s with LField f => AField f | LKey _ => ADictKey | LMapKey _ => AMapKey | LIdx _ => AIndex end.
Definition is_ref_ty (t : ty) : bool := match t with TModel c _ _ => String.eqb c "Reference" | _ => false end.
Fixpoint opos (t : ty) : list (list aseg) :=
  match t with
  | TOpt t' => opos t'
  | TList t' => map (cons AIndex) (opos t')
  | TModel _ _ _ => if is_ref_ty t then [[]] else []
  | _ => []
  end.
Fixpoint pos (t : ty) : list (list aseg * list string) :=
  match t with
  | TOpt t' => pos t'
  | TList t' => map (fun p => (AIndex :: fst p, snd p)) (pos t')
  | TDict t' => map (fun p => (ADictKey :: fst p, snd p)) (pos t')
  | TRoot _ t' => map (fun p => (AMapKey :: fst p, snd p)) (pos t')
  | TUnion ts => (if existsb is_ref_ty ts then [([], model_names ts)] else []) ++ flat_map pos ts
  | TModel c _ fs =>
      flat_map (fun ft => match ft with (fi, t') =>
        (if f_excl fi then [] else map (fun p => (AField (f_name fi) :: fst p, snd p)) (pos t'))
        ++ flat_map (fun r => match r with (c', f, D) =>
             if String.eqb c c' && str_eqb (f_name fi) (u f) then map (fun p => (AField (u f) :: p, [D])) (opos t') else [] end) reference_fields end) fs
  | _ => []
  end.
Lemma opos_complete t p : only_reference t p -> In (map abs p) (opos t).
Proof. induction 1 as [k0 fs0|t p H IH|t i p H IH]; cbn [opos map abs]; [left; reflexivity|exact IH|apply in_map; exact IH]. Qed.
Lemma pos_complete t p D : location t p D -> In (map abs p, D) (pos t).
Proof.
  induction 1 as [ts k0 fs0 H|t p D H IH|t i p D H IH|t k p D H IH|c t k p D H IH|ts t p D Hi H IH|c k fs fi t p D Hi Hx H IH|c k fs fi t p f D Hi Hn Hr H]; cbn [pos map abs].
  - apply in_or_app. left. replace (existsb is_ref_ty ts) with true; [left; reflexivity|]. symmetry. apply existsb_exists. eexists. split; [exact H|reflexivity].
  - exact IH.
  - apply (in_map (fun p => (AIndex :: fst p, snd p)) _ _ IH).
  - apply (in_map (fun p => (ADictKey :: fst p, snd p)) _ _ IH).
  - apply (in_map (fun p => (AMapKey :: fst p, snd p)) _ _ IH).
  - apply in_or_app. right. apply in_flat_map. exists t. auto.
  - apply in_flat_map. exists (fi, t). split; [exact Hi|]. rewrite Hx. apply in_or_app. left. apply (in_map (fun p => (AField (f_name fi) :: fst p, snd p)) _ _ IH).
  - apply in_flat_map. exists (fi, t). split; [exact Hi|]. apply in_or_app. right. apply in_flat_map. exists (c, f, D). split; [exact Hr|].
    rewrite String.eqb_refl, Hn, str_eqb_refl. apply (in_map (fun p => (AField (u f) :: p, [D]))). apply opos_complete. exact H.
Qed.

(** ** Matching without knowing the names *)
Fixpoint pm {X} (m : pystr -> X -> bool) (ps : list pystr) (xs : list X) {struct ps} : bool :=
  match ps with
  | [] => match xs with [] => true | _ => false end
  | p :: ps' =>
      if str_eqb p (u "**") then
        match ps' with
        | [] => true
        | _ => (fix any (xs : list X) : bool := pm m ps' xs || match xs with [] => false | _ :: r => any r end) xs
        end
      else match xs with
           | [] => false
           | x :: xs' => m p x && pm m ps' xs'
           end
  end.
Lemma pm_segment ps : forall xs, pm segment_matches ps xs = parts_match ps xs.
Proof.
  induction ps as [|p ps IH]; intros xs; [reflexivity|]. cbn [pm parts_match]. destruct (str_eqb p (u "**")).
  - destruct ps as [|q ps]; [reflexivity|]. induction xs as [|x xs IHx]; rewrite IH; [reflexivity|]. rewrite IHx. reflexivity.
  - destruct xs as [|x xs]; [reflexivity|]. rewrite IH. reflexivity.
Qed.
Lemma pm_ext {X Y} (m : pystr -> X -> bool) (m' : pystr -> Y -> bool) ps : forall xs ys,
  Forall2 (fun x y => forall p, In p ps -> p <> u "**" -> m p x = m' p y) xs ys -> pm m ps xs = pm m' ps ys.
Proof.
  induction ps as [|p ps IH]; intros xs ys H; [inversion H; reflexivity|]. cbn [pm].
  assert (H' : Forall2 (fun x y => forall p, In p ps -> p <> u "**" -> m p x = m' p y) xs ys).
  { eapply Forall2_mono; [|exact H]. intros a b Hp q Hq. apply Hp. right. exact Hq. }
  destruct (str_eqb p (u "**")) eqn:Ep.
  - destruct ps as [|q ps]; [reflexivity|]. clear H. induction H' as [|x y xs ys Hxy H' IHx].
    + rewrite (IH [] []) by constructor. reflexivity.
    + rewrite (IH (x :: xs) (y :: ys)) by (constructor; assumption). rewrite IHx. reflexivity.
  - apply str_eqb_neq in Ep. inversion H as [|x y xs' ys' Hxy Hr]; subst; [reflexivity|].
    rewrite (Hxy p (or_introl eq_refl) Ep). f_equal. apply IH. inversion H'; assumption.
Qed.
Definition amatch (p : pystr) (s : aseg) : bool := match s with AField f => segment_matches p f | _ => str_eqb p (u "*") end.
Definition plain_seg (p : pystr) : bool :=
  str_eqb p (u "*") || str_eqb p (u "**") || str_eqb p (u "*_bindings") || mem_str p (map u path_keywords).
Lemma table_segments : forallb (fun r => forallb plain_seg (split_path (fst r))) mappings = true.
Proof. vm_compute. reflexivity. Qed.
Lemma globs_literal p s : ~ In 42%N p -> ~ In 63%N p -> globs p s -> s = p.
Proof.
  intros H1 H2 H. induction H as [|w p s H IH|c p s H IH|c p s Hc Hc' H IH]; [reflexivity| | |].
  - exfalso. apply H1. left. reflexivity.
  - exfalso. apply H2. left. reflexivity.
  - f_equal. apply IH; intros Hi; [apply H1|apply H2]; right; exact Hi.
Qed.
Lemma keywords_plain : forallb (fun w => negb (has_star (u w))) path_keywords = true.
Proof. vm_compute. reflexivity. Qed.
Lemma ordinary_segment E p k : plain_seg p = true -> p <> u "**" -> ordinary E k -> segment_matches p k = str_eqb p (u "*").
Proof.
  intros Hp Hd (H1 & H2 & _). unfold segment_matches. destruct (str_eqb p (u "*")) eqn:E1; [reflexivity|]. rewrite contains_star.
  unfold plain_seg in Hp. rewrite E1 in Hp. apply str_eqb_neq in Hd. rewrite Hd in Hp. cbn [orb] in Hp.
  apply orb_prop in Hp as [Hp|Hp].
  - apply str_eqb_eq in Hp. subst p. change (has_star (u "*_bindings")) with true. cbn iota.
    apply not_true_iff_false. intros Hg. apply glob_iff in Hg. change (u "*_bindings") with (42%N :: u "_bindings") in Hg.
    inversion Hg as [|w p s Hg' Ew Es| |? ? ? Hc]; subst; [|congruence]. apply globs_literal in Hg'; [|vm_compute; intuition discriminate|vm_compute; intuition discriminate].
    apply H2. exists w. rewrite Hg'. reflexivity.
  - apply mem_str_In, in_map_iff in Hp as (w & <- & Hw). assert (Hs := keywords_plain). rewrite forallb_forall in Hs. specialize (Hs _ Hw).
    apply negb_true_iff in Hs. rewrite Hs. apply str_eqb_neq. intros Hk. apply (H1 w Hw). symmetry. exact Hk.
Qed.
(** keys and fields as segments; indices are gone *)
Definition aseg_seg (s : aseg) : list aseg := match s with AIndex => [] | _ => [s] end.
Definition asegs (p : list aseg) : list aseg := AField (u "spec") :: flat_map aseg_seg p.
Definition loc_ok (E : env) (p : list lstep) : Prop := forall k, In k (keys_of p) -> ordinary E k.
Lemma segs_abs E p : loc_ok E p ->
  Forall2 (fun s k => forall pat, plain_seg pat = true -> pat <> u "**" -> amatch pat s = segment_matches pat k) (flat_map aseg_seg (map abs p)) (segs p).
Proof.
  induction p as [|s p IH]; intros Hk; [constructor|]. unfold segs. cbn [map flat_map]. unfold loc_ok, keys_of in Hk. cbn [flat_map] in Hk.
  assert (Hr := IH (fun k Hi => Hk k (in_or_app _ _ _ (or_intror Hi)))).
  destruct s as [f|k|k|i]; cbn [abs aseg_seg step_seg app]; [constructor; [reflexivity|exact Hr]| | |exact Hr];
    (constructor; [|exact Hr]; intros pat Hp Hd; cbn [amatch]; symmetry; eapply ordinary_segment; [exact Hp|exact Hd|apply Hk; apply in_or_app; left; left; reflexivity]).
Qed.
Fixpoint best_by (m : pystr -> bool) (best : option (score * list string)) (table : list (pystr * list string)) : option (score * list string) :=
  match table with
  | [] => best
  | (p, ty) :: r =>
      if m p then
        match best with
        | None => best_by m (Some (specificity p, ty)) r
        | Some (s, _) => if score_gtb (specificity p) s then best_by m (Some (specificity p, ty)) r else best_by m best r
        end
      else best_by m best r
  end.
Lemma best_by_ext path m table : (forall p ty, In (p, ty) table -> path_matches p path = m p) -> forall best, best_match path best table = best_by m best table.
Proof.
  induction table as [|[p ty] table IH]; intros H best; [reflexivity|]. cbn [best_match best_by]. rewrite (H p ty (or_introl eq_refl)).
  assert (IH' := IH (fun p ty Hi => H p ty (or_intror Hi))). rewrite !IH'. destruct (m p); [|reflexivity]. destruct best as [[s t]|]; rewrite ?IH'; reflexivity.
Qed.
Definition expected_abs (ap : list aseg) : option (list string) := option_map snd (best_by (fun p => pm amatch (split_path p) (asegs ap)) None mappings).
Lemma ordinary_tame E k : ordinary E k -> tame E k.
Proof. intros (H1 & _ & H2 & H3). split; [|split; assumption]. apply (H1 "root"%string). left. reflexivity. Qed.
Definition aclean (s : aseg) : bool := match s with AField f => clean_field f | _ => true end.
Lemma expected_loc E p : loc_ok E p -> forallb aclean (map abs p) = true -> expected E (location_path p) = expected_abs (map abs p).
Proof.
  intros Hk Hc. unfold expected, expected_in, expected_abs. f_equal.
  assert (Hs : Forall (step_ok E) p).
  { clear -Hk Hc. induction p as [|s p IH]; [constructor|]. cbn [map forallb] in Hc. apply andb_prop in Hc as [Hc1 Hc2]. unfold loc_ok, keys_of in Hk. cbn [flat_map] in Hk.
    constructor; [|apply IH; [intros k Hi; apply Hk; apply in_or_app; right; exact Hi|exact Hc2]].
    destruct s as [f|k|k|i]; cbn [step_ok abs aclean step_keys] in *; [exact Hc1| | |exact I]; apply ordinary_tame, Hk, in_or_app; left; left; reflexivity. }
  apply best_by_ext. intros pat ty Hi. unfold path_matches. rewrite (normalize_steps _ _ Hs), <- pm_segment. symmetry. apply pm_ext. unfold asegs.
  assert (Ht := table_segments). rewrite forallb_forall in Ht. specialize (Ht _ Hi). cbn [fst] in Ht. rewrite forallb_forall in Ht.
  constructor; [reflexivity|]. eapply Forall2_mono; [|apply (segs_abs E p Hk)]. intros x y Hxy q Hq Hd. apply Hxy; [apply Ht; exact Hq|exact Hd].
Qed.

Definition trait_fields : list pystr := [u "correlation_id"; u "tags"; u "external_docs"; u "security"].
Definition is_afield (s : aseg) : bool := match s with AField _ => true | _ => false end.
Fixpoint inline_abs (ap : list aseg) : bool :=
  match ap with
  | [] => false
  | AField t :: r => (str_eqb t (u "traits") && match r with AIndex :: AField f :: b => mem_str f trait_fields && negb (existsb is_afield b) | _ => false end) || inline_abs r
  | _ :: r => inline_abs r
  end.
Definition same_set (a b : list string) : bool := forallb (fun x => existsb (String.eqb x) b) a && forallb (fun x => existsb (String.eqb x) a) b.
Definition agree (r : list aseg * list string) : bool :=
  match expected_abs (fst r) with
  | Some tys => if inline_abs (fst r) then list_eqb String.eqb tys ["MessageTrait"%string] || list_eqb String.eqb tys ["OperationTrait"%string] else same_set tys (snd r)
  | None => false
  end.
Definition root_positions : list (list aseg * list string) := Eval vm_compute in pos T_AsyncAPI3.
Lemma root_positions_eq : pos T_AsyncAPI3 = root_positions.
Proof. vm_compute. reflexivity. Qed.
Lemma positions_clean : forallb (fun r => forallb aclean (fst r)) root_positions = true.
Proof. vm_compute. reflexivity. Qed.
Lemma positions_agree : forallb agree root_positions = true.
Proof. vm_compute. reflexivity. Qed.

Lemma inline_abs_iff p : inline_abs (map abs p) = true <-> in_inline_trait p.
Proof.
  unfold in_inline_trait. induction p as [|s p IH].
  - split; [discriminate|]. intros (a & i & f & b & H & _). destruct a; discriminate.
  - assert (Hb : forall b, existsb is_afield (map abs b) = false <-> forall g, In (LField g) b -> False).
    { induction b as [|x b IHb]; [split; [intros _ g []|reflexivity]|]. cbn [map existsb]. rewrite orb_false_iff, IHb. split.
      - intros [H1 H2] g [->|Hg]; [discriminate H1|eapply H2; exact Hg].
      - intros H. split; [destruct x; try reflexivity; exfalso; eapply H; left; reflexivity|]. intros g Hg. eapply H. right. exact Hg. }
    assert (Hskip : (exists a i f b, s :: p = a ++ LField (u "traits") :: LIdx i :: LField f :: b /\ In f [u "correlation_id"; u "tags"; u "external_docs"; u "security"] /\ (forall g, In (LField g) b -> False))
      <-> (exists i f b, s = LField (u "traits") /\ p = LIdx i :: LField f :: b /\ In f trait_fields /\ (forall g, In (LField g) b -> False)) \/ in_inline_trait p).
    { unfold in_inline_trait. split.
      - intros (a & i & f & b & H & H2). destruct a as [|x a]; injection H as -> ->; [left; exists i, f, b; auto|right; exists a, i, f, b; auto].
      - intros [(i & f & b & -> & -> & H)|(a & i & f & b & -> & H)]; [exists [], i, f, b; auto|exists (s :: a), i, f, b; auto]. }
    rewrite Hskip. clear Hskip. fold (in_inline_trait p) in IH.
    destruct s as [t|k|k|i]; cbn [map abs inline_abs]; rewrite ?orb_true_iff, IH;
      try (split; [intros H; right; exact H|intros [(? & ? & ? & H & _)|H]; [discriminate H|exact H]]).
    rewrite andb_true_iff, str_eqb_eq. split; (intros [H|H]; [left|right; exact H]).
    + destruct H as [-> H]. destruct p as [|[|?|?|i] p]; try discriminate H. destruct p as [|[f|?|?|?] b]; try discriminate H. cbn [map abs] in H.
      rewrite andb_true_iff, negb_true_iff, mem_str_In, Hb in H. exists i, f, b. auto.
    + destruct H as (i & f & b & H & -> & Hf & Hn). injection H as ->. split; [reflexivity|]. cbn [map abs].
      rewrite andb_true_iff, negb_true_iff, mem_str_In, Hb. auto.
Qed.
Lemma agree_cases ap D : agree (ap, D) = true -> exists tys, expected_abs ap = Some tys /\
  ((inline_abs ap = false /\ same_set tys D = true) \/ (inline_abs ap = true /\ exists t, tys = [t] /\ In t ["MessageTrait"; "OperationTrait"]%string)).
Proof.
  unfold agree. cbn [fst snd]. generalize (expected_abs ap) as o, (inline_abs ap) as b. intros [tys|] b H; [|discriminate H]. exists tys. split; [reflexivity|].
  destruct b; [right|left; auto]. split; [reflexivity|]. apply orb_prop in H as [H|H]; apply list_eqb_string in H; eexists; (split; [exact H|]); [left|right; left]; reflexivity.
Qed.
Lemma location_in E p D : location T_AsyncAPI3 p D -> loc_ok E p -> In (map abs p, D) root_positions /\ exists tys,
  expected E (location_path p) = Some tys /\
  ((inline_abs (map abs p) = false /\ same_set tys D = true) \/ (inline_abs (map abs p) = true /\ exists t, tys = [t] /\ In t ["MessageTrait"; "OperationTrait"]%string)).
Proof.
  intros Hl Hk. apply pos_complete in Hl. rewrite root_positions_eq in Hl. split; [exact Hl|].
  assert (H := proj1 (forallb_forall _ _) positions_agree _ Hl). assert (Hc := proj1 (forallb_forall _ _) positions_clean _ Hl). cbn [fst] in Hc.
  apply agree_cases in H as (tys & He & H). exists tys. split; [|exact H]. rewrite <- He. apply expected_loc; assumption.
Qed.
Lemma existsb_string c l : existsb (String.eqb c) l = true <-> In c l.
Proof. rewrite existsb_exists. split; [intros (x & Hx & Hc); apply String.eqb_eq in Hc; subst; exact Hx|intros H; exists c; split; [exact H|apply String.eqb_refl]]. Qed.
Lemma same_set_iff a b : same_set a b = true <-> forall c, In c a <-> In c b.
Proof.
  unfold same_set. rewrite andb_true_iff, !forallb_forall. split.
  - intros [H1 H2] c. split; intros H; apply existsb_string; [apply H1|apply H2]; exact H.
  - intros H. split; intros c Hc; apply existsb_string, H, Hc.
Qed.
Lemma location_agrees E p D : location T_AsyncAPI3 p D -> loc_ok E p -> ~ in_inline_trait p ->
  exists tys, expected E (location_path p) = Some tys /\ forall c, In c tys <-> In c D.
Proof.
  intros Hl Hk Hn. destruct (location_in _ _ _ Hl Hk) as (_ & tys & He & [[_ H]|[H _]]).
  - exists tys. split; [exact He|apply same_set_iff; exact H].
  - exfalso. apply Hn, inline_abs_iff. exact H.
Qed.
Definition no_trait (r : list aseg * list string) : bool :=
  negb (inline_abs (fst r)) || negb (existsb (fun t => existsb (String.eqb t) (snd r)) ["MessageTrait"; "OperationTrait"]%string).
Lemma trait_positions : forallb no_trait root_positions = true.
Proof. vm_compute. reflexivity. Qed.
Lemma no_trait_spec ap D t : no_trait (ap, D) = true -> inline_abs ap = true -> In t ["MessageTrait"; "OperationTrait"]%string -> ~ In t D.
Proof.
  unfold no_trait. cbn [fst snd]. intros H Hi Ht Hin. rewrite Hi in H. apply negb_true_iff in H.
  assert (existsb (fun t => existsb (String.eqb t) D) ["MessageTrait"; "OperationTrait"]%string = true); [|congruence].
  apply existsb_exists. exists t. split; [exact Ht|apply existsb_string; exact Hin].
Qed.
Lemma location_trait E p D : location T_AsyncAPI3 p D -> loc_ok E p -> in_inline_trait p ->
  exists t, expected E (location_path p) = Some [t] /\ In t ["MessageTrait"; "OperationTrait"]%string /\ ~ In t D.
Proof.
  intros Hl Hk Hi. apply inline_abs_iff in Hi. destruct (location_in _ _ _ Hl Hk) as (Hr & tys & He & [[H _]|[_ (t & -> & Ht)]]); [congruence|].
  exists t. split; [exact He|]. split; [exact Ht|]. eapply no_trait_spec; [|exact Hi|exact Ht]. exact (proj1 (forallb_forall _ _) trait_positions _ Hr).
Qed.
