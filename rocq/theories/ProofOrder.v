(** Resolution and the unified validator under reordering and extension of maps. *)
From Coq Require Import Permutation.
From Verif Require Import PyStr Regex Value Types Rules Pydantic ClassTable Classes Canon Fix Linked SpecParse ProofRules ProofParse
  State SpecState ProofState Resolve SpecResolve ProofResolve Unified SpecUnified ProofUnified ProofCheck.

Definition entry_rel (R : pv -> pv -> Prop) (a b : pystr * pv) : Prop := fst a = fst b /\ R (snd a) (snd b).
Definition opt_rel {X} (R : X -> X -> Prop) (a b : option X) : Prop := match a, b with Some x, Some y => R x y | None, None => True | _, _ => False end.
Lemma assoc_rel R k d d' : Forall2 (entry_rel R) d d' -> opt_rel R (assoc k d) (assoc k d').
Proof.
  induction 1 as [|[a x] [b y] d d' [H1 H2] H IH]; [exact I|]. cbn [fst snd] in *. subst b. cbn [assoc]. destruct (str_eqb k a); [exact H2|exact IH].
Qed.
Lemma assoc_perm k (d d' : fields) : NoDup (map fst d) -> Permutation d d' -> assoc k d = assoc k d'.
Proof.
  intros Hn Hp. assert (Hn' : NoDup (map fst d')) by (eapply Permutation_NoDup; [apply Permutation_map; exact Hp|exact Hn]).
  destruct (assoc k d) as [x|] eqn:E.
  - symmetry. apply In_assoc; [exact Hn'|]. eapply Permutation_in; [exact Hp|]. apply assoc_In. exact E.
  - symmetry. apply assoc_None. apply assoc_None in E. intros H. apply E. eapply Permutation_in; [apply Permutation_sym, Permutation_map; exact Hp|exact H].
Qed.
Lemma rel_keys R d d' : Forall2 (entry_rel R) d d' -> map fst d = map fst d'.
Proof. induction 1 as [|a b d d' [H1 _] H IH]; [reflexivity|]. cbn [map]. congruence. Qed.
Definition sameq := same_upto_order.
Lemma assoc_rel_perm k d d1 d' : Forall2 (entry_rel sameq) d d1 -> Permutation d1 d' -> NoDup (map fst d) -> opt_rel sameq (assoc k d) (assoc k d').
Proof.
  intros H Hp Hn. rewrite <- (assoc_perm k d1 d'); [apply assoc_rel; exact H| |exact Hp]. rewrite <- (rel_keys _ _ _ H). exact Hn.
Qed.
Lemma opt_refl k (d : fields) : opt_rel sameq (assoc k d) (assoc k d).
Proof. destruct (assoc k d); [apply su_refl|exact I]. Qed.
(** related values have the same shape *)
Inductive shape : pv -> pv -> Prop :=
| sh_same v : shape v v
| sh_list l l' : shape (VList l) (VList l')
| sh_dict l l' : shape (VDict l) (VDict l')
| sh_root c l l' : shape (VRoot c l) (VRoot c l')
| sh_obj c f f' e e' : shape (VObj c f e) (VObj c f' e').
Lemma same_shape v v' : sameq v v' -> shape v v'.
Proof. destruct 1; constructor. Qed.
Lemma shape_name v v' : shape v v' -> type_name v = type_name v'.
Proof. destruct 1; reflexivity. Qed.
Lemma shape_none v v' : shape v v' -> is_none v = is_none v'.
Proof. destruct 1; reflexivity. Qed.
Lemma shape_str v v' s : shape v v' -> (v = VStr s <-> v' = VStr s).
Proof. destruct 1; split; intros H; try discriminate; exact H. Qed.
Lemma ref_shape c fv fv' ex ex' : opt_rel shape (assoc (u "ref") fv) (assoc (u "ref") fv') -> as_reference (VObj c fv ex) = as_reference (VObj c fv' ex').
Proof.
  intros H. cbn [as_reference]. destruct (String.eqb c "Reference"); [|reflexivity].
  destruct (assoc (u "ref") fv) as [x|], (assoc (u "ref") fv') as [y|]; try contradiction; [|reflexivity]. cbn [opt_rel] in H. destruct H; reflexivity.
Qed.
Lemma opt_mono {X} (R Q : X -> X -> Prop) a b : (forall x y, R x y -> Q x y) -> opt_rel R a b -> opt_rel Q a b.
Proof. destruct a, b; cbn; auto. Qed.
Lemma same_ref v v' : sameq v v' -> as_reference v = as_reference v'.
Proof.
  destruct 1 as [v|l l' H|d d1 d' H Hp|c d d1 d' H Hp|c fv fv' ex ex1 ex' H He Hp]; try reflexivity.
  apply ref_shape. eapply opt_mono; [exact same_shape|]. apply assoc_rel. exact H.
Qed.
Lemma python_sub v x : python_dicts v -> within x v -> python_dicts x.
Proof. intros H Hx y Hy. apply H. eapply within_trans; eauto. Qed.
Lemma same_part v v' k : python_dicts v -> sameq v v' -> opt_rel sameq (resolve_part v k) (resolve_part v' k).
Proof.
  intros Hd H. assert (Hown := Hd v (w_self v)).
  destruct H as [v|l l' H|d d1 d' H Hp|c d d1 d' H Hp|c fv fv' ex ex1 ex' H He Hp].
  - destruct (resolve_part v k); [apply su_refl|exact I].
  - exact I.
  - cbn [resolve_part root_mapping]. eapply assoc_rel_perm; [exact H|exact Hp|exact Hown].
  - cbn [resolve_part root_mapping]. eapply assoc_rel_perm; [exact H|exact Hp|exact Hown].
  - destruct Hown as [_ Hx]. assert (Hr := assoc_rel_perm (u "root") ex ex1 ex' He Hp Hx).
    assert (Hf : opt_rel sameq
      (match find_field_name k (class_infos c) with Some name => match attr name fv with VNone => None | x => Some x end | None => None end)
      (match find_field_name k (class_infos c) with Some name => match attr name fv' with VNone => None | x => Some x end | None => None end)).
    { generalize (find_field_name k (class_infos c)). intros [name|]; [|exact I]. unfold attr. assert (Ha := assoc_rel sameq name fv fv' H).
      destruct (assoc name fv) as [x|], (assoc name fv') as [y|]; try contradiction; [|exact I]. cbn [opt_rel] in Ha.
      assert (Hs := shape_none _ _ (same_shape _ _ Ha)). destruct x, y; try discriminate Hs; try exact I; try exact Ha. }
    unfold resolve_part. cbn [root_mapping].
    destruct (assoc (u "root") ex) as [x|] eqn:E1, (assoc (u "root") ex') as [y|] eqn:E2; cbn [opt_rel] in Hr; try contradiction; [|exact Hf].
    assert (Hxd : python_dicts x). { eapply python_sub; [exact Hd|]. eapply w_extra; [apply assoc_In; exact E1|constructor]. }
    destruct Hr as [x|l l' Hl|d d1 d' Hd1 Hp1|c0 d d1 d' Hd1 Hp1|c0 ? ? ? ? ? Hd1 Hd2 Hp1]; try exact Hf.
    + destruct x; try exact Hf. apply opt_refl.
    + eapply assoc_rel_perm; [exact Hd1|exact Hp1|]. exact (Hxd _ (w_self _)).
Qed.
Lemma same_parts parts : forall v v' path, python_dicts v -> sameq v v' ->
  opt_rel (fun a b => sameq (fst a) (fst b) /\ snd a = snd b) (resolve_parts v path parts) (resolve_parts v' path parts).
Proof.
  induction parts as [|p parts IH]; intros v v' path Hd H; [split; [exact H|reflexivity]|]. cbn [resolve_parts].
  destruct p as [|c p]; [apply IH; assumption|]. assert (Hp := same_part v v' (c :: p) Hd H). assert (Hw := fun w => part_within v (c :: p) w).
  destruct (resolve_part v (c :: p)) as [w|], (resolve_part v' (c :: p)) as [w'|]; cbn [opt_rel] in Hp; try contradiction; [|exact I].
  apply IH; [|exact Hp]. eapply python_sub; [exact Hd|]. apply Hw. reflexivity.
Qed.
Inductive res_rel (R : pv -> pv -> Prop) : resolution -> resolution -> Prop :=
| rr_obj o o' p : R o o' -> res_rel R (Resolved o p) (Resolved o' p)
| rr_ext : res_rel R External External
| rr_err e : res_rel R (Failed e) (Failed e).
Lemma same_fuel doc doc' : python_dicts doc -> sameq doc doc' -> forall n visited s, opt_rel (res_rel sameq) (resolve_fuel n doc visited s) (resolve_fuel n doc' visited s).
Proof.
  intros Hd H. induction n as [|n IH]; intros visited s; [exact I|]. cbn [resolve_fuel].
  destruct (mem_str s visited); [constructor|]. destruct (is_external s); [constructor|]. destruct (parse_ref s) as [e|parts]; [constructor|].
  assert (Hp := same_parts parts doc doc' (u "spec") Hd H).
  destruct (resolve_parts doc (u "spec") parts) as [[v p]|], (resolve_parts doc' (u "spec") parts) as [[v' p']|]; cbn [opt_rel fst snd] in Hp; try contradiction; [|constructor].
  destruct Hp as [Hv ->]. rewrite <- (same_ref _ _ Hv). destruct (as_reference v); [apply IH|]. constructor. exact Hv.
Qed.
Lemma resolve_big doc doc' s : exists n, resolve_fuel n doc [] s = Some (resolve doc s) /\ resolve_fuel n doc' [] s = Some (resolve doc' s).
Proof. exists ((2 + length (reference_strings doc)) + (2 + length (reference_strings doc'))). split; apply resolve_eq; lia. Qed.
Lemma same_resolve doc doc' s : python_dicts doc -> sameq doc doc' -> res_rel sameq (resolve doc s) (resolve doc' s).
Proof.
  intros Hd H. destruct (resolve_big doc doc' s) as (n & H1 & H2). assert (Hf := same_fuel doc doc' Hd H n [] s). rewrite H1, H2 in Hf. exact Hf.
Qed.
Lemma same_check_reference E doc doc' path s : python_dicts doc -> sameq doc doc' -> check_reference E doc path s = check_reference E doc' path s.
Proof.
  intros Hd H. unfold check_reference. destruct (same_resolve doc doc' s Hd H) as [o o' p Ho| |e]; [|reflexivity|reflexivity].
  rewrite (shape_name _ _ (same_shape _ _ Ho)). reflexivity.
Qed.

(** the same parts, in some order *)
Definition has_part (v : pv) (t : pystr) (x : pv) : Prop := exists i, In (i, (t, x)) (kids v).
Lemma has_part_list l t x : has_part (VList l) t x <-> exists i, nth_error l i = Some x /\ t = u "[" ++ str_of_nat i ++ u "]".
Proof.
  unfold has_part. cbn [kids]. split.
  - intros (i & H). apply in_map_iff in H as ([j y] & Heq & H). injection Heq as <- <- <-. apply numbered_in in H as [_ H]. rewrite Nat.sub_0_r in H. exists j. auto.
  - intros (i & H & ->). exists i. apply in_map_iff. exists (i, x). split; [reflexivity|]. apply numbered_in. rewrite Nat.sub_0_r. split; [lia|exact H].
Qed.
Lemma has_part_map (f : pystr -> pystr) (d : fields) t x :
  (exists i, In (i, (t, x)) (map (fun ix => (fst ix, (f (fst (snd ix)), snd (snd ix)))) (numbered 0 d))) <-> exists k, In (k, x) d /\ t = f k.
Proof.
  split.
  - intros (i & H). apply in_map_iff in H as ([j [k y]] & Heq & H). injection Heq as <- <- <-. apply numbered_in in H as [_ H]. apply nth_error_In in H. exists k. auto.
  - intros (k & H & ->). apply In_nth_error in H as [i H]. exists i. apply in_map_iff. exists (i, (k, x)). split; [reflexivity|]. apply numbered_in. rewrite Nat.sub_0_r. split; [lia|exact H].
Qed.
Lemma has_part_dict d t x : has_part (VDict d) t x <-> exists k, In (k, x) d /\ t = u "." ++ escape k.
Proof. exact (has_part_map (fun k => u "." ++ escape k) d t x). Qed.
Lemma has_part_root c d t x : has_part (VRoot c d) t x <-> exists k, In (k, x) d /\ t = u ".root." ++ escape k.
Proof. exact (has_part_map (fun k => u ".root." ++ escape k) d t x). Qed.
Lemma has_part_obj c fv ex t x : has_part (VObj c fv ex) t x <-> exists k, In (k, x) fv /\ is_none x = false /\ excluded c k = false /\ t = u "." ++ k.
Proof.
  unfold has_part. cbn [kids]. split.
  - intros (i & H). apply in_map_iff in H as ([j [k y]] & Heq & H). injection Heq as <- <- <-. apply filter_In in H as [H Hf]. cbn [fst snd] in Hf.
    apply negb_true_iff, orb_false_iff in Hf as [H1 H2]. apply numbered_in in H as [_ H]. apply nth_error_In in H. exists k. auto.
  - intros (k & H & H1 & H2 & ->). apply In_nth_error in H as [i H]. exists i. apply in_map_iff. exists (i, (k, x)). split; [reflexivity|]. apply filter_In.
    split; [apply numbered_in; rewrite Nat.sub_0_r; split; [lia|exact H]|]. cbn [fst snd]. rewrite H1, H2. reflexivity.
Qed.
Lemma Forall2_in_l {X Y} (R : X -> Y -> Prop) a b x : Forall2 R a b -> In x a -> exists y, In y b /\ R x y.
Proof. induction 1 as [|p q a b Hr H IH]; [intros []|]. intros [->|Hi]; [exists q; split; [left; reflexivity|exact Hr]|]. destruct (IH Hi) as (y & Hy & Hxy). exists y. split; [right; exact Hy|exact Hxy]. Qed.
Lemma Forall2_in_r {X Y} (R : X -> Y -> Prop) a b y : Forall2 R a b -> In y b -> exists x, In x a /\ R x y.
Proof. induction 1 as [|p q a b Hr H IH]; [intros []|]. intros [->|Hi]; [exists p; split; [left; reflexivity|exact Hr]|]. destruct (IH Hi) as (x & Hx & Hxy). exists x. split; [right; exact Hx|exact Hxy]. Qed.
Lemma Forall2_nth {X Y} (R : X -> Y -> Prop) a b : Forall2 R a b -> forall i, match nth_error a i, nth_error b i with Some x, Some y => R x y | None, None => True | _, _ => False end.
Proof. induction 1 as [|p q a b Hr H IH]; intros [|i]; cbn; try exact I; [exact Hr|apply IH]. Qed.
Lemma same_parts_visited v v' : sameq v v' ->
  (forall t x', has_part v' t x' -> exists x, has_part v t x /\ sameq x x') /\ (forall t x, has_part v t x -> exists x', has_part v' t x' /\ sameq x x').
Proof.
  intros H. destruct H as [v|l l' H|d d1 d' H Hp|c d d1 d' H Hp|c fv fv' ex ex1 ex' H He Hp].
  - split; intros t x Hx; exists x; (split; [exact Hx|apply su_refl]).
  - split; intros t x Hx; apply has_part_list in Hx as (i & Hi & ->); assert (Hn := Forall2_nth _ _ _ H i); rewrite Hi in Hn.
    + destruct (nth_error l i) as [y|] eqn:Ey; [|contradiction]. exists y. split; [apply has_part_list; exists i; auto|exact Hn].
    + destruct (nth_error l' i) as [y|] eqn:Ey; [|contradiction]. exists y. split; [apply has_part_list; exists i; auto|exact Hn].
  - split; intros t x Hx; apply has_part_dict in Hx as (k & Hi & ->).
    + apply (Permutation_in _ (Permutation_sym Hp)) in Hi. destruct (Forall2_in_r _ _ _ _ H Hi) as ([k0 y] & Hy & Hk & Hr). cbn [fst snd] in *. subst k0.
      exists y. split; [apply has_part_dict; exists k; auto|exact Hr].
    + destruct (Forall2_in_l _ _ _ _ H Hi) as ([k0 y] & Hy & Hk & Hr). cbn [fst snd] in *. subst k0. apply (Permutation_in _ Hp) in Hy.
      exists y. split; [apply has_part_dict; exists k; auto|exact Hr].
  - split; intros t x Hx; apply has_part_root in Hx as (k & Hi & ->).
    + apply (Permutation_in _ (Permutation_sym Hp)) in Hi. destruct (Forall2_in_r _ _ _ _ H Hi) as ([k0 y] & Hy & Hk & Hr). cbn [fst snd] in *. subst k0.
      exists y. split; [apply has_part_root; exists k; auto|exact Hr].
    + destruct (Forall2_in_l _ _ _ _ H Hi) as ([k0 y] & Hy & Hk & Hr). cbn [fst snd] in *. subst k0. apply (Permutation_in _ Hp) in Hy.
      exists y. split; [apply has_part_root; exists k; auto|exact Hr].
  - split; intros t x Hx; apply has_part_obj in Hx as (k & Hi & Hn & Hxl & ->).
    + destruct (Forall2_in_r _ _ _ _ H Hi) as ([k0 y] & Hy & Hk & Hr). cbn [fst snd] in *. subst k0.
      exists y. split; [apply has_part_obj; exists k; rewrite (shape_none _ _ (same_shape _ _ Hr)); auto|exact Hr].
    + destruct (Forall2_in_l _ _ _ _ H Hi) as ([k0 y] & Hy & Hk & Hr). cbn [fst snd] in *. subst k0.
      exists y. split; [apply has_part_obj; exists k; rewrite <- (shape_none _ _ (same_shape _ _ Hr)); auto|exact Hr].
Qed.
Lemma check_parts E doc v path : as_reference v = None -> (check E doc v path = None <-> forall t x, has_part v t x -> check E doc x (path ++ t) = None).
Proof.
  intros Hr. rewrite check_kids, Hr, scan_none. split.
  - intros H t x (i & Hi). exact (H _ Hi).
  - intros H [i [t x]] Hi. apply H. exists i. exact Hi.
Qed.
Lemma same_check E doc doc' : python_dicts doc -> sameq doc doc' -> forall v v' path, sameq v v' -> (check E doc v path = None <-> check E doc' v' path = None).
Proof.
  intros Hd Hdoc v. induction v as [v IH] using kids_ind. intros v' path H. assert (Hr := same_ref _ _ H).
  destruct (as_reference v) as [s|] eqn:Es.
  - rewrite !check_kids, <- Hr, Es, (same_check_reference E doc doc' path s Hd Hdoc). reflexivity.
  - rewrite (check_parts _ _ _ _ Es), (check_parts _ _ _ _ (eq_sym Hr)). destruct (same_parts_visited _ _ H) as [H1 H2]. split.
    + intros Hc t x' Hx. destruct (H1 _ _ Hx) as (x & [i Hi] & Hxx). apply (IH _ _ _ Hi x' (path ++ t) Hxx). apply Hc. exists i. exact Hi.
    + intros Hc t x [i Hi]. destruct (H2 t x (ex_intro _ i Hi)) as (x' & Hx' & Hxx). apply (IH _ _ _ Hi x' (path ++ t) Hxx). apply Hc. exact Hx'.
Qed.

(** ** Adding an entry *)
Definition addq (x : pv) (v v' : pv) : Prop := v = v' \/ entry_added x v v'.
Lemma add_shape x v v' : addq x v v' -> shape v v'.
Proof. intros [->|H]; [constructor|]. destruct H; constructor. Qed.
Lemma assoc_middle k d1 k0 (v v' : pv) d2 x : entry_added x v v' -> opt_rel (addq x) (assoc k (d1 ++ (k0, v) :: d2)) (assoc k (d1 ++ (k0, v') :: d2)).
Proof.
  intros H. rewrite !assoc_app. destruct (assoc k d1) as [y|]; [left; reflexivity|]. cbn [assoc]. destruct (str_eqb k k0); [right; exact H|].
  destruct (assoc k d2); [left; reflexivity|exact I].
Qed.
Lemma assoc_new (k k0 : pystr) (d1 d2 : fields) x y : ~ In k0 (map fst (d1 ++ d2)) -> assoc k (d1 ++ d2) = Some y -> assoc k (d1 ++ (k0, x) :: d2) = Some y.
Proof.
  intros Hn H. rewrite assoc_app in *. destruct (assoc k d1) as [z|]; [exact H|]. cbn [assoc]. destruct (str_eqb k k0) eqn:E; [|exact H].
  exfalso. apply str_eqb_eq in E. subst k0. apply Hn. rewrite map_app. apply in_or_app. right. eapply assoc_Some_key. exact H.
Qed.
Lemma add_ref x v v' : addq x v v' -> as_reference v = as_reference v'.
Proof.
  intros [->|H]; [reflexivity|]. destruct H; try reflexivity. apply ref_shape. eapply opt_mono; [exact (add_shape x)|]. apply assoc_middle. assumption.
Qed.
Lemma opt_some {X} (R : X -> X -> Prop) a b y : opt_rel R a b -> a = Some y -> exists z, b = Some z /\ R y z.
Proof. destruct a, b; cbn; intros H E; try discriminate; try contradiction. injection E as ->. eauto. Qed.
Lemma add_part x v v' k w : addq x v v' -> resolve_part v k = Some w -> exists w', resolve_part v' k = Some w' /\ addq x w w'.
Proof.
  intros [->|H]; [intros H; exists w; split; [exact H|left; reflexivity]|].
  destruct H as [c d1 d2 k0 Hn|l1 v v' l2 H|d1 k0 v v' d2 H|c d1 k0 v v' d2 H|c d1 k0 v v' d2 ex H|c fv d1 k0 v v' d2 H].
  - cbn [resolve_part root_mapping]. intros Ha. exists w. split; [apply assoc_new; assumption|left; reflexivity].
  - discriminate.
  - cbn [resolve_part root_mapping]. apply opt_some. apply assoc_middle. exact H.
  - cbn [resolve_part root_mapping]. apply opt_some. apply assoc_middle. exact H.
  - unfold resolve_part. cbn [root_mapping]. destruct (assoc (u "root") ex) as [[]|]; try (intros Ha; exists w; split; [exact Ha|left; reflexivity]; fail);
      (generalize (find_field_name k (class_infos c)); intros [name|]; [|discriminate]; unfold attr;
       assert (Ha := assoc_middle name d1 k0 v v' d2 x H); destruct (assoc name (d1 ++ (k0, v) :: d2)) as [y|], (assoc name (d1 ++ (k0, v') :: d2)) as [y'|];
       cbn [opt_rel] in Ha; try contradiction; [|discriminate]; assert (Hs := add_shape _ _ _ Ha);
       intros Hw; assert (Hy : y = w) by (destruct y; try discriminate Hw; injection Hw as <-; reflexivity); subst y;
       exists y'; split; [destruct Hs; destruct v0 || idtac; try discriminate Hw; reflexivity|exact Ha]).
  - unfold resolve_part. cbn [root_mapping]. assert (Ha := assoc_middle (u "root") d1 k0 v v' d2 x H).
    destruct (assoc (u "root") (d1 ++ (k0, v) :: d2)) as [y|], (assoc (u "root") (d1 ++ (k0, v') :: d2)) as [y'|]; cbn [opt_rel] in Ha; try contradiction;
      [|intros Hw; exists w; split; [exact Hw|left; reflexivity]].
    destruct Ha as [->|Ha]; [intros Hw; exists w; split; [exact Hw|left; reflexivity]|].
    destruct Ha as [c1 e1 e2 k1 Hn|l1 z z' l2 Hz|e1 k1 z z' e2 Hz|c1 e1 k1 z z' e2 Hz|c1 e1 k1 z z' e2 ex Hz|c1 fv1 e1 k1 z z' e2 Hz];
      try (intros Hw; exists w; split; [exact Hw|left; reflexivity]).
    apply opt_some. apply assoc_middle. exact Hz.
Qed.
Lemma add_parts x parts : forall v v' path w p, addq x v v' -> resolve_parts v path parts = Some (w, p) -> exists w', resolve_parts v' path parts = Some (w', p) /\ addq x w w'.
Proof.
  induction parts as [|q parts IH]; intros v v' path w p H Hr.
  - cbn [resolve_parts] in *. injection Hr as <- <-. exists v'. auto.
  - cbn [resolve_parts] in *. destruct q as [|c q]; [eapply IH; eauto|]. destruct (resolve_part v (c :: q)) as [y|] eqn:Ey; [|discriminate Hr].
    destruct (add_part _ _ _ _ _ H Ey) as (y' & -> & Hy). eapply IH; eauto.
Qed.
Lemma add_fuel x doc doc' : addq x doc doc' -> forall n visited s r, resolve_fuel n doc visited s = Some r -> (forall e, r <> Failed e) ->
  exists r', resolve_fuel n doc' visited s = Some r' /\ res_rel (addq x) r r'.
Proof.
  intros H. induction n as [|n IH]; intros visited s r Hr Hne; [discriminate Hr|]. cbn [resolve_fuel] in *.
  destruct (mem_str s visited); [injection Hr as <-; exfalso; eapply Hne; reflexivity|]. destruct (is_external s); [injection Hr as <-; eexists; split; [reflexivity|constructor]|].
  destruct (parse_ref s) as [e|parts]; [injection Hr as <-; exfalso; eapply Hne; reflexivity|].
  destruct (resolve_parts doc (u "spec") parts) as [[v p]|] eqn:Ep; [|injection Hr as <-; exfalso; eapply Hne; reflexivity].
  destruct (add_parts _ _ _ _ _ _ _ H Ep) as (v' & -> & Hv). rewrite <- (add_ref _ _ _ Hv). destruct (as_reference v) as [next|].
  - eapply IH; eauto.
  - injection Hr as <-. eexists. split; [reflexivity|]. constructor. exact Hv.
Qed.
Lemma add_resolve x doc doc' s : addq x doc doc' -> (forall e, resolve doc s <> Failed e) -> res_rel (addq x) (resolve doc s) (resolve doc' s).
Proof.
  intros H Hne. destruct (resolve_big doc doc' s) as (n & H1 & H2). destruct (add_fuel _ _ _ H _ _ _ _ H1 Hne) as (r' & H3 & H4). rewrite H2 in H3. injection H3 as ->. exact H4.
Qed.
Lemma add_check_reference x E doc doc' path s : addq x doc doc' -> check_reference E doc path s = None -> check_reference E doc' path s = None.
Proof.
  intros H. unfold check_reference. destruct (resolve doc s) as [o p| |e] eqn:Er; [| |discriminate].
  - intros Hc. assert (Hr := add_resolve x doc doc' s H). rewrite Er in Hr. specialize (Hr ltac:(discriminate)). inversion Hr as [? o' ? Ho| |]; subst.
    rewrite <- (shape_name _ _ (add_shape _ _ _ Ho)). exact Hc.
  - intros _. assert (Hr := add_resolve x doc doc' s H). rewrite Er in Hr. specialize (Hr ltac:(discriminate)). inversion Hr. reflexivity.
Qed.
Lemma in_middle {X} (a : X) l1 b b' l2 : In a (l1 ++ b' :: l2) -> a = b' \/ In a (l1 ++ b :: l2).
Proof. intros H. apply in_app_or in H as [H|[H|H]]; [right; apply in_or_app; auto|left; auto|right; apply in_or_app; right; right; exact H]. Qed.
Lemma middle_in {X} (l1 : list X) b l2 : In b (l1 ++ b :: l2).
Proof. apply in_or_app. right. left. reflexivity. Qed.
Lemma add_parts_visited x v v' : entry_added x v v' -> forall t y', has_part v' t y' -> (y' = x \/ exists y, has_part v t y /\ addq x y y').
Proof.
  intros H t y' Hy. destruct H as [c d1 d2 k0 Hn|l1 v v' l2 H|d1 k0 v v' d2 H|c d1 k0 v v' d2 H|c d1 k0 v v' d2 ex H|c fv d1 k0 v v' d2 H].
  - apply has_part_root in Hy as (k & Hi & ->). apply in_app_or in Hi as [Hi|[Hi|Hi]].
    + right. exists y'. split; [apply has_part_root; exists k; split; [apply in_or_app; auto|reflexivity]|left; reflexivity].
    + injection Hi as _ ->. left. reflexivity.
    + right. exists y'. split; [apply has_part_root; exists k; split; [apply in_or_app; auto|reflexivity]|left; reflexivity].
  - right. apply has_part_list in Hy as (i & Hi & ->). destruct (Nat.lt_trichotomy i (length l1)) as [Hl|[Hl|Hl]].
    + rewrite nth_error_app1 in Hi by exact Hl. exists y'. split; [|left; reflexivity]. apply has_part_list. exists i. rewrite nth_error_app1 by exact Hl. auto.
    + subst i. rewrite nth_error_app2, Nat.sub_diag in Hi by lia. injection Hi as <-. exists v. split; [|right; exact H].
      apply has_part_list. exists (length l1). rewrite nth_error_app2, Nat.sub_diag by lia. auto.
    + rewrite nth_error_app2 in Hi by lia. exists y'. split; [|left; reflexivity]. apply has_part_list. exists i. rewrite nth_error_app2 by lia.
      replace (i - length l1) with (S (i - length l1 - 1)) in * by lia. auto.
  - right. apply has_part_dict in Hy as (k & Hi & ->). apply (in_middle _ _ (k0, v)) in Hi as [Hi|Hi].
    + injection Hi as -> ->. exists v. split; [apply has_part_dict; exists k0; split; [apply middle_in|reflexivity]|right; exact H].
    + exists y'. split; [apply has_part_dict; eauto|left; reflexivity].
  - right. apply has_part_root in Hy as (k & Hi & ->). apply (in_middle _ _ (k0, v)) in Hi as [Hi|Hi].
    + injection Hi as -> ->. exists v. split; [apply has_part_root; exists k0; split; [apply middle_in|reflexivity]|right; exact H].
    + exists y'. split; [apply has_part_root; eauto|left; reflexivity].
  - right. apply has_part_obj in Hy as (k & Hi & Hn & Hx & ->). apply (in_middle _ _ (k0, v)) in Hi as [Hi|Hi].
    + injection Hi as -> ->. exists v. split; [|right; exact H]. apply has_part_obj. exists k0. rewrite (shape_none _ _ (add_shape x v v' (or_intror H))).
      split; [apply middle_in|auto].
    + exists y'. split; [apply has_part_obj; exists k; auto|left; reflexivity].
  - right. apply has_part_obj in Hy as (k & Hi & Hn & Hx & ->). exists y'. split; [apply has_part_obj; exists k; auto|left; reflexivity].
Qed.
Lemma add_check x E doc doc' : addq x doc doc' -> (forall path, check E doc' x path = None) -> forall v v' path, addq x v v' -> check E doc v path = None -> check E doc' v' path = None.
Proof.
  intros Hdoc Hx v. induction v as [v IH] using kids_ind. intros v' path H. assert (Hr := add_ref _ _ _ H).
  destruct (as_reference v) as [s|] eqn:Es.
  - rewrite !check_kids, <- Hr, Es. intros Hc. destruct (check_reference E doc path s) eqn:Ec; [discriminate Hc|]. rewrite (add_check_reference _ _ _ _ _ _ Hdoc Ec). reflexivity.
  - rewrite (check_parts _ _ _ _ Es), (check_parts _ _ _ _ (eq_sym Hr)). intros Hc t y' Hy. destruct H as [<-|H].
    + destruct Hy as [i Hi]. apply (IH _ _ _ Hi); [left; reflexivity|]. apply Hc. exists i. exact Hi.
    + destruct (add_parts_visited _ _ _ H _ _ Hy) as [->|(y & [i Hi] & Hyy)]; [apply Hx|]. apply (IH _ _ _ Hi); [exact Hyy|]. apply Hc. exists i. exact Hi.
Qed.
