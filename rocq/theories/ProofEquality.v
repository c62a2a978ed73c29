(** Equality of values. *)
From Coq Require Import Permutation.
From Verif Require Import PyStr Regex Value Types Rules Pydantic ClassTable Classes Canon Fix Linked SpecParse ProofRules ProofParse
  State SpecState ProofState Resolve SpecResolve ProofResolve Unified SpecUnified ProofUnified ProofCheck ProofOrder Dump Equality SpecEquality.

Section S.
Context (fnum : pystr -> Z + pystr).
Local Notation eqb := (py_eq fnum).
Local Notation eqp := (equal fnum).

Lemma num_eqb_eq a b : num_eqb a b = true <-> a = b.
Proof.
  destruct a, b; cbn [num_eqb]; try (split; discriminate).
  - rewrite Z.eqb_eq. split; congruence.
  - rewrite str_eqb_eq. split; congruence.
Qed.
Lemma number_iff v n : number fnum v = Some n <-> value_of fnum v n.
Proof.
  split.
  - destruct v as [|[]| | | | | | | | | |]; cbn [number]; intros H; try discriminate H; injection H as <-; constructor.
  - destruct 1; reflexivity.
Qed.
Lemma list_eq_iff (eq : pv -> pv -> bool) (R : pv -> pv -> Prop) l : forall l', (forall x y, In x l -> In y l' -> (eq x y = true <-> R x y)) -> (list_eq eq l l' = true <-> Forall2 R l l').
Proof.
  induction l as [|x l IH]; intros [|y l'] H; cbn [list_eq]; try (split; [discriminate|inversion 1]).
  - split; [constructor|reflexivity].
  - rewrite andb_true_iff, (H x y), (IH l') by (try (left; reflexivity); intros a b Ha Hb; apply H; right; assumption). split; [intros []; constructor; assumption|inversion 1; auto].
Qed.
Lemma entries_eq_iff (eq : pv -> pv -> bool) e d : entries_eq eq e d = true <-> forall k x, In (k, x) d -> exists y, assoc k e = Some y /\ eq x y = true.
Proof.
  induction d as [|[k x] d IH]; cbn [entries_eq]; [split; [intros _ k x []|reflexivity]|]. rewrite andb_true_iff, IH. split.
  - intros [H1 H2] k' x' [Heq|Hi]; [|apply H2; exact Hi]. injection Heq as <- <-. destruct (assoc k e) as [y|]; [eauto|discriminate H1].
  - intros H. split; [|intros k' x' Hi; apply H; right; exact Hi]. destruct (H k x (or_introl eq_refl)) as (y & -> & Hy). exact Hy.
Qed.
Lemma dict_eq_iff (eq : pv -> pv -> bool) (R : pv -> pv -> Prop) d d' : NoDup (map fst d) -> NoDup (map fst d') ->
  (forall k x k' y, In (k, x) d -> In (k', y) d' -> (eq x y = true <-> R x y)) -> (dict_eq eq d d' = true <-> like_entries R d d').
Proof.
  intros N1 N2 HR. unfold dict_eq. rewrite andb_true_iff, Nat.eqb_eq, entries_eq_iff. split.
  - intros [Hl H]. assert (Hin : incl (map fst d) (map fst d')).
    { intros k Hk. apply in_map_iff in Hk as ([k' x] & <- & Hi). destruct (H k' x Hi) as (y & Hy & _). eapply assoc_Some_key. exact Hy. }
    split.
    + intros k. split; [apply Hin|]. apply (NoDup_length_incl N1); [rewrite !map_length; lia|exact Hin].
    + intros k x x' Hx Hx'. destruct (H k x Hx) as (y & Hy & He). apply (In_assoc _ _ _ N2) in Hx'. rewrite Hy in Hx'. injection Hx' as <-.
      apply (HR k x k y Hx (assoc_In _ _ _ Hy)). exact He.
  - intros [Hk HE]. split.
    + rewrite <- (map_length fst d), <- (map_length fst d'). apply Nat.le_antisymm; apply NoDup_incl_length; try assumption; intros k; apply Hk.
    + intros k x Hx. assert (Hi := in_map fst _ _ Hx). apply Hk in Hi. apply in_map_iff in Hi as ([k' y] & Heq & Hy). cbn [fst] in Heq. subst k'.
      exists y. split; [apply In_assoc; assumption|]. apply (HR k x k y Hx Hy). exact (HE k x y Hx Hy).
Qed.
Lemma pd_list l x : python_dicts (VList l) -> In x l -> python_dicts x.
Proof. intros H Hi. eapply python_sub; [exact H|]. eapply w_list; [exact Hi|constructor]. Qed.
Lemma pd_dict d k x : python_dicts (VDict d) -> In (k, x) d -> python_dicts x.
Proof. intros H Hi. eapply python_sub; [exact H|]. eapply w_dict; [exact Hi|constructor]. Qed.
Lemma pd_root c d k x : python_dicts (VRoot c d) -> In (k, x) d -> python_dicts x.
Proof. intros H Hi. eapply python_sub; [exact H|]. eapply w_root; [exact Hi|constructor]. Qed.
Lemma pd_field c fv ex k x : python_dicts (VObj c fv ex) -> In (k, x) fv -> python_dicts x.
Proof. intros H Hi. eapply python_sub; [exact H|]. eapply w_field; [exact Hi|constructor]. Qed.
Lemma pd_extra c fv ex k x : python_dicts (VObj c fv ex) -> In (k, x) ex -> python_dicts x.
Proof. intros H Hi. eapply python_sub; [exact H|]. eapply w_extra; [exact Hi|constructor]. Qed.
Lemma string_eqb_iff a b : String.eqb a b = true <-> a = b.
Proof. apply String.eqb_eq. Qed.
Lemma numbers a b : match number fnum a, number fnum b with Some x, Some y => num_eqb x y | _, _ => false end = true <-> exists n, value_of fnum a n /\ value_of fnum b n.
Proof.
  split.
  - destruct (number fnum a) as [x|] eqn:Ea, (number fnum b) as [y|] eqn:Eb; try discriminate. intros H. apply num_eqb_eq in H. subst y. exists x. split; apply number_iff; assumption.
  - intros (n & H1 & H2). apply number_iff in H1, H2. rewrite H1, H2. apply num_eqb_eq. reflexivity.
Qed.
Ltac no_eq := split; [discriminate|intros Heq; inversion Heq; subst; try match goal with H : value_of _ _ _ |- _ => solve [inversion H] end; try match goal with H : ~ _ |- _ => solve [exfalso; apply H; exact I] end].
Lemma py_eq_iff a : forall b, python_dicts a -> python_dicts b -> (eqb a b = true <-> eqp a b).
Proof.
  induction a using pv_ind'; intros w Ha Hb.
  all: destruct w; try (cbn [py_eq]; no_eq; fail).
  all: try (cbn [py_eq]; rewrite numbers; split; [intros (n & H1 & H2); eapply eq_number; eassumption|intros Heq; inversion Heq; subst; eauto; exfalso; match goal with H : ~ numeric _ |- _ => apply H; exact I end]).
  all: try (cbn [py_eq]; rewrite str_eqb_eq; split; [intros <-; apply eq_same; intros []|intros Heq; inversion Heq; subst; try reflexivity; match goal with H : value_of _ _ _ |- _ => inversion H end]).
  - cbn [py_eq]. split; [intros _; apply eq_same; intros []|reflexivity].
  - cbn [py_eq]. rewrite (list_eq_iff eqb eqp).
    + split; [apply eq_list|intros Heq; inversion Heq; subst; try assumption; [match goal with H : value_of _ _ _ |- _ => inversion H end|exfalso; match goal with H : ~ container _ |- _ => apply H; exact I end]].
    + rewrite Forall_forall in H. intros x y Hx Hy. apply H; [exact Hx|exact (pd_list _ _ Ha Hx)|exact (pd_list _ _ Hb Hy)].
  - cbn [py_eq]. rewrite (dict_eq_iff eqb eqp); [|exact (Ha _ (w_self _))|exact (Hb _ (w_self _))|].
    + split; [apply eq_dict|intros Heq; inversion Heq; subst; try assumption; [match goal with H : value_of _ _ _ |- _ => inversion H end|exfalso; match goal with H : ~ container _ |- _ => apply H; exact I end]].
    + rewrite Forall_forall in H. intros k x k' y Hx Hy. apply (H (k, x) Hx); [exact (pd_dict _ _ _ Ha Hx)|exact (pd_dict _ _ _ Hb Hy)].
  - destruct (Ha _ (w_self _)) as [A1 A2], (Hb _ (w_self _)) as [B1 B2]. rewrite Forall_forall in H, H0. cbn [py_eq]. rewrite !andb_true_iff, string_eqb_iff, !(dict_eq_iff eqb eqp); try assumption.
    + split; [intros [[-> H1] H2]; apply eq_obj; assumption|intros Heq; inversion Heq; subst; auto; [match goal with H : value_of _ _ _ |- _ => inversion H end|exfalso; match goal with H : ~ container _ |- _ => apply H; exact I end]].
    + intros k x k' y Hx Hy. apply (H0 (k, x) Hx); [exact (pd_extra _ _ _ _ _ Ha Hx)|exact (pd_extra _ _ _ _ _ Hb Hy)].
    + intros k x k' y Hx Hy. apply (H (k, x) Hx); [exact (pd_field _ _ _ _ _ Ha Hx)|exact (pd_field _ _ _ _ _ Hb Hy)].
  - cbn [py_eq]. rewrite andb_true_iff, string_eqb_iff, (dict_eq_iff eqb eqp); [|exact (Ha _ (w_self _))|exact (Hb _ (w_self _))|].
    + split; [intros [-> H1]; apply eq_root; assumption|intros Heq; inversion Heq; subst; auto; [match goal with H : value_of _ _ _ |- _ => inversion H end|exfalso; match goal with H : ~ container _ |- _ => apply H; exact I end]].
    + rewrite Forall_forall in H. intros k x k' y Hx Hy. apply (H (k, x) Hx); [exact (pd_root _ _ _ _ Ha Hx)|exact (pd_root _ _ _ _ Hb Hy)].
Qed.

(** ** An equivalence *)
Lemma nodup_fun (d : fields) k x y : NoDup (map fst d) -> In (k, x) d -> In (k, y) d -> x = y.
Proof. intros N H1 H2. apply (In_assoc _ _ _ N) in H1, H2. congruence. Qed.
Lemma like_refl (R : pv -> pv -> Prop) d : NoDup (map fst d) -> (forall k x, In (k, x) d -> R x x) -> like_entries R d d.
Proof. intros N H. split; [reflexivity|]. intros k x x' Hx Hx'. rewrite <- (nodup_fun _ _ _ _ N Hx Hx'). eapply H. exact Hx. Qed.
Lemma value_total v : numeric v -> exists n, value_of fnum v n.
Proof. destruct v as [|[]| | | | | | | | | |]; intros []; eexists; constructor. Qed.
Lemma eq_refl_ a : python_dicts a -> eqp a a.
Proof.
  induction a using pv_ind'; intros Ha; try (apply eq_same; intros []; fail).
  1-3: match goal with |- equal _ ?v _ => destruct (value_total v I) as [n Hn]; eapply eq_number; exact Hn end.
  - apply eq_list. rewrite Forall_forall in H. assert (Hx : forall x, In x l -> eqp x x) by (intros x Hi; apply H; [exact Hi|exact (pd_list _ _ Ha Hi)]).
    clear -Hx. induction l as [|x l IH]; constructor; [apply Hx; left; reflexivity|apply IH; intros y Hy; apply Hx; right; exact Hy].
  - rewrite Forall_forall in H. apply eq_dict. apply like_refl; [exact (Ha _ (w_self _))|]. intros k x Hi. apply (H (k, x) Hi). exact (pd_dict _ _ _ Ha Hi).
  - rewrite Forall_forall in H, H0. destruct (Ha _ (w_self _)) as [A1 A2]. apply eq_obj; apply like_refl; try assumption.
    + intros k x Hi. apply (H (k, x) Hi). exact (pd_field _ _ _ _ _ Ha Hi).
    + intros k x Hi. apply (H0 (k, x) Hi). exact (pd_extra _ _ _ _ _ Ha Hi).
  - rewrite Forall_forall in H. apply eq_root. apply like_refl; [exact (Ha _ (w_self _))|]. intros k x Hi. apply (H (k, x) Hi). exact (pd_root _ _ _ _ Ha Hi).
Qed.
Lemma like_sym (R : pv -> pv -> Prop) d d' : like_entries R d d' -> (forall k x y, In (k, x) d -> R x y -> R y x) -> like_entries R d' d.
Proof. intros [Hk H] HR. split; [intros k; symmetry; apply Hk|]. intros k x x' Hx Hx'. eapply HR; [exact Hx'|]. eapply H; eassumption. Qed.
Lemma eq_sym_ a : forall b, eqp a b -> eqp b a.
Proof.
  induction a using pv_ind'; intros w Hab; inversion Hab; subst; try (eapply eq_number; eassumption); try (apply eq_same; assumption).
  - apply eq_list. rewrite Forall_forall in H. match goal with HF : Forall2 _ _ _ |- _ => clear Hab; revert H; induction HF as [|x y l l' Hxy HF IH]; intros H; constructor end;
      [apply H; [left; reflexivity|exact Hxy]|apply IH; intros z Hz; apply H; right; exact Hz].
  - rewrite Forall_forall in H. apply eq_dict. apply like_sym; [assumption|]. intros k x y Hi. apply (H (k, x) Hi).
  - rewrite Forall_forall in H, H0. apply eq_obj; apply like_sym; try assumption; intros k x y Hi; [apply (H (k, x) Hi)|apply (H0 (k, x) Hi)].
  - rewrite Forall_forall in H. apply eq_root. apply like_sym; [assumption|]. intros k x y Hi. apply (H (k, x) Hi).
Qed.
Lemma like_trans (R : pv -> pv -> Prop) d e f : like_entries R d e -> like_entries R e f -> (forall k x y z, In (k, x) d -> R x y -> R y z -> R x z) -> like_entries R d f.
Proof.
  intros [K1 H1] [K2 H2] HR. split; [intros k; rewrite K1; apply K2|]. intros k x z Hx Hz. assert (Hi := in_map fst _ _ Hx). apply K1 in Hi. apply in_map_iff in Hi as ([k' y] & Heq & Hy).
  cbn [fst] in Heq. subst k'. eapply HR; [exact Hx|eapply H1; eassumption|eapply H2; eassumption].
Qed.
Lemma value_fun v n m : value_of fnum v n -> value_of fnum v m -> n = m.
Proof. intros H1 H2. apply number_iff in H1, H2. congruence. Qed.
Lemma value_numeric v n : value_of fnum v n -> numeric v.
Proof. destruct 1; exact I. Qed.
Ltac absurd_eq :=
  match goal with
  | H : value_of _ _ _ |- _ => solve [inversion H]
  | H : ~ numeric ?v, H1 : value_of _ ?v _ |- _ => solve [destruct (H (value_numeric _ _ H1))]
  | H : ~ container _ |- _ => solve [destruct (H I)]
  | H : ~ numeric _ |- _ => solve [destruct (H I)]
  end.
Lemma eq_trans_ a : forall b c, eqp a b -> eqp b c -> eqp a c.
Proof.
  induction a using pv_ind'; intros w w' Hab Hbd.
  all: inversion Hab; subst; try absurd_eq; try exact Hbd.
  all: inversion Hbd; subst; try absurd_eq.
  all: try match goal with H1 : value_of _ ?v _, H2 : value_of _ ?v _ |- _ => rewrite <- (value_fun _ _ _ H1 H2) in *; eapply eq_number; eassumption end.
  all: try (exfalso; match goal with H : value_of _ ?v _, H1 : ~ numeric ?v |- _ => exact (H1 (value_numeric _ _ H)) end).
  - apply eq_list. rewrite Forall_forall in H. clear Hab Hbd. repeat match goal with HF : Forall2 _ _ _ |- _ => revert HF end. revert l'0. rename l' into m. revert m.
    induction l as [|x l IH]; intros m n F1 F2; [inversion F1; subst; inversion F2; subst; constructor|]. inversion F1 as [|? ? ? ? Hx F1']; subst; inversion F2 as [|? ? ? ? Hy F2']; subst; constructor.
    + eapply H; [left; reflexivity|exact Hx|exact Hy].
    + eapply IH; [|exact F1'|exact F2']. intros z Hz. apply H. right. exact Hz.
  - rewrite Forall_forall in H. apply eq_dict. eapply like_trans; [eassumption|eassumption|]. intros k x y z Hi. apply (H (k, x) Hi).
  - rewrite Forall_forall in H, H0. apply eq_obj; (eapply like_trans; [eassumption|eassumption|]); intros k x y z Hi; [apply (H (k, x) Hi)|apply (H0 (k, x) Hi)].
  - rewrite Forall_forall in H. apply eq_root. eapply like_trans; [eassumption|eassumption|]. intros k x y z Hi. apply (H (k, x) Hi).
Qed.

(** ** Equal documents look the same to the validators *)
Lemma like_assoc (R : pv -> pv -> Prop) k d d' : NoDup (map fst d) -> NoDup (map fst d') -> like_entries R d d' -> opt_rel R (assoc k d) (assoc k d').
Proof.
  intros N N' [Hk H]. destruct (assoc k d) as [x|] eqn:E1, (assoc k d') as [y|] eqn:E2; cbn [opt_rel]; try exact I.
  - eapply H; apply assoc_In; eassumption.
  - apply assoc_None in E2. apply E2, Hk. eapply assoc_Some_key. exact E1.
  - apply assoc_None in E1. apply E1, Hk. eapply assoc_Some_key. exact E2.
Qed.
(** what the checks see of two equal values *)
Inductive alike : pv -> pv -> Prop :=
| al_num v v' : numeric v -> numeric v' -> alike v v'
| al_shape v v' : shape v v' -> alike v v'.
Lemma eq_alike v v' : eqp v v' -> alike v v'.
Proof. destruct 1; try (apply al_shape; constructor; fail). apply al_num; eapply value_numeric; eassumption. Qed.
Lemma alike_none v v' : alike v v' -> is_none v = is_none v'.
Proof. destruct 1 as [v v' H H'|v v' H]; [destruct v, v'; try destruct H; try destruct H'; reflexivity|apply shape_none; exact H]. Qed.
Lemma alike_ref c fv fv' ex ex' : opt_rel alike (assoc (u "ref") fv) (assoc (u "ref") fv') -> as_reference (VObj c fv ex) = as_reference (VObj c fv' ex').
Proof.
  intros H. cbn [as_reference]. destruct (String.eqb c "Reference"); [|reflexivity].
  destruct (assoc (u "ref") fv) as [x|], (assoc (u "ref") fv') as [y|]; try contradiction; [|reflexivity]. cbn [opt_rel] in H.
  destruct H as [x y H H'|x y H]; [destruct x, y; try destruct H; try destruct H'; reflexivity|destruct H; reflexivity].
Qed.
Lemma eq_ref v v' : python_dicts v -> python_dicts v' -> eqp v v' -> as_reference v = as_reference v'.
Proof.
  intros Hd Hd' H. destruct H as [v v' n H H'|v Hn Hc|l l' H|d d' H|c d d' H|c fv fv' ex ex' H He]; try reflexivity.
  - destruct H, H'; reflexivity.
  - apply alike_ref. eapply opt_mono; [exact eq_alike|]. apply like_assoc; [exact (proj1 (Hd _ (w_self _)))|exact (proj1 (Hd' _ (w_self _)))|exact H].
Qed.
Lemma eq_part v v' k : python_dicts v -> python_dicts v' -> eqp v v' -> opt_rel eqp (resolve_part v k) (resolve_part v' k).
Proof.
  intros Hd Hd' H. assert (Hown := Hd v (w_self v)). assert (Hown' := Hd' v' (w_self v')).
  destruct H as [v v' n H H'|v Hn Hc|l l' H|d d' H|c d d' H|c fv fv' ex ex' H He].
  - destruct H, H'; exact I.
  - destruct v; try exact I; destruct (Hc I).
  - exact I.
  - cbn [resolve_part root_mapping]. apply like_assoc; assumption.
  - cbn [resolve_part root_mapping]. apply like_assoc; assumption.
  - destruct Hown as [Nf Nx]. destruct Hown' as [Nf' Nx'].
    assert (Hr := like_assoc eqp (u "root") ex ex' Nx Nx' He).
    assert (Hf : opt_rel eqp
      (match find_field_name k (class_infos c) with Some name => match attr name fv with VNone => None | x => Some x end | None => None end)
      (match find_field_name k (class_infos c) with Some name => match attr name fv' with VNone => None | x => Some x end | None => None end)).
    { generalize (find_field_name k (class_infos c)). intros [name|]; [|exact I]. unfold attr. assert (Ha := like_assoc eqp name fv fv' Nf Nf' H).
      destruct (assoc name fv) as [x|], (assoc name fv') as [y|]; try contradiction; [|exact I]. cbn [opt_rel] in Ha.
      assert (Hs := alike_none _ _ (eq_alike _ _ Ha)). destruct x, y; try discriminate Hs; try exact I; try exact Ha. }
    unfold resolve_part. cbn [root_mapping].
    destruct (assoc (u "root") ex) as [x|] eqn:E1, (assoc (u "root") ex') as [y|] eqn:E2; cbn [opt_rel] in Hr; try contradiction; [|exact Hf].
    assert (Hxd : python_dicts x) by (eapply pd_extra; [exact Hd|apply assoc_In; exact E1]).
    assert (Hyd : python_dicts y) by (eapply pd_extra; [exact Hd'|apply assoc_In; exact E2]).
    destruct Hr as [x y n H1 H2|x Hn Hc|l l' Hl|d d' Hd1|c0 d d' Hd1|c0 ? ? ? ? Hd1 Hd2]; try exact Hf.
    + destruct H1, H2; exact Hf.
    + destruct x; try exact Hf; destruct (Hc I).
    + apply like_assoc; [exact (Hxd _ (w_self _))|exact (Hyd _ (w_self _))|exact Hd1].
Qed.
Lemma eq_parts parts : forall v v' path, python_dicts v -> python_dicts v' -> eqp v v' ->
  opt_rel (fun a b => (python_dicts (fst a) /\ python_dicts (fst b) /\ eqp (fst a) (fst b)) /\ snd a = snd b) (resolve_parts v path parts) (resolve_parts v' path parts).
Proof.
  induction parts as [|p parts IH]; intros v v' path Hd Hd' H; [split; [auto|reflexivity]|]. cbn [resolve_parts].
  destruct p as [|c p]; [apply IH; assumption|]. assert (Hp := eq_part v v' (c :: p) Hd Hd' H). assert (Hw := fun w => part_within v (c :: p) w). assert (Hw' := fun w => part_within v' (c :: p) w).
  destruct (resolve_part v (c :: p)) as [w|], (resolve_part v' (c :: p)) as [w'|]; cbn [opt_rel] in Hp; try contradiction; [|exact I].
  apply IH; [eapply python_sub; [exact Hd|apply Hw; reflexivity]|eapply python_sub; [exact Hd'|apply Hw'; reflexivity]|exact Hp].
Qed.
Definition pd_eq (v v' : pv) : Prop := python_dicts v /\ python_dicts v' /\ eqp v v'.
Lemma eq_fuel doc doc' : pd_eq doc doc' -> forall n visited s, opt_rel (res_rel pd_eq) (resolve_fuel n doc visited s) (resolve_fuel n doc' visited s).
Proof.
  intros (Hd & Hd' & H). induction n as [|n IH]; intros visited s; [exact I|]. cbn [resolve_fuel].
  destruct (mem_str s visited); [constructor|]. destruct (is_external s); [constructor|]. destruct (parse_ref s) as [e|parts]; [constructor|].
  assert (Hp := eq_parts parts doc doc' (u "spec") Hd Hd' H).
  destruct (resolve_parts doc (u "spec") parts) as [[v p]|], (resolve_parts doc' (u "spec") parts) as [[v' p']|]; cbn [opt_rel fst snd] in Hp; try contradiction; [|constructor].
  destruct Hp as [(V1 & V2 & Hv) ->]. rewrite <- (eq_ref _ _ V1 V2 Hv). destruct (as_reference v); [apply IH|]. constructor. split; auto.
Qed.
Lemma eq_resolve doc doc' s : pd_eq doc doc' -> res_rel pd_eq (resolve doc s) (resolve doc' s).
Proof.
  intros H. destruct (resolve_big doc doc' s) as (n & H1 & H2). assert (Hf := eq_fuel doc doc' H n [] s). rewrite H1, H2 in Hf. exact Hf.
Qed.
End S.
