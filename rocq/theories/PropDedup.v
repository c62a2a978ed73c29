(** C106: sets of References are sets of strings, as long as nothing is assigned to their members. *)
From Verif Require Import PyStr Regex Value Types Rules Pydantic ClassTable Classes Canon Fix Linked SpecParse Sample ProofRules ProofParse
  State SpecState ProofState PropState Resolve SpecResolve Equality SpecEquality ProofEquality PropEquality Dedup SpecDedup.
Local Open Scope string_scope.

Definition ref_obj (s : pystr) : pv := VObj "Reference" [(u "ref", VStr s)] [].
Lemma ref_assigned E s x : exists s', snd (assign E (fun o => (true, o)) (ref_obj s) (u "ref") x) = ref_obj s'.
Proof. destruct x; eexists; vm_compute; reflexivity. Qed.
Lemma is_ref_obj s s' : is_reference (ref_obj s) s' -> s' = s.
Proof. intros (fv & ex & Heq & Ha). injection Heq as <- <-. cbn [assoc] in Ha. rewrite str_eqb_refl in Ha. congruence. Qed.
Lemma obj_is_ref s : is_reference (ref_obj s) s.
Proof. eexists _, _. split; [reflexivity|]. cbn [assoc]. rewrite str_eqb_refl. reflexivity. Qed.
Lemma ref_eq fnum s s' : py_eq fnum (ref_obj s) (ref_obj s') = str_eqb s s'.
Proof. unfold ref_obj. cbn [py_eq]. unfold dict_eq, entries_eq. cbn [length Nat.eqb assoc]. rewrite str_eqb_refl. cbn [py_eq]. rewrite !andb_true_r. reflexivity. Qed.
Lemma ref_hash h s : reference_hash h (ref_obj s) = Some (h s).
Proof. reflexivity. Qed.
Section S.
Context (fnum : pystr -> Z + pystr) (h : pystr -> Z) (E : env).
Definition stands_for (st : store) (e : entry) (s : pystr) : Prop := st (snd e) = ref_obj s /\ fst e = Some (h s).
Lemma same_key_iff st l s e s' : st l = ref_obj s -> stands_for st e s' -> (same_key fnum h st l e = true <-> s' = s).
Proof.
  intros Hl [He Hh]. unfold same_key. rewrite Hl, Hh, He, ref_hash, ref_eq. cbn [hash_eqb]. split.
  - intros H. apply andb_prop in H as [_ H]. apply orb_prop in H as [H|H]; [|apply str_eqb_eq; exact H]. apply Nat.eqb_eq in H. rewrite H, Hl in He. injection He as ->. reflexivity.
  - intros ->. rewrite Z.eqb_refl, str_eqb_refl, orb_true_r. reflexivity.
Qed.
Lemma contains_iff st es S l s : Forall2 (stands_for st) es S -> st l = ref_obj s -> (contains fnum h st es l = true <-> In s S).
Proof.
  intros H Hl. unfold contains. induction H as [|e s' es S He H IH]; cbn [existsb In]; [split; [discriminate|intros []]|].
  rewrite orb_true_iff, IH, (same_key_iff st l s e s' Hl He). reflexivity.
Qed.
Lemma discard_there st es S1 S2 l s : Forall2 (stands_for st) es (S1 ++ s :: S2)%list -> st l = ref_obj s -> ~ In s S1 -> Forall2 (stands_for st) (discard fnum h st es l) (S1 ++ S2)%list.
Proof.
  intros H Hl. revert es H. induction S1 as [|a S1 IH]; intros es H Hn; inversion H as [|e s' es' S He Hr]; subst; cbn [discard app].
  - rewrite (proj2 (same_key_iff st l s e s Hl He) eq_refl). exact Hr.
  - destruct (same_key fnum h st l e) eqn:Ek; [apply (same_key_iff st l s e a Hl He) in Ek; subst a; destruct (Hn (or_introl eq_refl))|]. constructor; [exact He|]. apply IH; [exact Hr|]. intros Hi. apply Hn. right. exact Hi.
Qed.
Lemma discard_absent st es S l s : Forall2 (stands_for st) es S -> st l = ref_obj s -> ~ In s S -> discard fnum h st es l = es.
Proof.
  intros H Hl. induction H as [|e s' es S He H IH]; intros Hn; [reflexivity|]. cbn [discard]. destruct (same_key fnum h st l e) eqn:Ek; [apply (same_key_iff st l s e s' Hl He) in Ek; subst s'; destruct (Hn (or_introl eq_refl))|].
  f_equal. apply IH. intros Hi. apply Hn. right. exact Hi.
Qed.
Lemma run_snoc w os o : run fnum h E w (os ++ [o])%list = step fnum h E (run fnum h E w os) o.
Proof. unfold run. rewrite fold_left_app. reflexivity. Qed.
Lemma in_split_first (s : pystr) S : In s S -> exists S1 S2, S = (S1 ++ s :: S2)%list /\ ~ In s S1.
Proof.
  induction S as [|a S IH]; intros []; [subst a; exists [], S; auto|]. destruct (str_eqb s a) eqn:Ea; [apply str_eqb_eq in Ea; subst a; exists [], S; auto|].
  destruct (IH H) as (S1 & S2 & -> & Hn). exists (a :: S1), S2. split; [reflexivity|]. intros [Hi|Hi]; [subst a; rewrite str_eqb_refl in Ea; discriminate Ea|exact (Hn Hi)].
Qed.
Lemma invariant st os : (forall l, exists s, st l = ref_obj s) -> left_alone fnum h E (st, []) os ->
  (forall l, exists s, fst (run fnum h E (st, []) os) l = ref_obj s) /\
  exists S, strings_after fnum h E (st, []) os S /\ NoDup S /\ Forall2 (stands_for (fst (run fnum h E (st, []) os))) (snd (run fnum h E (st, []) os)) S.
Proof.
  intros Hst. induction os as [|o os IH] using rev_ind; intros Hla.
  - split; [exact Hst|]. exists []. split; [constructor|]. split; [constructor|constructor].
  - destruct IH as [Hr (S & HS & Hnd & HF)].
    { intros pre l x post ->. apply (Hla pre l x (post ++ [o])%list). rewrite <- app_assoc. reflexivity. }
    rewrite run_snoc. set (w := run fnum h E (st, []) os) in *. destruct o as [l|l|l x]; cbn [step fst snd].
    + split; [exact Hr|]. destruct (Hr l) as [s Hs]. unfold add. destruct (contains fnum h (fst w) (snd w) l) eqn:Ec.
      * exists S. split; [|auto]. apply (sa_old _ _ _ _ os S l s HS); [fold w; rewrite Hs; apply obj_is_ref|]. apply (contains_iff _ _ _ _ _ HF Hs). exact Ec.
      * assert (Hn : ~ In s S) by (intros Hi; apply (contains_iff _ _ _ _ _ HF Hs) in Hi; congruence). exists (S ++ [s])%list. split; [apply sa_new; [exact HS|fold w; rewrite Hs; apply obj_is_ref|exact Hn]|]. split.
        -- apply NoDup_rev in Hnd. rewrite <- (rev_involutive (S ++ [s])). apply NoDup_rev. rewrite rev_app_distr. cbn [rev app]. constructor; [rewrite <- in_rev; exact Hn|exact Hnd].
        -- apply Forall2_app; [exact HF|]. constructor; [|constructor]. split; [exact Hs|]. cbn [fst]. rewrite Hs. apply ref_hash.
    + split; [exact Hr|]. destruct (Hr l) as [s Hs]. destruct (contains fnum h (fst w) (snd w) l) eqn:Ec.
      * apply (contains_iff _ _ _ _ _ HF Hs) in Ec. apply in_split_first in Ec as (S1 & S2 & -> & Hn). exists (S1 ++ S2)%list. split; [eapply sa_discard; [exact HS|fold w; rewrite Hs; apply obj_is_ref|reflexivity]|].
        split; [apply NoDup_remove_1 in Hnd; exact Hnd|]. exact (discard_there _ _ _ _ _ _ HF Hs Hn).
      * assert (Hn : ~ In s S) by (intros Hi; apply (contains_iff _ _ _ _ _ HF Hs) in Hi; congruence). exists S. split; [eapply sa_absent; [exact HS|fold w; rewrite Hs; apply obj_is_ref|exact Hn]|]. split; [exact Hnd|].
        rewrite (discard_absent _ _ _ _ _ HF Hs Hn). exact HF.
    + assert (Hx := Hla os l x [] eq_refl). fold w in Hx. split.
      * intros l'. unfold assign_ref. destruct (Nat.eqb l' l); [|apply Hr]. destruct (Hr l) as [s Hs]. rewrite Hs. apply ref_assigned.
      * exists S. split; [apply sa_assign; exact HS|]. split; [exact Hnd|]. clear -HF Hx. revert HF Hx. generalize (snd w). intros es0 HF Hx. induction HF as [|e s es S [He Hh] HF IH]; [constructor|]. cbn [map In] in Hx. constructor; [|apply IH; tauto].
        split; [|exact Hh]. unfold assign_ref. destruct (Nat.eqb_spec (snd e) l) as [Heq|_]; [destruct (Hx (or_introl Heq))|exact He].
Qed.
Lemma members_named st es S : Forall2 (stands_for st) es S -> Forall2 (fun e s => is_reference (st (snd e)) s) es S.
Proof. induction 1 as [|e s es S [He _] HF IH]; constructor; [rewrite He; apply obj_is_ref|exact IH]. Qed.
(** ** C106 *)
(** Whatever is done, a Reference is found in the set exactly if its string is among the strings put in and not taken out, and there is one member for each such string. *)
Theorem c106_strings_partial st os : all_references E st -> left_alone fnum h E (st, []) os ->
  exists S, strings_after fnum h E (st, []) os S /\ NoDup S
    /\ Forall2 (fun e s => is_reference (fst (run fnum h E (st, []) os) (snd e)) s) (snd (run fnum h E (st, []) os)) S
    /\ forall l s, is_reference (fst (run fnum h E (st, []) os) l) s -> (contains fnum h (fst (run fnum h E (st, []) os)) (snd (run fnum h E (st, []) os)) l = true <-> In s S).
Proof.
  intros Hst Hla. destruct (invariant st os) as (Hr & S & HS & Hnd & HF); [intros l; exact (ref_form E _ (Hst l))|exact Hla|]. exists S. split; [exact HS|]. split; [exact Hnd|]. split.
  - exact (members_named _ _ _ HF).
  - intros l s Hl. destruct (Hr l) as [s' Hs']. assert (Hl' : is_reference (ref_obj s') s) by (rewrite <- Hs'; exact Hl). apply is_ref_obj in Hl'. subst s'. exact (contains_iff _ _ _ _ _ HF Hs').
Qed.
End S.
(** Refuted: without the proviso.  References can be assigned to: a member whose string was changed is in the set but is not found there, and adding it again makes it a member twice. *)
Definition st0 : store := fun _ => ref_obj (u "#/servers/a").
Definition h0 (s : pystr) : Z := match last s 0%N with 97%N => 0 | _ => 1 end.
Definition changed_ops : list op := [OAdd 0; OAssign 0 (VStr (u "#/servers/b")); OAdd 0].
Theorem c106_assigned_refuted : ~ (forall fnum h E st os, all_references E st ->
  NoDup (map snd (snd (run fnum h E (st, []) os))) /\ forall l, In l (map snd (snd (run fnum h E (st, []) os))) -> contains fnum h (fst (run fnum h E (st, []) os)) (snd (run fnum h E (st, []) os)) l = true).
Proof.
  intros H. assert (Hr : all_references E0 st0).
  { intros l. apply (parse_wt E0 T_Reference (VDict [(u "$ref", VStr (u "#/servers/a"))])); [apply wf_all; in_table|vm_compute; reflexivity]. }
  destruct (H (fun s => inr s) h0 E0 st0 changed_ops Hr) as [Hn _]. vm_compute in Hn. inversion Hn as [|? ? Hi _]. apply Hi. left. reflexivity.
Qed.
Theorem c106_lost_refuted : exists st os l, all_references E0 st /\ In l (map snd (snd (run (fun s => inr s) h0 E0 (st, []) os))) /\ contains (fun s => inr s) h0 (fst (run (fun s => inr s) h0 E0 (st, []) os)) (snd (run (fun s => inr s) h0 E0 (st, []) os)) l = false.
Proof.
  exists st0, [OAdd 0; OAssign 0 (VStr (u "#/servers/b"))], 0. split; [|split; [left; reflexivity|vm_compute; reflexivity]].
  intros l. apply (parse_wt E0 T_Reference (VDict [(u "$ref", VStr (u "#/servers/a"))])); [apply wf_all; in_table|vm_compute; reflexivity].
Qed.
(** A history that meets the conditions: two objects with the same string, one of them changed before it is put in, one taken out through the other. *)
Example c106_ex : let os := [OAdd 0; OAdd 1; OAssign 2 (VStr (u "#/servers/b")); OAdd 2; ODiscard 3] in
  all_references E0 st0 /\ left_alone (fun s => inr s) h0 E0 (st0, []) os /\ strings_after (fun s => inr s) h0 E0 (st0, []) os [u "#/servers/b"] /\ map snd (snd (run (fun s => inr s) h0 E0 (st0, []) os)) = [2].
Proof.
  cbv zeta. split; [intros l; apply (parse_wt E0 T_Reference (VDict [(u "$ref", VStr (u "#/servers/a"))])); [apply wf_all; in_table|vm_compute; reflexivity]|]. split; [|split; [|vm_compute; reflexivity]].
  - intros pre l x post H Hi. destruct pre as [|p1 [|p2 [|p3 [|p4 [|p5 pre]]]]]; cbn [app] in H; try discriminate H; try (injection H as <- <- H; discriminate H).
    + injection H as <- <- <- <- _. vm_compute in Hi. destruct Hi as [Hi|[]]; discriminate Hi.
    + injection H as _ _ _ _ _ H. destruct pre; discriminate H.
  - set (R := fun s => is_reference (ref_obj s) s). assert (HR : forall s, R s) by exact obj_is_ref. unfold R in HR. clear R.
    apply (sa_discard _ _ _ _ [OAdd 0; OAdd 1; OAssign 2 (VStr (u "#/servers/b")); OAdd 2] [u "#/servers/a"; u "#/servers/b"] 3 (u "#/servers/a") [] [u "#/servers/b"]); [|exact (HR _)|reflexivity].
    apply (sa_new _ _ _ _ [OAdd 0; OAdd 1; OAssign 2 (VStr (u "#/servers/b"))] [u "#/servers/a"] 2 (u "#/servers/b")); [|exact (HR (u "#/servers/b"))|intros [H|[]]; discriminate H].
    apply (sa_assign _ _ _ _ [OAdd 0; OAdd 1] [u "#/servers/a"]).
    apply (sa_old _ _ _ _ [OAdd 0] [u "#/servers/a"] 1 (u "#/servers/a")); [|exact (HR _)|left; reflexivity].
    apply (sa_new _ _ _ _ [] [] 0 (u "#/servers/a")); [constructor|exact (HR _)|intros []].
Qed.
Print Assumptions c106_strings_partial. Print Assumptions c106_assigned_refuted. Print Assumptions c106_lost_refuted.
