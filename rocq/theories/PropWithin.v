(** Property C60: resolution returns parts of the document; spelling of the pointer. *)
From Verif Require Import PyStr Regex Value Types Rules Pydantic ClassTable Classes Canon Fix Linked SpecParse Sample ProofRules ProofParse
  State SpecState ProofState PropState Resolve SpecResolve ProofResolve PropResolve Dump SpecDump ProofDump PropDump SpecDeep PropDeep.
Local Open Scope string_scope.

Lemma fuel_within doc : forall n visited s o p, resolve_fuel n doc visited s = Some (Resolved o p) -> within o doc /\ forall x, ~ is_reference o x.
Proof.
  induction n as [|n IH]; intros visited s o p H; [discriminate H|]. cbn [resolve_fuel] in H. destruct (mem_str s visited); [discriminate H|]. destruct (is_external s); [discriminate H|].
  destruct (parse_ref s) as [e|parts]; [discriminate H|]. destruct (resolve_parts doc (u "spec") parts) as [[v q]|] eqn:Er; [|discriminate H].
  destruct (as_reference v) as [nx|] eqn:Ea; [exact (IH _ _ _ _ H)|]. injection H as <- <-. split; [eapply parts_within; exact Er|].
  intros x Hx. apply as_reference_iff in Hx. rewrite Hx in Ea. discriminate Ea.
Qed.
(** Whatever the document contains (a free-form "root" included). *)
Theorem c60_within doc s o p : resolve doc s = Resolved o p -> within o doc /\ forall x, ~ is_reference o x.
Proof.
  unfold resolve. destruct (resolve_fuel _ doc [] s) as [r|] eqn:Er; [|discriminate 1]. intros ->. exact (fuel_within _ _ _ _ _ _ Er).
Qed.
(** So an object resolved in a document loaded from plain data is valid throughout. *)
Theorem c60_valid E v doc s o p : is_json v -> parse E T_AsyncAPI3 v = Some doc -> resolve doc s = Resolved o p -> valid_throughout E o.
Proof.
  intros Hj Hp Hr. assert (Hd : valid_throughout E doc) by (apply (c52_parsed_valid E T_AsyncAPI3 v doc); [in_table|exact Hj|exact Hp]).
  intros x Hx. apply Hd. eapply within_trans; [exact Hx|]. exact (proj1 (c60_within _ _ _ _ Hr)).
Qed.
(** Empty segments do not matter: leading, trailing and repeated slashes. *)
Lemma ends_spelling doc r r' l0 o l : segments r l0 -> segments r' l0 -> ends_at doc (u "#" ++ r)%list o l -> ends_at doc (u "#" ++ r')%list o l.
Proof.
  intros Hs Hs' (n & s' & Hh & Hd & Hr). assert (Hdes : forall l1 v1, designates doc (u "#" ++ r)%list l1 v1 -> designates doc (u "#" ++ r')%list l1 v1).
  { intros l1 v1 (r1 & Heq & H1 & H2 & H3). apply app_inv_head in Heq. subst r1. assert (l1 = l0) by (eapply segments_fun; eauto). subst l1. exists r'. auto. }
  inversion Hh as [s0|m s0 l1 v1 s1 s2 H1 H2 H3]; subst.
  - exists 0, (u "#" ++ r')%list. split; [constructor|]. split; [apply Hdes; exact Hd|exact Hr].
  - exists (S m), s'. split; [eapply hopS; [apply Hdes; exact H1|exact H2|exact H3]|auto].
Qed.
Theorem c60_slashes doc r r' l0 : no_root_keyword doc -> segments r l0 -> segments r' l0 ->
  forall o p, resolve doc (u "#" ++ r)%list = Resolved o p <-> resolve doc (u "#" ++ r')%list = Resolved o p.
Proof.
  intros Hn Hs Hs' o p. rewrite !(c23_resolves_iff doc _ _ _ Hn). split; intros (l & He & Hp); exists l; (split; [eapply ends_spelling; [| |exact He]; eauto|exact Hp]).
Qed.
Example c60_ex : segments (u "/servers/c") [u "servers"; u "c"] /\ segments (u "servers//c/") [u "servers"; u "c"]
  /\ (exists o p, resolve parsedR (u "#/servers/a") = Resolved o p /\ within o parsedR).
Proof.
  assert (Hne : forall a l, (a :: l : pystr) <> []) by discriminate.
  split; [|split].
  - apply seg_slash. apply (seg_name (u "servers") (u "/c") [u "c"]); [apply Hne|vm_compute; intuition discriminate| |right; eexists; reflexivity].
    apply seg_slash. apply (seg_name (u "c") [] []); [apply Hne|vm_compute; intuition discriminate|constructor|auto].
  - apply (seg_name (u "servers") (u "//c/") [u "c"]); [apply Hne|vm_compute; intuition discriminate| |right; eexists; reflexivity].
    apply seg_slash, seg_slash. apply (seg_name (u "c") (u "/") []); [apply Hne|vm_compute; intuition discriminate|repeat constructor|right; eexists; reflexivity].
  - destruct (proj2 c23_ex) as (o & Ho & _). exists o, (u "spec.components.servers.c"). split; [exact Ho|]. apply (c60_within _ _ _ _ Ho).
Qed.
Print Assumptions c60_slashes.
