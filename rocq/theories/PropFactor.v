(** C112: writing a reference instead of a repeated object: the reverse of C103. *)
From Verif Require Import PyStr Value Types Rules Pydantic ClassTable Classes Canon Fix Linked SpecParse Sample ProofRules ProofParse
  State SpecState ProofState PropState Resolve SpecResolve ProofResolve PropResolve Unified SpecUnified ProofUnified ProofCheck PropUnified
  ProofDump Dump SpecDump PropDump SpecDeep PropDeep PropWithin PropValidators SpecDeref ProofDeref PropDeref PropInline.
Local Open Scope string_scope.

(** Where a reference of [doc] leads to something in [doc'], it leads to something (not to a bare text) in [doc] too:
    no reference navigates through the part that is written only in [doc']. *)
Definition still_leads (doc doc' : pv) : Prop := forall x s l' v', within x doc -> is_reference x s -> designates doc' s l' v' ->
  exists l v, designates doc s l v /\ forall t, v <> VStr t.

(** ** The other references are reached after the replacement too *)
Lemma reference_has_no_child v s i text w : is_reference v s -> ~ child v i text w.
Proof. intros (fv & ex & -> & Hs) Hc. inversion Hc as [| | |c0 fv0 ex0 i0 k0 x0 Hn Hnr]; subst. apply (Hnr s). exists fv, ex. auto. Qed.
Lemma child_same v i t w t' w' : child v i t w -> child v i t' w' -> t' = t /\ w' = w.
Proof.
  intros Hc Hc'. destruct Hc as [l i x Hn|d i k x Hn|c d i k x Hn|c fv ex i k x Hn Hnr Hnn Hexc]; inversion Hc' as [l0 i0 x0 Hm|d0 i0 k0 x0 Hm|c0 d0 i0 k0 x0 Hm|c0 fv0 ex0 i0 k0 x0 Hm]; subst; rewrite Hn in Hm; injection Hm; intros; subst; auto.
Qed.
Lemma put_some pos o v : (exists c fv ex, o = VObj c fv ex) -> v <> VNone -> put pos o v <> VNone.
Proof. intros (c & fv & ex & ->) Hv. destruct pos; [discriminate|]. destruct v; cbn [put]; try discriminate. contradiction. Qed.
Lemma put_no_reference i pos o c fv ex : refs_ok (VObj c fv ex) -> (forall s, ~ is_reference (VObj c fv ex) s) ->
  forall s, ~ is_reference (VObj c (upd i (fun kv => (fst kv, put pos o (snd kv))) fv) ex) s.
Proof. intros Hok Hn s (fv' & ex' & Heq & _). injection Heq as -> _ _. destruct (Hok fv ex (w_self _)) as [s0 Hs0]. exact (Hn s0 Hs0). Qed.
Lemma child_put_here v i text w pos o : refs_ok v -> (exists c fv ex, o = VObj c fv ex) -> child v i text w -> child (put (i :: pos) o v) i text (put pos o w).
Proof.
  intros Hok Ho Hc. destruct Hc as [l i x Hn|d i k x Hn|c d i k x Hn|c fv ex i k x Hn Hnr Hnn Hexc]; cbn [put].
  - constructor. exact (upd_nth _ _ _ _ Hn).
  - constructor. exact (upd_nth (fun kv : pystr * pv => (fst kv, put pos o (snd kv))) _ _ _ Hn).
  - constructor. exact (upd_nth (fun kv : pystr * pv => (fst kv, put pos o (snd kv))) _ _ _ Hn).
  - constructor; [exact (upd_nth (fun kv : pystr * pv => (fst kv, put pos o (snd kv))) _ _ _ Hn)|exact (put_no_reference _ _ _ _ _ _ Hok Hnr)|exact (put_some _ _ _ Ho Hnn)|exact Hexc].
Qed.
Lemma child_put_beside v i pos o j t y : refs_ok v -> i <> j -> child v j t y -> child (put (i :: pos) o v) j t y.
Proof.
  intros Hok Hne Hc. destruct Hc as [l j x Hn|d j k x Hn|c d j k x Hn|c fv ex j k x Hn Hnr Hnn Hexc]; cbn [put].
  - constructor. rewrite upd_other by exact Hne. exact Hn.
  - constructor. rewrite upd_other by exact Hne. exact Hn.
  - constructor. rewrite upd_other by exact Hne. exact Hn.
  - constructor; [rewrite upd_other by exact Hne; exact Hn|exact (put_no_reference _ _ _ _ _ _ Hok Hnr)|exact Hnn|exact Hexc].
Qed.
Lemma reached_beside v pos path r s o : reached v pos path r -> is_reference r s -> refs_ok v -> (exists c fv ex, o = VObj c fv ex) ->
  forall pos' path' x sx, reached v pos' path' x -> is_reference x sx -> (path' = path /\ x = r) \/ reached (put pos o v) pos' path' x.
Proof.
  intros Hre Hr Hok0 Ho. revert Hok0 Hr. induction Hre as [v p0 ->|v i text w pos path r Hc Hre IH]; intros Hok Hr pos' path' x sx Hx Hs.
  - inversion Hx as [p0 Hp0 Hv|j t y pos1 path1 x0 Hc' Hr' Hv Ht]; subst; [left; auto|]. exfalso. exact (reference_has_no_child _ _ _ _ _ Hr Hc').
  - inversion Hx as [p0 Hp0 Hv|j t y pos1 path1 x0 Hc' Hr' Hv Ht]; subst; [exfalso; exact (reference_has_no_child _ _ _ _ _ Hs Hc)|].
    destruct (Nat.eq_dec i j) as [<-|Hne].
    + destruct (child_same _ _ _ _ _ _ Hc Hc') as [-> ->]. destruct (IH (refs_ok_sub _ _ (child_within _ _ _ _ Hc) Hok) Hr _ _ _ _ Hr' Hs) as [[-> ->]|Hn]; [left; auto|right].
      eapply re_step; [exact (child_put_here _ _ _ _ _ _ Hok Ho Hc)|exact Hn].
    + right. eapply re_step; [exact (child_put_beside _ _ _ _ _ _ _ Hok Hne Hc')|exact Hr'].
Qed.

(** ** Resolution before the replacement *)
Section Back.
  Context (r o doc doc' : pv) (s : pystr) (lo : list pystr).
  Context (Hr : is_reference r s) (Ho : exists c fv ex, o = VObj c fv ex) (Hi : inl r o doc doc') (Hok : refs_ok doc) (He : ends_at doc s o lo) (Hst : still_leads doc doc').
  Lemma inl_reference_back v v' s1 : inl r o v v' -> within v doc -> is_reference v' s1 -> is_reference v s1.
  Proof.
    intros Hv Hw Hs. assert (Hor := o_not_ref o doc s lo He). assert (Hrs : exists s, is_reference r s) by eauto.
    assert (Hd : (exists s0, is_reference v s0) \/ forall s0, ~ is_reference v s0) by (destruct (ref_cases v) as [(s0 & Hs0 & _)|[Hn _]]; eauto).
    destruct Hd as [[s0 Hs0]|Hn].
    - destruct (inl_reference r o Hrs _ _ _ Hv Hs0) as [H|[-> ->]]; [|exfalso; exact (Hor _ Hs)]. rewrite (is_reference_fun _ _ _ Hs H). exact Hs0.
    - exfalso. refine (inl_not_reference r o Hor _ _ Hv Hn _ s1 Hs). intros fv ex ->. apply Hok. exact Hw.
  Qed.
  Lemma step_back x s1 l v' : within x doc -> is_reference x s1 -> designates doc' s1 l v' -> exists l0 v, designates doc s1 l0 v /\ inl r o v v' /\ within v doc.
  Proof.
    intros Hx Hsx Hd. destruct (Hst _ _ _ _ Hx Hsx Hd) as (l0 & v & Hd0 & Hv). exists l0, v. split; [exact Hd0|]. destruct Hd0 as (rest & Hs1 & Hseg & Hne & Hw).
    assert (Hrs : exists s, is_reference r s) by eauto.
    destruct (inl_walks r o Hrs reference_field Ho (o_not_ref o doc s lo He) _ _ _ Hw doc' Hi) as [(w' & Hw' & Hiv)|[t ->]]; [|exfalso; exact (Hv t eq_refl)].
    assert (Hd' : designates doc' s1 l0 w') by (exists rest; auto). destruct (designates_fun _ _ _ _ _ _ Hd Hd') as [_ ->]. split; [exact Hiv|exact (walks_in _ _ _ Hw)].
  Qed.
  Lemma ends_back n : forall x s1 s' e l1, within x doc -> is_reference x s1 -> hops doc' n s1 s' -> designates doc' s' l1 e -> (forall t, ~ is_reference e t) ->
    exists e0 l0, ends_at doc s1 e0 l0 /\ type_name e0 = type_name e.
  Proof.
    induction n as [|n IH]; intros x s1 s' e l1 Hx Hsx Hh Hd Hn.
    - inversion Hh; subst. destruct (step_back _ _ _ _ Hx Hsx Hd) as (l0 & v & Hd0 & Hv & Hw). assert (Hrs : exists s, is_reference r s) by eauto.
      destruct (ref_cases v) as [(s0 & Hs0 & _)|[Hnr _]].
      + destruct (inl_reference r o Hrs _ _ _ Hv Hs0) as [H|[-> ->]]; [exfalso; exact (Hn _ H)|]. exists o, lo. split; [|reflexivity].
        destruct He as (m & sm & Hm & Hdm & Hnm). exists (S m), sm. split; [|auto]. eapply hopS; [exact Hd0|exact Hr|exact Hm].
      + exists v, l0. split; [exists 0, s'; split; [constructor|auto]|]. symmetry. apply (inl_type r o _ _ Hv). intros ->. exact (Hnr _ Hr).
    - inversion Hh as [|n0 s0 l v' s2 s3 Hd0 Hv' Hh']; subst. destruct (step_back _ _ _ _ Hx Hsx Hd0) as (l0 & v & Hd1 & Hv & Hw).
      assert (Hvr := inl_reference_back _ _ _ Hv Hw Hv'). destruct (IH _ _ _ _ _ Hw Hvr Hh' Hd Hn) as (e0 & l2 & (m & sm & Hm & Hdm & Hnm) & Ht).
      exists e0, l2. split; [|exact Ht]. exists (S m), sm. split; [eapply hopS; eassumption|auto].
  Qed.
  Lemma external_back n : forall x s1 s', within x doc -> is_reference x s1 -> hops doc' n s1 s' -> hops doc n s1 s'.
  Proof.
    induction n as [|n IH]; intros x s1 s' Hx Hsx Hh; inversion Hh as [|n0 s0 l v' s2 s3 Hd0 Hv' Hh']; subst; [constructor|].
    destruct (step_back _ _ _ _ Hx Hsx Hd0) as (l0 & v & Hd1 & Hv & Hw). assert (Hvr := inl_reference_back _ _ _ Hv Hw Hv'). eapply hopS; [exact Hd1|exact Hvr|]. exact (IH _ _ _ Hw Hvr Hh').
  Qed.
  Lemma acceptable_back E path x s1 : within x doc -> is_reference x s1 -> acceptable E doc' path s1 -> acceptable E doc path s1.
  Proof.
    intros Hx Hsx [(n & s' & Hh & Hxt)|(e & l & tys & (n & s' & Hh & Hd & Hn) & Hex & Hin)]; [left; exists n, s'; split; [exact (external_back _ _ _ _ Hx Hsx Hh)|exact Hxt]|right].
    destruct (ends_back _ _ _ _ _ _ Hx Hsx Hh Hd Hn) as (e0 & l0 & He0 & Ht). exists e0, l0, tys. rewrite Ht. auto.
  Qed.
End Back.

(** ** C112 *)
Theorem c112_factoring_partial E v doc pos p D r s o l : is_json v -> parse E T_AsyncAPI3 v = Some doc -> no_root_keyword doc ->
  stands T_AsyncAPI3 doc pos p D r -> is_reference r s -> ends_at doc s o l -> In (type_name o) D ->
  (forall k, In k (keys_of p) -> ordinary E k) -> ~ in_inline_trait p -> still_leads doc (put pos o doc) ->
  unified E (put pos o doc) = None -> unified E doc = None.
Proof.
  intros Hj Hp Hn Hs Hr He HoD Hkp Ht Hst Hu. assert (Hl := linked_all _ in_root). assert (Hw := wf_all _ in_root).
  assert (Hc : canon is_json E T_AsyncAPI3 doc) by exact (loaded_json E _ v doc in_root Hp Hj).
  assert (Hsr : solid r) by (destruct Hr as (? & ? & -> & _); exact I). assert (Hok := canon_refs_ok _ _ _ Hl Hw Hc).
  assert (Hre := stands_reached _ _ _ _ _ _ Hs Hsr Hl Hw). assert (Hlp := stands_location _ _ _ _ _ _ Hs).
  destruct (target E doc s o l _ _ _ _ _ _ Hl Hw Hl Hw Hn Hc He Hs HoD) as (c & k & fs & fv & ex & Heq & _ & Hwi & _).
  assert (Hoc : exists c fv ex, o = VObj c fv ex) by eauto. assert (Hi := put_inl r o doc pos _ Hre).
  assert (Hn' : no_root_keyword (put pos o doc)).
  { intros c0 fv0 ex0 d0 Hx0 Ha0. assert (HW : (exists fv', within (VObj c0 fv' ex0) doc) \/ within (VObj c0 fv0 ex0) o) by (eapply within_over; eassumption). destruct HW as [[fv' Hx]|Hx]; [exact (Hn _ _ _ _ Hx Ha0)|].
    exact (Hn _ _ _ _ (within_trans _ _ _ Hx Hwi) Ha0). }
  apply (c28_accepts_iff E doc Hn). intros pos' path' x sx Hx Hsx.
  destruct (reached_beside _ _ _ _ _ o Hre Hr Hok Hoc _ _ _ _ Hx Hsx) as [[-> ->]|Hx'].
  - right. rewrite <- (is_reference_fun _ _ _ Hr Hsx). destruct (location_agrees E p D Hlp Hkp Ht) as (tys & Hex & Hty). exists o, l, tys. split; [exact He|]. split; [exact Hex|]. apply Hty. exact HoD.
  - apply (acceptable_back r o doc _ s l Hr Hoc Hi Hok He Hst E _ x sx (reached_within _ _ _ _ Hx) Hsx). exact (proj1 (c28_accepts_iff E _ Hn') Hu _ _ _ _ Hx' Hsx).
Qed.
(** With C103: under the conditions of both, the two ways of writing the document are judged alike. *)
Theorem c112_alike_partial E v doc pos p D r s o l : is_json v -> parse E T_AsyncAPI3 v = Some doc -> no_root_keyword doc -> ordinary_keys E doc ->
  stands T_AsyncAPI3 doc pos p D r -> is_reference r s -> ends_at doc s o l -> In (type_name o) D ->
  no_trait_references doc -> no_trait_references (put pos o doc) -> still_leads doc (put pos o doc) ->
  (unified E (put pos o doc) = None <-> unified E doc = None).
Proof.
  intros Hj Hp Hn Hkeys Hs Hr He HoD Hnt Hnt' Hst. assert (Hl := linked_all _ in_root). assert (Hw := wf_all _ in_root).
  assert (Hsr : solid r) by (destruct Hr as (? & ? & -> & _); exact I). split; intros Hu.
  - refine (c112_factoring_partial E v doc pos p D r s o l Hj Hp Hn Hs Hr He HoD _ _ Hst Hu).
    + intros k Hk. destruct (stands_keys _ _ _ _ _ _ Hs Hsr Hl Hw k Hk) as (d & x & [(q & pq & H1)|(c & q & pq & H1)] & H2); [exact (Hkeys q pq d k x (or_introl H1) H2)|exact (Hkeys q pq d k x (or_intror (ex_intro _ c H1)) H2)].
    + exact (Hnt _ _ _ _ _ (stands_location _ _ _ _ _ _ Hs) (stands_reached _ _ _ _ _ _ Hs Hsr Hl Hw) Hr).
  - exact (c103_inlining_partial E v doc pos p D r s o l Hj Hp Hn Hu Hkeys Hs Hr He Hnt Hnt').
Qed.
(** Any number of factorings, one after the other. *)
Inductive factored (E : env) (d : pv) : pv -> Prop :=
| factored_none : factored E d d
| factored_more v doc pos p D r s o l : factored E d (put pos o doc) -> is_json v -> parse E T_AsyncAPI3 v = Some doc -> no_root_keyword doc ->
    stands T_AsyncAPI3 doc pos p D r -> is_reference r s -> ends_at doc s o l -> In (type_name o) D ->
    (forall k, In k (keys_of p) -> ordinary E k) -> ~ in_inline_trait p -> still_leads doc (put pos o doc) -> factored E d doc.
Theorem c112_repeated_partial E d doc : factored E d doc -> unified E d = None -> unified E doc = None.
Proof.
  intros Hf Hu. induction Hf as [|v doc pos p D r s o l Hf IH Hj Hp Hn Hs Hr He HoD Hkp Ht Hst]; [exact Hu|].
  exact (c112_factoring_partial E v doc pos p D r s o l Hj Hp Hn Hs Hr He HoD Hkp Ht Hst IH).
Qed.
(** *** Deciding the condition on a concrete document *)
Definition leads_b (doc x : pv) : bool :=
  match as_reference x with
  | Some s => match resolve doc s with Resolved o _ => match o with VStr _ => false | _ => true end | _ => false end
  | None => true
  end.
Lemma still_leads_dec doc doc' : no_root_keyword doc -> all_within (leads_b doc) doc = true -> still_leads doc doc'.
Proof.
  intros Hn Hb x s l' v' Hx Hs _. assert (H := all_within_spec _ _ _ Hx Hb). unfold leads_b in H.
  destruct (ref_cases x) as [(s0 & Hs0 & Ha)|[Hnr _]]; [|exfalso; exact (Hnr _ Hs)]. rewrite Ha, (is_reference_fun _ _ _ Hs0 Hs) in H.
  destruct (resolve doc s) as [o q| |] eqn:Er; [|discriminate H|discriminate H]. apply (c23_resolves_iff _ _ _ _ Hn) in Er. destruct Er as (l & (n & s' & Hh & Hd & _) & _).
  inversion Hh as [|n0 s1 l1 v s2 s3 Hd0 Hv Hh']; subst.
  - exists l, o. split; [exact Hd|]. intros t ->. discriminate H.
  - exists l1, v. split; [exact Hd0|]. intros t ->. destruct Hv as (? & ? & Hy & _). discriminate Hy.
Qed.
(** the message of a channel is the one of the components, written out, with a reference of its own *)
Example c112_ex : exists r o l, is_json doc_nested /\ parse E0 T_AsyncAPI3 doc_nested = Some (load_doc doc_nested) /\ no_root_keyword (load_doc doc_nested)
  /\ stands T_AsyncAPI3 (load_doc doc_nested) [5; 0; 1; 0] loc_nested ["Message"] r /\ is_reference r (u "#/components/messages/n")
  /\ ends_at (load_doc doc_nested) (u "#/components/messages/n") o l /\ In (type_name o) ["Message"]
  /\ (forall k, In k (keys_of loc_nested) -> ordinary E0 k) /\ ~ in_inline_trait loc_nested
  /\ still_leads (load_doc doc_nested) (put [5; 0; 1; 0] o (load_doc doc_nested)) /\ unified E0 (put [5; 0; 1; 0] o (load_doc doc_nested)) = None
  /\ put [5; 0; 1; 0] o (load_doc doc_nested) <> load_doc doc_nested.
Proof.
  found doc_nested [5; 0; 1; 0] loc_nested ["Message"] (u "#/components/messages/n").
  assert (He := proj1 (c23_resolves_iff _ _ _ _ Hn) Er). destruct He as (l & He & _).
  exists r, o, l. split; [apply json_dec; vm_compute; reflexivity|]. split; [apply load_doc_ok; vm_compute; reflexivity|]. split; [exact Hn|].
  split; [exact Hs|]. split; [exact Hr|]. split; [exact He|].
  assert (Hst : forall d', still_leads (load_doc doc_nested) d') by (intros d'; apply still_leads_dec; [exact Hn|vm_compute; reflexivity]).
  split; [vm_compute in Er; injection Er as <- _; left; reflexivity|].
  split; [intros k [<-|[<-|[]]]; apply ordinary_dec; vm_compute; reflexivity|].
  split; [intros Ht; apply trait_text in Ht; vm_compute in Ht; discriminate Ht|]. split; [apply Hst|].
  vm_compute in Er. injection Er as <- _. split; [vm_compute; reflexivity|]. intros H. vm_compute in H. discriminate H.
Qed.
Example c112_repeated_ex : exists d, d <> load_doc doc_nested /\ factored E0 d (load_doc doc_nested) /\ unified E0 d = None.
Proof.
  destruct c112_ex as (r & o & l & H1 & H2 & H3 & H4 & H5 & H6 & H7 & H8 & H9 & H10 & H11 & H12). exists (put [5; 0; 1; 0] o (load_doc doc_nested)).
  split; [exact H12|]. split; [|exact H11]. exact (factored_more E0 _ doc_nested _ _ _ _ _ _ _ _ (factored_none _ _) H1 H2 H3 H4 H5 H6 H7 H8 H9 H10).
Qed.
(** Refuted without the last condition: another reference leads into the object that was written out. *)
Definition doc_through : pv :=
  spec [("channels", obj [("c", obj [("messages", obj [("m", ref "#/components/messages/n")])])]);
        ("components", obj [("messages", obj [("n", obj [("correlationId", obj [("location", str "$message.header#/id")])]);
                                              ("k", obj [("correlationId", ref "#/channels/c/messages/m/correlationId")])])])].
Theorem c112_factoring_refuted : ~ (forall E v doc pos p D r s o l, is_json v -> parse E T_AsyncAPI3 v = Some doc -> no_root_keyword doc ->
  stands T_AsyncAPI3 doc pos p D r -> is_reference r s -> ends_at doc s o l -> In (type_name o) D ->
  (forall k, In k (keys_of p) -> ordinary E k) -> ~ in_inline_trait p ->
  unified E (put pos o doc) = None -> unified E doc = None).
Proof.
  intros H. found doc_through [5; 0; 1; 0] loc_nested ["Message"] (u "#/components/messages/n").
  assert (He := proj1 (c23_resolves_iff _ _ _ _ Hn) Er). destruct He as (l & He & _).
  assert (Hp : parse E0 T_AsyncAPI3 doc_through = Some (load_doc doc_through)) by (apply load_doc_ok; vm_compute; reflexivity).
  assert (HD : In (type_name o) ["Message"]) by (vm_compute in Er; injection Er as <- _; left; reflexivity).
  assert (Hk : forall k, In k (keys_of loc_nested) -> ordinary E0 k) by (intros k [<-|[<-|[]]]; apply ordinary_dec; vm_compute; reflexivity).
  assert (Ht : ~ in_inline_trait loc_nested) by (intros Ht; apply trait_text in Ht; vm_compute in Ht; discriminate Ht).
  assert (Hu : unified E0 (put [5; 0; 1; 0] o (load_doc doc_through)) = None) by (vm_compute in Er; injection Er as <- _; vm_compute; reflexivity).
  specialize (H E0 doc_through _ _ _ _ _ _ _ _ (json_dec doc_through eq_refl) Hp Hn Hs Hr He HD Hk Ht Hu). vm_compute in H. discriminate H.
Qed.
Print Assumptions c112_factoring_partial.
Print Assumptions c112_alike_partial.
Print Assumptions c112_repeated_partial.
Print Assumptions c112_factoring_refuted.
