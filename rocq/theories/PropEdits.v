(** Property C94: building and changing a document through references into it. *)
From Coq Require Import Lia.
From Verif Require Import PyStr Regex Value Types Rules Pydantic ClassTable Classes Linked Sample SpecParse ProofParse State SpecState ProofState Heap SpecHeap ProofHeap ProofOwn ProofMut ProofRun PropHeap Edits SpecEdits ProofEdits.
Local Open Scope string_scope.

(** A document is loaded from data in [M0] and worked on: attributes are assigned, map entries set and deleted, list items appended; what is stored comes from
    [M0] or is constructed on the spot from data in [M0].  After any such history (edits that raise included) the document reads as the same edits of a tree give, each
    edit returned or raised as there, and the objects of [M0] are as they were - provided no edit was made to an object of [M0] itself. *)
Theorem c94_history E verdict procs t h0 v0 M0 M d n es ps : In t all_types -> only_reads verdict procs -> consistent M0 -> points M0 h0 -> reads M0 h0 v0 ->
  hvalidate E t h0 M0 = (M, Some (d, n)) ->
  Forall2 (stands_for M0 (fun l => l < length M0)) es ps -> spares E verdict d (fun l => l < length M0) M es ->
  exists o, parse E t v0 = Some o
    /\ fst (hedits E verdict d M es) = fst (pedits E procs o ps)
    /\ reads (snd (hedits E verdict d M es)) d (snd (pedits E procs o ps))
    /\ forall l, l < length M0 -> look (snd (hedits E verdict d M es)) l = look M0 l.
Proof.
  intros Ht Hp Hc Hh Hr Hv Hops Hnew. destruct (c66_contents _ _ _ _ _ _ _ Ht Hr Hv) as (o & Ho & Hro). exists o. split; [exact Ho|].
  destruct (built_tree _ _ _ _ _ _ _ (wf_all _ Ht) Hc Hh Hv) as (Hc' & Hp' & L & F & F' & _ & Hm & Hn & HL & HF & HF'). assert (He := hvalidate_ext _ _ _ _ _ _ Hv).
  assert (Hinv : owned_in M0 (fun l => l < length M0) M d).
  { exists L, F'. constructor; auto.
    - intros a Ha. apply HL in Ha. lia.
    - intros x Hx. assert (Hxp := leaf_points _ _ _ _ Hc Hh HF (HF' _ Hx)). destruct x; [exact I|exact Hxp].
    - split; [apply extends_length; exact He|]. intros l Hl. destruct (look M0 l) as [c|] eqn:El; [eapply extends_look; eauto|]. apply nth_error_None in El. lia. }
  destruct (edits_ok E verdict M0 _ (below_closed _ Hc) procs Hp es ps Hops M d o Hinv Hro Hnew) as (H1 & (L' & F2 & Hi) & H2). split; [exact H1|]. split; [exact H2|]. apply (iv_old _ _ _ _ _ _ Hi).
Qed.
(** Work on one of two documents built from the same data leaves the other alone, even if parts of the other are stored in it. *)
Theorem c94_two_documents E verdict procs t1 t2 h1 h2 v1 v2 M0 M1 M2 d1 d2 n1 n2 o2 es ps : In t1 all_types -> In t2 all_types -> only_reads verdict procs -> consistent M0 ->
  points M0 h1 -> points M0 h2 -> reads M0 h1 v1 -> reads M0 h2 v2 -> hvalidate E t1 h1 M0 = (M1, Some (d1, n1)) -> hvalidate E t2 h2 M1 = (M2, Some (d2, n2)) -> parse E t2 v2 = Some o2 ->
  let others := fun l => l < length M0 \/ contains M2 d2 l in
  Forall2 (stands_for M2 others) es ps -> spares E verdict d1 others M2 es ->
  exists o1, parse E t1 v1 = Some o1
    /\ reads (snd (hedits E verdict d1 M2 es)) d1 (snd (pedits E procs o1 ps))
    /\ reads (snd (hedits E verdict d1 M2 es)) d2 o2.
Proof.
  intros T1 T2 Hp Hc P1 P2 R1 R2 V1 V2 Ho2 others Hops Hnew. assert (E1 := hvalidate_ext _ _ _ _ _ _ V1). assert (E2 := hvalidate_ext _ _ _ _ _ _ V2).
  destruct (c66_contents _ _ _ _ _ _ _ T1 R1 V1) as (o1 & Ho1 & Hr1). exists o1. split; [exact Ho1|].
  destruct (c66_contents _ _ _ _ _ _ _ T2 (reads_extends _ _ _ _ E1 R2) V2) as (o2' & Ho2' & Hr2). rewrite Ho2 in Ho2'. injection Ho2' as <-.
  destruct (built_tree _ _ _ _ _ _ _ (wf_all _ T1) Hc P1 V1) as (C1 & D1 & L1 & F1 & F1' & O1 & N1 & U1 & B1 & A1 & A1').
  assert (P2' : points M1 h2) by (eapply points_extends; eauto).
  destruct (built_tree _ _ _ _ _ _ _ (wf_all _ T2) C1 P2' V2) as (C2 & D2 & L2 & F2 & F2' & O2 & N2 & U2 & B2 & A2 & A2').
  assert (E02 : extends M0 M2) by (eapply extends_trans; eauto).
  assert (Hcl : closed M2 others).
  { split.
    - intros l [Hl|Hl]; [apply extends_length in E02; lia|]. apply part_points in Hl; [exact Hl|exact C2|exact D2].
    - intros l c x Ho Hl Hx. destruct x as [a|lx]; [exact I|]. cbn [among]. destruct Ho as [Ho|Ho].
      + left. apply (look_extends_inv M0) in Hl; [|exact E02|exact Ho]. exact (Hc _ _ _ Hl Hx).
      + right. eapply part_trans; [exact Ho|]. eapply part_held; eauto. }
  assert (Hinv : owned_in M2 others M2 d1).
  { exists L1, F1'. constructor.
    - exact C2.
    - exact (points_extends _ _ _ E2 D1).
    - eapply made_agree; [exact N1|]. intros l c _ Hl. exact (extends_look _ _ _ _ E2 Hl).
    - exact U1.
    - intros a Ha [Hlt|Hcn]; [apply B1 in Ha; lia|]. destruct (owns_contains _ _ _ _ _ _ O2 Hcn) as [Hi|(x & Hx & Hcx)]; [apply B1 in Ha; apply B2 in Hi; lia|].
      assert (Hx1 : part M1 h2 x) by auto. assert (Hc1 : contains M1 h2 a) by (eapply part_trans; [exact Hx1|]; eapply (part_back M1 M2); [exact C1|exact E2|exact (part_points _ _ _ C1 P2' Hx1)|exact Hcx]).
      apply (part_back M0) in Hc1; [|exact Hc|exact E1|exact P2]. apply part_points in Hc1; [|exact Hc|exact P2]. cbn [points] in Hc1. apply B1 in Ha. lia.
    - intros x Hx. assert (Hxp := leaf_points _ _ _ _ Hc P1 A1 (A1' _ Hx)). destruct x; [exact I|left; exact Hxp].
    - split; auto. }
  destruct (edits_ok E verdict M2 others Hcl procs Hp es ps Hops M2 d1 o1 Hinv (reads_extends _ _ _ _ E2 Hr1) Hnew) as (_ & (L' & F3 & Hi) & Hr'). split; [exact Hr'|].
  eapply reads_agree; [exact Hr2|]. intros l Hl. apply (iv_old _ _ _ _ _ _ Hi). right. exact Hl.
Qed.

(** ** Shared objects *)
Lemma hpath_frame M M' a l : (forall l' c, look M l' = Some c -> l' <> a -> look M' l' = Some c) -> contains M (HL l) a ->
  forall p d v, reads M d v -> hpath M p d = Some (HL l) -> hpath M' p d = Some (HL l).
Proof.
  intros Hs Hca. induction p as [|s p IH]; intros d v Hr Hp; [exact Hp|]. cbn [hpath] in *. destruct d as [b|l0]; [discriminate|].
  assert (Hstep : forall c x, look M l0 = Some c -> In x (held c) -> hpath M p x = Some (HL l) -> look M' l0 = Some c).
  { intros c x Hl Hx Hp'. apply Hs; [exact Hl|]. intros ->. eapply (reads_acyclic M a v c x); eauto. eapply part_trans; [exact (hpath_contains _ _ _ _ Hp')|exact Hca]. }
  assert (Hsub : forall c x, look M l0 = Some c -> In x (held c) -> exists w, reads M x w).
  { intros c x Hl Hx. destruct (reads_held _ _ _ _ _ Hr Hl Hx) as (w & Hw & _). eauto. }
  destruct s as [n|n|n|i], (look M l0) as [[xs|e|c fv ex|c r]|] eqn:El; try discriminate Hp.
  - destruct (assoc n fv) as [x|] eqn:Ea; [|discriminate]. assert (Hx : In x (held (CObj c fv ex))) by (cbn [held]; apply in_or_app; left; apply assoc_In in Ea; apply (in_map snd) in Ea; exact Ea).
    rewrite (Hstep _ _ eq_refl Hx Hp), Ea. destruct (Hsub _ _ eq_refl Hx) as [w Hw]. eapply IH; eauto.
  - destruct (assoc n ex) as [x|] eqn:Ea; [|discriminate]. assert (Hx : In x (held (CObj c fv ex))) by (cbn [held]; apply in_or_app; right; apply assoc_In in Ea; apply (in_map snd) in Ea; exact Ea).
    rewrite (Hstep _ _ eq_refl Hx Hp), Ea. destruct (Hsub _ _ eq_refl Hx) as [w Hw]. eapply IH; eauto.
  - destruct (assoc n e) as [x|] eqn:Ea; [|discriminate]. assert (Hx : In x (held (CDict e))) by (cbn [held]; apply assoc_In in Ea; apply (in_map snd) in Ea; exact Ea).
    rewrite (Hstep _ _ eq_refl Hx Hp), Ea. destruct (Hsub _ _ eq_refl Hx) as [w Hw]. eapply IH; eauto.
  - destruct (look M r) as [[xs|e|c' fv ex|c' r']|] eqn:Er; try discriminate Hp. destruct (assoc n e) as [x|] eqn:Ea; [|discriminate].
    assert (Hx : In x (held (CDict e))) by (cbn [held]; apply assoc_In in Ea; apply (in_map snd) in Ea; exact Ea).
    apply reads_HL in Hr as Hr2. destruct Hr2 as [(xs & vs & El' & _)|[(e0 & ev & El' & _)|[(c1 & fv & ex & fs & xe & El' & _)|(c1 & r1 & e1 & ev & El' & Er' & -> & H)]]]; rewrite El in El'; try discriminate El'.
    injection El' as <- <-. rewrite Er in Er'. injection Er' as <-. assert (Hrr : reads M (HL r) (VDict ev)) by (apply reads_dict; exists r, e; auto).
    assert (Hcx : contains M x a) by (eapply part_trans; [exact (hpath_contains _ _ _ _ Hp)|exact Hca]).
    assert (Hl0 : look M' l0 = Some (CRoot c r)).
    { apply Hs; [exact El|]. intros ->. eapply (reads_acyclic M a _ _ (HL r) Hr El (or_introl eq_refl)). eapply pt_inside; [exact Er|exact Hx|exact Hcx]. }
    assert (Hr0 : look M' r = Some (CDict e)) by (apply Hs; [exact Er|]; intros ->; exact (reads_acyclic M a _ _ x Hrr Er Hx Hcx)).
    rewrite Hl0, Hr0, Ea. destruct (reads_held _ _ _ _ _ Hrr Er Hx) as (w & Hw & _). eapply IH; eauto.
  - destruct (nth_error xs i) as [x|] eqn:Ea; [|discriminate]. assert (Hx : In x (held (CList xs))) by (cbn [held]; apply nth_error_In in Ea; exact Ea).
    rewrite (Hstep _ _ eq_refl Hx Hp), Ea. destruct (Hsub _ _ eq_refl Hx) as [w Hw]. eapply IH; eauto.
Qed.
Definition edit_path (e : hedit) : list pstep := match e with HAttr p _ _ | HSet p _ _ | HDel p _ | HAppend p _ => p end.
Lemma supply_ext E s M : extends M (fst (supply E s M)).
Proof. destruct s as [h|t h]; cbn [supply]; [apply extends_refl|]. destruct (hvalidate E t h M) as [M1 r] eqn:Ev. exact (hvalidate_ext _ _ _ _ _ _ Ev). Qed.
(** Only the object the path leads to changes (its own contents). *)
Lemma edit_frame E verdict d M e l : consistent M -> points M d -> hpath M (edit_path e) d = Some (HL l) -> look M l <> None ->
  exists a, contains M (HL l) a /\ forall l' c, look M l' = Some c -> l' <> a -> look (snd (hedit_run E verdict d M e)) l' = Some c.
Proof.
  intros Hok Hpt Hp Hlk. destruct (look M l) as [cl|] eqn:El; [clear Hlk|congruence].
  assert (Hx : forall M1, extends M M1 -> forall l' c, look M l' = Some c -> l' <> l -> look M1 l' = Some c) by (intros M1 He l' c Hl _; eapply extends_look; eauto).
  destruct e as [p n h|p k s|p k|p s]; cbn [edit_path hedit_run] in *.
  - rewrite Hp. exists l. split; [apply pt_here|]. destruct (hassign_frame E verdict M l n h) as [_ Hs]. destruct (hassign E verdict M l n h) as [M' b]. exact Hs.
  - assert (He := supply_ext E s M). destruct (supply E s M) as [M1 r]. cbn [fst] in He. destruct r as [h|]; [|exists l; split; [apply pt_here|apply Hx; exact He]].
    unfold at_object. rewrite (hpath_extends M M1 p Hok He d Hpt), Hp. unfold hset. rewrite (content_extends _ _ _ _ He El).
    destruct (look M1 (content M l)) as [[xs|e|c fv ex|c r]|] eqn:Ec; try (exists l; split; [apply pt_here|apply Hx; exact He]).
    exists (content M l). split; [apply content_inside|]. intros l' c Hl Hn. cbn [snd]. eapply write_frame; eauto. eapply look_lt; eauto.
  - unfold at_object. rewrite Hp. unfold hdel. assert (Hm := Hx M (extends_refl M)).
    destruct (look M (content M l)) as [[xs|e|c fv ex|c r]|] eqn:Ec; try (exists l; split; [apply pt_here|exact Hm]). destruct (has_key k e); [|exists l; split; [apply pt_here|exact Hm]].
    exists (content M l). split; [apply content_inside|]. intros l' c Hl Hn. cbn [snd]. eapply write_frame; [apply extends_refl|eapply look_lt; eauto|exact Hl|exact Hn].
  - assert (He := supply_ext E s M). destruct (supply E s M) as [M1 r]. cbn [fst] in He. destruct r as [h|]; [|exists l; split; [apply pt_here|apply Hx; exact He]].
    unfold at_object. rewrite (hpath_extends M M1 p Hok He d Hpt), Hp. unfold happend. rewrite (extends_look _ _ _ _ He El).
    destruct cl as [xs|e|c fv ex|c r]; try (exists l; split; [apply pt_here|apply Hx; exact He]).
    exists l. split; [apply pt_here|]. intros l' c Hl Hn. cbn [snd]. eapply write_frame; eauto. assert (Hlt := look_lt _ _ _ El). apply extends_length in He. lia.
Qed.
(** An object that occurs in several places of a document is one object: after an edit made through one of them (successful or not), all of them still lead to it. *)
Theorem c94_alias E verdict M d v e q l : consistent M -> points M d -> reads M d v -> hpath M (edit_path e) d = Some (HL l) -> hpath M q d = Some (HL l) ->
  let M' := snd (hedit_run E verdict d M e) in hpath M' (edit_path e) d = Some (HL l) /\ hpath M' q d = Some (HL l).
Proof.
  intros Hc Hpt Hr Hp Hq. destruct (reads_contains _ _ _ _ Hr (hpath_contains _ _ _ _ Hp)) as [cl Hcl].
  destruct (edit_frame E verdict d M e l Hc Hpt Hp) as (a & Hca & Hs); [congruence|]. cbv zeta. split; eapply hpath_frame; eauto.
Qed.
(** ... and nothing changes for an object that does not contain it. *)
Theorem c94_elsewhere E verdict M d v e l x w : consistent M -> points M d -> reads M d v -> hpath M (edit_path e) d = Some (HL l) -> reads M x w ->
  ~ contains M x l -> ~ contains M x (content M l) -> reads (snd (hedit_run E verdict d M e)) x w.
Proof.
  intros Hc Hpt Hr Hp Hx Hn1 Hn2. destruct (reads_contains _ _ _ _ Hr (hpath_contains _ _ _ _ Hp)) as [cl Hcl].
  assert (Hl : forall a, (a = l \/ a = content M l) -> (forall l' c, look M l' = Some c -> l' <> a -> look (snd (hedit_run E verdict d M e)) l' = Some c) -> reads (snd (hedit_run E verdict d M e)) x w).
  { intros a Ha Hs. apply (keep_reads M _ a Hs); [|exact Hx]. destruct Ha as [->| ->]; assumption. }
  clear Hcl cl. destruct e as [p n h|p k s|p k|p s]; cbn [edit_path hedit_run] in *.
  - rewrite Hp in *. destruct (hassign_frame E verdict M l n h) as [_ Hs]. destruct (hassign E verdict M l n h) as [M' b]. eapply Hl; [left; reflexivity|exact Hs].
  - assert (He := supply_ext E s M). destruct (supply E s M) as [M1 r]. cbn [fst] in He. destruct r as [h|]; [|eapply reads_extends; eauto].
    unfold at_object in *. rewrite (hpath_extends M M1 p Hc He d Hpt), Hp in *. unfold hset in *. destruct (reads_contains _ _ _ _ Hr (hpath_contains _ _ _ _ Hp)) as [cl Hcl]. rewrite (content_extends _ _ _ _ He Hcl) in *.
    destruct (look M1 (content M l)) as [[xs|e|c fv ex|c r]|] eqn:Ec; try (eapply reads_extends; eauto; fail). cbn [snd] in *.
    eapply Hl; [right; reflexivity|]. intros l' c Hl' Hn. eapply write_frame; eauto. eapply look_lt; eauto.
  - unfold at_object in *. rewrite Hp in *. unfold hdel in *. destruct (look M (content M l)) as [[xs|e|c fv ex|c r]|] eqn:Ec; try exact Hx. destruct (has_key k e); [|exact Hx]. cbn [snd] in *.
    eapply Hl; [right; reflexivity|]. intros l' c Hl' Hn. eapply write_frame; [apply extends_refl|eapply look_lt; eauto|exact Hl'|exact Hn].
  - assert (He := supply_ext E s M). destruct (supply E s M) as [M1 r]. cbn [fst] in He. destruct r as [h|]; [|eapply reads_extends; eauto].
    unfold at_object in *. rewrite (hpath_extends M M1 p Hc He d Hpt), Hp in *. unfold happend in *. destruct (look M1 l) as [[xs|e|c fv ex|c r]|] eqn:Ec; try (eapply reads_extends; eauto; fail). cbn [snd] in *.
    eapply Hl; [left; reflexivity|]. intros l' c Hl' Hn. eapply write_frame; eauto. eapply look_lt; eauto.
Qed.

(** ** Examples *)
Ltac stand := repeat match goal with
  | |- In _ _ => assumption | |- value_for _ _ (HA _) _ => split; [exact I|constructor] | |- value_for _ _ _ _ => assumption
  | |- source_for _ _ _ _ => constructor | |- stands_for _ _ _ _ => constructor | |- Forall2 _ _ _ => constructor end.
Lemma servers_in : In T_Servers all_types.
Proof. apply find_root_In; vm_compute; reflexivity. Qed.
Definition dataS : mem := [CDict []; CDict [(u "host", HA (VStr (u "h"))); (u "protocol", HA (VStr (u "p")))]].
Definition serverS : pv := obj [("host", str "h"); ("protocol", str "p")].
Lemma dataS_ok : consistent dataS.
Proof. intros l c x Hl Hx. unfold dataS in *. do 2 (destruct l as [|l]; [injection Hl as <-; cbn in Hx; decompose [or] Hx; subst; try contradiction; exact I|]). destruct l; discriminate Hl. Qed.
Lemma dataS_empty : reads dataS (HL 0) (VDict []).
Proof. apply reads_dict. eexists _, _. split; [reflexivity|]. split; [reflexivity|constructor]. Qed.
Lemma dataS_server : reads dataS (HL 1) serverS.
Proof. cbv [serverS obj str map fst snd]. apply reads_dict. eexists _, _. split; [reflexivity|]. split; [reflexivity|]. repeat constructor. Qed.
Definition builtS : mem * option (hv * nat) := Eval vm_compute in hvalidate E0 T_Servers (HL 0) dataS.
Definition memS : mem := fst builtS.
Definition docS : hv := match snd builtS with Some (d, _) => d | None => HA VNone end.
Lemma builtS_ok : hvalidate E0 T_Servers (HL 0) dataS = (memS, Some (docS, 0)).
Proof. vm_compute. reflexivity. Qed.
Definition yes (M : mem) (l : nat) := true.
(** Two servers are made from the same data, one is changed, the other deleted (twice). *)
Definition workS : list hedit :=
  [HSet [] (u "a") (Made T_Server (HL 1)); HSet [] (u "b") (Made T_Server (HL 1)); HAttr [PKey (u "a")] (u "host") (HA (VStr (u "x")));
   HDel [] (u "b"); HDel [] (u "b"); HAttr [PKey (u "a")] (u "host") (HL 1)].
Definition workP : list pedit :=
  [PSet [] (u "a") (PMade T_Server serverS); PSet [] (u "b") (PMade T_Server serverS); PAttr [PKey (u "a")] (u "host") (str "x");
   PDel [] (u "b"); PDel [] (u "b"); PAttr [PKey (u "a")] (u "host") serverS].
Example c94_ex : In T_Servers all_types /\ only_reads yes (fun o => (true, o)) /\ consistent dataS /\ points dataS (HL 0) /\ reads dataS (HL 0) (VDict [])
  /\ hvalidate E0 T_Servers (HL 0) dataS = (memS, Some (docS, 0))
  /\ Forall2 (stands_for dataS (fun l => l < length dataS)) workS workP /\ spares E0 yes docS (fun l => l < length dataS) memS workS
  /\ fst (hedits E0 yes docS memS workS) = [true; true; true; true; false; false]
  /\ exists s, snd (pedits E0 (fun o => (true, o)) (VRoot "Servers" []) workP) = VRoot "Servers" [(u "a", s)] /\ get_path [PField (u "host")] s = Some (str "x").
Proof.
  split; [exact servers_in|]. split; [intros M l o _; reflexivity|]. split; [exact dataS_ok|]. split; [cbn; lia|]. split; [exact dataS_empty|]. split; [exact builtS_ok|].
  assert (Hs : In T_Server all_types) by in_table. assert (Hv : value_for dataS (fun l => l < length dataS) (HL 1) serverS) by (split; [cbn; lia|exact dataS_server]).
  split; [unfold workS, workP; stand|]. split; [|split; [vm_compute; reflexivity|eexists; split; vm_compute; reflexivity]].
  cbn [spares workS]. repeat match goal with |- _ /\ _ => split | |- True => exact I end; intros a Ha; vm_compute in Ha;
    try (destruct Ha as (l & Hl & ->); injection Hl as <-; vm_compute; lia); try (injection Ha as <-; vm_compute; lia); discriminate Ha.
Qed.
(** Refuted without that proviso: an object stored in two places is changed in both. *)
Definition twiceS : list hedit := [HSet [] (u "a") (Given (HL 1)); HSet [] (u "b") (Given (HL 1)); HSet [PKey (u "a")] (u "host") (Given (HA (VStr (u "x"))))].
Definition twiceP : list pedit := [PSet [] (u "a") (PGiven serverS); PSet [] (u "b") (PGiven serverS); PSet [PKey (u "a")] (u "host") (PGiven (str "x"))].
Theorem c94_shared_needed : ~ (forall E verdict procs t h0 v0 M0 M d n es ps o, In t all_types -> only_reads verdict procs -> consistent M0 -> points M0 h0 -> reads M0 h0 v0 ->
  hvalidate E t h0 M0 = (M, Some (d, n)) -> Forall2 (stands_for M0 (fun l => l < length M0)) es ps -> parse E t v0 = Some o ->
  reads (snd (hedits E verdict d M es)) d (snd (pedits E procs o ps))).
Proof.
  intros H. specialize (H E0 yes (fun o => (true, o)) T_Servers (HL 0) (VDict []) dataS memS docS 0 twiceS twiceP (VRoot "Servers" []) servers_in (fun M l o _ => eq_refl) dataS_ok ltac:(cbn; lia) dataS_empty builtS_ok).
  assert (Hs : Forall2 (stands_for dataS (fun l => l < length dataS)) twiceS twiceP).
  { assert (Hv : value_for dataS (fun l => l < length dataS) (HL 1) serverS) by (split; [cbn; lia|exact dataS_server]). unfold twiceS, twiceP; stand. }
  specialize (H Hs ltac:(vm_compute; reflexivity)). apply (readback_ok _ 9) in H; [|vm_compute; lia]. vm_compute in H. discriminate H.
Qed.
Print Assumptions c94_history. Print Assumptions c94_two_documents. Print Assumptions c94_alias. Print Assumptions c94_elsewhere. Print Assumptions c94_shared_needed.
