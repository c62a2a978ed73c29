(** Properties C65-C67: object identity.  Construction copies, sharing in the input does not matter, assignments happen in place. *)
From Coq Require Import Lia.
From Verif Require Import PyStr Regex Value Types Rules Pydantic ClassTable Classes Linked Sample SpecParse ProofParse State SpecState ProofState Heap SpecHeap ProofHeap ProofOwn ProofMut ProofRun.
Local Open Scope string_scope.

(** ** C65 *)
(** The caller's objects are not modified, whether validation succeeds or fails. *)
Theorem c65_inputs_kept E t h M M' r : hvalidate E t h M = (M', r) -> forall l c, look M l = Some c -> look M' l = Some c.
Proof. intros H l c Hl. eapply extends_look; [eapply hvalidate_ext; exact H|exact Hl]. Qed.
(** What is built consists of new objects; only free-form data are the caller's. *)
Theorem c65_built E t h M M' d n : In t all_types -> consistent M -> points M h -> hvalidate E t h M = (M', Some (d, n)) ->
  exists L F, owns M' t d (L, F) /\ NoDup L /\ (forall l, In l L -> length M <= l < length M') /\ (forall x, In x F -> part M h x).
Proof.
  intros Ht Hc Hp H. destruct (hvalidate_built E t (wf_all _ Ht) _ _ _ _ Hc Hp H) as [_ Hb]. destruct (Hb _ _ eq_refl) as (_ & L & F & Ho & [Hn Hf] & HF).
  exists L, F. split; [exact Ho|]. split; [exact Hn|]. split; [|exact HF]. rewrite Forall_forall in Hf. intros l Hl. apply Hf. exact Hl.
Qed.
Lemma built_tree E t h M M' d n : wf_ty t = true -> consistent M -> points M h -> hvalidate E t h M = (M', Some (d, n)) ->
  consistent M' /\ points M' d /\ exists L F F', owns M' t d (L, F) /\ made_of M' d L F' /\ NoDup L /\ (forall l, In l L -> length M <= l < length M')
    /\ (forall x, In x F -> part M h x) /\ (forall x, In x F' -> leaf_of F x).
Proof.
  intros Ht Hc Hp H. destruct (hvalidate_built E t Ht _ _ _ _ Hc Hp H) as [Hc' Hb]. destruct (Hb _ _ eq_refl) as (Hp' & L & F & Ho & [Hn Hf] & HF).
  destruct (owns_made _ _ _ _ _ Ho) as (F' & Hm & Hl). split; [exact Hc'|]. split; [exact Hp'|]. exists L, F, F'. repeat (split; [assumption|]). split; [|auto].
  rewrite Forall_forall in Hf. exact Hf.
Qed.
Lemma leaf_points M h F x : consistent M -> points M h -> (forall y, In y F -> part M h y) -> leaf_of F x -> points M x.
Proof. intros Hc Hp HF [Hx|(a & ->)]; [|exact I]. eapply part_points; eauto. Qed.
(** Every new object is found at one place of the result only, however often its original occurs in the input. *)
Theorem c65_once E t h M M' d n l p q : In t all_types -> consistent M -> points M h -> hvalidate E t h M = (M', Some (d, n)) ->
  length M <= l -> hpath M' p d = Some (HL l) -> hpath M' q d = Some (HL l) -> p = q.
Proof.
  intros Ht Hc Hp H Hl. destruct (built_tree _ _ _ _ _ _ _ (wf_all _ Ht) Hc Hp H) as (_ & _ & L & F & F' & _ & Hm & Hn & _ & HF & HF'). eapply path_once; [exact Hm|exact Hn|].
  intros x Hx Hcx. assert (Hxp := leaf_points _ _ _ _ Hc Hp HF (HF' _ Hx)). assert (He := hvalidate_ext _ _ _ _ _ _ H). apply (part_back M) in Hcx; auto.
  apply part_points in Hcx; auto. cbn [points] in Hcx. lia.
Qed.
(** Refuted: the result does not depend on what happens to the caller's data afterwards. *)
Definition share_mem : mem := [CDict [(u "type", HA (VStr (u "string")))]; CDict [(u "properties", HL 0)]].
Theorem c65_later_changes_refuted :
  ~ (forall E t h M M' d n o l c, In t all_types -> consistent M -> points M h -> hvalidate E t h M = (M', Some (d, n)) -> reads M' d o -> l < length M -> reads (write M' l c) d o).
Proof.
  intros H. assert (Ht : In T_Schema all_types) by in_table.
  destruct (hvalidate E0 T_Schema (HL 1) share_mem) as [M' r] eqn:Ev. assert (Ev' := Ev). vm_compute in Ev'. injection Ev' as <- <-.
  match type of Ev with _ = (?m, Some (?d, ?n)) => specialize (H E0 T_Schema (HL 1) share_mem m d n) end.
  match type of Ev with _ = (?m, Some (?d, _)) => assert (Hr : exists o, reads m d o /\ ~ reads (write m 0 (CDict [])) d o) end.
  { destruct (readback (fst (hvalidate E0 T_Schema (HL 1) share_mem)) 5 (HL 2)) as [o|] eqn:Eo; [|vm_compute in Eo; discriminate Eo].
    exists o. vm_compute in Eo. injection Eo as <-. split; [|intros Hx].
    - apply reads_obj. eexists _, _, _. split; [reflexivity|]. split; [reflexivity|]. split; [repeat constructor|]. constructor; [|constructor]. split; [reflexivity|].
      apply reads_dict. eexists _, _. split; [reflexivity|]. split; [reflexivity|]. repeat constructor.
    - apply reads_obj in Hx as (l & d1 & d2 & Hl & Hlk & _ & Hx). injection Hl as <-. vm_compute in Hlk. injection Hlk as <- <-. inversion Hx as [|? ? ? ? [_ Hy] _]; subst. cbn [snd] in Hy.
      apply reads_dict in Hy as (l & d & Hl & Hlk & Hy). injection Hl as <-. vm_compute in Hlk. injection Hlk as <-. inversion Hy. }
  destruct Hr as (o & Hr & Hn). apply Hn. eapply H; [exact Ht| |cbn; lia|exact Ev|exact Hr|cbn; lia].
  intros [|[|l]] c x Hl Hx; [| |destruct l; discriminate Hl]; injection Hl as <-; cbn in Hx; destruct Hx as [<-|[]]; cbn; lia.
Qed.
(** Strongest true version: only changes of objects inside the free-form data can be seen in the result. *)
Theorem c65_later_changes_partial E t h M M' d n o : In t all_types -> consistent M -> points M h -> hvalidate E t h M = (M', Some (d, n)) -> reads M' d o ->
  exists L F, owns M' t d (L, F) /\ (forall x, In x F -> part M h x)
    /\ forall l c, l < length M -> (forall x, In x F -> ~ contains M x l) -> reads (write M' l c) d o.
Proof.
  intros Ht Hc Hp H Hr. destruct (built_tree _ _ _ _ _ _ _ (wf_all _ Ht) Hc Hp H) as (_ & _ & L & F & F' & Ho & Hm & Hn & Hnew & HF & HF'). exists L, F. split; [exact Ho|]. split; [exact HF|].
  intros l c Hl Hno. assert (He := hvalidate_ext _ _ _ _ _ _ H). apply reads_write; [apply extends_length in He; lia| |exact Hr]. intros Hcl.
  destruct (owns_contains _ _ _ _ _ _ Ho Hcl) as [Hi|(x & Hx & Hcx)]; [apply Hnew in Hi; lia|]. apply (Hno _ Hx). eapply part_back; eauto. eapply part_points; eauto.
Qed.

(** ** C66 *)
(** The outcome of validation is determined by the contents of the input (the tree it reads as), which is what Pydantic.v computes with. *)
Theorem c66_contents E t h M M' r v : In t all_types -> reads M h v -> hvalidate E t h M = (M', r) ->
  match r with Some (d, _) => exists o, parse E t v = Some o /\ reads M' d o | None => parse E t v = None end.
Proof.
  intros Ht Hr H. assert (Ha := hvalidate_refines E t (wf_all _ Ht) h M v Hr). rewrite H in Ha. cbn [fst snd] in Ha. unfold agrees in Ha. unfold parse.
  destruct r as [[d n]|], (validate E t v) as [[o m]|]; try contradiction; [|reflexivity]. exists o. split; [reflexivity|tauto].
Qed.
(** So inputs with the same contents, shared in whatever way, give results with the same contents. *)
Theorem c66_sharing E t h1 h2 M1 M2 M1' M2' r1 r2 v : In t all_types -> reads M1 h1 v -> reads M2 h2 v ->
  hvalidate E t h1 M1 = (M1', r1) -> hvalidate E t h2 M2 = (M2', r2) ->
  (r1 = None <-> r2 = None) /\ forall d1 n1 d2 n2, r1 = Some (d1, n1) -> r2 = Some (d2, n2) -> exists o, reads M1' d1 o /\ reads M2' d2 o.
Proof.
  intros Ht H1 H2 V1 V2. assert (A1 := c66_contents _ _ _ _ _ _ _ Ht H1 V1). assert (A2 := c66_contents _ _ _ _ _ _ _ Ht H2 V2).
  destruct r1 as [[d1 n1]|], r2 as [[d2 n2]|]; split.
  - split; discriminate.
  - intros a b c e Ha Hb. injection Ha as <- <-. injection Hb as <- <-. destruct A1 as (o & P1 & R1). destruct A2 as (o' & P2 & R2). exists o. split; [exact R1|]. congruence.
  - destruct A1 as (o & P1 & _). congruence.
  - discriminate.
  - destruct A2 as (o & P1 & _). congruence.
  - discriminate.
  - tauto.
  - discriminate.
Qed.

(** ** C67 *)
(** Assigning an attribute changes the object assigned to as State.v says ... *)
Theorem c67_object E verdict procs M l o name h w : only_reads verdict procs -> consistent M -> points M h -> reads M (HL l) o -> reads M h w -> ~ contains M h l ->
  exists o', assign E procs o name w = (snd (hassign E verdict M l name h), o') /\ reads (fst (hassign E verdict M l name h)) (HL l) o'.
Proof. intros Hp. apply hassign_refines. exact Hp. Qed.
(** ... and nothing that does not contain this object. *)
Theorem c67_elsewhere E verdict M l name h x v : reads M x v -> ~ contains M x l -> reads (fst (hassign E verdict M l name h)) x v.
Proof. intros Hr Hn. destruct (hassign_frame E verdict M l name h) as [_ Hs]. eapply keep_reads; eauto. Qed.
(** Every processor pipeline that leaves the document alone has the [verdict] these theorems speak about. *)
Theorem c67_processors procs : (forall o, snd (procs o) = o) -> exists verdict, only_reads verdict procs.
Proof. intros H. exists (verdict_of procs). apply verdict_of_ok. exact H. Qed.
(** A declared attribute gets a copy: new objects, except for free-form data. *)
Theorem c67_copy_stored E verdict M M' l name h c k fs fv ex fi t : In (TModel c k fs) all_types -> In (fi, t) fs -> f_name fi = name -> consistent M -> points M h -> look M l = Some (CObj c fv ex) ->
  hassign E verdict M l name h = (M', true) ->
  exists h' L F, hpath M' [PField name] (HL l) = Some h' /\ owns M' t h' (L, F) /\ NoDup L /\ (forall a, In a L -> length M <= a) /\ (forall x, In x F -> part M h x).
Proof.
  intros Ht Hin <- Hc Hp Hl H. destruct (linked_fields _ _ _ (linked_all _ Ht)) as [Hfs _]. assert (Hwf := wf_all _ Ht). assert (Hnm := names_NoDup _ _ _ Hwf). assert (Hwt := wf_sub _ _ _ _ Hwf Hin). cbn [snd] in Hwt.
  unfold hassign in H. rewrite Hl in H. unfold hstore in H. rewrite Hfs in H. clear Hfs. rewrite (find_field_in _ _ _ Hin Hnm) in H.
  destruct (hvalidate E t h M) as [M1 [[h' n]|]] eqn:Ev; [|discriminate H]. destruct (fv_check E (f_val fi) (peek M1 h')); [|discriminate H].
  assert (He := hvalidate_ext _ _ _ _ _ _ Ev). destruct (built_tree _ _ _ _ _ _ _ Hwt Hc Hp Ev) as (_ & _ & L & F & F' & Ho & _ & Hn & Hnew & HF & _).
  assert (Hlt := look_lt _ _ _ Hl). assert (Hlt1 : l < length M1) by (apply extends_length in He; lia). injection H as <- _. exists h', L, F. split; [|split; [|split; [exact Hn|split; [intros a Ha; apply Hnew in Ha; lia|exact HF]]]].
  - cbn [hpath]. rewrite look_write by exact Hlt1. set (new := pset (f_name fi) h' (pupdate fv ex)). 
    assert (Ha : hattr (f_name fi) new = h').
    { unfold new, hattr. generalize (pupdate fv ex) as d. clear. induction d as [|[k x] d IH]; cbn [pset assoc].
      - rewrite str_eqb_refl. reflexivity.
      - destruct (str_eqb (f_name fi) k) eqn:Ek; cbn [assoc]; rewrite Ek; [reflexivity|exact IH]. }
    assert (Hassoc : assoc (f_name fi) (map (fun ft : finfo * ty => (f_name (fst ft), hattr (f_name (fst ft)) new)) fs) = Some (hattr (f_name fi) new)).
    { clear -Hin Hnm. induction fs as [|[fj tj] fs IH]; [destruct Hin|]. cbn [map assoc fst]. inversion Hnm as [|? ? Hni Hnm']; subst. destruct Hin as [Hj|Hj].
      - injection Hj as -> ->. rewrite str_eqb_refl. reflexivity.
      - destruct (str_eqb (f_name fi) (f_name fj)) eqn:Ek; [|auto]. apply str_eqb_eq in Ek. rewrite Ek. reflexivity. }
    rewrite Hassoc, Ha. reflexivity.
  - eapply owns_agree; [exact Ho|]. cbn [fst]. intros a Ha. apply look_write_other; [exact Hlt1|]. apply Hnew in Ha. lia.
Qed.
(** An undeclared attribute gets the very object. *)
Theorem c67_undeclared_shared E verdict M M' l name h c k fs fv ex : In (TModel c k fs) all_types -> ~ In name (map (fun ft => f_name (fst ft)) fs) -> look M l = Some (CObj c fv ex) ->
  hassign E verdict M l name h = (M', true) -> hpath M' [PExtra name] (HL l) = Some h.
Proof.
  intros Ht Hn Hl H. destruct (linked_fields _ _ _ (linked_all _ Ht)) as [Hfs Hk]. assert (Hlt := look_lt _ _ _ Hl). unfold hassign in H. rewrite Hl in H. unfold hstore in H. rewrite Hfs in H. clear Hfs.
  assert (Hnone : find_field name fs = None).
  { clear -Hn. induction fs as [|ft fs IH]; [reflexivity|]. cbn [find_field]. destruct (str_eqb name (f_name (fst ft))) eqn:Ee; [exfalso; apply Hn; left; apply str_eqb_eq in Ee; symmetry; exact Ee|].
    apply IH. intros Hi. apply Hn. right. exact Hi. }
  rewrite Hnone in H. clear Hk. revert H. generalize (class_kind c) as kk. intros kk H.
  assert (Hg : forall b, (write M l (CObj c (map (fun ft => (f_name (fst ft), hattr (f_name (fst ft)) (pset name h (pupdate fv ex)))) fs)
    (filter (fun kv => negb (mem_str (fst kv) (map (fun ft => f_name (fst ft)) fs))) (pset name h (pupdate fv ex)))), b) = (M', true) -> hpath M' [PExtra name] (HL l) = Some h).
  { intros b Hb. injection Hb as <- _. cbn [hpath]. rewrite look_write by exact Hlt. assert (Hm : mem_str name (map (fun ft => f_name (fst ft)) fs) = false).
    { destruct (mem_str name _) eqn:Em; [|reflexivity]. apply mem_str_In in Em. contradiction. }
    revert Hm. generalize (map (fun ft : finfo * ty => f_name (fst ft)) fs) as names, (pupdate fv ex) as dd. clear. intros names dd Hm. 
    assert (Ha : assoc name (filter (fun kv => negb (mem_str (fst kv) names)) (pset name h dd)) = Some h); [|rewrite Ha; reflexivity].
    induction dd as [|[k x] dd IH]; cbn [pset].
    - cbn [filter fst]. rewrite Hm. cbn [negb assoc]. rewrite str_eqb_refl. reflexivity.
    - destruct (str_eqb name k) eqn:Ek; cbn [filter fst].
      + apply str_eqb_eq in Ek. subst k. rewrite Hm. cbn [negb assoc]. rewrite str_eqb_refl. reflexivity.
      + destruct (mem_str k names); cbn [negb]; [exact IH|]. cbn [assoc]. rewrite Ek. exact IH. }
  destruct kk; first [discriminate H|eapply Hg; exact H].
Qed.
(** Item assignment on a patterned map stores the very object, too. *)
Theorem c67_item_shared M M' l k h c r d : look M l = Some (CRoot c r) -> look M r = Some (CDict d) -> l <> r -> hsetitem M l k h = Some M' ->
  hpath M' [PKey k] (HL l) = Some h /\ forall l', l' <> r -> look M' l' = look M l'.
Proof.
  intros Hl Hr Hn H. unfold hsetitem in H. rewrite Hl, Hr in H. injection H as <-. assert (Hlt := look_lt _ _ _ Hr). split; [|intros; apply look_write_other; assumption].
  cbn [hpath]. rewrite look_write_other by assumption. rewrite Hl, look_write by exact Hlt. clear. assert (Ha : assoc k (pset k h d) = Some h); [|rewrite Ha; reflexivity].
  induction d as [|[k' x] d IH]; cbn [pset assoc]; [rewrite str_eqb_refl; reflexivity|]. destruct (str_eqb k k') eqn:Ek; cbn [assoc]; rewrite Ek; [reflexivity|exact IH].
Qed.
(** ** Histories of assignments *)
Lemma below_closed M0 : consistent M0 -> closed M0 (fun l => l < length M0).
Proof. intros Hc. split; [auto|]. intros l c [a|l'] _ Hl Hx; [exact I|]. exact (Hc _ _ _ Hl Hx). Qed.
(** A document built from data in [M0] and changed by assignments of values of [M0] reads as State.v says, and the objects of [M0]
    (the original data and the assigned values) stay as they are: after any sequence of assignments, successful or not, none of
    which is to an object of [M0] itself (reached through free-form data). *)
Theorem c67_history E verdict procs t h0 v0 M0 M d n ops ws : In t all_types -> only_reads verdict procs -> consistent M0 -> points M0 h0 -> reads M0 h0 v0 ->
  hvalidate E t h0 M0 = (M, Some (d, n)) ->
  Forall2 (fun a w => points M0 (ho_value a) /\ reads M0 (ho_value a) w) ops ws -> only_new E verdict d (fun l => l < length M0) M ops ->
  exists o, parse E t v0 = Some o
    /\ reads (fold_left (hop_run E verdict d) ops M) d
         (assign_run E procs (map (fun aw => {| as_path := ho_path (fst aw); as_name := ho_name (fst aw); as_value := snd aw |}) (combine ops ws)) o)
    /\ forall l, l < length M0 -> look (fold_left (hop_run E verdict d) ops M) l = look M0 l.
Proof.
  intros Ht Hp Hc Hh Hr Hv Hops Hnew. destruct (c66_contents _ _ _ _ _ _ _ Ht Hr Hv) as (o & Ho & Hro). exists o. split; [exact Ho|].
  destruct (built_tree _ _ _ _ _ _ _ (wf_all _ Ht) Hc Hh Hv) as (Hc' & Hp' & L & F & F' & _ & Hm & Hn & HL & HF & HF'). assert (He := hvalidate_ext _ _ _ _ _ _ Hv).
  assert (Hinv : owned_in M0 (fun l => l < length M0) M d).
  { exists L, F'. constructor; auto.
    - intros a Ha. apply HL in Ha. lia.
    - intros x Hx. assert (Hxp := leaf_points _ _ _ _ Hc Hh HF (HF' _ Hx)). destruct x; [exact I|exact Hxp].
    - split; [apply extends_length; exact He|]. intros l Hl. destruct (look M0 l) as [c|] eqn:El; [eapply extends_look; eauto|]. apply nth_error_None in El. lia. }
  assert (Hops' : Forall2 (fun a w => among (fun l => l < length M0) (ho_value a) /\ reads M0 (ho_value a) w) ops ws).
  { revert Hops. apply Forall2_impl_in. intros a w _ [Ha Hw]. split; [|exact Hw]. destruct (ho_value a); [exact I|exact Ha]. }
  destruct (run_ok E verdict M0 _ (below_closed _ Hc) procs Hp ops ws Hops' M d o Hinv Hro Hnew) as [(L' & F2 & Hi) Hr']. split; [exact Hr'|]. apply (iv_old _ _ _ _ _ _ Hi).
Qed.
(** Two documents built from the same data: assignments to one of them, of values of that data or of parts of the other document, do not
    change the other. *)
Theorem c67_two_documents E verdict procs t1 t2 h1 h2 v1 v2 M0 M1 M2 d1 d2 n1 n2 o2 ops ws : In t1 all_types -> In t2 all_types -> only_reads verdict procs -> consistent M0 ->
  points M0 h1 -> points M0 h2 -> reads M0 h1 v1 -> reads M0 h2 v2 -> hvalidate E t1 h1 M0 = (M1, Some (d1, n1)) -> hvalidate E t2 h2 M1 = (M2, Some (d2, n2)) -> parse E t2 v2 = Some o2 ->
  let others := fun l => l < length M0 \/ contains M2 d2 l in
  Forall2 (fun a w => among others (ho_value a) /\ reads M2 (ho_value a) w) ops ws -> only_new E verdict d1 others M2 ops ->
  exists o1, parse E t1 v1 = Some o1
    /\ reads (fold_left (hop_run E verdict d1) ops M2) d1
         (assign_run E procs (map (fun aw => {| as_path := ho_path (fst aw); as_name := ho_name (fst aw); as_value := snd aw |}) (combine ops ws)) o1)
    /\ reads (fold_left (hop_run E verdict d1) ops M2) d2 o2.
Proof.
  intros T1 T2 Hp Hc P1 P2 R1 R2 V1 V2 Ho2 others Hops Hnew. assert (E1 := hvalidate_ext _ _ _ _ _ _ V1). assert (E2 := hvalidate_ext _ _ _ _ _ _ V2).
  destruct (c66_contents _ _ _ _ _ _ _ T1 R1 V1) as (o1 & Ho1 & Hr1). exists o1. split; [exact Ho1|].
  destruct (c66_contents _ _ _ _ _ _ _ T2 (reads_extends _ _ _ _ E1 R2) V2) as (o2' & Ho2' & Hr2). rewrite Ho2 in Ho2'. injection Ho2' as <-.
  destruct (built_tree _ _ _ _ _ _ _ (wf_all _ T1) Hc P1 V1) as (C1 & D1 & L1 & F1 & F1' & O1 & N1 & U1 & B1 & A1 & A1').
  assert (P2' : points M1 h2) by (eapply points_extends; eauto).
  destruct (built_tree _ _ _ _ _ _ _ (wf_all _ T2) C1 P2' V2) as (C2 & D2 & L2 & F2 & F2' & O2 & N2 & U2 & B2 & A2 & A2').
  assert (E02 : extends M0 M2) by (eapply extends_trans; eauto).
  assert (Hcl : closed M2 others).
  { split.
    - intros l [Hl|Hl]; [apply extends_length in E02; lia|]. apply part_points in Hl; [exact Hl|exact C2|exact D2].
    - intros l c x Ho Hl Hx. destruct x as [a|lx]; [exact I|]. cbn [among]. destruct Ho as [Ho|Ho].
      + left. apply (look_extends_inv M0) in Hl; [|exact E02|exact Ho]. exact (Hc _ _ _ Hl Hx).
      + right. eapply part_trans; [exact Ho|]. eapply part_held; eauto. }
  assert (Hinv : owned_in M2 others M2 d1).
  { exists L1, F1'. constructor.
    - exact C2.
    - exact (points_extends _ _ _ E2 D1).
    - eapply made_agree; [exact N1|]. intros l c _ Hl. exact (extends_look _ _ _ _ E2 Hl).
    - exact U1.
    - intros a Ha [Hlt|Hcn]; [apply B1 in Ha; lia|]. destruct (owns_contains _ _ _ _ _ _ O2 Hcn) as [Hi|(x & Hx & Hcx)]; [apply B1 in Ha; apply B2 in Hi; lia|].
      assert (Hx1 : part M1 h2 x) by auto. assert (Hc1 : contains M1 h2 a) by (eapply part_trans; [exact Hx1|]; eapply (part_back M1 M2); [exact C1|exact E2|exact (part_points _ _ _ C1 P2' Hx1)|exact Hcx]).
      apply (part_back M0) in Hc1; [|exact Hc|exact E1|exact P2]. apply part_points in Hc1; [|exact Hc|exact P2]. cbn [points] in Hc1. apply B1 in Ha. lia.
    - intros x Hx. assert (Hxp := leaf_points _ _ _ _ Hc P1 A1 (A1' _ Hx)). destruct x; [exact I|left; exact Hxp].
    - split; auto. }
  destruct (run_ok E verdict M2 others Hcl procs Hp ops ws Hops M2 d1 o1 Hinv (reads_extends _ _ _ _ E2 Hr1) Hnew) as [(L' & F3 & Hi) Hr']. split; [exact Hr'|].
  eapply reads_agree; [exact Hr2|]. intros l Hl. apply (iv_old _ _ _ _ _ _ Hi). right. exact Hl.
Qed.

(** ** A concrete case: an Info object whose list holds the same tag twice *)
Definition demo : mem :=
  [CDict [(u "name", HA (VStr (u "a")))]; CList [HL 0; HL 0];
   CDict [(u "title", HA (VStr (u "T"))); (u "version", HA (VStr (u "1"))); (u "tags", HL 1)];
   CDict [(u "name", HA (VStr (u "me")))]].
Definition demo_tag : pv := obj [("name", str "a")].
Definition demo_info : pv := obj [("title", str "T"); ("version", str "1"); ("tags", VList [demo_tag; demo_tag])].
Definition demo_ops : list hop :=
  [{| ho_path := []; ho_name := u "contact"; ho_value := HL 3 |}; {| ho_path := [PField (u "tags"); PIdx 1]; ho_name := u "name"; ho_value := HA (VStr (u "b")) |};
   {| ho_path := []; ho_name := u "title"; ho_value := HL 3 |}].
Lemma demo_ok : consistent demo.
Proof.
  intros l c x Hl Hx. unfold demo in *. do 4 (destruct l as [|l]; [injection Hl as <-; cbn in Hx; decompose [or] Hx; subst; try contradiction; cbn; try lia; exact I|]). destruct l; discriminate Hl.
Qed.
Ltac read_it := cbv [demo_info demo_tag obj str map fst snd]; repeat first
  [ exact I | reflexivity
  | match goal with |- reads _ _ (VDict _) => apply reads_dict; eexists _, _ | |- reads _ _ (VList _) => apply reads_list; eexists _, _
    | |- reads _ (snd _) (snd _) => cbn [snd] | |- reads _ _ (VObj _ _ _) => apply reads_obj; eexists _, _, _ | |- Forall2 _ _ _ => constructor | |- same_entry _ _ _ => split | |- _ /\ _ => split end ].
Lemma demo_reads : reads demo (HL 2) demo_info.
Proof. read_it. Qed.
Definition demo_built : mem * option (hv * nat) := Eval vm_compute in hvalidate E0 T_Info (HL 2) demo.
(** shared in the input, separate in the result: title, tags and the two tags are new objects *)
Example c65_ex : hvalidate E0 T_Info (HL 2) demo = demo_built
  /\ match demo_built with
     | (M', Some (d, _)) => hpath M' [PField (u "tags"); PIdx 0] d = Some (HL 4) /\ hpath M' [PField (u "tags"); PIdx 1] d = Some (HL 5) /\ hpath demo [PKey (u "tags"); PIdx 0] (HL 2) = hpath demo [PKey (u "tags"); PIdx 1] (HL 2)
     | _ => False end.
Proof. split; vm_compute; repeat split; reflexivity. Qed.
Example c66_ex : In T_Info all_types /\ consistent demo /\ points demo (HL 2) /\ reads demo (HL 2) demo_info.
Proof. split; [in_table|]. split; [exact demo_ok|]. split; [cbn; lia|exact demo_reads]. Qed.
Example c67_ex : match demo_built with
  | (M', Some (d, _)) =>
      let verdict := fun (_ : mem) (_ : nat) => true in
      only_reads verdict (fun o => (true, o)) /\ only_new E0 verdict d (fun l => l < length demo) M' demo_ops
      /\ Forall2 (fun a w => points demo (ho_value a) /\ reads demo (ho_value a) w) demo_ops [obj [("name", str "me")]; str "b"; obj [("name", str "me")]]
      /\ readback (fold_left (hop_run E0 verdict d) demo_ops M') 9 d <> readback M' 9 d
  | _ => False end.
Proof.
  unfold demo_built. cbv beta iota zeta. split; [intros M l o _; reflexivity|]. split; [|split; [repeat constructor; read_it|vm_compute; discriminate]].
  cbn [only_new demo_ops]. split; [|split; [|split; [|exact I]]]; intros l Hl; vm_compute in Hl; injection Hl as <-; cbn; lia.
Qed.
