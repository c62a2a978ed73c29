(** Histories of edits: the memory model does what the tree model says, as long as nobody else changes the objects involved. *)
From Coq Require Import Lia.
From Verif Require Import PyStr Regex Value Types Rules Pydantic ClassTable Classes Linked State ProofState Heap SpecHeap ProofHeap ProofOwn ProofMut ProofRun Edits SpecEdits.

Lemma hpath_extends M M1 p : consistent M -> extends M M1 -> forall d, points M d -> hpath M1 p d = hpath M p d.
Proof.
  intros Hc He. assert (Hlk : forall l, l < length M -> look M1 l = look M l).
  { intros l Hl. destruct (look M l) as [c|] eqn:El; [eapply extends_look; eauto|]. apply nth_error_None in El. lia. }
  assert (Has : forall (e : hfields) n y, (forall x, In x (map snd e) -> points M x) -> assoc n e = Some y -> points M y).
  { intros e n y H Ha. apply H. apply assoc_In in Ha. apply (in_map snd) in Ha. exact Ha. }
  induction p as [|s p IH]; intros d Hp; [reflexivity|]. cbn [hpath]. destruct d as [a|l]; [reflexivity|]. rewrite (Hlk _ Hp).
  destruct (look M l) as [c|] eqn:El; [|destruct s; reflexivity].
  assert (Hpt : forall x, In x (held c) -> points M x) by (intros x Hx; eapply Hc; eauto).
  destruct s as [n|n|n|i], c as [xs|e|c fv ex|c r]; try reflexivity; cbn [held] in Hpt.
  - destruct (assoc n fv) as [y|] eqn:Ea; [|reflexivity]. apply IH. eapply Has; [|exact Ea]. intros x Hx. apply Hpt. apply in_or_app. left. exact Hx.
  - destruct (assoc n ex) as [y|] eqn:Ea; [|reflexivity]. apply IH. eapply Has; [|exact Ea]. intros x Hx. apply Hpt. apply in_or_app. right. exact Hx.
  - destruct (assoc n e) as [y|] eqn:Ea; [|reflexivity]. apply IH. eapply Has; [|exact Ea]. exact Hpt.
  - rewrite (Hlk r (Hpt (HL r) (or_introl eq_refl))). destruct (look M r) as [[xs|e|c' fv ex|c' r']|] eqn:Er; try reflexivity.
    destruct (assoc n e) as [y|] eqn:Ea; [|reflexivity]. apply IH. eapply Has; [|exact Ea]. intros x Hx. eapply Hc; [exact Er|exact Hx].
  - destruct (nth_error xs i) as [y|] eqn:Ea; [|reflexivity]. apply IH. apply Hpt. apply nth_error_In in Ea. exact Ea.
Qed.
(** ** Trees of changed containers *)
Definition regrown (Lh : list nat) (Fh : list hv) (Ps Qs : list (list nat * list hv)) : Prop :=
  (forall b, cnt (concat (map fst Qs)) b <= cnt (concat (map fst Ps)) b + cnt Lh b) /\ forall x, In x (concat (map snd Qs)) -> In x (concat (map snd Ps)) \/ In x Fh.
Lemma set_trees N k h' Lh Fh (d : hfields) Ps : Forall2 (made2 N) (map snd d) Ps -> made2 N h' (Lh, Fh) ->
  exists Qs, Forall2 (made2 N) (map snd (pset k h' d)) Qs /\ regrown Lh Fh Ps Qs.
Proof.
  revert Ps. induction d as [|[k' x] d IH]; intros Ps H Hm; inversion H as [|? [L F] ? Ps' Hx H']; subst; cbn [pset].
  - exists [(Lh, Fh)]. split; [constructor; [exact Hm|constructor]|]. unfold regrown. cbn [map concat fst snd]. rewrite !app_nil_r. split; [intros b; lia|]. intros y Hy. right. exact Hy.
  - destruct (str_eqb k k').
    + exists ((Lh, Fh) :: Ps'). split; [constructor; assumption|]. unfold regrown. cbn [map concat fst snd]. split; [intros b; rewrite !cnt_app; lia|].
      intros y Hy. apply in_app_or in Hy as [Hy|Hy]; [right; exact Hy|left; apply in_or_app; right; exact Hy].
    + destruct (IH _ H' Hm) as (Qs & HQ & Hc & Hf). exists ((L, F) :: Qs). split; [constructor; assumption|]. unfold regrown. cbn [map concat fst snd].
      split; [intros b; specialize (Hc b); rewrite !cnt_app; lia|]. intros y Hy. apply in_app_or in Hy as [Hy|Hy]; [left; apply in_or_app; left; exact Hy|].
      destruct (Hf _ Hy); [left; apply in_or_app; right; assumption|right; assumption].
Qed.
Lemma del_trees N k Lh Fh (d : hfields) Ps : Forall2 (made2 N) (map snd d) Ps ->
  exists Qs, Forall2 (made2 N) (map snd (pdel k d)) Qs /\ regrown Lh Fh Ps Qs.
Proof.
  revert Ps. induction d as [|[k' x] d IH]; intros Ps H; inversion H as [|? [L F] ? Ps' Hx H']; subst; cbn [pdel].
  - exists []. split; [constructor|]. split; [intros b; cbn; lia|intros y []].
  - destruct (str_eqb k k').
    + exists Ps'. split; [assumption|]. unfold regrown. cbn [map concat fst snd]. split; [intros b; rewrite !cnt_app; lia|].
      intros y Hy. left; apply in_or_app; right; exact Hy.
    + destruct (IH _ H') as (Qs & HQ & Hc & Hf). exists ((L, F) :: Qs). split; [constructor; assumption|]. unfold regrown. cbn [map concat fst snd].
      split; [intros b; specialize (Hc b); rewrite !cnt_app; lia|]. intros y Hy. apply in_app_or in Hy as [Hy|Hy]; [left; apply in_or_app; left; exact Hy|].
      destruct (Hf _ Hy); [left; apply in_or_app; right; assumption|right; assumption].
Qed.
Lemma append_trees N h' Lh Fh (d : list hv) Ps : Forall2 (made2 N) d Ps -> made2 N h' (Lh, Fh) -> exists Qs, Forall2 (made2 N) (d ++ [h'])%list Qs /\ regrown Lh Fh Ps Qs.
Proof.
  intros H Hm. exists (Ps ++ [(Lh, Fh)])%list. split; [apply Forall2_app; [exact H|constructor; [exact Hm|constructor]]|]. unfold regrown.
  rewrite !map_app, !concat_app. cbn [map concat fst snd]. rewrite !app_nil_r. split; [intros b; rewrite cnt_app; lia|].
  intros y Hy. apply in_app_or in Hy. exact Hy.
Qed.
Lemma pdel_values {A} k (d : list (pystr * A)) x : In x (map snd (pdel k d)) -> In x (map snd d).
Proof. induction d as [|[k' y] d IH]; [intros []|]. cbn [pdel map snd]. destruct (str_eqb k k'); [intros H; right; exact H|]. intros [H|H]; [left; exact H|right; auto]. Qed.
Lemma entries_del M k d e : Forall2 (same_entry M) d e -> Forall2 (same_entry M) (pdel k d) (dict_del k e).
Proof.
  induction 1 as [|[a y] [b w] d e [Hk Hr] He IH]; [constructor|]. cbn [fst snd] in *. subst b. cbn [pdel dict_del]. destruct (str_eqb k a); [exact He|]. constructor; [split; auto|exact IH].
Qed.
Lemma entries_has M k d e : Forall2 (same_entry M) d e -> has_key k d = has_key k e.
Proof. intros H. unfold has_key. rewrite (entries_keys _ _ _ H). reflexivity. Qed.

Section Hist.
  Context (E : env) (verdict : mem -> nat -> bool) (Mb : mem) (old : nat -> Prop) (Hclosed : closed Mb old).
  Context (procs : pv -> bool * pv) (Hreads : only_reads verdict procs).
  Notation old_val := (among old).
  Notation inv := (inv Mb old). Notation owned := (owned_in Mb old). Notation keeps := (keeps_old Mb old).
  (** a value to be stored: made of new objects and of old ones *)
  Record handed (M M1 : mem) (h : hv) (w : pv) (Lh : list nat) (Fh : list hv) : Prop := {
    hd_ext : extends M M1; hd_ok : consistent M1; hd_pt : points M1 h; hd_tree : made_of M1 h Lh Fh; hd_nodup : NoDup Lh; hd_new : forall a, In a Lh -> length M <= a;
    hd_leaf : forall x, In x Fh -> old_val x; hd_reads : reads M1 h w }.
  Lemma handed_apart M M1 h w Lh Fh d L F a : inv M d L F -> handed M M1 h w Lh Fh -> In a L -> ~ old a -> ~ contains M1 h a.
  Proof.
    intros Hi [He Hok Hpt Ht Hnd Hnew Hlf Hr] Ha Ho Hc. assert (Hlt := made_exist _ _ _ _ _ (iv_tree _ _ _ _ _ _ Hi) Ha).
    assert (Hk1 := iv_old _ _ _ _ _ _ (inv_extends verdict _ _ Hclosed _ _ _ _ _ Hi He Hok)).
    destruct (made_contains _ _ _ Hc _ _ Ht) as [H|(x & Hx & Hcx)]; [apply Hnew in H; lia|]. exact (old_apart _ _ Hclosed _ _ _ Hk1 (Hlf _ Hx) Ho Hcx).
  Qed.
  Lemma container_ok M M1 d v L F p l a c c' h w Lh Fh f o o' : inv M d L F -> reads M d v -> handed M M1 h w Lh Fh ->
    hpath M p d = Some (HL l) -> contains M (HL l) a -> ~ old a -> look M a = Some c ->
    (forall x, In x (held c') -> In x (held c) \/ x = h) ->
    (forall N Ps, Forall2 (made2 N) (held c) Ps -> made2 N h (Lh, Fh) -> exists Qs, Forall2 (made2 N) (held c') Qs /\ regrown Lh Fh Ps Qs) ->
    reads M (HL l) o -> f o = (true, o') -> reads (write M1 a c') (HL l) o' ->
    owned (write M1 a c') d /\ exists v', at_path p f v = Some (true, v') /\ reads (write M1 a c') d v'.
  Proof.
    intros Hi Hr Hh Hp Hca Ho Hlk Hheld Htree Hro Hf Hro'. assert (Hcd : contains M d a) by (eapply part_trans; [exact (hpath_contains _ _ _ _ Hp)|exact Hca]).
    destruct (inv_target _ _ Hclosed _ _ _ _ _ Hi Hcd Ho) as [HaL HaF]. assert (Hi0 := Hi). destruct Hi0 as [Hok Hpt Ht Hnd Hn Hlf Hk].
    assert (Hh0 := Hh). destruct Hh0 as [He Hok1 Hpt1 Ht1 Hnd1 Hnew1 Hlf1 Hr1]. assert (Hlt := look_lt _ _ _ Hlk). assert (Hlt1 : a < length M1) by (apply extends_length in He; lia).
    assert (Hs : forall l' c0, look M l' = Some c0 -> l' <> a -> look (write M1 a c') l' = Some c0) by (intros; eapply write_frame; eauto).
    split.
    - unfold owned_in. eapply (inv_step verdict _ _ Hclosed M (write M1 a c') d L F a Lh Hi HaL).
      + apply consistent_write; [exact Hok1|exact Hlt1|]. intros x Hx. destruct (Hheld _ Hx) as [Hx'| ->]; [|exact Hpt1]. eapply points_extends; [exact He|]. eapply Hok; eauto.
      + rewrite length_write by exact Hlt1. apply extends_length. exact He.
      + exact Hs.
      + exact Hnd1.
      + exact Hnew1.
      + intros L0 F0 Hm0 Hi0 Hnd0. inversion Hm0 as [|? c0 Ps Hl0 HPs]; subst; [destruct Hi0|]. rewrite Hlk in Hl0. injection Hl0 as <-. inversion Hnd0 as [|? ? Hna _]; subst.
        assert (HPs' : Forall2 (made2 (write M1 a c')) (held c) Ps) by (apply (made_keeps M _ a Hs); assumption).
        assert (Hm' : made2 (write M1 a c') h (Lh, Fh)).
        { unfold made2. cbn [fst snd]. eapply made_agree; [exact Ht1|]. intros b cb Hb Hlb. rewrite look_write_other; [exact Hlb|exact Hlt1|]. apply Hnew1 in Hb. lia. }
        destruct (Htree _ _ HPs' Hm') as (Qs & HQ & Hc & Hfx). exists (a :: concat (map fst Qs)), (concat (map snd Qs)).
        split; [eapply mo_node; [apply look_write; exact Hlt1|exact HQ]|]. split.
        * intros b. specialize (Hc b). unfold cnt in *. cbn [count_occ]. destruct (Nat.eq_dec a b); lia.
        * intros x Hx. destruct (Hfx _ Hx); [left; assumption|right; auto].
    - exact (path_follows M _ a Hs true f o o' l Hca Hro Hf Hro' p d Hp _ _ _ Ht Hnd HaF Hr).
  Qed.
  (** what sources supply *)
  Lemma supply_ok M d L F s s' : inv M d L F -> source_for Mb old s s' ->
    match snd (supply E s M), supplied E s' with
    | Some h, Some w => exists Lh Fh, handed M (fst (supply E s M)) h w Lh Fh
    | None, None => extends M (fst (supply E s M)) /\ consistent (fst (supply E s M))
    | _, _ => False
    end.
  Proof.
    intros Hi. assert (Hi0 := Hi). destruct Hi0 as [Hok Hpt Ht Hnd Hn Hlf Hk].
    assert (Hval : forall h w, value_for Mb old h w -> points M h /\ reads M h w).
    { intros h w [Hh Hw]. split; [exact (old_points verdict _ _ Hclosed _ _ Hk Hh)|]. eapply reads_agree; [exact Hw|]. intros l' Hc'. apply Hk.
      assert (Hbk : keeps Mb) by (split; auto). exact (old_part _ _ Hclosed _ _ _ Hbk Hc' Hh). }
    intros [h w Hv|t h w Hty Hv]; destruct (Hval _ _ Hv) as [Hp Hr]; destruct Hv as [Hold _]; cbn [supply supplied fst snd].
    - exists [], [h]. constructor; auto; [apply extends_refl|apply mo_leaf|constructor|intros a []|intros x [<-|[]]; exact Hold].
    - assert (Hwf := wf_all _ Hty). assert (Hrf := hvalidate_refines E t Hwf h M w Hr). destruct (hvalidate E t h M) as [M1 r] eqn:Ev. cbn [fst snd] in *.
      assert (He := hvalidate_ext _ _ _ _ _ _ Ev). destruct (hvalidate_built E t Hwf _ _ _ _ Hok Hp Ev) as [Hc1 Hb]. unfold agrees in Hrf. unfold parse.
      destruct r as [[h' n]|], (validate E t w) as [[w' m]|]; try contradiction; cbn [option_map fst]; [|split; assumption].
      destruct (Hb _ _ eq_refl) as (Hp1 & Lh & Fh & Ho & [Hn1 Hbt] & HF). destruct (owns_made _ _ _ _ _ Ho) as (Fh' & Hm & Hlv). exists Lh, Fh'. constructor; auto.
      + intros a Ha. rewrite Forall_forall in Hbt. apply Hbt in Ha. unfold between in Ha. lia.
      + intros x Hx. eapply leaf_old; eauto.
      + tauto.
  Qed.
  Lemma supply_given_none M d L F : inv M d L F -> handed M M (HA VNone) VNone [] [HA VNone].
  Proof. intros Hi. constructor; [apply extends_refl|apply (iv_ok _ _ _ _ _ _ Hi)|exact I|apply mo_leaf|constructor|intros a []|intros x [<-|[]]; exact I|reflexivity]. Qed.
  (** ** The three container operations on the object a path leads to *)
  Lemma target_reads M d v p l : reads M d v -> hpath M p d = Some (HL l) -> exists o, reads M (HL l) o.
  Proof. intros Hr Hp. destruct (reads_part _ _ _ (hpath_contains _ _ _ _ Hp) _ Hr) as (o & Ho & _). eauto. Qed.
  Lemma content_inside M l : contains M (HL l) (content M l).
  Proof. unfold content. destruct (look M l) as [[xs|e|c fv ex|c r]|] eqn:El; try apply pt_here. eapply pt_inside; [exact El|left; reflexivity|apply pt_here]. Qed.
  Lemma content_extends M M1 l c : extends M M1 -> look M l = Some c -> content M1 l = content M l.
  Proof. intros He Hl. unfold content. rewrite Hl, (extends_look _ _ _ _ He Hl). reflexivity. Qed.
  (** an object whose entries are replaced reads as the new entries *)
  Lemma write_map M1 l e o : reads M1 (HL l) o -> look M1 (content M1 l) = Some (CDict e) -> 
    exists ev, Forall2 (same_entry M1) e ev /\ (forall x, In x (map snd e) -> ~ contains M1 x (content M1 l))
      /\ ((o = VDict ev /\ forall e' ev', Forall2 (same_entry (write M1 (content M1 l) (CDict e'))) e' ev' -> reads (write M1 (content M1 l) (CDict e')) (HL l) (VDict ev'))
          \/ (exists c, o = VRoot c ev /\ forall e' ev', Forall2 (same_entry (write M1 (content M1 l) (CDict e'))) e' ev' -> reads (write M1 (content M1 l) (CDict e')) (HL l) (VRoot c ev'))).
  Proof.
    intros Hr Hl. assert (Hr0 := Hr). assert (Hlt := look_lt _ _ _ Hl).
    apply reads_HL in Hr as [(xs & vs & El & -> & H)|[(e0 & ev & El & -> & H)|[(c' & fv & ex & fs & xe & El & -> & H1 & H2)|(c' & r & e0 & ev & El & Er & -> & H)]]];
      [assert (Hcn : content M1 l = l) by (unfold content; rewrite El; reflexivity)|assert (Hcn : content M1 l = l) by (unfold content; rewrite El; reflexivity)
      |assert (Hcn : content M1 l = l) by (unfold content; rewrite El; reflexivity)|assert (Hcn : content M1 l = r) by (unfold content; rewrite El; reflexivity)];
      rewrite Hcn in *; clear Hcn; try (rewrite El in Hl; discriminate Hl).
    - rewrite El in Hl. injection Hl as ->. exists ev. split; [exact H|]. split; [intros x Hx; eapply reads_acyclic; [exact Hr0|exact El|exact Hx]|]. left. split; [reflexivity|].
      intros e' ev' H'. apply reads_dict. exists l, e'. split; [reflexivity|]. split; [apply look_write; exact Hlt|exact H'].
    - rewrite Er in Hl. injection Hl as ->. exists ev. split; [exact H|]. split.
      + intros x Hx. apply (reads_acyclic M1 r (VDict ev) (CDict e)); [|exact Er|exact Hx]. apply reads_dict. exists r, e. auto.
      + right. exists c'. split; [reflexivity|]. intros e' ev' H'. apply reads_root. exists l, r, e'. split; [reflexivity|]. 
        assert (l <> r) by (intros ->; rewrite El in Er; discriminate Er). split; [rewrite look_write_other by assumption; exact El|]. split; [apply look_write; exact Hlt|exact H'].
  Qed.
  Lemma no_map M1 l o : reads M1 (HL l) o -> (forall e, look M1 (content M1 l) <> Some (CDict e)) -> forall k w, set_item k w o = (false, o) /\ del_item k o = (false, o).
  Proof.
    intros Hr Hn. apply reads_HL in Hr as [(xs & vs & El & -> & H)|[(e0 & ev & El & -> & H)|[(c' & fv & ex & fs & xe & El & -> & H1 & H2)|(c' & r & e0 & ev & El & Er & -> & H)]]];
      unfold content in Hn; rewrite El in Hn; intros k w; try (split; reflexivity).
    - exfalso. eapply Hn. exact El.
    - exfalso. eapply Hn. exact Er.
  Qed.
  (** a path to an object on which the operation raises *)
  Lemma refused M d v p l a L F f o : inv M d L F -> reads M d v -> hpath M p d = Some (HL l) -> contains M (HL l) a -> ~ old a -> reads M (HL l) o -> f o = (false, o) -> on_part p f v = (false, v).
  Proof.
    intros Hi Hr Hp Hca Ho Hro Hf. destruct (inv_target _ _ Hclosed _ _ _ _ _ Hi (part_trans _ _ _ _ (hpath_contains _ _ _ _ Hp) Hca) Ho) as [HaL HaF].
    destruct (path_follows M M a (fun l' c H _ => H) false f o o l Hca Hro Hf Hro p d Hp _ _ _ (iv_tree _ _ _ _ _ _ Hi) (iv_nodup _ _ _ _ _ _ Hi) HaF Hr) as (v' & Hv' & Hr').
    unfold on_part. rewrite Hv'. rewrite (reads_fun _ _ _ _ Hr' Hr). reflexivity.
  Qed.
  Definition idle (f : pv -> bool * pv) : Prop := forall a, immutable a -> f a = (false, a).
  Lemma nowhere M d v p f : idle f -> reads M d v -> (forall l, hpath M p d <> Some (HL l)) -> on_part p f v = (false, v).
  Proof. intros Hf Hr Hp. unfold on_part. destruct (path_nowhere M f Hf p d v Hp Hr) as [->| ->]; reflexivity. Qed.
  (** doc.p[k] = h *)
  Lemma set_ok M M1 d v L F p k h w Lh Fh : inv M d L F -> reads M d v -> handed M M1 h w Lh Fh -> (forall l, hpath M p d = Some (HL l) -> ~ old (content M l)) ->
    let r := at_object M1 d p (fun l => hset M1 l k h) in let s := on_part p (set_item k w) v in fst r = fst s /\ owned (snd r) d /\ reads (snd r) d (snd s).
  Proof.
    intros Hi Hr Hh Hsp. assert (Hh0 := Hh). destruct Hh0 as [He Hok1 Hpt1 Ht1 Hnd1 Hnew1 Hlf1 Hr1]. assert (Hi1 := inv_extends verdict _ _ Hclosed _ _ _ _ _ Hi He Hok1).
    assert (Hrd1 := reads_extends _ _ _ _ He Hr). unfold at_object. rewrite (hpath_extends M M1 p (iv_ok _ _ _ _ _ _ Hi) He d (iv_pt _ _ _ _ _ _ Hi)).
    assert (Hid : idle (set_item k w)) by (intros a Ha; destruct a; try destruct Ha; reflexivity).
    destruct (hpath M p d) as [[a0|l]|] eqn:Ep; [|specialize (Hsp _ eq_refl)|]; cbv zeta.
    - rewrite (nowhere M d v p _ Hid Hr) by (rewrite Ep; discriminate). cbn [fst snd]. split; [reflexivity|]. split; [exists L, F; exact Hi1|exact Hrd1].
    - destruct (target_reads _ _ _ _ _ Hr Ep) as [o Ho]. assert (Ho1 := reads_extends _ _ _ _ He Ho). assert (Hlk : exists c, look M l = Some c) by (eapply reads_contains; [exact Ho|apply pt_here]).
      destruct Hlk as [cl Hlk]. assert (Hcx := content_extends _ _ _ _ He Hlk). unfold hset. assert (Hn := no_map M1 l o Ho1).
      destruct (look M1 (content M1 l)) as [[xs|e|c fv ex|c r]|] eqn:Ec;
        try (rewrite (refused _ _ _ _ _ (content M l) _ _ (set_item k w) o Hi Hr Ep (content_inside _ _) Hsp Ho (proj1 (Hn ltac:(discriminate) k w)));
             cbn [fst snd]; split; [reflexivity|]; split; [exists L, F; exact Hi1|exact Hrd1]).
      destruct (write_map _ _ _ _ Ho1 Ec) as (ev & Hev & Hac & Hcase). rewrite Hcx in *.
      assert (HaL : In (content M l) L) by (eapply (proj1 (inv_target _ _ Hclosed _ _ _ _ _ Hi (part_trans _ _ _ _ (hpath_contains _ _ _ _ Ep) (content_inside _ _)) Hsp))).
      assert (Hlc : look M (content M l) = Some (CDict e)) by (eapply look_extends_inv; [exact He| |exact Ec]; exact (made_exist _ _ _ _ _ (iv_tree _ _ _ _ _ _ Hi) HaL)).
      assert (Hap := handed_apart _ _ _ _ _ _ _ _ _ _ Hi Hh HaL Hsp).
      assert (Hnew : Forall2 (same_entry (write M1 (content M l) (CDict (pset k h e)))) (pset k h e) (dict_set k w ev)).
      { apply entries_write; [exact (look_lt _ _ _ Ec)| |apply entries_set; assumption]. intros x Hx. apply pset_values in Hx as [->|Hx]; [exact Hap|auto]. }
      assert (Hstep : exists o', set_item k w o = (true, o') /\ reads (write M1 (content M l) (CDict (pset k h e))) (HL l) o').
      { destruct Hcase as [[-> Hc]|(c & -> & Hc)]; eexists; (split; [reflexivity|]); apply Hc; exact Hnew. }
      destruct Hstep as (o' & Hs & Ho'). 
      destruct (container_ok M M1 d v L F p l (content M l) (CDict e) (CDict (pset k h e)) h w Lh Fh (set_item k w) o o' Hi Hr Hh Ep (content_inside _ _) Hsp Hlc) as [Hown (v' & Hv' & Hrv')]; auto.
      + intros x Hx. cbn [held] in *. apply pset_values in Hx as [->|Hx]; auto.
      + intros N Ps HPs Hm. cbn [held]. apply set_trees; assumption.
      + unfold on_part. rewrite Hv'. cbn [fst snd]. auto.
    - rewrite (nowhere M d v p _ Hid Hr) by (rewrite Ep; discriminate). cbn [fst snd]. split; [reflexivity|]. split; [exists L, F; exact Hi1|exact Hrd1].
  Qed.
  (** del doc.p[k] *)
  Lemma del_ok M d v L F p k : inv M d L F -> reads M d v -> (forall l, hpath M p d = Some (HL l) -> ~ old (content M l)) ->
    let r := at_object M d p (fun l => hdel M l k) in let s := on_part p (del_item k) v in fst r = fst s /\ owned (snd r) d /\ reads (snd r) d (snd s).
  Proof.
    intros Hi Hr Hsp. assert (Hh := supply_given_none _ _ _ _ Hi). unfold at_object.
    assert (Hid : idle (del_item k)) by (intros a Ha; destruct a; try destruct Ha; reflexivity).
    assert (Hsame : owned M d) by (exists L, F; exact Hi).
    destruct (hpath M p d) as [[a0|l]|] eqn:Ep; [|specialize (Hsp _ eq_refl)|]; cbv zeta.
    - rewrite (nowhere M d v p _ Hid Hr) by (rewrite Ep; discriminate). cbn [fst snd]. auto.
    - destruct (target_reads _ _ _ _ _ Hr Ep) as [o Ho]. unfold hdel. assert (Hn := no_map M l o Ho).
      destruct (look M (content M l)) as [[xs|e|c fv ex|c r]|] eqn:Ec;
        try (rewrite (refused _ _ _ _ _ (content M l) _ _ (del_item k) o Hi Hr Ep (content_inside _ _) Hsp Ho (proj2 (Hn ltac:(discriminate) k VNone))); cbn [fst snd]; auto; fail).
      destruct (write_map _ _ _ _ Ho Ec) as (ev & Hev & Hac & Hcase). assert (Hhk := entries_has _ k _ _ Hev). destruct (has_key k e) eqn:Ek.
      + assert (Hnew : Forall2 (same_entry (write M (content M l) (CDict (pdel k e)))) (pdel k e) (dict_del k ev)).
        { apply entries_write; [exact (look_lt _ _ _ Ec)| |apply entries_del; assumption]. intros x Hx. apply pdel_values in Hx. auto. }
        assert (Hstep : exists o', del_item k o = (true, o') /\ reads (write M (content M l) (CDict (pdel k e))) (HL l) o').
        { destruct Hcase as [[-> Hc]|(c & -> & Hc)]; cbn [del_item]; rewrite <- Hhk; eexists; (split; [reflexivity|]); apply Hc; exact Hnew. }
        destruct Hstep as (o' & Hs & Ho').
        destruct (container_ok M M d v L F p l (content M l) (CDict e) (CDict (pdel k e)) (HA VNone) VNone [] [HA VNone] (del_item k) o o' Hi Hr Hh Ep (content_inside _ _) Hsp Ec) as [Hown (v' & Hv' & Hrv')]; auto.
        * intros x Hx. cbn [held] in *. apply pdel_values in Hx. auto.
        * intros N Ps HPs Hm. cbn [held]. apply del_trees; assumption.
        * unfold on_part. rewrite Hv'. cbn [fst snd]. auto.
      + rewrite (refused _ _ _ _ _ (content M l) _ _ (del_item k) o Hi Hr Ep (content_inside _ _) Hsp Ho); [cbn [fst snd]; auto|].
        destruct Hcase as [[-> Hc]|(c & -> & Hc)]; cbn [del_item]; rewrite <- Hhk; reflexivity.
    - rewrite (nowhere M d v p _ Hid Hr) by (rewrite Ep; discriminate). cbn [fst snd]. auto.
  Qed.
  (** doc.p.append(h) *)
  Lemma append_ok M M1 d v L F p h w Lh Fh : inv M d L F -> reads M d v -> handed M M1 h w Lh Fh -> (forall l, hpath M p d = Some (HL l) -> ~ old l) ->
    let r := at_object M1 d p (fun l => happend M1 l h) in let s := on_part p (append_item w) v in fst r = fst s /\ owned (snd r) d /\ reads (snd r) d (snd s).
  Proof.
    intros Hi Hr Hh Hsp. assert (Hh0 := Hh). destruct Hh0 as [He Hok1 Hpt1 Ht1 Hnd1 Hnew1 Hlf1 Hr1]. assert (Hi1 := inv_extends verdict _ _ Hclosed _ _ _ _ _ Hi He Hok1).
    assert (Hrd1 := reads_extends _ _ _ _ He Hr). unfold at_object. rewrite (hpath_extends M M1 p (iv_ok _ _ _ _ _ _ Hi) He d (iv_pt _ _ _ _ _ _ Hi)).
    assert (Hid : idle (append_item w)) by (intros a Ha; destruct a; try destruct Ha; reflexivity).
    destruct (hpath M p d) as [[a0|l]|] eqn:Ep; [|specialize (Hsp _ eq_refl)|]; cbv zeta.
    - rewrite (nowhere M d v p _ Hid Hr) by (rewrite Ep; discriminate). cbn [fst snd]. split; [reflexivity|]. split; [exists L, F; exact Hi1|exact Hrd1].
    - destruct (target_reads _ _ _ _ _ Hr Ep) as [o Ho]. unfold happend.
      assert (HaL : In l L) by (eapply (proj1 (inv_target _ _ Hclosed _ _ _ _ _ Hi (hpath_contains _ _ _ _ Ep) Hsp))).
      assert (Hap := handed_apart _ _ _ _ _ _ _ _ _ _ Hi Hh HaL Hsp). assert (Ho0 := Ho).
      apply reads_HL in Ho as [(xs & vs & El & -> & H)|[(e0 & ev & El & -> & H)|[(c' & fv & ex & fs & xe & El & -> & H1 & H2)|(c' & r & e0 & ev & El & Er & -> & H)]]];
        rewrite (extends_look _ _ _ _ He El);
        try (rewrite (refused _ _ _ _ _ l _ _ (append_item w) _ Hi Hr Ep (pt_here _ _) Hsp Ho0 eq_refl); cbn [fst snd]; split; [reflexivity|]; split; [exists L, F; exact Hi1|exact Hrd1]).
      assert (Hlt1 := look_lt _ _ _ (extends_look _ _ _ _ He El)).
      assert (Ho' : reads (write M1 l (CList (xs ++ [h]))) (HL l) (VList (vs ++ [w]))).
      { apply reads_list. exists l, (xs ++ [h])%list. split; [reflexivity|]. split; [apply look_write; exact Hlt1|]. apply Forall2_app.
        - assert (Hx1 := list_extends _ _ _ _ He H). revert Hx1. apply Forall2_weaken. intros x y Hx _ Hxy. apply reads_write; [exact Hlt1| |exact Hxy].
          eapply reads_acyclic; [exact (reads_extends _ _ _ _ He Ho0)|exact (extends_look _ _ _ _ He El)|exact Hx].
        - constructor; [|constructor]. apply reads_write; [exact Hlt1|exact Hap|exact Hr1]. }
      destruct (container_ok M M1 d v L F p l l (CList xs) (CList (xs ++ [h])) h w Lh Fh (append_item w) (VList vs) (VList (vs ++ [w])) Hi Hr Hh Ep (pt_here _ _) Hsp El) as [Hown (v' & Hv' & Hrv')]; auto.
      + intros x Hx. cbn [held] in *. apply in_app_or in Hx as [Hx|[<-|[]]]; auto.
      + intros N Ps HPs Hm. cbn [held]. apply append_trees; assumption.
      + unfold on_part. rewrite Hv'. cbn [fst snd]. auto.
    - rewrite (nowhere M d v p _ Hid Hr) by (rewrite Ep; discriminate). cbn [fst snd]. split; [reflexivity|]. split; [exists L, F; exact Hi1|exact Hrd1].
  Qed.
  (** doc.p.name = h *)
  Lemma attr_ok M d v L F p name h w : inv M d L F -> reads M d v -> value_for Mb old h w -> (forall l, hpath M p d = Some (HL l) -> ~ old l) ->
    let r := hedit_run E verdict d M (HAttr p name h) in let s := on_part p (fun o => assign E procs o name w) v in fst r = fst s /\ owned (snd r) d /\ reads (snd r) d (snd s).
  Proof.
    intros Hi Hr [Hh Hw] Hsp. cbn [hedit_run]. assert (Hi0 := Hi). destruct Hi0 as [Hok Hpt Ht Hnd Hn Hlf Hk]. assert (Hsame : owned M d) by (exists L, F; exact Hi).
    assert (Hid : idle (fun o => assign E procs o name w)) by (intros a Ha; destruct a; try destruct Ha; reflexivity).
    destruct (hpath M p d) as [[a0|l]|] eqn:Ep; [|specialize (Hsp _ eq_refl)|]; cbv zeta.
    - rewrite (nowhere M d v p _ Hid Hr) by (rewrite Ep; discriminate). cbn [fst snd]. auto.
    - destruct (inv_target _ _ Hclosed _ _ _ _ _ Hi (hpath_contains _ _ _ _ Ep) Hsp) as [Hl Hf].
      assert (Hhp := old_points verdict _ _ Hclosed _ _ Hk Hh). assert (Hap := old_apart _ _ Hclosed _ _ _ Hk Hh Hsp).
      assert (Hw' : reads M h w).
      { eapply reads_agree; [exact Hw|]. intros l' Hc'. apply Hk. assert (Hbk : keeps Mb) by (split; auto). exact (old_part _ _ Hclosed _ _ _ Hbk Hc' Hh). }
      destruct (target_reads _ _ _ _ _ Hr Ep) as [o Ho].
      destruct (hassign_refines E verdict procs Hreads M l o name h w Hok Hhp Ho Hw' Hap) as (o' & Ha & Ho'). destruct (hassign_frame E verdict M l name h) as [_ Hs].
      destruct (path_follows M _ l Hs _ (fun o => assign E procs o name w) o o' l (pt_here _ _) Ho Ha Ho' p d Ep _ _ _ Ht Hnd Hf Hr) as (v' & Hv' & Hr').
      assert (Hown := hassign_inv E verdict _ _ Hclosed M d L F l name h Hi Hl Hh). destruct (hassign E verdict M l name h) as [M' b]. cbn [fst snd] in *. unfold on_part. rewrite Hv'. cbn [fst snd].
      split; [reflexivity|]. split; [exact Hown|exact Hr'].
    - rewrite (nowhere M d v p _ Hid Hr) by (rewrite Ep; discriminate). cbn [fst snd]. auto.
  Qed.
  Lemma edit_ok M d v e pe : owned M d -> reads M d v -> stands_for Mb old e pe -> (forall a, edits_at M d e a -> ~ old a) ->
    let r := hedit_run E verdict d M e in let s := pedit_run E procs v pe in fst r = fst s /\ owned (snd r) d /\ reads (snd r) d (snd s).
  Proof.
    intros (L & F & Hi) Hr Hst Hsp. destruct Hst as [p n h w Hv|p k s s' Hs|p k|p s s' Hs]; cbn [edits_at pedit_run] in *.
    - eapply attr_ok; eauto.
    - cbn [hedit_run]. assert (Hsu := supply_ok M d L F s s' Hi Hs). destruct (supply E s M) as [M1 r]. cbn [fst snd] in Hsu. destruct r as [h|], (supplied E s') as [w|]; try contradiction.
      + destruct Hsu as (Lh & Fh & Hh). eapply set_ok; eauto.
      + destruct Hsu as [He Hc]. cbn [fst snd]. split; [reflexivity|]. split; [exists L, F; eapply inv_extends; eauto|eapply reads_extends; eauto].
    - cbn [hedit_run]. eapply del_ok; eauto.
    - cbn [hedit_run]. assert (Hsu := supply_ok M d L F s s' Hi Hs). destruct (supply E s M) as [M1 r]. cbn [fst snd] in Hsu. destruct r as [h|], (supplied E s') as [w|]; try contradiction.
      + destruct Hsu as (Lh & Fh & Hh). eapply append_ok; eauto.
      + destruct Hsu as [He Hc]. cbn [fst snd]. split; [reflexivity|]. split; [exists L, F; eapply inv_extends; eauto|eapply reads_extends; eauto].
  Qed.
  Lemma edits_ok es ps : Forall2 (stands_for Mb old) es ps -> forall M d v, owned M d -> reads M d v -> spares E verdict d old M es ->
    fst (hedits E verdict d M es) = fst (pedits E procs v ps) /\ owned (snd (hedits E verdict d M es)) d /\ reads (snd (hedits E verdict d M es)) d (snd (pedits E procs v ps)).
  Proof.
    induction 1 as [|e pe es ps Hst _ IH]; intros M d v Ho Hr Hsp; [cbn; auto|]. destruct Hsp as [Hs1 Hs2]. destruct (edit_ok M d v e pe Ho Hr Hst Hs1) as (H1 & H2 & H3).
    cbn [hedits pedits]. destruct (hedit_run E verdict d M e) as [b M1], (pedit_run E procs v pe) as [b' v1]. cbn [fst snd] in *. destruct (IH M1 d v1 H2 H3 Hs2) as (I1 & I2 & I3).
    destruct (hedits E verdict d M1 es) as [bs M2], (pedits E procs v1 ps) as [bs' v2]. cbn [fst snd] in *. split; [congruence|auto].
  Qed.
End Hist.
