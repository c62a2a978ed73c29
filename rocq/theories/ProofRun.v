(** Histories of attribute assignments: the memory model does what State.v says, as long as the objects assigned to occur once. *)
From Coq Require Import Lia.
From Verif Require Import PyStr Regex Value Types Rules Pydantic ClassTable Classes Linked State ProofState Heap SpecHeap ProofHeap ProofOwn ProofMut.

Section Ind.
  Context (M : mem) (Q : hv -> list nat -> list hv -> Prop) (Hleaf : forall x, Q x [] [x])
    (Hnode : forall l c Ps, look M l = Some c -> Forall2 (fun y P => made_of M y (fst P) (snd P)) (held c) Ps ->
       Forall2 (fun y P => Q y (fst P) (snd P)) (held c) Ps -> Q (HL l) (l :: concat (map fst Ps)) (concat (map snd Ps))).
  Fixpoint made_of_ind' h L F (H : made_of M h L F) {struct H} : Q h L F :=
    match H in made_of _ h L F return Q h L F with
    | mo_leaf _ x => Hleaf x
    | mo_node _ l c Ps Hl HF => Hnode l c Ps Hl HF
        ((fix go ys Ps (HF : Forall2 (fun y P => made_of M y (fst P) (snd P)) ys Ps) : Forall2 (fun y P => Q y (fst P) (snd P)) ys Ps :=
            match HF in Forall2 _ ys Ps return Forall2 (fun y P => Q y (fst P) (snd P)) ys Ps with
            | Forall2_nil _ => Forall2_nil _
            | Forall2_cons y P Hy HF' => Forall2_cons y P (made_of_ind' _ _ _ Hy) (go _ _ HF')
            end) _ _ HF)
    end.
End Ind.

Lemma made_inside M h L F : made_of M h L F -> (forall l, In l L -> contains M h l) /\ (forall x, In x F -> part M h x).
Proof.
  induction 1 as [x|l c Ps Hl _ IH] using made_of_ind'; [split; [intros l []|intros y [<-|[]]; apply pt_here]|]. split.
  - intros a [<-|Ha]; [apply pt_here|]. apply in_concat in Ha as (La & HLa & Ha). apply in_map_iff in HLa as (P & <- & HP).
    destruct (Forall2_in_r _ _ _ _ IH HP) as (y & Hy & [H1 _]). eapply pt_inside; [exact Hl|exact Hy|]. apply H1. exact Ha.
  - intros x Hx. apply in_concat in Hx as (Fx & HFx & Hx). apply in_map_iff in HFx as (P & <- & HP).
    destruct (Forall2_in_r _ _ _ _ IH HP) as (y & Hy & [_ H2]). eapply pt_inside; [exact Hl|exact Hy|]. apply H2. exact Hx.
Qed.
Lemma made_contains M h l : contains M h l -> forall L F, made_of M h L F -> In l L \/ exists x, In x F /\ contains M x l.
Proof.
  unfold contains. intros H. remember (HL l) as y eqn:Ey. induction H as [h|l0 c y0 x Hl Hy Hp IH]; intros L F Ho; subst.
  - inversion Ho; subst; [right; exists (HL l); split; [left; reflexivity|apply pt_here]|left; left; reflexivity].
  - inversion Ho as [|? c' Ps Hl' HF]; subst; [right; exists (HL l0); split; [left; reflexivity|eapply pt_inside; eauto]|].
    rewrite Hl in Hl'. injection Hl' as <-. destruct (Forall2_in_l _ _ _ _ HF Hy) as ([L1 F1] & HP & Hm). destruct (IH eq_refl _ _ Hm) as [Hi|(z & Hz & Hc)].
    + left. right. eapply in_concat_fst; eauto.
    + right. exists z. split; [eapply in_concat_snd; eauto|exact Hc].
Qed.
Lemma made_agree M M' h L F : made_of M h L F -> (forall l c, In l L -> look M l = Some c -> look M' l = Some c) -> made_of M' h L F.
Proof.
  induction 1 as [x|l c Ps Hl _ IH] using made_of_ind'; intros Ha; [apply mo_leaf|]. eapply mo_node; [apply Ha; [left; reflexivity|exact Hl]|].
  revert IH. apply Forall2_impl_in. intros y P HP Hy. apply Hy. intros l' c' Hl'. apply Ha. right. eapply in_concat_fst; eauto.
Qed.
Lemma made_exist M h L F l : made_of M h L F -> In l L -> l < length M.
Proof.
  induction 1 as [x|l0 c Ps Hl _ IH] using made_of_ind'; [intros []|]. intros [<-|Hi]; [eapply look_lt; eauto|].
  apply in_concat in Hi as (La & HLa & Ha). apply in_map_iff in HLa as (P & <- & HP). destruct (Forall2_in_r _ _ _ _ IH HP) as (y & _ & H1). auto.
Qed.

(** ** From typed ownership *)
Lemma concat_pairs {A} (f : A -> list nat * list hv) l : concat (map fst (map f l)) = concat (map (fun x => fst (f x)) l) /\ concat (map snd (map f l)) = concat (map (fun x => snd (f x)) l).
Proof. rewrite !map_map. auto. Qed.
Lemma leaves M xs : Forall2 (fun y P => made_of M y (fst P) (snd P)) xs (map (fun x => ([], [x])) xs).
Proof. induction xs as [|x xs IH]; constructor; [apply mo_leaf|exact IH]. Qed.
Lemma concat_nils {A B} (xs : list A) : concat (map fst (map (fun x : A => (@nil B, [x])) xs)) = [].
Proof. induction xs; [reflexivity|assumption]. Qed.
Lemma concat_ones {A B} (xs : list A) : concat (map snd (map (fun x : A => (@nil B, [x])) xs)) = xs.
Proof. induction xs as [|x xs IH]; [reflexivity|]. cbn [map snd concat app]. rewrite IH. reflexivity. Qed.

(** Leaves: the free-form values, and immutable values *)
Definition leaf_of (F : list hv) (x : hv) : Prop := In x F \/ exists a, x = HA a.
Lemma Forall2_choose {A B C} (R : A -> B -> Prop) (S : A -> C -> Prop) (T : B -> C -> Prop) xs ys :
  Forall2 R xs ys -> (forall a b, In b ys -> R a b -> exists c, S a c /\ T b c) -> exists zs, Forall2 S xs zs /\ Forall2 T ys zs.
Proof.
  induction 1 as [|a b xs ys Hab F IH]; intros H; [exists []; split; constructor|]. destruct (H a b (or_introl eq_refl) Hab) as (c & H1 & H2).
  destruct IH as (zs & H3 & H4); [intros; eapply H; eauto; right; assumption|]. exists (c :: zs). split; constructor; auto.
Qed.
Lemma same_lists (Ps Qs : list (list nat * list hv)) : Forall2 (fun P Q => fst Q = fst P /\ forall x, In x (snd Q) -> leaf_of (snd P) x) Ps Qs ->
  concat (map fst Qs) = concat (map fst Ps) /\ forall x, In x (concat (map snd Qs)) -> leaf_of (concat (map snd Ps)) x.
Proof.
  induction 1 as [|[L F] [L' F'] Ps Qs [H1 H2] _ [IH1 IH2]]; [split; [reflexivity|intros x []]|]. cbn [map concat fst snd] in *. subst L'. split; [rewrite IH1; reflexivity|].
  intros x Hx. apply in_app_or in Hx as [Hx|Hx].
  - destruct (H2 _ Hx) as [H|H]; [left; apply in_or_app; left; exact H|right; exact H].
  - destruct (IH2 _ Hx) as [H|H]; [left; apply in_or_app; right; exact H|right; exact H].
Qed.
Lemma owns_made M t : forall h L F, owns M t h (L, F) -> exists F', made_of M h L F' /\ forall x, In x F' -> leaf_of F x.
Proof.
  assert (HG : forall t xs Ps, (forall h L F, owns M t h (L, F) -> exists F', made_of M h L F' /\ forall x, In x F' -> leaf_of F x) -> Forall2 (owns M t) xs Ps ->
    exists Qs, Forall2 (fun y P => made_of M y (fst P) (snd P)) xs Qs /\ Forall2 (fun P Q => fst Q = fst P /\ forall x, In x (snd Q) -> leaf_of (snd P) x) Ps Qs).
  { intros t0 xs Ps IH HF. eapply Forall2_choose; [exact HF|]. intros a [L F] _ Ho. destruct (IH _ _ _ Ho) as (F' & H1 & H2). exists (L, F'). cbn. auto. }
  assert (Hatom : forall h (L : list nat) (F : list hv), (exists v, h = HA v) /\ (L, F) = ([], []) -> exists F', made_of M h L F' /\ forall x, In x F' -> leaf_of F x).
  { intros h L F [[v ->] Hq]. injection Hq as -> ->. exists [HA v]. split; [apply mo_leaf|]. intros x [<-|[]]. right. eauto. }
  induction t as [| | | | | | | |t IH|t IH|t IH|ts IH| |c k fs IH|c t IH] using ty_ind'; intros h L F H; try (apply Hatom; exact H).
  - cbn [owns] in H. injection H as -> ->. exists [h]. split; [apply mo_leaf|]. intros x Hx. left. exact Hx.
  - destruct H as (l & xs & Ps & -> & Hl & HF & HP). injection HP as -> ->. destruct (HG _ _ _ IH HF) as (Qs & H1 & H2). apply same_lists in H2 as [H2 H3].
    exists (concat (map snd Qs)). split; [|exact H3]. rewrite <- H2. eapply mo_node; [exact Hl|exact H1].
  - destruct H as (l & xs & Ps & -> & Hl & HF & HP). injection HP as -> ->. destruct (HG _ _ _ IH HF) as (Qs & H1 & H2). apply same_lists in H2 as [H2 H3].
    exists (concat (map snd Qs)). split; [|exact H3]. rewrite <- H2. eapply mo_node; [exact Hl|exact H1].
  - cbn [owns] in H. destruct H as [[-> Hq]|H]; [|apply IH; exact H]. apply Hatom. split; [eauto|exact Hq].
  - apply owns_union in H as (t & Hi & H). rewrite Forall_forall in IH. eapply IH; eauto.
  - destruct H as (l & xs & -> & Hl & Hp & HP). injection HP as -> ->. exists xs. split; [|intros x Hx; right; destruct (Hp _ Hx) as [n ->]; eauto].
    assert (Hm := mo_node M l _ _ Hl (leaves M xs)). rewrite (@concat_nils hv nat), (@concat_ones hv nat) in Hm. exact Hm.
  - apply owns_model in H as (l & fv & ex & Ps & -> & Hl & HF & HP). injection HP as -> ->.
    assert (HQ : exists Qs, Forall2 (fun y P => made_of M y (fst P) (snd P)) (map snd fv) Qs /\ Forall2 (fun P Q => fst Q = fst P /\ forall x, In x (snd Q) -> leaf_of (snd P) x) Ps Qs).
    { clear Hl. induction HF as [|fi t fs n x fv [Lp Fp] Ps Hn Ho HF IHF]; [exists []; split; constructor|]. inversion IH as [|? ? Ht IH']; subst. cbn [snd] in Ht.
      destruct (Ht _ _ _ Ho) as (F' & H1 & H2). destruct (IHF IH') as (Qs & H3 & H4). exists ((Lp, F') :: Qs). split; constructor; auto. }
    destruct HQ as (Qs & H1 & H2). apply same_lists in H2 as [H2 H3].
    assert (Hall : Forall2 (fun y P => made_of M y (fst P) (snd P)) (held (CObj c fv ex)) (Qs ++ map (fun x => ([], [x])) (map snd ex))) by (apply Forall2_app; [exact H1|apply leaves]).
    assert (Hm := mo_node M l _ _ Hl Hall). rewrite !map_app, !concat_app, (@concat_nils hv nat), (@concat_ones hv nat), app_nil_r, H2 in Hm.
    eexists. split; [exact Hm|]. intros x Hx. apply in_app_or in Hx as [Hx|Hx].
    + destruct (H3 _ Hx) as [H|H]; [left; apply in_or_app; left; exact H|right; exact H].
    + left. apply in_or_app. right. exact Hx.
  - destruct H as (l & r & d & Ps & -> & Hl & Hr & HF & HP). injection HP as -> ->. destruct (HG _ _ _ IH HF) as (Qs & H1 & H2). apply same_lists in H2 as [H2 H3].
    exists (concat (map snd Qs)). split; [|exact H3]. assert (Hm := mo_node M r _ _ Hr H1).
    assert (Hm2 := mo_node M l _ [(r :: concat (map fst Qs), concat (map snd Qs))] Hl (Forall2_cons (R := fun y P => made_of M y (fst P) (snd P)) (HL r) (r :: concat (map fst Qs), concat (map snd Qs)) Hm (Forall2_nil _))).
    cbn [map concat fst snd] in Hm2. rewrite !app_nil_r, H2 in Hm2. exact Hm2.
Qed.

(** ** Reading after a change of one object *)
Lemma hpath_contains M p : forall d x, hpath M p d = Some x -> part M d x.
Proof.
  induction p as [|s p IH]; intros d x; cbn [hpath]; [intros H; injection H as ->; apply pt_here|]. destruct d as [a|l]; [discriminate|].
  intros H. destruct s as [n|n|n|i], (look M l) as [[xs|e|c fv ex|c r]|] eqn:El; try discriminate H.
  - destruct (assoc n fv) as [y|] eqn:Ea; [|discriminate]. apply IH in H. eapply pt_inside; [exact El| |exact H]. apply assoc_In in Ea. cbn [held]. apply in_or_app. left. apply (in_map snd) in Ea. exact Ea.
  - destruct (assoc n ex) as [y|] eqn:Ea; [|discriminate]. apply IH in H. eapply pt_inside; [exact El| |exact H]. apply assoc_In in Ea. cbn [held]. apply in_or_app. right. apply (in_map snd) in Ea. exact Ea.
  - destruct (assoc n e) as [y|] eqn:Ea; [|discriminate]. apply IH in H. eapply pt_inside; [exact El| |exact H]. apply assoc_In in Ea. apply (in_map snd) in Ea. exact Ea.
  - destruct (look M r) as [[xs|e|c' fv ex|c' r']|] eqn:Er; try discriminate H. destruct (assoc n e) as [y|] eqn:Ea; [|discriminate]. apply IH in H.
    eapply pt_inside; [exact El|left; reflexivity|]. eapply pt_inside; [exact Er| |exact H]. apply assoc_In in Ea. apply (in_map snd) in Ea. exact Ea.
  - destruct (nth_error xs i) as [y|] eqn:Ea; [|discriminate]. apply IH in H. eapply pt_inside; [exact El| |exact H]. apply nth_error_In in Ea. exact Ea.
Qed.
Definition made2 (M : mem) (y : hv) (P : list nat * list hv) : Prop := made_of M y (fst P) (snd P).
Lemma nodup_app_disjoint {A} (a b : list A) x : NoDup (a ++ b) -> In x a -> In x b -> False.
Proof. induction a as [|y a IH]; [intros _ []|]. cbn [app]. intros H [->|Ha] Hb; inversion H as [|? ? Hn H']; subst; [apply Hn; apply in_or_app; right; exact Hb|eauto]. Qed.
Lemma nodup_app_l {A} (a b : list A) : NoDup (a ++ b) -> NoDup a.
Proof. induction a as [|y a IH]; [constructor|]. cbn [app]. intros H. inversion H as [|? ? Hn H']; subst. constructor; [intros Hi; apply Hn; apply in_or_app; left; exact Hi|auto]. Qed.
Lemma nodup_app_r {A} (a b : list A) : NoDup (a ++ b) -> NoDup b.
Proof. induction a as [|y a IH]; [auto|]. cbn [app]. intros H. inversion H; auto. Qed.
Section Change.
  Context (M M' : mem) (l : nat) (Hsame : forall l' c, look M l' = Some c -> l' <> l -> look M' l' = Some c).
  Lemma keep_reads x w : ~ contains M x l -> reads M x w -> reads M' x w.
  Proof.
    intros Hn Hr. eapply reads_agree; [exact Hr|]. intros l' Hc. destruct (reads_contains _ _ _ _ Hr Hc) as (c & Hl). rewrite Hl. apply Hsame; [exact Hl|]. intros ->. contradiction.
  Qed.
  Lemma keep_entries d e : (forall x, In x (map snd d) -> ~ contains M x l) -> Forall2 (same_entry M) d e -> Forall2 (same_entry M') d e.
  Proof. intros Hn. apply Forall2_weaken. intros a b Ha _ [Hk Hr]. split; [exact Hk|]. apply keep_reads; [|exact Hr]. apply Hn. apply in_map. exact Ha. Qed.
  Lemma keep_list d e : (forall x, In x d -> ~ contains M x l) -> Forall2 (reads M) d e -> Forall2 (reads M') d e.
  Proof. intros Hn. apply Forall2_weaken. intros a b Ha _ Hr. apply keep_reads; auto. Qed.
  (** exactly one of several values contains [l] *)
  Lemma others_clear ys Ps x : Forall2 (made2 M) ys Ps -> (forall a, In l a -> In a (map fst Ps) -> False) -> (forall z, In z (concat (map snd Ps)) -> ~ contains M z l) ->
    In x ys -> ~ contains M x l.
  Proof.
    intros HF Hn Hf Hx Hc. destruct (Forall2_in_l _ _ _ _ HF Hx) as ([L F] & HP & Hm). destruct (made_contains _ _ _ Hc _ _ Hm) as [Hi|(z & Hz & Hcz)].
    - eapply Hn; [exact Hi|]. apply (in_map fst) in HP. exact HP.
    - eapply Hf; [eapply in_concat_snd; eauto|exact Hcz].
  Qed.
  Lemma in_one ys Ps x : Forall2 (made2 M) ys Ps -> (forall z, In z (concat (map snd Ps)) -> ~ contains M z l) -> In x ys -> contains M x l -> In l (concat (map fst Ps)).
  Proof.
    intros HF Hf Hx Hc. destruct (Forall2_in_l _ _ _ _ HF Hx) as ([L F] & HP & Hm). destruct (made_contains _ _ _ Hc _ _ Hm) as [Hi|(z & Hz & Hcz)].
    - eapply in_concat_fst; eauto.
    - exfalso. eapply Hf; [eapply in_concat_snd; eauto|exact Hcz].
  Qed.
  Lemma not_in_concat (Ps : list (list nat * list hv)) : ~ In l (concat (map fst Ps)) -> forall a, In l a -> In a (map fst Ps) -> False.
  Proof. intros Hn a Ha Hi. apply Hn. apply in_concat. eauto. Qed.
  Context (b : bool).
  Definition follows (g : pv -> option (bool * pv)) (x : hv) : Prop := forall L F w, made_of M x L F -> NoDup L -> (forall z, In z F -> ~ contains M z l) -> reads M x w ->
    exists w', g w = Some (b, w') /\ reads M' x w'.
  Lemma entries_follow g n x : follows g x -> contains M x l -> forall d e Ps, Forall2 (made2 M) (map snd d) Ps -> NoDup (concat (map fst Ps)) -> (forall z, In z (concat (map snd Ps)) -> ~ contains M z l) ->
    Forall2 (same_entry M) d e -> assoc n d = Some x -> exists e', upd_key g n e = Some (b, e') /\ Forall2 (same_entry M') d e'.
  Proof.
    intros Hg Hc. induction d as [|[k y] d IH]; intros e Ps HP Hnd Hf He Ha; [discriminate|].
    cbn [map snd] in HP. inversion HP as [|? [L F] ? Ps' Hm HP']; subst. inversion He as [|? [k' w] ? e' [Hk Hr] He']; subst. cbn [fst snd map concat] in *. subst k'.
    unfold made2 in Hm. cbn [fst snd] in Hm. cbn [assoc] in Ha. cbn [upd_key]. destruct (str_eqb n k).
    - injection Ha as ->. destruct (Hg _ _ _ Hm (nodup_app_l _ _ Hnd) (fun z Hz => Hf z (in_or_app _ _ _ (or_introl Hz))) Hr) as (w' & Hw & Hr').
      rewrite Hw. cbn [option_map fst snd]. eexists. split; [reflexivity|]. constructor; [split; [reflexivity|exact Hr']|]. apply keep_entries; [|exact He'].
      intros z Hz. eapply others_clear; [exact HP'| |intros q Hq; apply Hf; apply in_or_app; right; exact Hq|exact Hz].
      apply not_in_concat. intros Hi. destruct (made_contains _ _ _ Hc _ _ Hm) as [Hl|(q & Hq & Hcq)]; [eapply nodup_app_disjoint; eauto|]. eapply Hf; [apply in_or_app; left; exact Hq|exact Hcq].
    - assert (Hf' : forall z, In z (concat (map snd Ps')) -> ~ contains M z l) by (intros q Hq; apply Hf; apply in_or_app; right; exact Hq).
      destruct (IH _ _ HP' (nodup_app_r _ _ Hnd) Hf' He' Ha) as (e2 & Hu & He2). change ((fix go (d0 : fields) : option (bool * fields) := _) e') with (upd_key g n e'). rewrite Hu. cbn [option_map fst snd]. eexists. split; [reflexivity|].
      constructor; [|exact He2]. split; [reflexivity|]. apply keep_reads; [|exact Hr]. intros Hcy. destruct (made_contains _ _ _ Hcy _ _ Hm) as [Hl|(q & Hq & Hcq)]; [|eapply Hf; [apply in_or_app; left; exact Hq|exact Hcq]].
      eapply nodup_app_disjoint; [exact Hnd|exact Hl|]. eapply (in_one _ _ x); [exact HP'|exact Hf'| |exact Hc]. apply assoc_In in Ha. apply (in_map snd) in Ha. exact Ha.
  Qed.
  Lemma list_follow g x : follows g x -> contains M x l -> forall d i e Ps, Forall2 (made2 M) d Ps -> NoDup (concat (map fst Ps)) -> (forall z, In z (concat (map snd Ps)) -> ~ contains M z l) ->
    Forall2 (reads M) d e -> nth_error d i = Some x -> exists e', upd_idx g i e = Some (b, e') /\ Forall2 (reads M') d e'.
  Proof.
    intros Hg Hc. induction d as [|y d IH]; intros i e Ps HP Hnd Hf He Ha; [destruct i; discriminate|].
    inversion HP as [|? [L F] ? Ps' Hm HP']; subst. inversion He as [|? w ? e' Hr He']; subst. cbn [fst snd map concat] in *.
    unfold made2 in Hm. cbn [fst snd] in Hm. destruct i as [|i]; cbn [nth_error] in Ha; cbn [upd_idx].
    - injection Ha as ->. destruct (Hg _ _ _ Hm (nodup_app_l _ _ Hnd) (fun z Hz => Hf z (in_or_app _ _ _ (or_introl Hz))) Hr) as (w' & Hw & Hr').
      rewrite Hw. cbn [option_map fst snd]. eexists. split; [reflexivity|]. constructor; [exact Hr'|]. apply keep_list; [|exact He'].
      intros z Hz. eapply others_clear; [exact HP'| |intros q Hq; apply Hf; apply in_or_app; right; exact Hq|exact Hz].
      apply not_in_concat. intros Hi. destruct (made_contains _ _ _ Hc _ _ Hm) as [Hl|(q & Hq & Hcq)]; [eapply nodup_app_disjoint; eauto|]. eapply Hf; [apply in_or_app; left; exact Hq|exact Hcq].
    - assert (Hf' : forall z, In z (concat (map snd Ps')) -> ~ contains M z l) by (intros q Hq; apply Hf; apply in_or_app; right; exact Hq).
      destruct (IH _ _ _ HP' (nodup_app_r _ _ Hnd) Hf' He' Ha) as (e2 & Hu & He2). rewrite Hu. cbn [option_map fst snd]. eexists. split; [reflexivity|].
      constructor; [|exact He2]. apply keep_reads; [|exact Hr]. intros Hcy. destruct (made_contains _ _ _ Hcy _ _ Hm) as [Hl|(q & Hq & Hcq)]; [|eapply Hf; [apply in_or_app; left; exact Hq|exact Hcq]].
      eapply nodup_app_disjoint; [exact Hnd|exact Hl|]. eapply (in_one _ _ x); [exact HP'|exact Hf'| |exact Hc]. apply nth_error_In in Ha. exact Ha.
  Qed.
  (** [e]: the object the path leads to; [l], the address that changes, is inside *)
  Context (f : pv -> bool * pv) (o o' : pv) (e0 : nat) (He0 : contains M (HL e0) l) (Ho : reads M (HL e0) o) (Hf : f o = (b, o')) (Ho' : reads M' (HL e0) o').
  Lemma path_follows p : forall d, hpath M p d = Some (HL e0) -> follows (at_path p f) d.
  Proof.
    induction p as [|s p IH]; intros d Hp L F v Hm Hnd HF Hr.
    - cbn [hpath] in Hp. injection Hp as ->. rewrite <- (reads_fun _ _ _ _ Ho Hr). cbn [at_path]. rewrite Hf. eauto.
    - assert (Hc : contains M d l) by (exact (part_trans _ _ _ _ (hpath_contains _ _ _ _ Hp) He0)). inversion Hm as [|l0 c Ps Hl HPs]; subst; [exfalso; eapply HF; [left; reflexivity|exact Hc]|].
      cbn [hpath] in Hp. inversion Hnd as [|? ? Hl0 Hnd']; subst. rewrite Hl in Hp.
      assert (Hin : forall x, In x (held c) -> contains M x l -> l0 <> l) by (intros x Hx Hcx ->; apply Hl0; eapply in_one; eauto).
      apply reads_HL in Hr as [(xs & vs & El & -> & H)|[(e & ev & El & -> & H)|[(c' & fv & ex & fs & xe & El & -> & H1 & H2)|(c' & r & e & ev & El & Er & -> & H)]]];
        rewrite Hl in El; injection El as ->; destruct s as [n|n|n|i]; try discriminate Hp.
      + destruct (nth_error xs i) as [x|] eqn:Ea; [|discriminate]. assert (Hx := nth_error_In _ _ Ea). assert (Hcx : contains M x l) by (exact (part_trans _ _ _ _ (hpath_contains _ _ _ _ Hp) He0)).
        destruct (list_follow _ _ (IH _ Hp) Hcx _ _ _ _ HPs Hnd' HF H Ea) as (e' & He' & Hr'). cbn [at_path]. rewrite He'. cbn [option_map fst snd]. eexists. split; [reflexivity|].
        apply reads_list. exists l0, xs. split; [reflexivity|]. split; [apply Hsame; [exact Hl|eapply Hin; eauto]|exact Hr'].
      + destruct (assoc n e) as [x|] eqn:Ea; [|discriminate]. assert (Hx := assoc_In _ _ _ Ea). apply (in_map snd) in Hx. assert (Hcx : contains M x l) by (exact (part_trans _ _ _ _ (hpath_contains _ _ _ _ Hp) He0)).
        destruct (entries_follow _ _ _ (IH _ Hp) Hcx _ _ _ HPs Hnd' HF H Ea) as (e' & He' & Hr'). cbn [at_path]. rewrite He'. cbn [option_map fst snd]. eexists. split; [reflexivity|].
        apply reads_dict. exists l0, e. split; [reflexivity|]. split; [apply Hsame; [exact Hl|eapply Hin; eauto]|exact Hr'].
      + destruct (assoc n fv) as [x|] eqn:Ea; [|discriminate]. assert (Hx := assoc_In _ _ _ Ea). apply (in_map snd) in Hx. assert (Hcx : contains M x l) by (exact (part_trans _ _ _ _ (hpath_contains _ _ _ _ Hp) He0)).
        assert (Hx' : In x (held (CObj c' fv ex))) by (cbn [held]; apply in_or_app; left; exact Hx).
        cbn [held] in HPs. apply Forall2_app_inv_l in HPs as (Ps1 & Ps2 & HP1 & HP2 & ->). rewrite map_app, concat_app in Hnd'. rewrite map_app, concat_app in HF.
        assert (HF1 : forall z, In z (concat (map snd Ps1)) -> ~ contains M z l) by (intros z Hz; apply HF; apply in_or_app; left; exact Hz).
        assert (HF2 : forall z, In z (concat (map snd Ps2)) -> ~ contains M z l) by (intros z Hz; apply HF; apply in_or_app; right; exact Hz).
        destruct (entries_follow _ _ _ (IH _ Hp) Hcx _ _ _ HP1 (nodup_app_l _ _ Hnd') HF1 H1 Ea) as (e' & He' & Hr'). cbn [at_path]. rewrite He'. cbn [option_map fst snd]. eexists. split; [reflexivity|].
        apply reads_obj. exists l0, fv, ex. split; [reflexivity|]. split; [apply Hsame; [exact Hl|eapply Hin; eauto]|]. split; [exact Hr'|]. apply keep_entries; [|exact H2].
        intros z Hz. eapply others_clear; [exact HP2| |exact HF2|exact Hz]. apply not_in_concat. intros Hi. eapply nodup_app_disjoint; [exact Hnd'|eapply (in_one _ _ x); eauto|exact Hi].
      + destruct (assoc n ex) as [x|] eqn:Ea; [|discriminate]. assert (Hx := assoc_In _ _ _ Ea). apply (in_map snd) in Hx. assert (Hcx : contains M x l) by (exact (part_trans _ _ _ _ (hpath_contains _ _ _ _ Hp) He0)).
        assert (Hx' : In x (held (CObj c' fv ex))) by (cbn [held]; apply in_or_app; right; exact Hx).
        cbn [held] in HPs. apply Forall2_app_inv_l in HPs as (Ps1 & Ps2 & HP1 & HP2 & ->). rewrite map_app, concat_app in Hnd'. rewrite map_app, concat_app in HF.
        assert (HF1 : forall z, In z (concat (map snd Ps1)) -> ~ contains M z l) by (intros z Hz; apply HF; apply in_or_app; left; exact Hz).
        assert (HF2 : forall z, In z (concat (map snd Ps2)) -> ~ contains M z l) by (intros z Hz; apply HF; apply in_or_app; right; exact Hz).
        destruct (entries_follow _ _ _ (IH _ Hp) Hcx _ _ _ HP2 (nodup_app_r _ _ Hnd') HF2 H2 Ea) as (e' & He' & Hr'). cbn [at_path]. rewrite He'. cbn [option_map fst snd]. eexists. split; [reflexivity|].
        apply reads_obj. exists l0, fv, ex. split; [reflexivity|]. split; [apply Hsame; [exact Hl|eapply Hin; eauto]|]. split; [|exact Hr']. apply keep_entries; [|exact H1].
        intros z Hz. eapply others_clear; [exact HP1| |exact HF1|exact Hz]. apply not_in_concat. intros Hi. eapply nodup_app_disjoint; [exact Hnd'|exact Hi|eapply (in_one _ _ x); eauto].
      + rewrite Er in Hp. destruct (assoc n e) as [x|] eqn:Ea; [|discriminate]. assert (Hx := assoc_In _ _ _ Ea). apply (in_map snd) in Hx. assert (Hcx : contains M x l) by (exact (part_trans _ _ _ _ (hpath_contains _ _ _ _ Hp) He0)).
        assert (Hcr : contains M (HL r) l) by (eapply pt_inside; [exact Er|exact Hx|exact Hcx]).
        cbn [held] in HPs. inversion HPs as [|? [L1 F1] ? Ps' Hm1 Hnil]; subst. inversion Hnil; subst. cbn [map concat fst snd] in *. rewrite app_nil_r in *.
        inversion Hm1 as [|? cr Qs Er' HQs]; subst; [exfalso; eapply HF; [left; reflexivity|exact Hcr]|]. rewrite Er in Er'. injection Er' as <-. inversion Hnd' as [|? ? Hr0 Hnd2]; subst.
        assert (Hlr : r <> l) by (intros ->; apply Hr0; eapply (in_one _ _ x); [exact HQs|exact HF|exact Hx|exact Hcx]).
        destruct (entries_follow _ _ _ (IH _ Hp) Hcx _ _ _ HQs Hnd2 HF H Ea) as (e' & He' & Hr'). cbn [at_path]. rewrite He'. cbn [option_map fst snd]. eexists. split; [reflexivity|].
        apply reads_root. exists l0, r, e. split; [reflexivity|]. split; [apply Hsame; [exact Hl|eapply Hin; [left; reflexivity|exact Hcr]]|]. split; [apply Hsame; [exact Er|exact Hlr]|exact Hr'].
  Qed.
End Change.

(** ** The tree after a change of one object *)
Definition cnt (L : list nat) (a : nat) : nat := count_occ Nat.eq_dec L a.
Lemma cnt_app A B a : cnt (A ++ B) a = cnt A a + cnt B a.
Proof. apply count_occ_app. Qed.
Lemma cnt_in L a : In a L <-> 0 < cnt L a.
Proof. apply count_occ_In. Qed.
Lemma nodup_cnt L : NoDup L <-> forall a, cnt L a <= 1.
Proof. apply (NoDup_count_occ Nat.eq_dec). Qed.
(** the new tree has no addresses and leaves besides the old ones and those of [N], [G] *)
Definition grown (N : list nat) (G : hv -> Prop) (L L' : list nat) (F F' : list hv) : Prop :=
  (forall a, cnt L' a <= cnt L a + cnt N a) /\ forall x, In x F' -> In x F \/ G x.
Section Update.
  Context (M M' : mem) (l : nat) (Hsame : forall l' c, look M l' = Some c -> l' <> l -> look M' l' = Some c) (N : list nat) (G : hv -> Prop).
  Lemma made_keep h L F : made_of M h L F -> ~ In l L -> made_of M' h L F.
  Proof. intros H Hn. eapply made_agree; [exact H|]. intros l' c Hi Hl. apply Hsame; [exact Hl|]. intros ->. contradiction. Qed.
  Lemma made_keeps ys Ps : Forall2 (made2 M) ys Ps -> ~ In l (concat (map fst Ps)) -> Forall2 (made2 M') ys Ps.
  Proof. intros H Hn. revert H. apply Forall2_impl_in. intros y P HP Hm. apply made_keep; [exact Hm|]. intros Hi. apply Hn. eapply in_concat_fst; eauto. Qed.
  Context (Hcell : forall L F, made_of M (HL l) L F -> In l L -> NoDup L -> exists L' F', made_of M' (HL l) L' F' /\ grown N G L L' F F').
  Lemma made_update h L F : made_of M h L F -> NoDup L -> In l L -> exists L' F', made_of M' h L' F' /\ grown N G L L' F F'.
  Proof.
    induction 1 as [x|l0 c Ps Hl HPs IH] using made_of_ind'; intros Hnd Hi; [destruct Hi|]. destruct (Nat.eq_dec l0 l) as [->|Hne].
    - apply Hcell; [eapply mo_node; eauto|exact Hi|exact Hnd].
    - destruct Hi as [Hi|Hi]; [contradiction|]. inversion Hnd as [|? ? _ Hnd']; subst. clear Hnd.
      assert (HQ : exists Qs, Forall2 (made2 M') (held c) Qs /\ grown N G (concat (map fst Ps)) (concat (map fst Qs)) (concat (map snd Ps)) (concat (map snd Qs))).
      { clear Hl. revert HPs Hnd' Hi. induction IH as [|y [L F] ys Ps Hy HF IHF]; intros HPs Hnd Hi; [destruct Hi|]. inversion HPs as [|? ? ? ? Hm HPs']; subst. cbn [map concat fst snd] in *.
        destruct (in_dec Nat.eq_dec l L) as [HL|HL].
        - destruct (Hy (nodup_app_l _ _ Hnd) HL) as (L' & F' & Hm' & Hc & Hf). exists ((L', F') :: Ps). split.
          + constructor; [exact Hm'|]. apply made_keeps; [exact HPs'|]. intros H. eapply nodup_app_disjoint; eauto.
          + cbn [map concat fst snd]. split; [intros a; specialize (Hc a); rewrite !cnt_app; lia|]. intros x Hx. apply in_app_or in Hx as [Hx|Hx]; [|left; apply in_or_app; right; exact Hx].
            destruct (Hf _ Hx); [left; apply in_or_app; left; assumption|right; assumption].
        - apply in_app_or in Hi as [Hi|Hi]; [contradiction|]. destruct (IHF HPs' (nodup_app_r _ _ Hnd) Hi) as (Qs & HQ & Hc & Hf). exists ((L, F) :: Qs). split.
          + constructor; [|exact HQ]. apply made_keep; assumption.
          + cbn [map concat fst snd]. split; [intros a; specialize (Hc a); rewrite !cnt_app; lia|]. intros x Hx. apply in_app_or in Hx as [Hx|Hx]; [left; apply in_or_app; left; exact Hx|].
            destruct (Hf _ Hx); [left; apply in_or_app; right; assumption|right; assumption]. }
      destruct HQ as (Qs & HQ & Hc & Hf). exists (l0 :: concat (map fst Qs)), (concat (map snd Qs)). split; [eapply mo_node; [apply Hsame; eassumption|exact HQ]|].
      split; [|exact Hf]. intros a. specialize (Hc a). unfold cnt in *. cbn [count_occ]. destruct (Nat.eq_dec l0 a); lia.
  Qed.
End Update.

(** ** Trees of the values of a dictionary *)
Definition tagged := list (pystr * (hv * (list nat * list hv))).
Definition untag (A : tagged) : hfields := map (fun kv => (fst kv, fst (snd kv))) A.
Definition tags (A : tagged) : list (list nat * list hv) := map (fun kv => snd (snd kv)) A.
Definition trees (M : mem) (A : tagged) : Prop := Forall (fun kv => made2 M (fst (snd kv)) (snd (snd kv))) A.
Lemma tag M d : forall Ps, Forall2 (made2 M) (map snd d) Ps -> exists A, untag A = d /\ tags A = Ps /\ trees M A.
Proof.
  induction d as [|[k x] d IH]; intros Ps H; inversion H as [|? P ? Ps' Hm H']; subst; [exists []; repeat split; constructor|].
  destruct (IH _ H') as (A & <- & <- & HA). exists ((k, (x, P)) :: A). repeat split. constructor; [exact Hm|exact HA].
Qed.
Lemma trees_forall2 M A : trees M A <-> Forall2 (made2 M) (map snd (untag A)) (tags A).
Proof.
  induction A as [|[k [x P]] A IH]; [split; constructor|]. cbn [untag tags map fst snd] in *. split; intros H; inversion H; subst; constructor; auto; apply IH; assumption.
Qed.
Lemma untag_set k x P A : untag (pset k (x, P) A) = pset k x (untag A).
Proof. induction A as [|[k' [x' P']] A IH]; [reflexivity|]. cbn [pset untag map fst snd]. destruct (str_eqb k k'); [reflexivity|]. cbn [map fst snd]. f_equal. exact IH. Qed.
Lemma untag_update B : forall A, untag (pupdate A B) = pupdate (untag A) (untag B).
Proof. induction B as [|[k [x P]] B IH]; intros A; [reflexivity|]. cbn [pupdate untag map fold_left fst snd]. etransitivity; [apply IH|]. rewrite untag_set. reflexivity. Qed.
(** a weight of trees, summed *)
Definition weigh (w : list nat * list hv -> nat) (Ps : list (list nat * list hv)) : nat := list_sum (map w Ps).
Lemma weigh_cons w k x P A : weigh w (tags ((k, (x, P)) :: A)) = w P + weigh w (tags A).
Proof. reflexivity. Qed.
Lemma weigh_set w k x P A : weigh w (tags (pset k (x, P) A)) <= weigh w (tags A) + w P.
Proof.
  induction A as [|[k' [x' P']] A IH]; cbn [pset]; [rewrite weigh_cons; unfold weigh; cbn; lia|]. destruct (str_eqb k k'); rewrite !weigh_cons; lia.
Qed.
Lemma weigh_update w B : forall A, weigh w (tags (pupdate A B)) <= weigh w (tags A) + weigh w (tags B).
Proof.
  induction B as [|[k [x P]] B IH]; intros A; [cbn [pupdate fold_left]; lia|]. cbn [pupdate fold_left fst snd]. specialize (IH (pset k (x, P) A)). assert (H := weigh_set w k x P A).
  change (weigh w (tags ((k, (x, P)) :: B))) with (w P + weigh w (tags B)). unfold pupdate in IH. lia.
Qed.
Lemma trees_set M k x P A : made2 M x P -> trees M A -> trees M (pset k (x, P) A).
Proof.
  intros Hm. induction 1 as [|[k' y] A Hy HA IH]; cbn [pset]; [constructor; [exact Hm|constructor]|]. destruct (str_eqb k k'); constructor; auto.
Qed.
Lemma trees_update M B : trees M B -> forall A, trees M A -> trees M (pupdate A B).
Proof. induction 1 as [|[k [x P]] B Hx HB IH]; intros A HA; [exact HA|]. cbn [pupdate fold_left fst snd]. apply IH. apply trees_set; assumption. Qed.
(** the fields and the extra entries that [hstore] makes of a dictionary *)
Definition none_tree : hv * (list nat * list hv) := (HA VNone, ([], [HA VNone])).
Definition tattr (n : pystr) (A : tagged) := match assoc n A with Some q => q | None => none_tree end.
Lemma untag_attr n A : fst (tattr n A) = hattr n (untag A).
Proof. unfold tattr, hattr. induction A as [|[k [x P]] A IH]; [reflexivity|]. cbn [assoc untag map fst snd]. destruct (str_eqb n k); [reflexivity|exact IH]. Qed.
Lemma untag_filter (p : pystr -> bool) A : untag (filter (fun kv => p (fst kv)) A) = filter (fun kv => p (fst kv)) (untag A).
Proof. induction A as [|[k [x P]] A IH]; [reflexivity|]. cbn [filter untag map fst snd]. destruct (p k); cbn [map fst snd]; [f_equal|]; exact IH. Qed.
Lemma mem_str_In x l : mem_str x l = true <-> In x l.
Proof. unfold mem_str. rewrite existsb_exists. split; [intros (y & Hy & He); apply str_eqb_eq in He; subst; exact Hy|intros H; exists x; split; [exact H|apply str_eqb_refl]]. Qed.
Lemma str_eqb_comm a b : str_eqb a b = str_eqb b a.
Proof. destruct (str_eqb a b) eqn:E1, (str_eqb b a) eqn:E2; try reflexivity; [apply str_eqb_eq in E1; subst; rewrite str_eqb_refl in E2; discriminate|apply str_eqb_eq in E2; subst; rewrite str_eqb_refl in E1; discriminate]. Qed.
Lemma weigh_pick w names : NoDup names -> w ([], [HA VNone]) = 0 -> forall A,
  list_sum (map (fun n => w (snd (tattr n A))) names) + weigh w (tags (filter (fun kv => negb (mem_str (fst kv) names)) A)) <= weigh w (tags A).
Proof.
  intros Hnd Hz. induction A as [|[k [x P]] A IH].
  - cbn [filter]. assert (H : list_sum (map (fun n => w (snd (tattr n []))) names) = 0); [|unfold weigh; cbn [tags map list_sum fold_right]; lia].
    clear Hnd. induction names as [|n names IHn]; [reflexivity|]. cbn [map list_sum fold_right]. unfold list_sum in IHn. rewrite IHn. unfold tattr, none_tree. cbn [assoc snd]. rewrite Hz. reflexivity.
  - cbn [filter fst]. change (weigh w (tags ((k, (x, P)) :: A))) with (w P + weigh w (tags A)).
    assert (Hs : list_sum (map (fun n => w (snd (tattr n ((k, (x, P)) :: A)))) names) <= (if mem_str k names then w P else 0) + list_sum (map (fun n => w (snd (tattr n A))) names)).
    { clear IH. induction names as [|n names IHn]; [cbn; lia|]. inversion Hnd as [|? ? Hni Hnd']; subst. specialize (IHn Hnd'). cbn [map list_sum fold_right]. unfold list_sum in IHn.
      unfold tattr at 1. cbn [assoc]. cbn [mem_str existsb]. fold (mem_str k names). rewrite (str_eqb_comm k n). destruct (str_eqb n k) eqn:En; cbn [orb].
      - apply str_eqb_eq in En. subst n. cbn [snd]. destruct (mem_str k names) eqn:Em; [apply mem_str_In in Em; contradiction|]. unfold list_sum. lia.
      - fold (tattr n A). unfold list_sum. destruct (mem_str k names); lia. }
    destruct (mem_str k names); cbn [negb].
    + lia.
    + change (weigh w (tags ((k, (x, P)) :: filter (fun kv => negb (mem_str (fst kv) names)) A))) with (w P + weigh w (tags (filter (fun kv => negb (mem_str (fst kv) names)) A))). lia.
Qed.

(** ** One assignment *)
Lemma consistent_write M l c : consistent M -> l < length M -> (forall x, In x (held c) -> points M x) -> consistent (write M l c).
Proof.
  intros Hc Hl Hx l' c' x Hl' Hi. assert (Hp : forall y, points M y -> points (write M l c) y) by (intros [a|a]; cbn [points]; [auto|rewrite length_write by exact Hl; auto]).
  apply Hp. destruct (Nat.eq_dec l' l) as [->|Hne].
  - rewrite look_write in Hl' by exact Hl. injection Hl' as <-. auto.
  - rewrite look_write_other in Hl' by assumption. eapply Hc; eauto.
Qed.
Section Hist.
  Context (E : env) (verdict : mem -> nat -> bool) (Mb : mem) (old : nat -> Prop).
  Notation old_val := (among old).
  Definition closed : Prop := (forall l, old l -> l < length Mb) /\ forall l c x, old l -> look Mb l = Some c -> In x (held c) -> old_val x.
  Definition keeps_old (M : mem) : Prop := length Mb <= length M /\ forall l, old l -> look M l = look Mb l.
  Record inv (M : mem) (d : hv) (L : list nat) (F : list hv) : Prop := {
    iv_ok : consistent M; iv_pt : points M d; iv_tree : made_of M d L F; iv_nodup : NoDup L; iv_new : forall a, In a L -> ~ old a; iv_leaf : forall x, In x F -> old_val x; iv_old : keeps_old M }.
  Context (Hclosed : closed).
  Lemma old_part M x y : keeps_old M -> part M x y -> old_val x -> old_val y.
  Proof.
    intros [_ Hk]. induction 1 as [x|l c z y Hl Hz Hp IH]; [auto|]. intros Hx. apply IH. cbn [among] in Hx. rewrite (Hk _ Hx) in Hl. eapply (proj2 Hclosed); eauto.
  Qed.
  Lemma old_apart M x l : keeps_old M -> old_val x -> ~ old l -> ~ contains M x l.
  Proof. intros Hk Hx Hl Hc. apply Hl. exact (old_part _ _ _ Hk Hc Hx). Qed.
  Lemma old_points M x : keeps_old M -> old_val x -> points M x.
  Proof. intros [Hlen _]. destruct x as [a|l]; cbn [among points]; [auto|]. intros H. apply (proj1 Hclosed) in H. lia. Qed.
  Lemma keeps_same M M' l : keeps_old M -> ~ old l -> length M <= length M' -> (forall l' c, look M l' = Some c -> l' <> l -> look M' l' = Some c) -> keeps_old M'.
  Proof.
    intros [Hlen Hk] Hl Hle Hs. split; [lia|]. intros l' Hl'. assert (Hlt := proj1 Hclosed _ Hl'). rewrite <- (Hk _ Hl'). destruct (look M l') as [c|] eqn:El.
    - apply Hs; [exact El|]. intros ->. contradiction.
    - exfalso. apply nth_error_None in El. lia.
  Qed.
  Lemma inv_step M M' d L F l N : inv M d L F -> In l L -> consistent M' -> length M <= length M' -> (forall l' c, look M l' = Some c -> l' <> l -> look M' l' = Some c) ->
    NoDup N -> (forall a, In a N -> length M <= a) ->
    (forall L F, made_of M (HL l) L F -> In l L -> NoDup L -> exists L' F', made_of M' (HL l) L' F' /\ grown N old_val L L' F F') ->
    exists L' F', inv M' d L' F'.
  Proof.
    intros [Hok Hpt Ht Hnd Hn Hlf Hk] Hi Hc' Hle Hs HN Hge Hcell. destruct (made_update _ _ _ Hs N old_val Hcell _ _ _ Ht Hnd Hi) as (L' & F' & Hm & Hg & Hf).
    exists L', F'. constructor; [exact Hc'|destruct d; [exact I|cbn [points] in *; lia]|exact Hm| | | |eapply keeps_same; eauto].
    - apply nodup_cnt. intros a. specialize (Hg a). destruct (in_dec Nat.eq_dec a N) as [Ha|Ha].
      + assert (~ In a L). { intros HL. assert (H1 := made_exist _ _ _ _ _ Ht HL). specialize (Hge _ Ha). lia. }
        assert (cnt L a = 0) by (apply count_occ_not_In; assumption). assert (H2 := proj1 (nodup_cnt N) HN a). lia.
      + assert (cnt N a = 0) by (apply count_occ_not_In; assumption). assert (H2 := proj1 (nodup_cnt L) Hnd a). lia.
    - intros a Ha. apply cnt_in in Ha. specialize (Hg a). destruct (in_dec Nat.eq_dec a N) as [HaN|HaN].
      + intros Ho. apply (proj1 Hclosed) in Ho. specialize (Hge _ HaN). destruct Hk as [Hlen _]. lia.
      + assert (cnt N a = 0) by (apply count_occ_not_In; assumption). apply Hn. apply cnt_in. lia.
    - intros x Hx. destruct (Hf _ Hx); auto.
  Qed.
  Lemma inv_extends M M' d L F : inv M d L F -> extends M M' -> consistent M' -> inv M' d L F.
  Proof.
    intros [Hok Hpt Ht Hnd Hn Hlf Hk] He Hc. constructor; auto.
    - eapply points_extends; eauto.
    - eapply made_agree; [exact Ht|]. intros l c _ Hl. eapply extends_look; eauto.
    - destruct Hk as [Hlen Hk]. split; [apply extends_length in He; lia|]. intros l Hl. rewrite <- (Hk _ Hl). assert (Hlt := proj1 Hclosed _ Hl).
      destruct (look M l) as [c|] eqn:El; [eapply extends_look; eauto|]. apply nth_error_None in El. lia.
  Qed.
  Lemma class_names c : NoDup (map (fun ft => f_name (fst ft)) (class_fields c)).
  Proof.
    unfold class_fields. destruct (find_class c all_types) as [[k fs]|] eqn:Ef; [|constructor]. apply Linked.find_class_In in Ef. apply wf_all in Ef. eapply names_NoDup. exact Ef.
  Qed.
  Lemma cnt_weigh a Ps : cnt (concat (map fst Ps)) a = weigh (fun P => cnt (fst P) a) Ps.
  Proof. induction Ps as [|P Ps IH]; [reflexivity|]. cbn [map concat]. rewrite cnt_app, IH. reflexivity. Qed.
  Lemma weigh_app w A B : weigh w (A ++ B) = weigh w A + weigh w B.
  Proof. unfold weigh. rewrite map_app, list_sum_app. reflexivity. Qed.
  Lemma tags_set k x P A Q : In Q (tags (pset k (x, P) A)) -> Q = P \/ In Q (tags A).
  Proof.
    intros H. unfold tags in *. apply in_map_iff in H as (kv & <- & H). assert (Hv : In (snd kv) (map snd (pset k (x, P) A))) by (apply in_map; exact H).
    apply pset_values in Hv as [->|Hv]; [left; reflexivity|right]. apply in_map_iff in Hv as (kv' & He & Hv). rewrite <- He. apply (in_map (fun kv => snd (snd kv))) in Hv. exact Hv.
  Qed.
  Lemma tags_update A B Q : In Q (tags (pupdate A B)) -> In Q (tags A) \/ In Q (tags B).
  Proof.
    intros H. unfold tags in *. apply in_map_iff in H as (kv & <- & H). assert (Hv : In (snd kv) (map snd (pupdate A B))) by (apply in_map; exact H).
    apply pupdate_values in Hv as [Hv|Hv]; [left|right]; apply in_map_iff in Hv as (kv' & He & Hv); rewrite <- He; apply (in_map (fun kv => snd (snd kv))) in Hv; exact Hv.
  Qed.
  Lemma in_tag_leaves (Ps : list (list nat * list hv)) x : In x (concat (map snd Ps)) <-> exists P, In P Ps /\ In x (snd P).
  Proof. rewrite in_concat. split; [intros (F & HF & Hx); apply in_map_iff in HF as (P & <- & HP); eauto|intros (P & HP & Hx); exists (snd P); split; [apply in_map; exact HP|exact Hx]]. Qed.
  (** the tree of the cell [hstore] writes *)
  Lemma store_tree M M1 l c fv ex name h' Lh Fh fs : look M l = Some (CObj c fv ex) -> extends M M1 -> NoDup (map (fun ft : finfo * ty => f_name (fst ft)) fs) ->
    made_of M1 h' Lh Fh -> (forall a, In a Lh -> length M <= a) -> (forall x, In x Fh -> old_val x) ->
    let new := pset name h' (pupdate fv ex) in
    let fv' := map (fun ft : finfo * ty => (f_name (fst ft), hattr (f_name (fst ft)) new)) fs in
    let ex' := filter (fun kv => negb (mem_str (fst kv) (map (fun ft : finfo * ty => f_name (fst ft)) fs))) new in
    forall L F, made_of M (HL l) L F -> In l L -> NoDup L -> exists L' F', made_of (write M1 l (CObj c fv' ex')) (HL l) L' F' /\ grown Lh old_val L L' F F'.
  Proof.
    intros Hl He Hnames Hh Hge Hf new fv' ex' L F Hm Hi Hnd. inversion Hm as [|? c' Ps Hl' HPs]; subst; [destruct Hi|]. rewrite Hl in Hl'. injection Hl' as <-. cbn [held] in HPs.
    assert (Hll := look_lt _ _ _ Hl). assert (Hll1 : l < length M1) by (apply extends_length in He; lia).
    inversion Hnd as [|? ? Hln Hnd']; subst. apply Forall2_app_inv_l in HPs as (Ps1 & Ps2 & HP1 & HP2 & ->). destruct (tag _ _ _ HP1) as (A & HuA & <- & HtA). destruct (tag _ _ _ HP2) as (B & HuB & <- & HtB).
    rewrite map_app, concat_app in *. set (M2 := write M1 l (CObj c fv' ex')).
    assert (Hs : forall l' c', look M l' = Some c' -> l' <> l -> look M2 l' = Some c') by (intros l' c' H1 H2; subst M2; rewrite look_write_other by assumption; eapply extends_look; eauto).
    assert (Htr : forall A : tagged, trees M A -> ~ In l (concat (map fst (tags A))) -> trees M2 A).
    { intros A0 H0 H1. apply trees_forall2. apply made_keeps with (M := M) (l := l); [exact Hs|apply trees_forall2; exact H0|exact H1]. }
    assert (HtA' : trees M2 A) by (apply Htr; [exact HtA|intros H; apply Hln; apply in_or_app; left; exact H]).
    assert (HtB' : trees M2 B) by (apply Htr; [exact HtB|intros H; apply Hln; apply in_or_app; right; exact H]).
    assert (Hh2 : made2 M2 h' (Lh, Fh)).
    { unfold made2. cbn [fst snd]. eapply made_agree; [exact Hh|]. intros a ca Ha Hla. subst M2. rewrite look_write_other; [exact Hla|exact Hll1|]. apply Hge in Ha. lia. }
    set (newA := pset name (h', (Lh, Fh)) (pupdate A B)).
    assert (Hnew : untag newA = new) by (subst newA new; rewrite untag_set, untag_update, HuA, HuB; reflexivity).
    assert (HtN : trees M2 newA) by (apply trees_set; [exact Hh2|apply trees_update; assumption]).
    set (names := map (fun ft : finfo * ty => f_name (fst ft)) fs) in *. set (exA := filter (fun kv => negb (mem_str (fst kv) names)) newA).
    set (Qs := (map (fun n => snd (tattr n newA)) names ++ tags exA)%list).
    assert (HfvA : map snd fv' = map (fun n => fst (tattr n newA)) names).
    { subst fv' names. rewrite !map_map. apply map_ext. intros ft. cbn [snd]. rewrite untag_attr, Hnew. reflexivity. }
    assert (HexA : untag exA = ex') by (subst exA ex'; rewrite <- Hnew; apply (untag_filter (fun k => negb (mem_str k names)))).
    assert (HQ : Forall2 (made2 M2) (held (CObj c fv' ex')) Qs).
    { cbn [held]. apply Forall2_app.
      - rewrite HfvA. generalize names as names0. clear -HtN. intros names0. induction names0 as [|n names0 IH]; [constructor|]. cbn [map]. constructor; [|exact IH]. unfold tattr. destruct (assoc n newA) as [q|] eqn:Ea; [|apply mo_leaf].
        apply assoc_In in Ea. unfold trees in HtN. rewrite Forall_forall in HtN. apply (HtN _ Ea).
      - rewrite <- HexA. apply trees_forall2. unfold trees in *. rewrite Forall_forall in *. intros kv Hkv. apply filter_In in Hkv as [Hkv _]. auto. }
    exists (l :: concat (map fst Qs)), (concat (map snd Qs)). split; [eapply mo_node; [apply look_write; exact Hll1|exact HQ]|]. split.
    - intros a. assert (Hw : cnt (concat (map fst Qs)) a <= cnt (concat (map fst (tags A)) ++ concat (map fst (tags B)))%list a + cnt Lh a).
      { rewrite cnt_app, !cnt_weigh. subst Qs. rewrite weigh_app. set (w := fun P : list nat * list hv => cnt (fst P) a).
        assert (H1 := weigh_pick w names Hnames eq_refl newA). fold exA in H1. assert (H2 := weigh_set w name h' (Lh, Fh) (pupdate A B)). fold newA in H2. assert (H3 := weigh_update w B A).
        assert (H4 : weigh w (map (fun n => snd (tattr n newA)) names) = list_sum (map (fun n => w (snd (tattr n newA))) names)) by (unfold weigh; rewrite map_map; reflexivity).
        change (w (Lh, Fh)) with (cnt Lh a) in H2. rewrite H4. lia. }
      unfold cnt in *. cbn [count_occ]. destruct (Nat.eq_dec l a); lia.
    - intros x Hx. apply in_tag_leaves in Hx as (P & HP & Hx).
      assert (HPn : P = ([], [HA VNone]) \/ In P (tags newA)).
      { subst Qs. apply in_app_or in HP as [HP|HP].
        - apply in_map_iff in HP as (n & <- & _). unfold tattr. destruct (assoc n newA) as [q|] eqn:Ea; [right|left; reflexivity]. apply assoc_In in Ea. apply (in_map (fun kv => snd (snd kv))) in Ea. exact Ea.
        - right. unfold tags in *. apply in_map_iff in HP as (kv & <- & Hkv). apply filter_In in Hkv as [Hkv _]. apply in_map_iff. exists kv. auto. }
      destruct HPn as [->|HPn]; [cbn [snd] in Hx; destruct Hx as [<-|[]]; right; exact I|]. apply tags_set in HPn as [->|HPn]; [right; auto|].
      left. rewrite map_app, concat_app. apply in_or_app. apply tags_update in HPn as [HPn|HPn]; [left|right]; apply in_tag_leaves; eauto.
  Qed.
  (** only the object assigned to changes *)
  Lemma write_frame M M1 l c l' c' : extends M M1 -> l < length M1 -> look M l' = Some c' -> l' <> l -> look (write M1 l c) l' = Some c'.
  Proof. intros He Hl H Hn. rewrite look_write_other by assumption. eapply extends_look; eauto. Qed.
  Lemma hassign_frame M l name h : length M <= length (fst (hassign E verdict M l name h))
    /\ forall l' c, look M l' = Some c -> l' <> l -> look (fst (hassign E verdict M l name h)) l' = Some c.
  Proof.
    assert (Hid : length M <= length M /\ forall l' c, look M l' = Some c -> l' <> l -> look M l' = Some c) by (split; auto).
    assert (Hex : forall M1, extends M M1 -> length M <= length M1 /\ forall l' c, look M l' = Some c -> l' <> l -> look M1 l' = Some c).
    { intros M1 He. split; [apply extends_length; exact He|]. intros l' c H _. eapply extends_look; eauto. }
    assert (Hw : forall M1 c, extends M M1 -> l < length M -> length M <= length (write M1 l c) /\ forall l' c', look M l' = Some c' -> l' <> l -> look (write M1 l c) l' = Some c').
    { intros M1 c He Hl. assert (Hle := extends_length _ _ He). split; [rewrite length_write by lia; exact Hle|]. intros. eapply write_frame; eauto. lia. }
    unfold hassign. destruct (look M l) as [[xs|e|c fv ex|c r]|] eqn:El; try exact Hid; assert (Hl := look_lt _ _ _ El).
    - destruct (find_field name (class_fields c)) as [[fi t]|].
      + destruct (hvalidate E t h M) as [M1 a] eqn:Ev. assert (He := hvalidate_ext _ _ _ _ _ _ Ev). destruct a as [[h' n]|]; [|apply Hex; exact He].
        destruct (fv_check E (f_val fi) (peek M1 h')); [|apply Hex; exact He]. unfold hstore. generalize (class_fields c), (class_kind c). intros fs k. cbn [fst]. apply Hw; assumption.
      + destruct (class_kind c) eqn:Ek; try exact Hid; unfold hstore; generalize (class_fields c), (class_kind c); intros fs k; cbn [fst]; (apply Hw; [apply extends_refl|exact Hl]).
    - destruct (str_eqb name (u "root")); [|exact Hid]. destruct (find_root c all_types) as [t|]; [|exact Hid]. destruct h as [a|l0]; [exact Hid|].
      destruct (look M l0) as [[xs|e|c0 fv ex|c0 r0]|]; try exact Hid. destruct (hdict (hvalidate E) t e M) as [M1 a] eqn:Ev.
      assert (He := hdict_ext E t (hvalidate_ext E t) _ _ _ _ Ev). destruct a as [[d' n]|]; [|apply Hex; exact He]. cbn [fst]. apply Hw; [|exact Hl].
      eapply extends_trans; [exact He|apply extends_snoc].
  Qed.
  Lemma leaf_old M h F x : keeps_old M -> old_val h -> (forall y, In y F -> part M h y) -> leaf_of F x -> old_val x.
  Proof. intros Hk Hh HF [Hx|(a & ->)]; [|exact I]. eapply old_part; [exact Hk|apply HF; exact Hx|exact Hh]. Qed.
  Lemma hassign_inv M d L F l name h : inv M d L F -> In l L -> old_val h -> exists L' F', inv (fst (hassign E verdict M l name h)) d L' F'.
  Proof.
    intros Hi Hl Hh. assert (Hi0 := Hi). destruct Hi0 as [Hok Hpt Ht Hnd Hn Hlf Hk]. destruct (hassign_frame M l name h) as [Hle Hs].
    assert (Hhp := old_points _ _ Hk Hh). unfold hassign in *. destruct (look M l) as [[xs|e|c fv ex|c r]|] eqn:El; try (cbn [fst]; eauto; fail); assert (Hll := look_lt _ _ _ El).
    - assert (Hwf := class_types_wf c). assert (Hnm := class_names c).
      assert (Hst : forall M1 h' Lh Fh, extends M M1 -> consistent M1 -> points M1 h' -> made_of M1 h' Lh Fh -> NoDup Lh -> (forall a, In a Lh -> length M <= a) -> (forall x, In x Fh -> old_val x) ->
        exists L' F', inv (fst (hstore E verdict M1 l c fv ex name h')) d L' F').
      { intros M1 h' Lh Fh He Hc1 Hp1 Hm Hn1 Hg Hf. unfold hstore. revert Hnm. generalize (class_fields c), (class_kind c). intros fs k Hnm. cbn [fst].
        assert (Hll1 : l < length M1) by (apply extends_length in He; lia).
        eapply (inv_step M _ d L F l Lh Hi Hl).
        - apply consistent_write; [exact Hc1|exact Hll1|]. intros x Hx. cbn [held] in Hx.
          assert (Hnew : forall x, In x (map snd (pset name h' (pupdate fv ex))) -> points M1 x).
          { intros y Hy. apply pset_values in Hy as [->|Hy]; [exact Hp1|]. eapply points_extends; [exact He|]. eapply Hok; [exact El|]. cbn [held]. apply in_or_app. apply pupdate_values. exact Hy. }
          apply in_app_or in Hx as [Hx|Hx].
          + rewrite map_map in Hx. apply in_map_iff in Hx as (ft & <- & _). cbn [snd]. destruct (hattr_values (f_name (fst ft)) (pset name h' (pupdate fv ex))) as [->|Hy]; [exact I|auto].
          + apply Hnew. apply in_map_iff in Hx as (kv & <- & Hx). apply filter_In in Hx as [Hx _]. apply in_map. exact Hx.
        - rewrite length_write by exact Hll1. apply extends_length. exact He.
        - intros l' c' H1 H2. eapply write_frame; eauto.
        - exact Hn1.
        - exact Hg.
        - apply (store_tree M M1 l c fv ex name h' Lh Fh fs El He Hnm Hm Hg Hf). }
      destruct (find_field name (class_fields c)) as [[fi t]|] eqn:Ef.
      + apply find_field_in' in Ef. rewrite Forall_forall in Hwf. assert (Hwt := Hwf _ Ef). cbn [snd] in Hwt. clear Hwf Ef.
        destruct (hvalidate E t h M) as [M1 a] eqn:Ev. assert (He := hvalidate_ext _ _ _ _ _ _ Ev). destruct (hvalidate_built E t Hwt _ _ _ _ Hok Hhp Ev) as [Hc1 Hb].
        destruct a as [[h' n]|]; [|exists L, F; eapply inv_extends; eauto]. destruct (fv_check E (f_val fi) (peek M1 h')); [|exists L, F; eapply inv_extends; eauto].
        destruct (Hb _ _ eq_refl) as (Hp1 & Lh & Fh & Ho & [Hn1 Hbt] & HF). destruct (owns_made _ _ _ _ _ Ho) as (Fh' & Hm & Hlv).
        apply (Hst M1 h' Lh Fh'); auto; [intros a Ha; rewrite Forall_forall in Hbt; apply Hbt in Ha; unfold between in Ha; lia|]. intros x Hx. eapply leaf_old; eauto.
      + assert (Hst0 : exists L' F', inv (fst (hstore E verdict M l c fv ex name h)) d L' F').
        { apply (Hst M h [] [h]); auto; [apply extends_refl|apply mo_leaf|constructor|intros a []|intros x [<-|[]]; exact Hh]. }
        destruct (class_kind c); try exact Hst0. exists L, F. exact Hi.
    - assert (Hwf : forall t, find_root c all_types = Some t -> wf_ty t = true).
      { intros t Hf. apply find_root_In in Hf. apply wf_all in Hf. cbn [wf_ty] in Hf. first [apply andb_prop in Hf as [_ Hf]; exact Hf|exact Hf]. }
      destruct (str_eqb name (u "root")); [|exists L, F; exact Hi]. destruct (find_root c all_types) as [t|]; [|exists L, F; exact Hi]. destruct h as [a|l0]; [exists L, F; exact Hi|].
      destruct (look M l0) as [[xs|e|c0 fv ex|c0 r0]|] eqn:El0; try (exists L, F; exact Hi). specialize (Hwf _ eq_refl).
      destruct (hdict (hvalidate E) t e M) as [M1 a] eqn:Ev. assert (He := hdict_ext E t (hvalidate_ext E t) _ _ _ _ Ev).
      assert (Hd0 : forall x, In x (map snd e) -> points M x) by (intros x Hx; eapply Hok; [exact El0|exact Hx]).
      destruct (hdict_built E t (hvalidate_built E t Hwf) _ _ _ _ Hok Hd0 Ev) as [Hc1 Hb]. destruct a as [[d' n]|]; [|exists L, F; eapply inv_extends; eauto].
      destruct (Hb _ _ eq_refl) as (Hp1 & Ps & HPs & [Hn1 Hbt] & HF). cbn [fst] in *.
      assert (He2 := extends_snoc M1 (CDict d')). assert (Hle1 := extends_length _ _ He). assert (Hl2 : l < length (M1 ++ [CDict d'])) by (rewrite app_length; cbn; lia).
      assert (HQ : exists Qs, Forall2 (made2 M1) (map snd d') Qs /\ Forall2 (fun P Q => fst Q = fst P /\ forall x, In x (snd Q) -> leaf_of (snd P) x) Ps Qs).
      { eapply Forall2_choose; [exact HPs|]. intros x [Lx Fx] _ Ho. destruct (owns_made _ _ _ _ _ Ho) as (F' & H1 & H2). exists (Lx, F'). cbn. auto. }
      destruct HQ as (Qs & H1 & H2). apply same_lists in H2 as [H2 H3].
      eapply (inv_step M _ d L F l (length M1 :: concat (map fst Qs)) Hi Hl).
      + apply consistent_write; [|exact Hl2|].
        * apply consistent_snoc; [exact Hc1|]. intros x Hx. apply Hp1. exact Hx.
        * intros x [<-|[]]. cbn [points]. rewrite app_length. cbn. lia.
      + exact Hle.
      + exact Hs.
      + rewrite H2. constructor; [|exact Hn1]. intros Hx. rewrite Forall_forall in Hbt. apply Hbt in Hx. unfold between in Hx. lia.
      + rewrite H2. intros a [<-|Ha]; [exact Hle1|]. rewrite Forall_forall in Hbt. apply Hbt in Ha. unfold between in Ha. lia.
      + intros L0 F0 Hm0 Hi0 Hnd0. inversion Hm0 as [|? c' Ps0 Hl' HPs0]; subst; [destruct Hi0|]. set (M2 := write (M1 ++ [CDict d']) l (CRoot c (length M1))).
        assert (Hr2 : look M2 (length M1) = Some (CDict d')) by (subst M2; rewrite look_write_other; [apply look_new|exact Hl2|lia]).
        assert (HQ2 : Forall2 (made2 M2) (map snd d') Qs).
        { revert H1. apply Forall2_impl_in. intros x P HP Hm. eapply made_agree; [exact Hm|]. intros a ca Ha Hla. subst M2. rewrite look_write_other; [eapply extends_look; eauto|exact Hl2|].
          assert (Ha' := in_concat_fst _ _ _ HP Ha). rewrite H2 in Ha'. rewrite Forall_forall in Hbt. apply Hbt in Ha'. unfold between in Ha'. lia. }
        assert (Hmr := mo_node M2 (length M1) (CDict d') Qs Hr2 HQ2).
        assert (Hml := mo_node M2 l (CRoot c (length M1)) [(length M1 :: concat (map fst Qs), concat (map snd Qs))] (look_write _ _ _ Hl2)
          (Forall2_cons (R := made2 M2) (HL (length M1)) (length M1 :: concat (map fst Qs), concat (map snd Qs)) Hmr (Forall2_nil _))).
        cbn [map concat fst snd] in Hml. rewrite !app_nil_r in Hml. eexists. eexists. split; [exact Hml|]. split.
        * intros a. unfold cnt. cbn [count_occ]. destruct (Nat.eq_dec l a); destruct (Nat.eq_dec (length M1) a); lia.
        * intros x Hx. right. apply H3 in Hx. destruct Hx as [Hx|(a & ->)]; [|exact I]. apply HF in Hx as (y & Hy & Hpy). eapply old_part; [exact Hk| |exact Hh].
          eapply pt_inside; [exact El0|exact Hy|exact Hpy].
  Qed.
  (** ** Histories *)
  Context (procs : pv -> bool * pv) (Hreads : only_reads verdict procs).
  Definition tree_op (a : hop) (w : pv) : assignment := {| as_path := ho_path a; as_name := ho_name a; as_value := w |}.
  Lemma upd_none g n (d : hfields) M e : Forall2 (same_entry M) d e -> assoc n d = None -> upd_key g n e = None.
  Proof.
    induction 1 as [|[k x] [k' w] d e [Hk Hr] He IH]; [reflexivity|]. cbn [fst snd] in *. subst k'. cbn [assoc upd_key]. destruct (str_eqb n k); [discriminate|].
    intros H. change ((fix go (d0 : fields) : option (bool * fields) := _) e) with (upd_key g n e). rewrite (IH H). reflexivity.
  Qed.
  Lemma upd_same g n (d : hfields) M e x : Forall2 (same_entry M) d e -> assoc n d = Some x -> (forall w, reads M x w -> g w = None \/ g w = Some (false, w)) ->
    upd_key g n e = None \/ upd_key g n e = Some (false, e).
  Proof.
    intros He. induction He as [|[k y] [k' w] d e [Hk Hr] He IH]; [discriminate|]. cbn [fst snd] in *. subst k'. cbn [assoc upd_key]. destruct (str_eqb n k).
    - intros Hx Hg. injection Hx as ->. destruct (Hg _ Hr) as [->| ->]; [left; reflexivity|right; reflexivity].
    - intros Hx Hg. change ((fix go (d0 : fields) : option (bool * fields) := _) e) with (upd_key g n e). destruct (IH Hx Hg) as [->| ->]; [left; reflexivity|right; reflexivity].
  Qed.
  Lemma idx_same g d M e : Forall2 (reads M) d e -> forall i, (forall x, nth_error d i = Some x -> forall w, reads M x w -> g w = None \/ g w = Some (false, w)) ->
    upd_idx g i e = None \/ upd_idx g i e = Some (false, e).
  Proof.
    induction 1 as [|x w d e Hr He IH]; intros i Hg; [left; destruct i; reflexivity|]. destruct i as [|i]; cbn [upd_idx].
    - destruct (Hg x eq_refl _ Hr) as [->| ->]; [left; reflexivity|right; reflexivity].
    - destruct (IH i Hg) as [->| ->]; [left; reflexivity|right; reflexivity].
  Qed.
  (** a path that leads to no object changes nothing *)
  Lemma path_nowhere M (f : pv -> bool * pv) (Hf : forall a, immutable a -> f a = (false, a)) p : forall d v, (forall l, hpath M p d <> Some (HL l)) -> reads M d v ->
    at_path p f v = None \/ at_path p f v = Some (false, v).
  Proof.
    induction p as [|s p IH]; intros d v Hp Hr.
    - cbn [hpath] in Hp. destruct d as [a|l]; [|exfalso; eapply Hp; reflexivity]. apply reads_HA in Hr as [-> Hi]. right. cbn [at_path]. rewrite (Hf _ Hi). reflexivity.
    - destruct d as [a|l]; [apply reads_HA in Hr as [-> Hi]; left; destruct s, a; try destruct Hi; reflexivity|]. cbn [hpath] in Hp.
      apply reads_HL in Hr as [(xs & vs & El & -> & H)|[(e & ev & El & -> & H)|[(c' & fv & ex & fs & xe & El & -> & H1 & H2)|(c' & r & e & ev & El & Er & -> & H)]]];
        rewrite El in Hp; destruct s as [n|n|n|i]; try (left; reflexivity); cbn [at_path].
      + destruct (idx_same (at_path p f) _ _ _ H i) as [->| ->]; [|left; reflexivity|right; reflexivity].
        intros x Hx v Hv. rewrite Hx in Hp. eapply IH; eauto.
      + destruct (assoc n e) as [x|] eqn:Ea; [|left; rewrite (upd_none _ _ _ _ _ H Ea); reflexivity].
        destruct (upd_same (at_path p f) _ _ _ _ _ H Ea) as [->| ->]; [eauto|left; reflexivity|right; reflexivity].
      + destruct (assoc n fv) as [x|] eqn:Ea; [|left; rewrite (upd_none _ _ _ _ _ H1 Ea); reflexivity].
        destruct (upd_same (at_path p f) _ _ _ _ _ H1 Ea) as [->| ->]; [eauto|left; reflexivity|right; reflexivity].
      + destruct (assoc n ex) as [x|] eqn:Ea; [|left; rewrite (upd_none _ _ _ _ _ H2 Ea); reflexivity].
        destruct (upd_same (at_path p f) _ _ _ _ _ H2 Ea) as [->| ->]; [eauto|left; reflexivity|right; reflexivity].
      + rewrite Er in Hp. destruct (assoc n e) as [x|] eqn:Ea; [|left; rewrite (upd_none _ _ _ _ _ H Ea); reflexivity].
        destruct (upd_same (at_path p f) _ _ _ _ _ H Ea) as [->| ->]; [eauto|left; reflexivity|right; reflexivity].
  Qed.
  Definition owned_in (M : mem) (d : hv) : Prop := exists L F, inv M d L F.
  Lemma inv_target M d L F l : inv M d L F -> contains M d l -> ~ old l -> In l L /\ forall x, In x F -> ~ contains M x l.
  Proof.
    intros [Hok Hpt Ht Hnd Hn Hlf Hk] Hc Hl. assert (Hf : forall x, In x F -> ~ contains M x l) by (intros x Hx; apply old_apart; auto).
    split; [|exact Hf]. destruct (made_contains _ _ _ Hc _ _ Ht) as [H|(x & Hx & Hcx)]; [exact H|]. exfalso. exact (Hf _ Hx Hcx).
  Qed.
  Lemma op_ok M d v a w : owned_in M d -> reads M d v -> old_val (ho_value a) -> reads Mb (ho_value a) w -> (forall l, hpath M (ho_path a) d = Some (HL l) -> ~ old l) ->
    owned_in (hop_run E verdict d M a) d /\ reads (hop_run E verdict d M a) d (match assign_at E procs (tree_op a w) v with Some (_, v') => v' | None => v end).
  Proof.
    intros (L & F & Hi) Hr Hh Hw Hnew. unfold hop_run, assign_at. cbn [tree_op as_path as_name as_value]. assert (Hi0 := Hi). destruct Hi0 as [Hok Hpt Ht Hnd Hn Hlf Hk].
    destruct (hpath M (ho_path a) d) as [[b|l]|] eqn:Ep.
    - destruct (path_nowhere M (fun o => assign E procs o (ho_name a) w) (fun a0 Ha0 => ltac:(destruct a0; try destruct Ha0; reflexivity)) (ho_path a) d v) as [->| ->]; [rewrite Ep; discriminate|exact Hr| |]; (split; [exists L, F; exact Hi|exact Hr]).
    - specialize (Hnew _ eq_refl). destruct (inv_target _ _ _ _ _ Hi (hpath_contains _ _ _ _ Ep) Hnew) as [Hl Hf].
      assert (Hhp := old_points _ _ Hk Hh). assert (Hap := old_apart _ _ _ Hk Hh Hnew).
      assert (Hw' : reads M (ho_value a) w).
      { eapply reads_agree; [exact Hw|]. intros l' Hc'. apply Hk. assert (Hbk : keeps_old Mb) by (split; auto). exact (old_part _ _ _ Hbk Hc' Hh). }
      assert (Hro : exists o, reads M (HL l) o) by (destruct (reads_part _ _ _ (hpath_contains _ _ _ _ Ep) _ Hr) as (o & Ho & _); eauto). destruct Hro as [o Ho].
      destruct (hassign_refines E verdict procs Hreads M l o (ho_name a) (ho_value a) w Hok Hhp Ho Hw' Hap) as (o' & Ha & Ho'). destruct (hassign_frame M l (ho_name a) (ho_value a)) as [_ Hs].
      destruct (path_follows M _ l Hs _ (fun o => assign E procs o (ho_name a) w) o o' l (pt_here _ _) Ho Ha Ho' (ho_path a) d Ep _ _ _ Ht Hnd Hf Hr) as (v' & Hv' & Hr'). rewrite Hv'.
      split; [eapply hassign_inv; eauto|exact Hr'].
    - destruct (path_nowhere M (fun o => assign E procs o (ho_name a) w) (fun a0 Ha0 => ltac:(destruct a0; try destruct Ha0; reflexivity)) (ho_path a) d v) as [->| ->]; [rewrite Ep; discriminate|exact Hr| |]; (split; [exists L, F; exact Hi|exact Hr]).
  Qed.
  Lemma run_ok ops ws : Forall2 (fun a w => old_val (ho_value a) /\ reads Mb (ho_value a) w) ops ws -> forall M d v, owned_in M d -> reads M d v -> only_new E verdict d old M ops ->
    owned_in (fold_left (hop_run E verdict d) ops M) d
    /\ reads (fold_left (hop_run E verdict d) ops M) d (assign_run E procs (map (fun aw => tree_op (fst aw) (snd aw)) (combine ops ws)) v).
  Proof.
    induction 1 as [|a w ops ws [Hh Hw] _ IH]; intros M d v Ho Hr Hnew; [split; assumption|]. destruct Hnew as [Hn Hnew]. destruct (op_ok _ _ _ _ _ Ho Hr Hh Hw Hn) as [Ho' Hr'].
    cbn [fold_left combine map fst snd]. unfold assign_run. cbn [fold_left]. apply IH; assumption.
  Qed.
End Hist.

(** ** Every read-only processor pipeline has a verdict on documents in memory *)
Fixpoint height (v : pv) : nat :=
  let tallest := fix tallest (d : list (pystr * pv)) := match d with [] => 0 | (_, x) :: r => Nat.max (height x) (tallest r) end in
  match v with
  | VList l => S ((fix go (l : list pv) := match l with [] => 0 | x :: r => Nat.max (height x) (go r) end) l)
  | VDict d => S (tallest d)
  | VObj _ fs ex => S (Nat.max (tallest fs) (tallest ex))
  | VRoot _ d => S (tallest d)
  | _ => 0
  end.
Definition dheight : list (pystr * pv) -> nat := fix tallest d := match d with [] => 0 | (_, x) :: r => Nat.max (height x) (tallest r) end.
Definition lheight : list pv -> nat := fix go l := match l with [] => 0 | x :: r => Nat.max (height x) (go r) end.
Definition chain (M : mem) (hs : list hv) (n : nat) : Prop := exists C, NoDup C /\ length C = n /\ forall a, In a C -> a < length M /\ exists h, In h hs /\ contains M h a.
Lemma chain_more M hs hs' n : (forall h, In h hs -> In h hs') -> chain M hs n -> chain M hs' n.
Proof. intros H (C & H1 & H2 & H3). exists C. split; [exact H1|]. split; [exact H2|]. intros a Ha. destruct (H3 a Ha) as (Hl & h & Hh & Hc). eauto. Qed.
Lemma chain_max M hs n m : chain M hs n -> chain M hs m -> chain M hs (Nat.max n m).
Proof. intros H1 H2. destruct (Nat.max_spec n m) as [[_ ->]|[_ ->]]; assumption. Qed.
Lemma chain_nil M hs : chain M hs 0.
Proof. exists []. split; [constructor|]. split; [reflexivity|]. intros a []. Qed.
Lemma chain_list M xs vs : Forall2 (reads M) xs vs -> Forall (fun v => forall h, reads M h v -> chain M [h] (height v)) vs -> chain M xs (lheight vs).
Proof.
  induction 1 as [|x v xs vs Hr _ IH]; intros HF; [apply chain_nil|]. inversion HF as [|? ? Hv HF']; subst. cbn [lheight]. apply chain_max.
  - eapply chain_more; [|apply Hv; exact Hr]. intros h [<-|[]]. left. reflexivity.
  - eapply chain_more; [|apply IH; exact HF']. intros h Hh. right. exact Hh.
Qed.
Lemma chain_entries M xs vs : Forall2 (same_entry M) xs vs -> Forall (fun kv => forall h, reads M h (snd kv) -> chain M [h] (height (snd kv))) vs -> chain M (map snd xs) (dheight vs).
Proof.
  induction 1 as [|[k x] [k' v] xs vs [_ Hr] _ IH]; intros HF; [apply chain_nil|]. inversion HF as [|? ? Hv HF']; subst. cbn [dheight map snd] in *. apply chain_max.
  - eapply chain_more; [|apply Hv; exact Hr]. intros h [<-|[]]. left. reflexivity.
  - eapply chain_more; [|apply IH; exact HF']. intros h Hh. right. exact Hh.
Qed.
Lemma chain_node M l v c n : reads M (HL l) v -> look M l = Some c -> chain M (held c) n -> chain M [HL l] (S n).
Proof.
  intros Hr Hl (C & H1 & H2 & H3). exists (l :: C). split; [|split].
  - constructor; [|exact H1]. intros Hi. destruct (H3 _ Hi) as (_ & h & Hh & Hc). exact (reads_acyclic _ _ _ _ _ Hr Hl Hh Hc).
  - cbn [length]. congruence.
  - intros a [<-|Ha]; [split; [eapply look_lt; eauto|exists (HL l); split; [left; reflexivity|apply pt_here]]|]. destruct (H3 _ Ha) as (Hlt & h & Hh & Hc).
    split; [exact Hlt|]. exists (HL l). split; [left; reflexivity|]. eapply pt_inside; eauto.
Qed.
Lemma reads_chain M v : forall h, reads M h v -> chain M [h] (height v).
Proof.
  induction v as [| | | | | |vs IH|e IH|c fs ex IH1 IH2|c e IH| |] using pv_ind'; intros h H; try apply chain_nil; assert (H0 := H).
  - apply reads_list in H as (l & xs & -> & Hl & H). change (height (VList vs)) with (S (lheight vs)). eapply chain_node; [exact H0|exact Hl|]. apply chain_list; assumption.
  - apply reads_dict in H as (l & d & -> & Hl & H). change (height (VDict e)) with (S (dheight e)). eapply chain_node; [exact H0|exact Hl|]. apply chain_entries; assumption.
  - apply reads_obj in H as (l & d & d' & -> & Hl & H1 & H2). change (height (VObj c fs ex)) with (S (Nat.max (dheight fs) (dheight ex))). eapply chain_node; [exact H0|exact Hl|]. cbn [held]. apply chain_max.
    + eapply chain_more; [|apply chain_entries; [exact H1|assumption]]. intros x Hx. apply in_or_app. left. exact Hx.
    + eapply chain_more; [|apply chain_entries; [exact H2|assumption]]. intros x Hx. apply in_or_app. right. exact Hx.
  - apply reads_root in H as (l & r & d & -> & Hl & Hr & H). change (height (VRoot c e)) with (S (dheight e)). eapply chain_node; [exact H0|exact Hl|]. cbn [held].
    destruct (chain_entries M d e H IH) as (C & H1 & H2 & H3). exists C. split; [exact H1|]. split; [exact H2|]. intros a Ha. destruct (H3 _ Ha) as (Hlt & x & Hx & Hc). split; [exact Hlt|].
    exists (HL r). split; [left; reflexivity|]. eapply pt_inside; eauto.
Qed.
Lemma height_bound M h v : reads M h v -> height v <= length M.
Proof.
  intros H. destruct (reads_chain _ _ _ H) as (C & H1 & <- & H3). rewrite <- (seq_length (length M) 0). apply NoDup_incl_length; [exact H1|].
  intros a Ha. apply in_seq. destruct (H3 _ Ha). lia.
Qed.
Section Readback.
  Context (M : mem).
  Definition each {A B} (f : A -> option B) : list A -> option (list B) :=
    fix go l := match l with [] => Some [] | x :: r => match f x, go r with Some y, Some z => Some (y :: z) | _, _ => None end end.
  Definition entry (f : hv -> option pv) (kv : pystr * hv) : option (pystr * pv) := option_map (fun v => (fst kv, v)) (f (snd kv)).
  Fixpoint readback (n : nat) (h : hv) : option pv :=
    match h with
    | HA a => Some a
    | HL l => match n with
        | O => None
        | S n => match look M l with
            | Some (CList xs) => option_map VList (each (readback n) xs)
            | Some (CDict d) => option_map VDict (each (entry (readback n)) d)
            | Some (CObj c fs ex) => match each (entry (readback n)) fs, each (entry (readback n)) ex with Some a, Some b => Some (VObj c a b) | _, _ => None end
            | Some (CRoot c r) => match look M r with Some (CDict d) => option_map (VRoot c) (each (entry (readback n)) d) | _ => None end
            | None => None
            end
        end
    end.
  Lemma each_list n xs vs : Forall2 (reads M) xs vs -> lheight vs <= n -> (forall h v, reads M h v -> height v <= n -> readback n h = Some v) -> each (readback n) xs = Some vs.
  Proof.
    intros H Hn IH. induction H as [|x v xs vs Hr _ IHF]; [reflexivity|]. cbn [lheight] in Hn. cbn [each]. rewrite (IH _ _ Hr) by lia.
    change ((fix go (l : list hv) : option (list pv) := _) xs) with (each (readback n) xs). rewrite IHF by lia. reflexivity.
  Qed.
  Lemma each_entries n xs vs : Forall2 (same_entry M) xs vs -> dheight vs <= n -> (forall h v, reads M h v -> height v <= n -> readback n h = Some v) -> each (entry (readback n)) xs = Some vs.
  Proof.
    intros H Hn IH. induction H as [|[k x] [k' v] xs vs [Hk Hr] _ IHF]; [reflexivity|]. cbn [dheight fst snd] in *. subst k'. cbn [each]. unfold entry at 1. cbn [fst snd]. rewrite (IH _ _ Hr) by lia. cbn [option_map].
    change ((fix go (l : list (pystr * hv)) : option (list (pystr * pv)) := _) xs) with (each (entry (readback n)) xs). rewrite IHF by lia. reflexivity.
  Qed.
  Lemma readback_ok n : forall h v, reads M h v -> height v <= n -> readback n h = Some v.
  Proof.
    induction n as [|n IH]; intros [a|l] v H Hn.
    - apply reads_HA in H as [-> _]. reflexivity.
    - apply reads_HL in H as [(xs & vs & El & -> & H)|[(e & ev & El & -> & H)|[(c' & fv & ex & fs & xe & El & -> & H1 & H2)|(c' & r & e & ev & El & Er & -> & H)]]]; cbn [height] in Hn; lia.
    - apply reads_HA in H as [-> _]. reflexivity.
    - cbn [readback]. apply reads_HL in H as [(xs & vs & El & -> & H)|[(e & ev & El & -> & H)|[(c' & fv & ex & fs & xe & El & -> & H1 & H2)|(c' & r & e & ev & El & Er & -> & H)]]]; rewrite El.
      + change (height (VList vs)) with (S (lheight vs)) in Hn. rewrite (each_list n _ vs H) by (lia || exact IH). reflexivity.
      + change (height (VDict ev)) with (S (dheight ev)) in Hn. rewrite (each_entries n _ ev H) by (lia || exact IH). reflexivity.
      + change (height (VObj c' fs xe)) with (S (Nat.max (dheight fs) (dheight xe))) in Hn. rewrite (each_entries n _ fs H1), (each_entries n _ xe H2) by (lia || exact IH). reflexivity.
      + rewrite Er. change (height (VRoot c' ev)) with (S (dheight ev)) in Hn. rewrite (each_entries n _ ev H) by (lia || exact IH). reflexivity.
  Qed.
End Readback.
Definition verdict_of (procs : pv -> bool * pv) (M : mem) (l : nat) : bool := match readback M (length M) (HL l) with Some o => fst (procs o) | None => false end.
Lemma verdict_of_ok procs : (forall o, snd (procs o) = o) -> only_reads (verdict_of procs) procs.
Proof.
  intros Hp M l o Hr. unfold verdict_of. rewrite (readback_ok M _ _ _ Hr (height_bound _ _ _ Hr)). rewrite <- (Hp o) at 3. apply surjective_pairing.
Qed.

(** ** An object of the tree is found at one path only *)
Lemma pos_unique M l ys Ps : Forall2 (made2 M) ys Ps -> NoDup (concat (map fst Ps)) -> (forall z, In z (concat (map snd Ps)) -> ~ contains M z l) ->
  forall i j x y, nth_error ys i = Some x -> contains M x l -> nth_error ys j = Some y -> contains M y l -> i = j.
Proof.
  intros H. induction H as [|z [L F] ys Ps Hm HF IH]; intros Hnd Hf i j x y Hi Hx Hj Hy; [destruct i; discriminate|]. cbn [map concat fst snd] in *.
  assert (Hf' : forall z, In z (concat (map snd Ps)) -> ~ contains M z l) by (intros q Hq; apply Hf; apply in_or_app; right; exact Hq).
  assert (Hz : contains M z l -> In l L).
  { intros Hc. destruct (made_contains _ _ _ Hc _ _ Hm) as [H|(q & Hq & Hcq)]; [exact H|]. exfalso. eapply Hf; [apply in_or_app; left; exact Hq|exact Hcq]. }
  assert (Ht : forall k w, nth_error ys k = Some w -> contains M w l -> contains M z l -> False).
  { intros k w Hk Hw Hc. eapply nodup_app_disjoint; [exact Hnd|apply Hz; exact Hc|]. eapply (in_one M l); [exact HF|exact Hf'|eapply nth_error_In; exact Hk|exact Hw]. }
  destruct i as [|i], j as [|j]; cbn [nth_error] in *; [reflexivity| | |].
  - exfalso. injection Hi as ->. eapply Ht; eauto.
  - exfalso. injection Hj as ->. eapply Ht; eauto.
  - f_equal. eapply IH; eauto. eapply nodup_app_r; eauto.
Qed.
Lemma assoc_nth {A} n (d : list (pystr * A)) x : assoc n d = Some x -> exists i, nth_error d i = Some (n, x).
Proof.
  induction d as [|[k y] d IH]; [discriminate|]. cbn [assoc]. destruct (str_eqb n k) eqn:E.
  - intros H. injection H as ->. apply str_eqb_eq in E. subst k. exists 0. reflexivity.
  - intros H. destruct (IH H) as [i Hi]. exists (S i). exact Hi.
Qed.
Lemma path_once M l p : forall d L F q, made_of M d L F -> NoDup L -> (forall x, In x F -> ~ contains M x l) -> hpath M p d = Some (HL l) -> hpath M q d = Some (HL l) -> p = q.
Proof.
  assert (Hroot : forall s q L F, made_of M (HL l) L F -> NoDup L -> (forall x, In x F -> ~ contains M x l) -> hpath M (s :: q) (HL l) = Some (HL l) -> False).
  { intros s q L F Hm Hnd HF Hq. inversion Hm as [|? c Ps Hl HPs]; subst; [eapply HF; [left; reflexivity|apply pt_here]|]. inversion Hnd as [|? ? Hn Hnd']; subst.
    assert (Hx : exists x, In x (held c) /\ contains M x l).
    { cbn [hpath] in Hq. rewrite Hl in Hq. destruct s as [n|n|n|i], c as [xs|e|c fv ex|c r]; try discriminate Hq.
      - destruct (assoc n fv) as [x|] eqn:Ea; [|discriminate]. exists x. split; [cbn [held]; apply in_or_app; left; apply assoc_In in Ea; apply (in_map snd) in Ea; exact Ea|eapply hpath_contains; eauto].
      - destruct (assoc n ex) as [x|] eqn:Ea; [|discriminate]. exists x. split; [cbn [held]; apply in_or_app; right; apply assoc_In in Ea; apply (in_map snd) in Ea; exact Ea|eapply hpath_contains; eauto].
      - destruct (assoc n e) as [x|] eqn:Ea; [|discriminate]. exists x. split; [apply assoc_In in Ea; apply (in_map snd) in Ea; exact Ea|eapply hpath_contains; eauto].
      - destruct (look M r) as [[xs|e|c' fv ex|c' r']|] eqn:Er; try discriminate Hq. destruct (assoc n e) as [x|] eqn:Ea; [|discriminate]. exists (HL r). split; [left; reflexivity|].
        eapply pt_inside; [exact Er| |eapply hpath_contains; eauto]. apply assoc_In in Ea; apply (in_map snd) in Ea; exact Ea.
      - destruct (nth_error xs i) as [x|] eqn:Ea; [|discriminate]. exists x. split; [eapply nth_error_In; eauto|eapply hpath_contains; eauto]. }
    destruct Hx as (x & Hx & Hc). apply Hn. eapply in_one; eauto. }
  induction p as [|s p IH]; intros d L F q Hm Hnd HF Hp Hq.
  - cbn [hpath] in Hp. injection Hp as ->. destruct q as [|s q]; [reflexivity|]. exfalso. eapply Hroot; eauto.
  - destruct q as [|s' q]; [cbn [hpath] in Hq; injection Hq as ->; exfalso; eapply Hroot; eauto|].
    assert (Hc : contains M d l) by (apply (hpath_contains _ _ _ _ Hp)). inversion Hm as [|l0 c Ps Hl HPs]; subst; [exfalso; eapply HF; [left; reflexivity|exact Hc]|].
    inversion Hnd as [|? ? Hn Hnd']; subst. cbn [hpath] in Hp, Hq. rewrite Hl in Hp, Hq.
    assert (Hsub : forall ys Ps x, Forall2 (made2 M) ys Ps -> NoDup (concat (map fst Ps)) -> (forall z, In z (concat (map snd Ps)) -> ~ contains M z l) -> In x ys ->
      hpath M p x = Some (HL l) -> hpath M q x = Some (HL l) -> p = q).
    { intros ys Qs x HQ HndQ HFQ Hx H1 H2. destruct (Forall2_in_l _ _ _ _ HQ Hx) as ([L1 F1] & HP & Hm1). eapply (IH x L1 F1); [exact Hm1| | |exact H1|exact H2].
      - clear -HP HndQ. induction Qs as [|P Qs IHQ]; [destruct HP|]. cbn [map concat] in HndQ. destruct HP as [->|HP]; [eapply nodup_app_l; exact HndQ|apply IHQ; [eapply nodup_app_r; exact HndQ|exact HP]].
      - intros z Hz. apply HFQ. eapply in_concat_snd; eauto. }
    destruct s as [n|n|n|i], c as [xs|e|c fv ex|c r]; try discriminate Hp; destruct s' as [n'|n'|n'|i']; try discriminate Hq.
    + destruct (assoc n fv) as [x|] eqn:Ea; [|discriminate]. destruct (assoc n' fv) as [x'|] eqn:Ea'; [|discriminate]. destruct (assoc_nth _ _ _ Ea) as [i Hi]. destruct (assoc_nth _ _ _ Ea') as [j Hj].
      assert (Hi2 : nth_error (held (CObj c fv ex)) i = Some x) by (cbn [held]; rewrite nth_error_app1; [apply (map_nth_error snd _ _ Hi)|rewrite map_length; apply nth_error_Some; congruence]).
      assert (Hj2 : nth_error (held (CObj c fv ex)) j = Some x') by (cbn [held]; rewrite nth_error_app1; [apply (map_nth_error snd _ _ Hj)|rewrite map_length; apply nth_error_Some; congruence]).
      assert (i = j) by (eapply (pos_unique M l); [exact HPs|exact Hnd'|exact HF|exact Hi2|eapply hpath_contains; eauto|exact Hj2|eapply hpath_contains; eauto]).
      subst j. rewrite Hi in Hj. injection Hj as <- <-. f_equal. eapply Hsub; [exact HPs|exact Hnd'|exact HF|eapply nth_error_In; exact Hi2|exact Hp|exact Hq].
    + exfalso. destruct (assoc n fv) as [x|] eqn:Ea; [|discriminate]. destruct (assoc n' ex) as [x'|] eqn:Ea'; [|discriminate]. destruct (assoc_nth _ _ _ Ea) as [i Hi]. destruct (assoc_nth _ _ _ Ea') as [j Hj].
      assert (Hil : i < length fv) by (apply nth_error_Some; congruence).
      assert (Hi2 : nth_error (held (CObj c fv ex)) i = Some x) by (cbn [held]; rewrite nth_error_app1; [apply (map_nth_error snd _ _ Hi)|rewrite map_length; exact Hil]).
      assert (Hj2 : nth_error (held (CObj c fv ex)) (length fv + j) = Some x').
      { cbn [held]. rewrite nth_error_app2; rewrite map_length; [|lia]. replace (length fv + j - length fv) with j by lia. apply (map_nth_error snd _ _ Hj). }
      assert (i = length fv + j) by (eapply (pos_unique M l); [exact HPs|exact Hnd'|exact HF|exact Hi2|eapply hpath_contains; eauto|exact Hj2|eapply hpath_contains; eauto]). lia.
    + exfalso. destruct (assoc n ex) as [x|] eqn:Ea; [|discriminate]. destruct (assoc n' fv) as [x'|] eqn:Ea'; [|discriminate]. destruct (assoc_nth _ _ _ Ea) as [j Hj]. destruct (assoc_nth _ _ _ Ea') as [i Hi].
      assert (Hil : i < length fv) by (apply nth_error_Some; congruence).
      assert (Hi2 : nth_error (held (CObj c fv ex)) i = Some x') by (cbn [held]; rewrite nth_error_app1; [apply (map_nth_error snd _ _ Hi)|rewrite map_length; exact Hil]).
      assert (Hj2 : nth_error (held (CObj c fv ex)) (length fv + j) = Some x).
      { cbn [held]. rewrite nth_error_app2; rewrite map_length; [|lia]. replace (length fv + j - length fv) with j by lia. apply (map_nth_error snd _ _ Hj). }
      assert (i = length fv + j) by (eapply (pos_unique M l); [exact HPs|exact Hnd'|exact HF|exact Hi2|eapply hpath_contains; eauto|exact Hj2|eapply hpath_contains; eauto]). lia.
    + destruct (assoc n ex) as [x|] eqn:Ea; [|discriminate]. destruct (assoc n' ex) as [x'|] eqn:Ea'; [|discriminate]. destruct (assoc_nth _ _ _ Ea) as [i Hi]. destruct (assoc_nth _ _ _ Ea') as [j Hj].
      assert (Hn2 : forall k y, nth_error ex k = Some y -> nth_error (held (CObj c fv ex)) (length fv + k) = Some (snd y)).
      { intros k y Hk. cbn [held]. rewrite nth_error_app2; rewrite map_length; [|lia]. replace (length fv + k - length fv) with k by lia. apply (map_nth_error snd _ _ Hk). }
      assert (Hi2 := Hn2 _ _ Hi). assert (Hj2 := Hn2 _ _ Hj). cbn [snd] in Hi2, Hj2.
      assert (Hij : length fv + i = length fv + j) by (eapply (pos_unique M l); [exact HPs|exact Hnd'|exact HF|exact Hi2|eapply hpath_contains; eauto|exact Hj2|eapply hpath_contains; eauto]).
      assert (i = j) by lia. subst j. rewrite Hi in Hj. injection Hj as <- <-. f_equal. eapply Hsub; [exact HPs|exact Hnd'|exact HF|eapply nth_error_In; exact Hi2|exact Hp|exact Hq].
    + destruct (assoc n e) as [x|] eqn:Ea; [|discriminate]. destruct (assoc n' e) as [x'|] eqn:Ea'; [|discriminate]. destruct (assoc_nth _ _ _ Ea) as [i Hi]. destruct (assoc_nth _ _ _ Ea') as [j Hj].
      assert (Hi2 := map_nth_error snd _ _ Hi). assert (Hj2 := map_nth_error snd _ _ Hj). cbn [snd] in Hi2, Hj2.
      assert (i = j) by (eapply (pos_unique M l); [exact HPs|exact Hnd'|exact HF|exact Hi2|eapply hpath_contains; eauto|exact Hj2|eapply hpath_contains; eauto]).
      subst j. rewrite Hi in Hj. injection Hj as <- <-. f_equal. eapply Hsub; [exact HPs|exact Hnd'|exact HF|eapply nth_error_In; exact Hi2|exact Hp|exact Hq].
    + destruct (look M r) as [[xs|e|c' fv ex|c' r']|] eqn:Er; try discriminate Hp.
      destruct (assoc n e) as [x|] eqn:Ea; [|discriminate]. destruct (assoc n' e) as [x'|] eqn:Ea'; [|discriminate]. destruct (assoc_nth _ _ _ Ea) as [i Hi]. destruct (assoc_nth _ _ _ Ea') as [j Hj].
      assert (Hi2 := map_nth_error snd _ _ Hi). assert (Hj2 := map_nth_error snd _ _ Hj). cbn [snd] in Hi2, Hj2.
      cbn [held] in HPs. inversion HPs as [|? [L1 F1] ? Ps' Hm1 Hnil]; subst. inversion Hnil; subst. cbn [map concat fst snd] in *. rewrite app_nil_r in *.
      assert (Hcr : contains M (HL r) l) by (eapply pt_inside; [exact Er|eapply nth_error_In; exact Hi2|eapply hpath_contains; eauto]).
      inversion Hm1 as [|? cr Qs Er' HQs]; subst; [exfalso; eapply HF; [left; reflexivity|exact Hcr]|]. rewrite Er in Er'. injection Er' as <-. inversion Hnd' as [|? ? Hr0 Hnd2]; subst.
      assert (i = j) by (eapply (pos_unique M l); [exact HQs|exact Hnd2|exact HF|exact Hi2|eapply hpath_contains; eauto|exact Hj2|eapply hpath_contains; eauto]).
      subst j. rewrite Hi in Hj. injection Hj as <- <-. f_equal. eapply Hsub; [exact HQs|exact Hnd2|exact HF|eapply nth_error_In; exact Hi2|exact Hp|exact Hq].
    + destruct (nth_error xs i) as [x|] eqn:Ea; [|discriminate]. destruct (nth_error xs i') as [x'|] eqn:Ea'; [|discriminate].
      assert (i = i') by (eapply (pos_unique M l); [exact HPs|exact Hnd'|exact HF|exact Ea|eapply hpath_contains; eauto|exact Ea'|eapply hpath_contains; eauto]).
      subst i'. rewrite Ea in Ea'. injection Ea' as <-. f_equal. eapply Hsub; [exact HPs|exact Hnd'|exact HF|eapply nth_error_In; exact Ea|exact Hp|exact Hq].
Qed.
