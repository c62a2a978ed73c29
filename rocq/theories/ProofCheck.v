(** Proofs about the traversal of the unified reference validator. *)
From Coq Require Import Permutation.
From Verif Require Import PyStr Regex Value Types Rules Pydantic ClassTable Classes Canon Fix Linked SpecParse ProofRules ProofParse
  State SpecState ProofState Resolve SpecResolve ProofResolve Unified SpecUnified ProofUnified.

(** ** The parts of a value in visiting order *)
Fixpoint numbered {X} (i : nat) (l : list X) : list (nat * X) := match l with [] => [] | x :: r => (i, x) :: numbered (S i) r end.
Lemma numbered_in {X} (l : list X) : forall i j x, In (j, x) (numbered i l) <-> i <= j /\ nth_error l (j - i) = Some x.
Proof.
  induction l as [|y l IH]; intros i j x; cbn [numbered].
  - split; [intros []|]. intros [_ H]. destruct (j - i); discriminate.
  - cbn [In]. rewrite IH. split.
    + intros [H|[H1 H2]]; [injection H as -> ->; split; [lia|]; rewrite Nat.sub_diag; reflexivity|].
      split; [lia|]. replace (j - i) with (S (j - S i)) by lia. exact H2.
    + intros [H1 H2]. destruct (Nat.eq_dec i j) as [->|Hn]; [rewrite Nat.sub_diag in H2; injection H2 as ->; left; reflexivity|].
      right. split; [lia|]. replace (j - i) with (S (j - S i)) in H2 by lia. exact H2.
Qed.
Definition kid := (nat * (pystr * pv))%type.
Definition kids (v : pv) : list kid :=
  match v with
  | VList l => map (fun ix => (fst ix, (u "[" ++ str_of_nat (fst ix) ++ u "]", snd ix))) (numbered 0 l)
  | VDict d => map (fun ix => (fst ix, (u "." ++ escape (fst (snd ix)), snd (snd ix)))) (numbered 0 d)
  | VRoot _ d => map (fun ix => (fst ix, (u ".root." ++ escape (fst (snd ix)), snd (snd ix)))) (numbered 0 d)
  | VObj c fv _ => map (fun ix => (fst ix, (u "." ++ fst (snd ix), snd (snd ix))))
                     (filter (fun ix => negb (is_none (snd (snd ix)) || excluded c (fst (snd ix)))) (numbered 0 fv))
  | _ => []
  end.
Fixpoint scan {X} (f : kid -> option X) (l : list kid) : option X :=
  match l with [] => None | k :: r => match f k with Some e => Some e | None => scan f r end end.
Lemma check_kids E doc v path :
  check E doc v path = match as_reference v with
                       | Some s => option_map (fun e => (path, e)) (check_reference E doc path s)
                       | None => scan (fun k => check E doc (snd (snd k)) (path ++ fst (snd k))) (kids v)
                       end.
Proof.
  destruct v as [| | | | | |l|d|c fv ex|c d| |]; try reflexivity.
  - cbn [check as_reference kids]. generalize 0. induction l as [|x l IH]; intros i; [reflexivity|]. cbn [numbered map scan fst snd].
    destruct (check E doc x _); [reflexivity|]. apply IH.
  - cbn [check as_reference kids]. generalize 0. induction d as [|[k x] l IH]; intros i; [reflexivity|]. cbn [numbered map scan fst snd].
    destruct (check E doc x _); [reflexivity|]. apply IH.
  - assert (Hm : forall i fv, (fix go (fv : list (pystr * pv)) : option (pystr * uerror) :=
             match fv with
             | [] => None
             | (f, x) :: r =>
                 match (if is_none x || excluded c f then None else check E doc x (path ++ u "." ++ f)) with
                 | Some e => Some e
                 | None => go r
                 end
             end) fv = scan (fun k => check E doc (snd (snd k)) (path ++ fst (snd k)))
        (map (fun ix => (fst ix, (u "." ++ fst (snd ix), snd (snd ix)))) (filter (fun ix => negb (is_none (snd (snd ix)) || excluded c (fst (snd ix)))) (numbered i fv)))).
    { intros i fv0. revert i. induction fv0 as [|[k x] l IH]; intros i; [reflexivity|]. cbn [numbered filter fst snd].
      destruct (is_none x || excluded c k); cbn [negb map scan fst snd]; [apply IH|]. destruct (check E doc x _); [reflexivity|apply IH]. }
    cbn [check kids]. rewrite (Hm 0). reflexivity.
  - cbn [check as_reference kids]. generalize 0. induction d as [|[k x] l IH]; intros i; [reflexivity|]. cbn [numbered map scan fst snd].
    replace ((path ++ u ".root") ++ u "." ++ escape k) with (path ++ u ".root." ++ escape k) by (rewrite <- app_assoc; reflexivity).
    destruct (check E doc x _); [reflexivity|]. apply IH.
Qed.
Lemma excluded_iff c k : excluded c k = false <-> forall fi t, In (fi, t) (class_fields c) -> f_name fi = k -> f_excl fi = false.
Proof.
  unfold excluded. split.
  - intros H fi t Hi Hk. destruct (f_excl fi) eqn:Ex; [|reflexivity]. exfalso. apply not_true_iff_false in H. apply H. apply existsb_exists.
    exists fi. split; [apply infos_in; exists t; exact Hi|]. rewrite Hk, str_eqb_refl, Ex. reflexivity.
  - intros H. apply not_true_iff_false. intros Hx. apply existsb_exists in Hx as (fi & Hi & Hx). apply andb_prop in Hx as [H1 H2]. apply str_eqb_eq in H1.
    apply infos_in in Hi as [t Hi]. rewrite (H fi t Hi H1) in H2. discriminate.
Qed.
Lemma kids_child v i text x : (forall s, ~ is_reference v s) -> (In (i, (text, x)) (kids v) <-> child v i text x).
Proof.
  intros Hr. destruct v as [| | | | | |l|d|c fv ex|c d| |]; cbn [kids]; try (split; [intros []|intros H; inversion H; fail]).
  - rewrite in_map_iff. split.
    + intros ([j y] & H & Hi). cbn [fst snd] in H. injection H as <- <- <-. apply numbered_in in Hi as [_ Hi]. rewrite Nat.sub_0_r in Hi. constructor. exact Hi.
    + intros H. inversion H; subst. exists (i, x). split; [reflexivity|]. apply numbered_in. rewrite Nat.sub_0_r. split; [lia|assumption].
  - rewrite in_map_iff. split.
    + intros ([j [k y]] & H & Hi). cbn [fst snd] in H. injection H as <- <- <-. apply numbered_in in Hi as [_ Hi]. rewrite Nat.sub_0_r in Hi. constructor. exact Hi.
    + intros H. inversion H; subst. exists (i, (k, x)). split; [reflexivity|]. apply numbered_in. rewrite Nat.sub_0_r. split; [lia|assumption].
  - rewrite in_map_iff. split.
    + intros ([j [k y]] & H & Hi). cbn [fst snd] in H. injection H as <- <- <-. apply filter_In in Hi as [Hi Hf]. cbn [fst snd] in Hf.
      apply numbered_in in Hi as [_ Hi]. rewrite Nat.sub_0_r in Hi. apply negb_true_iff, orb_false_iff in Hf as [H1 H2].
      constructor; [exact Hi|exact Hr| |apply excluded_iff; exact H2]. intros ->. discriminate H1.
    + intros H. inversion H; subst. exists (i, (k, x)). split; [reflexivity|]. apply filter_In. split; [apply numbered_in; rewrite Nat.sub_0_r; split; [lia|assumption]|].
      cbn [fst snd]. apply negb_true_iff, orb_false_iff. split; [destruct (is_none x) eqn:En; [apply is_none_iff in En; contradiction|reflexivity]|].
      apply excluded_iff. assumption.
  - rewrite in_map_iff. split.
    + intros ([j [k y]] & H & Hi). cbn [fst snd] in H. injection H as <- <- <-. apply numbered_in in Hi as [_ Hi]. rewrite Nat.sub_0_r in Hi. constructor. exact Hi.
    + intros H. inversion H; subst. exists (i, (k, x)). split; [reflexivity|]. apply numbered_in. rewrite Nat.sub_0_r. split; [lia|assumption].
Qed.
Inductive increasing : list kid -> Prop :=
| inc_nil : increasing []
| inc_cons k l : (forall k', In k' l -> fst k < fst k') -> increasing l -> increasing (k :: l).
Lemma kids_increasing v : increasing (kids v).
Proof.
  assert (Hn : forall X (f : nat * X -> kid) (P : nat * X -> bool) (l : list X) i, (forall ix, fst (f ix) = fst ix) -> increasing (map f (filter P (numbered i l)))).
  { intros X f P l i Hf. revert i. induction l as [|x l IH]; intros i; [constructor|]. cbn [numbered filter].
    destruct (P (i, x)); [|apply IH]. cbn [map]. constructor; [|apply IH]. intros k' Hk. apply in_map_iff in Hk as ([j y] & <- & Hj).
    apply filter_In in Hj as [Hj _]. apply numbered_in in Hj as [Hj _]. rewrite !Hf. cbn [fst]. lia. }
  assert (Ha : forall X (f : nat * X -> kid) (l : list X) i, (forall ix, fst (f ix) = fst ix) -> increasing (map f (numbered i l))).
  { intros X f l i Hf. rewrite <- (Hn X f (fun _ => true) l i Hf) || idtac. assert (H := Hn X f (fun _ => true) l i Hf).
    replace (filter (fun _ => true) (numbered i l)) with (numbered i l) in H; [exact H|]. generalize (numbered i l). intros m. induction m as [|a m IH]; [reflexivity|]. cbn. rewrite <- IH. reflexivity. }
  destruct v; cbn [kids]; try constructor; [apply Ha|apply Ha|apply Hn|apply Ha]; reflexivity.
Qed.
Lemma ref_cases v : (exists s, is_reference v s /\ as_reference v = Some s) \/ ((forall s, ~ is_reference v s) /\ as_reference v = None).
Proof.
  destruct (as_reference v) as [s|] eqn:E; [left; exists s; split; [apply as_reference_iff; exact E|reflexivity]|right].
  split; [|reflexivity]. intros s H. apply as_reference_iff in H. congruence.
Qed.
Lemma child_smaller v i text x : child v i text x -> within x v.
Proof. intros H. destruct H as [l i x H|d i k x H|c d i k x H|c fv ex i k x H]; apply nth_error_In in H; [eapply w_list|eapply w_dict|eapply w_root|eapply w_field]; eauto; constructor. Qed.
Lemma reached_within v pos path x : reached v pos path x -> within x v.
Proof. induction 1 as [|v i text w pos path x Hc Hr IH]; [constructor|]. eapply within_trans; [exact IH|]. eapply child_smaller; exact Hc. Qed.
Lemma child_not_ref v i text x : child v i text x -> forall s, ~ is_reference v s.
Proof. intros H s. destruct H; [| | |auto]; intros (? & ? & Hx & _); discriminate. Qed.
Lemma reference_childless v i text x s : is_reference v s -> child v i text x -> False.
Proof. intros H Hc. exact (child_not_ref _ _ _ _ Hc _ H). Qed.

Lemma scan_none {X} (f : kid -> option X) l : scan f l = None <-> forall k, In k l -> f k = None.
Proof.
  induction l as [|k l IH]; cbn [scan]; [split; [intros _ ? []|reflexivity]|]. destruct (f k) eqn:Ek.
  - split; [discriminate|]. intros H. rewrite (H k) in Ek by (left; reflexivity). discriminate.
  - rewrite IH. split; [intros H k' [<-|Hk]; auto|intros H k' Hk; apply H; right; exact Hk].
Qed.
Lemma scan_some {X} (f : kid -> option X) l e : scan f l = Some e -> exists a k b, l = a ++ k :: b /\ f k = Some e /\ forall k', In k' a -> f k' = None.
Proof.
  induction l as [|k l IH]; cbn [scan]; [discriminate|]. destruct (f k) eqn:Ek.
  - intros H. exists [], k, l. rewrite Ek, H. split; [reflexivity|]. split; [reflexivity|]. intros ? [].
  - intros H. destruct (IH H) as (a & k' & b & -> & H1 & H2). exists (k :: a), k', b. split; [reflexivity|]. split; [exact H1|]. intros x [<-|Hx]; auto.
Qed.
Section Size.
  (** induction on the parts of a value *)
  Variable P : pv -> Prop.
  Hypothesis H : forall v, (forall i text x, In (i, (text, x)) (kids v) -> P x) -> P v.
  Lemma kids_ind v : P v.
  Proof.
    induction v using pv_ind'; apply H; cbn [kids]; intros i0 text x Hin; try contradiction; apply in_map_iff in Hin as (ix & Heq & Hin); injection Heq as <- <- <-.
    - destruct ix as [j y]. apply numbered_in in Hin as [_ Hin]. apply nth_error_In in Hin. rewrite Forall_forall in H0. apply H0. exact Hin.
    - destruct ix as [j [k y]]. apply numbered_in in Hin as [_ Hin]. apply nth_error_In in Hin. rewrite Forall_forall in H0. apply (H0 (k, y)). exact Hin.
    - destruct ix as [j [k y]]. apply filter_In in Hin as [Hin _]. apply numbered_in in Hin as [_ Hin]. apply nth_error_In in Hin. rewrite Forall_forall in H0. apply (H0 (k, y)). exact Hin.
    - destruct ix as [j [k y]]. apply numbered_in in Hin as [_ Hin]. apply nth_error_In in Hin. rewrite Forall_forall in H0. apply (H0 (k, y)). exact Hin.
  Qed.
End Size.
Lemma check_none E doc v : forall path, check E doc v path = None <->
  forall pos rel r s, reached v pos rel r -> is_reference r s -> check_reference E doc (path ++ rel) s = None.
Proof.
  induction v as [v IH] using kids_ind. intros path. rewrite check_kids. destruct (ref_cases v) as [(s & Hs & ->)|[Hn ->]].
  - split.
    + intros H pos rel r s' Hr Hs'. inversion Hr as [p0 Hp0|i text w pos' path' x Hc Hr']; subst.
      * rewrite (is_reference_fun _ _ _ Hs' Hs), app_nil_r. destruct (check_reference E doc path s); [discriminate H|reflexivity].
      * exfalso. exact (reference_childless _ _ _ _ _ Hs Hc).
    + intros H. specialize (H [] [] v s (re_here v [] eq_refl) Hs). rewrite app_nil_r in H. rewrite H. reflexivity.
  - rewrite scan_none. split.
    + intros H pos rel r s Hr Hs. inversion Hr as [p0 Hp0|i text w pos' path' x Hc Hr']; subst; [exfalso; eapply Hn; exact Hs|].
      apply (kids_child _ _ _ _ Hn) in Hc. specialize (H _ Hc). cbn [fst snd] in H. rewrite app_assoc. eapply (IH _ _ _ Hc); eauto.
    + intros H [i [text x]] Hk. cbn [fst snd]. apply (IH _ _ _ Hk). intros pos rel r s Hr Hs. rewrite <- app_assoc. eapply H; [|exact Hs].
      eapply re_step; [apply (kids_child _ _ _ _ Hn); exact Hk|exact Hr].
Qed.
Lemma increasing_split a k b : increasing (a ++ k :: b) -> forall k', In k' (a ++ k :: b) -> fst k' < fst k -> In k' a.
Proof.
  induction a as [|x a IH]; intros H k' Hk Hl; inversion H as [|? ? H1 H2]; subst.
  - destruct Hk as [->|Hk]; [lia|]. apply H1 in Hk. lia.
  - destruct Hk as [->|Hk]; [left; reflexivity|]. right. eapply IH; eauto.
Qed.
Lemma increasing_unique l : increasing l -> forall k k', In k l -> In k' l -> fst k = fst k' -> k = k'.
Proof.
  induction 1 as [|x l H1 H2 IH]; intros k k' Hk Hk' He; [contradiction|].
  destruct Hk as [->|Hk], Hk' as [->|Hk']; [reflexivity|apply H1 in Hk'; lia|apply H1 in Hk; lia|auto].
Qed.
Lemma check_some E doc v : forall path p e, check E doc v path = Some (p, e) ->
  exists pos rel r s, reached v pos rel r /\ is_reference r s /\ p = path ++ rel /\ check_reference E doc p s = Some e
    /\ forall pos' rel' r' s', reached v pos' rel' r' -> is_reference r' s' -> before pos' pos -> check_reference E doc (path ++ rel') s' = None.
Proof.
  induction v as [v IH] using kids_ind. intros path p e. rewrite check_kids. destruct (ref_cases v) as [(s & Hs & ->)|[Hn ->]].
  - intros H. destruct (check_reference E doc path s) as [e'|] eqn:Ec; [|discriminate H]. injection H as <- <-.
    exists [], [], v, s. rewrite app_nil_r. split; [constructor; reflexivity|]. split; [exact Hs|]. split; [reflexivity|]. split; [exact Ec|].
    intros pos' rel' r' s' _ _ Hb. inversion Hb.
  - intros H. apply scan_some in H as (a & [i [text x]] & b & Hk & Hc & Hb). cbn [fst snd] in Hc.
    assert (Hin : In (i, (text, x)) (kids v)) by (rewrite Hk; apply in_or_app; right; left; reflexivity).
    assert (Hinc := kids_increasing v).
    destruct (IH _ _ _ Hin _ _ _ Hc) as (pos & rel & r & s & Hr & Hs & Hp & He & Hbef).
    exists (i :: pos), (text ++ rel), r, s. split; [eapply re_step; [apply (kids_child _ _ _ _ Hn); exact Hin|exact Hr]|]. split; [exact Hs|].
    split; [rewrite app_assoc; exact Hp|]. split; [exact He|]. intros pos' rel' r' s' Hr' Hs' Hlt.
    inversion Hr' as [p0 Hp0|i' text' w pos2 path2 x2 Hc2 Hr2]; subst; [inversion Hlt|]. apply (kids_child _ _ _ _ Hn) in Hc2. rewrite app_assoc.
    inversion Hlt as [? ? ? ? Hl|? ? ? Hl]; subst.
    + assert (Ha : In (i', (text', w)) a). { rewrite Hk in Hinc, Hc2. eapply increasing_split; [exact Hinc|exact Hc2|exact Hl]. }
      apply Hb in Ha. cbn [fst snd] in Ha. exact (proj1 (check_none E doc w (path ++ text')) Ha _ _ _ _ Hr2 Hs').
    + assert (Heq := increasing_unique _ Hinc _ _ Hin Hc2 eq_refl). injection Heq as -> ->. eapply Hbef; eauto.
Qed.

(** ** One reference *)
Lemma compatible_iff a tys : compatible a tys = true <-> In a tys.
Proof. unfold compatible. apply existsb_string. Qed.
Lemma check_reference_ok E doc path s : no_root_keyword doc -> (check_reference E doc path s = None <-> acceptable E doc path s).
Proof.
  intros Hn. unfold check_reference, acceptable. assert (H := resolve_outcome doc s Hn).
  assert (Hob : forall o l, ends_at doc s o l -> resolve doc s = Resolved o (access_path l)).
  { intros o l (n & s' & H1 & H2 & H3). apply (resolve_iff _ _ _ Hn). eapply oc_obj; eauto. }
  assert (Hex : forall n s', hops doc n s s' -> external s' -> resolve doc s = External).
  { intros n s' H1 H2. apply (resolve_iff _ _ _ Hn). eapply oc_ext; eauto. }
  destruct (resolve doc s) as [o p| |e] eqn:Er.
  - inversion H as [n s' l o' Hh Hd Hr| | | | |]; subst. destruct (expected E path) as [tys|]; [destruct (compatible (type_name o) tys) eqn:Ec|].
    + apply compatible_iff in Ec. split; [|reflexivity]. intros _. right. exists o, l, tys. split; [exists n, s'; auto|auto].
    + split; [discriminate|]. intros [(m & s2 & H1 & H2)|(o2 & l2 & tys2 & H1 & H2 & H3)].
      * assert (Hq := Hex _ _ H1 H2). discriminate Hq.
      * assert (Hq := Hob _ _ H1). injection Hq as -> _. injection H2 as ->. apply compatible_iff in H3. congruence.
    + split; [discriminate|]. intros [(m & s2 & H1 & H2)|(o2 & l2 & tys2 & H1 & H2 & H3)]; [assert (Hq := Hex _ _ H1 H2); discriminate Hq|discriminate H2].
  - split; [|reflexivity]. intros _. left. inversion H; subst; eauto.
  - split; [discriminate|]. intros [(m & s2 & H1 & H2)|(o2 & l2 & tys2 & H1 & H2 & H3)]; [assert (Hq := Hex _ _ H1 H2)|assert (Hq := Hob _ _ H1)]; discriminate Hq.
Qed.

(** ** Where the References of a validated document stand *)
Lemma canon_fields_named E can fs : forall fv, canon_fields E can fs fv -> forall k x, In (k, x) fv -> exists fi t, In (fi, t) fs /\ f_name fi = k /\ can t x.
Proof.
  induction fs as [|[fi t] fs IH]; intros [|[k v] fv] H k0 x Hin; cbn [canon_fields] in H; try contradiction.
  destruct H as [(-> & Hc & _) H]. destruct Hin as [Heq|Hin]; [inversion Heq; subst; exists fi, t; split; [left; reflexivity|auto]|].
  destruct (IH _ H _ _ Hin) as (gi & s & Hs & Hx). exists gi, s. split; [right; exact Hs|exact Hx].
Qed.
Lemma within_inv x v : within x v -> x = v \/ match v with
  | VList l => exists y, In y l /\ within x y
  | VDict d | VRoot _ d => exists k y, In (k, y) d /\ within x y
  | VObj _ fv ex => exists k y, (In (k, y) fv \/ In (k, y) ex) /\ within x y
  | _ => False
  end.
Proof. destruct 1; [left; reflexivity| | | | |]; right; eauto 6. Qed.
Fixpoint no_refs (t : ty) : bool :=
  match t with
  | TModel _ _ _ | TRoot _ _ => false
  | TUnion ts => forallb no_refs ts
  | TList t' | TDict t' | TOpt t' => no_refs t'
  | _ => true
  end.
Lemma no_refs_spec E t : no_refs t = true -> forall v, canon no_objects E t v -> no_objects v.
Proof.
  induction t using ty_ind'; intros Hn v Hc; cbn [canon] in Hc; cbn [no_refs] in Hn; try discriminate Hn; intros c0 fv0 ex0 Hw;
    try (destruct Hc as (s & -> & _) || destruct Hc as (s & ->); apply within_atom in Hw; discriminate Hw).
  - exact (Hc _ _ _ Hw).
  - destruct Hc as (l & -> & HF). apply within_inv in Hw as [Hw|(y & H0 & H1)]; [discriminate Hw|]. rewrite Forall_forall in HF. exact (IHt Hn y (HF _ H0) _ _ _ H1).
  - destruct Hc as (d & -> & HF). apply within_inv in Hw as [Hw|(k & y & H0 & H1)]; [discriminate Hw|]. rewrite Forall_forall in HF. exact (IHt Hn y (HF (k, y) H0) _ _ _ H1).
  - destruct Hc as [->|Hc]; [apply within_atom in Hw; discriminate Hw|]. exact (IHt Hn v Hc _ _ _ Hw).
  - apply canon_union_each in Hc as (t & Ht & Hc). rewrite Forall_forall in H. rewrite forallb_forall in Hn. exact (H t Ht (Hn t Ht) v Hc _ _ _ Hw).
  - destruct Hc as (l & -> & HF). apply within_inv in Hw as [Hw|(y & H0 & H1)]; [discriminate Hw|]. rewrite forallb_forall in HF. specialize (HF y H0). destruct y; try discriminate HF. apply within_atom in H1. discriminate H1.
Qed.
Definition is_nil {X} (l : list X) : bool := match l with [] => true | _ => false end.
Lemma is_nil_spec {X} (l : list X) : is_nil l = true -> l = [].
Proof. destruct l; [reflexivity|discriminate]. Qed.
(** every field or union member that is a Reference is one of the places [location] knows *)
Fixpoint refs_placed (t : ty) : bool :=
  match t with
  | TList t' | TDict t' | TOpt t' => refs_placed t'
  | TRoot _ t' => is_nil (opos t') && refs_placed t'
  | TUnion ts => forallb (fun t => (is_ref_ty t || is_nil (opos t)) && refs_placed t) ts
  | TModel c _ fs =>
      if String.eqb c "Reference" then forallb (fun ft => match ft with (_, t) => no_refs t end) fs
      else forallb (fun ft => match ft with (fi, t) =>
        refs_placed t && (negb (f_excl fi) || no_refs t)
        && (is_nil (opos t) || existsb (fun r => match r with (c', f, _) => String.eqb c c' && str_eqb (f_name fi) (u f) end) reference_fields) end) fs
  | _ => true
  end.
Lemma root_refs_placed : refs_placed T_AsyncAPI3 = true.
Proof. vm_compute. reflexivity. Qed.
Lemma opos_spec t : opos t = [] -> forall p, ~ only_reference t p.
Proof. intros H p Hp. apply opos_complete in Hp. rewrite H in Hp. exact Hp. Qed.
(** a dict of references does not occur *)
Fixpoint no_ref_dicts (t : ty) : bool :=
  match t with
  | TDict t' => is_nil (opos t') && no_ref_dicts t'
  | TList t' | TOpt t' | TRoot _ t' => no_ref_dicts t'
  | TUnion ts => forallb no_ref_dicts ts
  | TModel _ _ fs => forallb (fun ft => match ft with (_, t) => no_ref_dicts t end) fs
  | _ => true
  end.
Lemma root_no_ref_dicts : no_ref_dicts T_AsyncAPI3 = true.
Proof. vm_compute. reflexivity. Qed.
Definition located (t : ty) (v r : pv) : Prop :=
  exists pos p, reached v pos (flat_map step_text p) r /\ (only_reference t p \/ exists D, location t p D).
Lemma nth_of_In {X} (x : X) l : In x l -> exists i, nth_error l i = Some x.
Proof. apply In_nth_error. Qed.
Lemma canon_located E t : linked t = true -> wf_ty t = true -> refs_placed t = true -> no_ref_dicts t = true -> forall v, canon no_objects E t v ->
  forall r s, within r v -> is_reference r s -> located t v r.
Proof.
  induction t using ty_ind'; intros Hl Hw Hp Hd v Hc r s Hr Hs; cbn [canon] in Hc;
    try (exfalso; destruct Hs as (fv0 & ex0 & -> & _); (destruct Hc as (z & -> & _) || destruct Hc as (z & ->)); apply within_atom in Hr; discriminate Hr).
  - exfalso. destruct Hs as (fv0 & ex0 & -> & _). exact (Hc _ _ _ Hr).
  - destruct Hc as (l & -> & HF). apply within_inv in Hr as [->|(y & H0 & H1)]; [destruct Hs as (? & ? & Hx & _); discriminate Hx|]. rewrite Forall_forall in HF.
    destruct (IHt Hl Hw Hp Hd y (HF _ H0) r s H1 Hs) as (pos & p & Hre & Hlo). destruct (nth_of_In _ _ H0) as [i Hi].
    exists (i :: pos), (LIdx i :: p). split; [apply (re_step (VList l) i (step_text (LIdx i)) y); [constructor; exact Hi|exact Hre]|].
    destruct Hlo as [Hlo|[D Hlo]]; [left; constructor; exact Hlo|right; exists D; constructor; exact Hlo].
  - destruct Hc as (d & -> & HF). apply within_inv in Hr as [->|(k & y & H0 & H1)]; [destruct Hs as (? & ? & Hx & _); discriminate Hx|]. rewrite Forall_forall in HF.
    cbn [no_ref_dicts] in Hd. apply andb_prop in Hd as [Hd1 Hd2]. apply is_nil_spec in Hd1.
    destruct (IHt Hl Hw Hp Hd2 y (HF (k, y) H0) r s H1 Hs) as (pos & p & Hre & Hlo). destruct (nth_of_In _ _ H0) as [i Hi].
    destruct Hlo as [Hlo|[D Hlo]]; [exfalso; exact (opos_spec _ Hd1 _ Hlo)|].
    exists (i :: pos), (LKey k :: p). split; [apply (re_step (VDict d) i (step_text (LKey k)) y); [constructor; exact Hi|exact Hre]|].
    right. exists D. constructor. exact Hlo.
  - destruct Hc as [->|Hc]; [exfalso; destruct Hs as (? & ? & -> & _); apply within_atom in Hr; discriminate Hr|].
    destruct (IHt Hl Hw Hp Hd v Hc r s Hr Hs) as (pos & p & Hre & Hlo). exists pos, p. split; [exact Hre|].
    destruct Hlo as [Hlo|[D Hlo]]; [left; constructor; exact Hlo|right; exists D; constructor; exact Hlo].
  - apply canon_union_each in Hc as (t & Ht & Hc). rewrite Forall_forall in H. cbn [refs_placed no_ref_dicts] in Hp, Hd. rewrite forallb_forall in Hp, Hd.
    specialize (Hp t Ht). specialize (Hd t Ht). apply andb_prop in Hp as [Hp1 Hp2].
    destruct (H t Ht (linked_union _ _ Hl Ht) (wf_union _ _ Hw Ht) Hp2 Hd v Hc r s Hr Hs) as (pos & p & Hre & Hlo). exists pos, p. split; [exact Hre|]. right.
    destruct Hlo as [Hlo|[D Hlo]]; [|exists D; eapply lo_member; eauto].
    apply orb_prop in Hp1 as [Hp1|Hp1]; [|apply is_nil_spec in Hp1; exfalso; exact (opos_spec _ Hp1 _ Hlo)].
    destruct t; try discriminate Hp1. apply String.eqb_eq in Hp1. subst c. inversion Hlo; subst. eexists. eapply lo_here. exact Ht.
  - exfalso. destruct Hs as (fv0 & ex0 & -> & _). refine (no_refs_spec E TProcs eq_refl v _ _ _ _ Hr). exact Hc.
  - destruct Hc as (fv & ex & -> & Hf & Hex & Ha). cbn [refs_placed no_ref_dicts] in Hp, Hd. destruct (String.eqb c "Reference") eqn:Ec.
    + apply String.eqb_eq in Ec. subst c. rewrite forallb_forall in Hp. apply within_inv in Hr as [->|(k0 & y & [H1|H1] & H2)].
      * exists [], []. split; [constructor; reflexivity|left; constructor].
      * exfalso. destruct (canon_fields_named _ _ _ _ Hf _ _ H1) as (fi & t & Hin & _ & Hct). destruct Hs as (fv0 & ex0 & -> & _).
        exact (no_refs_spec E t (Hp _ Hin) y Hct _ _ _ H2).
      * exfalso. rewrite Forall_forall in Hex. destruct Hs as (fv0 & ex0 & -> & _). exact (Hex _ H1 _ _ _ H2).
    + assert (Hn : forall s, ~ is_reference (VObj c fv ex) s). { intros s0 (? & ? & Hx & _). injection Hx as -> _ _. discriminate Ec. }
      apply within_inv in Hr as [->|(k0 & y & [H1|H1] & H2)]; [exfalso; exact (Hn _ Hs)| |].
      * destruct (canon_fields_named _ _ _ _ Hf _ _ H1) as (fi & t & Hin & Hnm & Hct). rewrite Forall_forall in H. rewrite forallb_forall in Hp, Hd.
        specialize (Hp _ Hin). specialize (Hd _ Hin). cbn beta iota in Hp, Hd. apply andb_prop in Hp as [Hp Hp3]. apply andb_prop in Hp as [Hp1 Hp2].
        destruct (H (fi, t) Hin (linked_sub _ _ _ _ Hl Hin) (wf_sub _ _ _ _ Hw Hin) Hp1 Hd y Hct r s H2 Hs) as (pos & p & Hre & Hlo). cbn [snd] in *.
        assert (Hx : f_excl fi = false).
        { destruct (f_excl fi); [|reflexivity]. exfalso. cbn [negb orb] in Hp2. destruct Hs as (fv0 & ex0 & -> & _). exact (no_refs_spec E t Hp2 y Hct _ _ _ H2). }
        destruct (nth_of_In _ _ H1) as [i Hi]. subst k0.
        exists (i :: pos), (LField (f_name fi) :: p). split.
        -- apply (re_step (VObj c fv ex) i (step_text (LField (f_name fi))) y); [|exact Hre]. apply ch_field; [exact Hi|exact Hn| |].
           ++ intros ->. destruct Hs as (fv0 & ex0 & -> & _). apply within_atom in H2. discriminate H2.
           ++ destruct (linked_fields _ _ _ Hl) as [Hcf _]. rewrite Hcf. intros fi' t' Hin' Hnm'.
              assert (Hnd := names_NoDup _ _ _ Hw). clear -Hnd Hin Hin' Hnm' Hx.
              induction fs as [|[gi u0] fs IH]; [contradiction|]. cbn [map fst] in Hnd. inversion Hnd as [|? ? Hni Hnd']; subst.
              destruct Hin as [Heq|Hin], Hin' as [Heq'|Hin'].
              ** injection Heq as -> ->. injection Heq' as -> ->. exact Hx.
              ** injection Heq as -> ->. exfalso. apply Hni. apply in_map_iff. exists (fi', t'). auto.
              ** injection Heq' as -> ->. exfalso. apply Hni. apply in_map_iff. exists (fi, t). auto.
              ** auto.
        -- right. destruct Hlo as [Hlo|[D Hlo]]; [|exists D; apply (lo_field c k fs fi t); assumption].
           apply orb_prop in Hp3 as [Hp3|Hp3]; [apply is_nil_spec in Hp3; exfalso; exact (opos_spec _ Hp3 _ Hlo)|].
           apply existsb_exists in Hp3 as ([[c' f] D] & Hrf & Hcf). apply andb_prop in Hcf as [Hc1 Hc2]. apply String.eqb_eq in Hc1. apply str_eqb_eq in Hc2. subst c'.
           exists [D]. rewrite Hc2. eapply lo_only; eauto.
      * exfalso. rewrite Forall_forall in Hex. destruct Hs as (fv0 & ex0 & -> & _). exact (Hex _ H1 _ _ _ H2).
  - destruct Hc as (d & -> & HF & _). apply within_inv in Hr as [->|(k & y & H0 & H1)]; [destruct Hs as (? & ? & Hx & _); discriminate Hx|]. rewrite Forall_forall in HF.
    cbn [refs_placed no_ref_dicts] in Hp, Hd. apply andb_prop in Hp as [Hp1 Hp2]. apply is_nil_spec in Hp1.
    destruct (IHt (linked_root_sub _ _ Hl) Hw Hp2 Hd y (HF (k, y) H0) r s H1 Hs) as (pos & p & Hre & Hlo). destruct (nth_of_In _ _ H0) as [i Hi].
    destruct Hlo as [Hlo|[D Hlo]]; [exfalso; exact (opos_spec _ Hp1 _ Hlo)|].
    exists (i :: pos), (LMapKey k :: p). split; [|right; exists D; constructor; exact Hlo].
    apply (re_step (VRoot c d) i (step_text (LMapKey k)) y); [|exact Hre]. cbn [step_text]. constructor. exact Hi.
Qed.
Lemma document_canon E v doc : parse E T_AsyncAPI3 v = Some doc -> no_objects v -> canon no_objects E T_AsyncAPI3 doc.
Proof.
  intros Hp Hn. assert (HinA : In T_AsyncAPI3 all_types) by (apply Linked.find_class_In; vm_compute; reflexivity).
  apply parse_some in Hp as [n Hp]. exact (validate_canon no_objects no_objects E _ no_objects_closed (fun _ H => H) (wf_all _ HinA) _ _ _ Hn Hp).
Qed.
Lemma document_located E v doc r s : parse E T_AsyncAPI3 v = Some doc -> no_objects v -> within r doc -> is_reference r s ->
  exists pos p D, location T_AsyncAPI3 p D /\ reached doc pos (flat_map step_text p) r.
Proof.
  intros Hp Hn Hr Hs. assert (HinA : In T_AsyncAPI3 all_types) by (apply Linked.find_class_In; vm_compute; reflexivity).
  destruct (canon_located E _ (linked_all _ HinA) (wf_all _ HinA) root_refs_placed root_no_ref_dicts _ (document_canon _ _ _ Hp Hn) r s Hr Hs) as (pos & p & Hre & [Hlo|[D Hlo]]).
  - exfalso. apply opos_complete in Hlo. exact Hlo.
  - exists pos, p, D. auto.
Qed.
