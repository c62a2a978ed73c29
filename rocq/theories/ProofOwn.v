(** Which objects a validated value consists of. *)
From Coq Require Import Lia.
From Verif Require Import PyStr Regex Value Types Rules Pydantic ClassTable Classes Linked Heap SpecHeap ProofHeap.

Lemma points_extends M M' h : extends M M' -> points M h -> points M' h.
Proof. intros He. destruct h as [a|l]; [trivial|]. cbn [points]. assert (H := extends_length _ _ He). lia. Qed.
Lemma look_extends_inv M M' l c : extends M M' -> l < length M -> look M' l = Some c -> look M l = Some c.
Proof. intros [K ->] Hl H. unfold look in *. rewrite nth_error_app1 in H by exact Hl. exact H. Qed.
Lemma part_extends M M' h x : extends M M' -> part M h x -> part M' h x.
Proof. intros He H. induction H as [h|l c y x Hl Hy Hp IH]; [apply pt_here|]. eapply pt_inside; [eapply extends_look; eauto|exact Hy|exact IH]. Qed.
Lemma part_points M h x : consistent M -> points M h -> part M h x -> points M x.
Proof. intros Hc Hh H. induction H as [h|l c y x Hl Hy Hp IH]; [exact Hh|]. apply IH. eapply Hc; eauto. Qed.
Lemma part_back M M' h x : consistent M -> extends M M' -> points M h -> part M' h x -> part M h x.
Proof.
  intros Hc He Hh H. induction H as [h|l c y x Hl Hy Hp IH]; [apply pt_here|].
  assert (Hl' := look_extends_inv _ _ _ _ He Hh Hl). eapply pt_inside; [exact Hl'|exact Hy|]. apply IH. eapply Hc; eauto.
Qed.
Lemma part_trans M a b c : part M a b -> part M b c -> part M a c.
Proof. intros H. induction H as [h|l d y x Hl Hy Hp IH]; [trivial|]. intros Hc. eapply pt_inside; eauto. Qed.
Lemma part_held M l c y : look M l = Some c -> In y (held c) -> part M (HL l) y.
Proof. intros. eapply pt_inside; eauto. apply pt_here. Qed.
Lemma consistent_snoc M c : consistent M -> (forall x, In x (held c) -> points M x) -> consistent (M ++ [c]).
Proof.
  intros Hc Hx l c' x Hl Hi. assert (He := extends_snoc M c). destruct (Nat.lt_ge_cases l (length M)) as [Hlt|Hge].
  - eapply points_extends; [exact He|]. eapply Hc; [eapply look_extends_inv; eauto|exact Hi].
  - assert (l = length M). { assert (H := look_lt _ _ _ Hl). rewrite app_length in H. cbn in H. lia. }
    subst l. rewrite look_new in Hl. injection Hl as <-. eapply points_extends; [exact He|]. auto.
Qed.

(** ** [owns] in terms of lists *)
Lemma owns_union M ts h P : owns M (TUnion ts) h P <-> exists t, In t ts /\ owns M t h P.
Proof.
  cbn [owns]. induction ts as [|t ts IH]; [split; [tauto|intros (t & [] & _)]|]. split.
  - intros [H|H]; [exists t; split; [left; reflexivity|exact H]|]. apply IH in H as (t' & Hi & H). exists t'. split; [right; exact Hi|exact H].
  - intros (t' & [->|Hi] & H); [left; exact H|]. right. apply IH. eauto.
Qed.
Inductive own_fields (M : mem) : list (finfo * ty) -> hfields -> list (list nat * list hv) -> Prop :=
| of_nil : own_fields M [] [] []
| of_cons fi t fs n x fv P Ps : n = f_name fi -> owns M t x P -> own_fields M fs fv Ps -> own_fields M ((fi, t) :: fs) ((n, x) :: fv) (P :: Ps).
Lemma owns_model M c k fs h P : owns M (TModel c k fs) h P <-> exists l fv ex Ps, h = HL l /\ look M l = Some (CObj c fv ex)
      /\ own_fields M fs fv Ps /\ P = (l :: concat (map fst Ps), concat (map snd Ps) ++ map snd ex).
Proof.
  assert (Hi : forall fs fv Ps, (fix fields (fs : list (finfo * ty)) (fv : hfields) (Ps : list (list nat * list hv)) : Prop :=
            match fs, fv, Ps with
            | [], [], [] => True
            | (fi, t') :: fs', (n, x) :: fv', P' :: Ps' => n = f_name fi /\ owns M t' x P' /\ fields fs' fv' Ps'
            | _, _, _ => False
            end) fs fv Ps <-> own_fields M fs fv Ps).
  { clear. induction fs as [|[fi t] fs IH]; intros fv Ps; (split; [intros H|intros H; inversion H; subst]).
    - destruct fv, Ps; try destruct H. constructor.
    - exact I.
    - destruct fv as [|[n x] fv], Ps as [|P Ps]; try (destruct H; fail). destruct H as (Hn & Ho & H). constructor; [exact Hn|exact Ho|]. apply IH. exact H.
    - split; [reflexivity|]. split; [assumption|]. apply IH. assumption. }
  cbn [owns]. split; intros (l & fv & ex & Ps & H1 & H2 & H3 & H4); exists l, fv, ex, Ps; split; auto; split; auto; split; auto; apply Hi; exact H3.
Qed.

(** Owned structure survives any change elsewhere. *)
Lemma Forall2_impl_in {A B} (P Q : A -> B -> Prop) la lb : (forall a b, In b lb -> P a b -> Q a b) -> Forall2 P la lb -> Forall2 Q la lb.
Proof. intros H. apply Forall2_weaken. intros a b _ Hb. apply H. exact Hb. Qed.
Lemma in_concat_fst {A B} (Ps : list (list A * B)) P l : In P Ps -> In l (fst P) -> In l (concat (map fst Ps)).
Proof. intros Hi Hl. apply in_concat. exists (fst P). split; [apply in_map; exact Hi|exact Hl]. Qed.
Lemma in_concat_snd {A B} (Ps : list (A * list B)) P l : In P Ps -> In l (snd P) -> In l (concat (map snd Ps)).
Proof. intros Hi Hl. apply in_concat. exists (snd P). split; [apply in_map; exact Hi|exact Hl]. Qed.
Lemma owns_agree M M2 t : forall h P, owns M t h P -> (forall l, In l (fst P) -> look M2 l = look M l) -> owns M2 t h P.
Proof.
  induction t as [| | | | | | | |t IH|t IH|t IH|ts IH| |c k fs IH|c t IH] using ty_ind'; intros h P H Ha; try exact H.
  - destruct H as (l & xs & Ps & -> & Hl & HF & ->). exists l, xs, Ps. split; [reflexivity|]. cbn [fst] in Ha. split; [rewrite Ha; [exact Hl|left; reflexivity]|].
    split; [|reflexivity]. eapply Forall2_impl_in; [|exact HF]. intros a b Hb Ho. apply IH; [exact Ho|]. intros l' Hl'. apply Ha. right. eapply in_concat_fst; eauto.
  - destruct H as (l & d & Ps & -> & Hl & HF & ->). exists l, d, Ps. split; [reflexivity|]. cbn [fst] in Ha. split; [rewrite Ha; [exact Hl|left; reflexivity]|].
    split; [|reflexivity]. eapply Forall2_impl_in; [|exact HF]. intros a b Hb Ho. apply IH; [exact Ho|]. intros l' Hl'. apply Ha. right. eapply in_concat_fst; eauto.
  - cbn [owns] in *. destruct H as [H|H]; [left; exact H|right; apply IH; assumption].
  - apply owns_union in H as (t & Hi & H). apply owns_union. exists t. split; [exact Hi|]. rewrite Forall_forall in IH. apply IH; assumption.
  - destruct H as (l & xs & -> & Hl & Hp & ->). exists l, xs. split; [reflexivity|]. cbn [fst] in Ha. split; [rewrite Ha; [exact Hl|left; reflexivity]|]. auto.
  - apply owns_model in H as (l & fv & ex & Ps & -> & Hl & HF & ->). apply owns_model. exists l, fv, ex, Ps. split; [reflexivity|]. cbn [fst] in Ha.
    split; [rewrite Ha; [exact Hl|left; reflexivity]|]. split; [|reflexivity].
    assert (Ha' : forall l0, In l0 (concat (map fst Ps)) -> look M2 l0 = look M l0) by (intros; apply Ha; right; assumption). clear Ha Hl.
    induction HF as [|fi t fs n x fv P Ps Hn Ho HF IHF]; [constructor|]. inversion IH as [|? ? IHt IHs]; subst. cbn [map concat] in Ha'.
    constructor; [reflexivity| |].
    + apply IHt; [exact Ho|]. intros l' Hl'. apply Ha'. apply in_or_app. left. exact Hl'.
    + apply IHF; [exact IHs|]. intros l' Hl'. apply Ha'. apply in_or_app. right. exact Hl'.
  - destruct H as (l & r & d & Ps & -> & Hl & Hr & HF & ->). exists l, r, d, Ps. split; [reflexivity|]. cbn [fst] in Ha.
    split; [rewrite Ha; [exact Hl|left; reflexivity]|]. split; [rewrite Ha; [exact Hr|right; left; reflexivity]|].
    split; [|reflexivity]. eapply Forall2_impl_in; [|exact HF]. intros a b Hb Ho. apply IH; [exact Ho|]. intros l' Hl'. apply Ha. right. right. eapply in_concat_fst; eauto.
Qed.
(** The owned addresses exist. *)
Lemma owns_exist M t : forall h P l, owns M t h P -> In l (fst P) -> exists c, look M l = Some c.
Proof.
  assert (HG : forall (t : ty) xs Ps l0, (forall h P l, owns M t h P -> In l (fst P) -> exists c, look M l = Some c) -> Forall2 (owns M t) xs Ps -> In l0 (concat (map fst Ps)) -> exists c, look M l0 = Some c).
  { intros t0 xs Ps l0 IH HF. induction HF as [|x P xs Ps Ho _ IHF]; [intros []|]. cbn [map concat]. intros Hi. apply in_app_or in Hi as [Hi|Hi]; [eapply IH; eauto|auto]. }
  induction t as [| | | | | | | |t IH|t IH|t IH|ts IH| |c k fs IH|c t IH] using ty_ind'; intros h P l0 H Hl;
    try (cbn [owns] in H; match type of H with _ /\ P = _ => destruct H as [_ Hq]; rewrite Hq in Hl; destruct Hl end; fail).
  - cbn [owns] in H. rewrite H in Hl. destruct Hl.
  - destruct H as (l & xs & Ps & -> & Hlk & HF & ->). destruct Hl as [<-|Hl]; eauto.
  - destruct H as (l & xs & Ps & -> & Hlk & HF & ->). destruct Hl as [<-|Hl]; eauto.
  - cbn [owns] in H. destruct H as [[_ ->]|H]; [destruct Hl|eauto].
  - apply owns_union in H as (t & Hi & H). rewrite Forall_forall in IH. eapply IH; eauto.
  - destruct H as (l & xs & -> & Hlk & Hp & ->). destruct Hl as [<-|[]]. eauto.
  - apply owns_model in H as (l & fv & ex & Ps & -> & Hlk & HF & ->). cbn [fst] in Hl. destruct Hl as [<-|Hl]; [eauto|]. clear Hlk.
    induction HF as [|fi t fs n x fv P Ps Hn Ho HF IHF]; [destruct Hl|]. inversion IH as [|? ? IHt IHs]; subst. cbn [map concat] in Hl.
    apply in_app_or in Hl as [Hl|Hl]; [eapply IHt; eauto|auto].
  - destruct H as (l & r & d & Ps & -> & Hlk & Hr & HF & ->). destruct Hl as [<-|[<-|Hl]]; eauto.
Qed.
Lemma owns_extends M M' t h P : extends M M' -> owns M t h P -> owns M' t h P.
Proof. intros He H. eapply owns_agree; [exact H|]. intros l Hl. destruct (owns_exist _ _ _ _ _ H Hl) as [c Hc]. rewrite Hc. eapply extends_look; eauto. Qed.
Lemma own_fields_extends M M' fs fv Ps : extends M M' -> own_fields M fs fv Ps -> own_fields M' fs fv Ps.
Proof. intros He H. induction H; constructor; auto. eapply owns_extends; eauto. Qed.

(** ** What validation allocates *)
Definition between (M M' : mem) (l : nat) : Prop := length M <= l < length M'.
Lemma between_weaken A B C D l : extends A B -> extends C D -> between B C l -> between A D l.
Proof. intros H1 H2. apply extends_length in H1, H2. unfold between. lia. Qed.
Lemma NoDup_app_between A B C (L1 L2 : list nat) : NoDup L1 -> NoDup L2 -> Forall (between A B) L1 -> Forall (between B C) L2 -> NoDup (L1 ++ L2).
Proof.
  intros H1 H2 F1 F2. induction H1 as [|x L1 Hx H1 IH]; [exact H2|]. inversion F1 as [|? ? Hb F1']; subst. cbn [app]. constructor; [|auto].
  intros Hi. apply in_app_or in Hi as [Hi|Hi]; [contradiction|]. rewrite Forall_forall in F2. apply F2 in Hi. unfold between in *. lia.
Qed.
(** [fresh M M' L]: distinct addresses allocated between [M] and [M'] *)
Definition fresh (M M' : mem) (L : list nat) : Prop := NoDup L /\ Forall (between M M') L.
Lemma fresh_nil M M' : fresh M M' []. Proof. split; constructor. Qed.
Lemma fresh_app A B C L1 L2 : extends A B -> extends B C -> fresh A B L1 -> fresh B C L2 -> fresh A C (L1 ++ L2).
Proof.
  intros E1 E2 [N1 F1] [N2 F2]. split; [eapply NoDup_app_between; eauto|]. apply Forall_app. split.
  - eapply Forall_impl; [|exact F1]. intros l. apply between_weaken; [apply extends_refl|exact E2].
  - eapply Forall_impl; [|exact F2]. intros l. apply between_weaken; [exact E1|apply extends_refl].
Qed.
Lemma fresh_snoc M M' c L : extends M M' -> fresh M M' L -> fresh M (M' ++ [c]) (length M' :: L).
Proof.
  intros He [N F]. apply extends_length in He. split.
  - constructor; [|exact N]. intros Hi. rewrite Forall_forall in F. apply F in Hi. unfold between in Hi. lia.
  - constructor; [unfold between; rewrite app_length; cbn; lia|]. eapply Forall_impl; [|exact F]. intros l. unfold between. rewrite app_length. cbn. lia.
Qed.
Section Own.
  Context (E : env).
  (** outcome of validating [h] against [t] from [M] *)
  Definition built (t : ty) (h : hv) (M M' : mem) (r : option (hv * nat)) : Prop :=
    consistent M' /\ forall h' n, r = Some (h', n) -> points M' h' /\ exists L F, owns M' t h' (L, F) /\ fresh M M' L /\ (forall x, In x F -> part M h x).
  Let good (t : ty) := forall h M M' r, consistent M -> points M h -> hvalidate E t h M = (M', r) -> built t h M M' r.
  Lemma hlist_built t : good t -> forall l M M' r, consistent M -> (forall x, In x l -> points M x) -> hlist (hvalidate E) t l M = (M', r) ->
    consistent M' /\ forall l' n, r = Some (l', n) -> (forall x, In x l' -> points M' x) /\ exists Ps, Forall2 (owns M' t) l' Ps
      /\ fresh M M' (concat (map fst Ps)) /\ (forall x, In x (concat (map snd Ps)) -> exists y, In y l /\ part M y x).
  Proof.
    intros Ht. induction l as [|x l IH]; intros M M' r Hc Hp H; cbn [hlist] in H.
    { injection H as <- <-. split; [exact Hc|]. intros l' n Hr. injection Hr as <- _. split; [intros x []|]. exists []. split; [constructor|]. split; [apply fresh_nil|intros x []]. }
    destruct (hvalidate E t x M) as [M1 a] eqn:E1. assert (He := hvalidate_ext _ _ _ _ _ _ E1). destruct (Ht x M M1 a Hc (Hp x (or_introl eq_refl)) E1) as [Hc1 H1].
    destruct a as [[x' n]|]; [|injection H as <- <-; split; [exact Hc1|discriminate]].
    change ((fix go (l : list hv) (M : mem) {struct l} : mem * option (list hv * nat) := _) l M1) with (hlist (hvalidate E) t l M1) in H.
    assert (Hp1 : forall y, In y l -> points M1 y) by (intros y Hy; eapply points_extends; [exact He|apply Hp; right; exact Hy]).
    destruct (hlist (hvalidate E) t l M1) as [M2 b] eqn:E2. assert (He2 := hlist_ext _ _ (hvalidate_ext E t) _ _ _ _ E2). destruct (IH M1 M2 b Hc1 Hp1 E2) as [Hc2 H2].
    destruct b as [[l' m]|]; injection H as <- <-; (split; [exact Hc2|]); [|discriminate]. intros l'' k Hr. injection Hr as <- _.
    destruct (H1 _ _ eq_refl) as (Hpx & L & F & Ho & Hf & HF). destruct (H2 _ _ eq_refl) as (Hpl & Ps & Hos & Hfs & HFs). split.
    - intros y [<-|Hy]; [eapply points_extends; eauto|auto].
    - exists ((L, F) :: Ps). cbn [map concat fst snd]. split; [constructor; [eapply owns_extends; eauto|exact Hos]|]. split; [eapply fresh_app; eauto|].
      intros y Hy. apply in_app_or in Hy as [Hy|Hy]; [exists x; split; [left; reflexivity|auto]|]. destruct (HFs _ Hy) as (z & Hz & Hpt). exists z. split; [right; exact Hz|].
      eapply part_back; [exact Hc|exact He|apply Hp; right; exact Hz|exact Hpt].
  Qed.
  Lemma hdict_built t : good t -> forall l M M' r, consistent M -> (forall x, In x (map snd l) -> points M x) -> hdict (hvalidate E) t l M = (M', r) ->
    consistent M' /\ forall l' n, r = Some (l', n) -> (forall x, In x (map snd l') -> points M' x) /\ exists Ps, Forall2 (owns M' t) (map snd l') Ps
      /\ fresh M M' (concat (map fst Ps)) /\ (forall x, In x (concat (map snd Ps)) -> exists y, In y (map snd l) /\ part M y x).
  Proof.
    intros Ht. induction l as [|[k x] l IH]; intros M M' r Hc Hp H; cbn [hdict] in H.
    { injection H as <- <-. split; [exact Hc|]. intros l' n Hr. injection Hr as <- _. split; [intros x []|]. exists []. split; [constructor|]. split; [apply fresh_nil|intros x []]. }
    destruct (hvalidate E t x M) as [M1 a] eqn:E1. assert (He := hvalidate_ext _ _ _ _ _ _ E1). destruct (Ht x M M1 a Hc (Hp x (or_introl eq_refl)) E1) as [Hc1 H1].
    destruct a as [[x' n]|]; [|injection H as <- <-; split; [exact Hc1|discriminate]].
    change ((fix go (d : hfields) (M : mem) {struct d} : mem * option (hfields * nat) := _) l M1) with (hdict (hvalidate E) t l M1) in H.
    assert (Hp1 : forall y, In y (map snd l) -> points M1 y) by (intros y Hy; eapply points_extends; [exact He|apply Hp; right; exact Hy]).
    destruct (hdict (hvalidate E) t l M1) as [M2 b] eqn:E2. assert (He2 := hdict_ext _ _ (hvalidate_ext E t) _ _ _ _ E2). destruct (IH M1 M2 b Hc1 Hp1 E2) as [Hc2 H2].
    destruct b as [[l' m]|]; injection H as <- <-; (split; [exact Hc2|]); [|discriminate]. intros l'' k' Hr. injection Hr as <- _.
    destruct (H1 _ _ eq_refl) as (Hpx & L & F & Ho & Hf & HF). destruct (H2 _ _ eq_refl) as (Hpl & Ps & Hos & Hfs & HFs). split.
    - intros y [<-|Hy]; [eapply points_extends; eauto|auto].
    - exists ((L, F) :: Ps). cbn [map concat fst snd]. split; [constructor; [eapply owns_extends; eauto|exact Hos]|]. split; [eapply fresh_app; eauto|].
      intros y Hy. apply in_app_or in Hy as [Hy|Hy]; [exists x; split; [left; reflexivity|auto]|]. destruct (HFs _ Hy) as (z & Hz & Hpt). exists z. split; [right; exact Hz|].
      eapply part_back; [exact Hc|exact He|apply Hp; right; exact Hz|exact Hpt].
  Qed.
  Lemma plookup_in fi (kvs : hfields) x : plookup fi kvs = Some x -> In x (map snd kvs).
  Proof.
    unfold plookup. intros H. assert (exists k, assoc k kvs = Some x) as [k Hk]; [|apply assoc_In in Hk; apply (in_map snd) in Hk; exact Hk].
    destruct (assoc (f_alias fi) kvs) eqn:Ea; [exists (f_alias fi); congruence|eauto].
  Qed.
  Lemma hfield_built kvs fs : Forall (fun ft => good (snd ft)) fs -> forall M M' r, consistent M -> (forall x, In x (map snd kvs) -> points M x) ->
    hfield E (hvalidate E) kvs fs M = (M', r) ->
    consistent M' /\ forall l' n, r = Some (l', n) -> (forall x, In x (map snd l') -> points M' x) /\ exists Ps, (Forall (fun ft => default_ok (fst ft) (snd ft) = true) fs -> own_fields M' fs l' Ps)
      /\ fresh M M' (concat (map fst Ps)) /\ (forall x, In x (concat (map snd Ps)) -> exists y, In y (map snd kvs) /\ part M y x).
  Proof.
    intros Hf. induction Hf as [|[fi t] fs Ht Hf IH]; intros M M' r Hc Hp H; cbn [hfield] in H.
    { injection H as <- <-. split; [exact Hc|]. intros l' n Hr. injection Hr as <- _. split; [intros x []|]. exists []. split; [constructor|]. split; [apply fresh_nil|intros x []]. }
    assert (Hg : forall M M' r, hfield E (hvalidate E) kvs fs M = (M', r) -> extends M M').
    { intros A B s. apply hfield_ext. apply Forall_forall. intros ft _. apply hvalidate_ext. }
    destruct (plookup fi kvs) as [x|] eqn:El.
    - destruct (hvalidate E t x M) as [M1 a] eqn:E1. assert (He := hvalidate_ext _ _ _ _ _ _ E1). assert (Hx := plookup_in _ _ _ El). destruct (Ht x M M1 a Hc (Hp x Hx) E1) as [Hc1 H1].
      destruct a as [[x' n]|]; [|injection H as <- <-; split; [exact Hc1|discriminate]].
      destruct (fv_check E (f_val fi) (peek M1 x')); [|injection H as <- <-; split; [exact Hc1|discriminate]].
      change ((fix go (fs : list (finfo * ty)) (M : mem) {struct fs} : mem * option (hfields * nat) := _) fs M1) with (hfield E (hvalidate E) kvs fs M1) in H.
      assert (Hp1 : forall y, In y (map snd kvs) -> points M1 y) by (intros y Hy; eapply points_extends; [exact He|apply Hp; exact Hy]).
      destruct (hfield E (hvalidate E) kvs fs M1) as [M2 b] eqn:E2. assert (He2 := Hg _ _ _ E2). destruct (IH M1 M2 b Hc1 Hp1 E2) as [Hc2 H2].
      destruct b as [[l' m]|]; injection H as <- <-; (split; [exact Hc2|]); [|discriminate]. intros l'' k' Hr. injection Hr as <- _.
      destruct (H1 _ _ eq_refl) as (Hpx & L & F & Ho & Hfr & HF). destruct (H2 _ _ eq_refl) as (Hpl & Ps & Hos & Hfs & HFs). split.
      + intros y [<-|Hy]; [eapply points_extends; eauto|auto].
      + exists ((L, F) :: Ps). cbn [map concat fst snd]. split; [intros Hd; inversion Hd; subst; constructor; [reflexivity|eapply owns_extends; eauto|auto]|].
        split; [eapply fresh_app; eauto|]. intros y Hy. apply in_app_or in Hy as [Hy|Hy]; [exists x; split; [exact Hx|auto]|]. destruct (HFs _ Hy) as (z & Hz & Hpt). exists z. split; [exact Hz|].
        eapply part_back; [exact Hc|exact He|apply Hp; exact Hz|exact Hpt].
    - destruct (f_def fi) as [d|] eqn:Ed; [|injection H as <- <-; split; [exact Hc|discriminate]].
      change ((fix go (fs : list (finfo * ty)) (M : mem) {struct fs} : mem * option (hfields * nat) := _) fs M) with (hfield E (hvalidate E) kvs fs M) in H.
      destruct (hfield E (hvalidate E) kvs fs M) as [M2 b] eqn:E2. destruct (IH M M2 b Hc Hp E2) as [Hc2 H2].
      destruct b as [[l' m]|]; injection H as <- <-; (split; [exact Hc2|]); [|discriminate]. intros l'' k' Hr. injection Hr as <- _.
      destruct (H2 _ _ eq_refl) as (Hpl & Ps & Hos & Hfs & HFs). split.
      + intros y [<-|Hy]; [exact I|auto].
      + exists (([], []) :: Ps). cbn [map concat fst snd app]. split; [|split; [exact Hfs|exact HFs]]. intros Hd. inversion Hd as [|? ? Hd1 Hd2]; subst. cbn [fst snd] in Hd1.
        constructor; [reflexivity| |auto]. clear -Hd1 Ed. unfold default_ok in Hd1. rewrite Ed in Hd1.
        destruct t; cbn [owns]; try (split; [eauto|reflexivity]); destruct d; try discriminate Hd1; try (left; split; reflexivity); try (cbn in Hd1; discriminate Hd1);
          try (right; destruct t; try discriminate Hd1; cbn [owns]; split; [eauto|reflexivity]).
  Qed.
  Lemma pset_values {A} k (v : A) d x : In x (map snd (pset k v d)) -> x = v \/ In x (map snd d).
  Proof.
    induction d as [|[k' v'] d IH]; cbn [pset map snd]; [intros [<-|[]]; auto|]. destruct (str_eqb k k'); cbn [map snd]; intros [<-|H]; auto.
    - right. right. exact H.
    - right. left. reflexivity.
    - destruct (IH H) as [->|H']; [auto|]. right. right. exact H'.
  Qed.
  Lemma pupdate_values {A} (e : list (pystr * A)) : forall d x, In x (map snd (pupdate d e)) -> In x (map snd d) \/ In x (map snd e).
  Proof.
    induction e as [|[k v] e IH]; intros d x; cbn [pupdate fold_left]; [auto|]. intros H. apply IH in H as [H|H]; [|right; right; exact H].
    apply pset_values in H as [->|H]; [right; left; reflexivity|left; exact H].
  Qed.
  Lemma pextras_values {T} (fs : list (finfo * T)) (kvs : hfields) x : In x (map snd (pextras fs kvs)) -> In x (map snd kvs).
  Proof. unfold pextras. intros H. apply in_map_iff in H as (kv & <- & H). apply filter_In in H as [H _]. apply in_map. exact H. Qed.
  Lemma hmodel_built c k fs kvs : Forall (fun ft => good (snd ft)) fs -> Forall (fun ft => default_ok (fst ft) (snd ft) = true) fs ->
    forall h M M' r, consistent M -> (forall x, In x (map snd kvs) -> points M x) -> (forall x, In x (map snd kvs) -> part M h x) ->
    hmodel E (hvalidate E) c k fs kvs M = (M', r) -> built (TModel c k fs) h M M' r.
  Proof.
    intros Hf Hd h M M' r Hc Hp Hh H. unfold hmodel in H. destruct (hfield E (hvalidate E) kvs fs M) as [M1 a] eqn:E1.
    destruct (hfield_built kvs fs Hf M M1 a Hc Hp E1) as [Hc1 H1]. destruct a as [[fv n]|]; [|injection H as <- <-; split; [exact Hc1|discriminate]].
    assert (He : extends M M1). { eapply hfield_ext; [|exact E1]. apply Forall_forall. intros ft _. apply hvalidate_ext. }
    destruct (after_ok E c k (peeks M1 fv) (keys_only (pextras fs kvs))); unfold alloc in H; injection H as <- <-; [|split; [exact Hc1|discriminate]].
    destruct (H1 _ _ eq_refl) as (Hpf & Ps & Ho & Hfr & HF). split.
    - apply consistent_snoc; [exact Hc1|]. cbn [held]. intros x Hx. apply in_app_or in Hx as [Hx|Hx]; [auto|]. eapply points_extends; [exact He|]. apply Hp. eapply pextras_values; eauto.
    - intros h' m Hr. injection Hr as <- _. split; [cbn [points]; rewrite app_length; cbn; lia|]. exists (length M1 :: concat (map fst Ps)), (concat (map snd Ps) ++ map snd (pextras fs kvs)).
      split; [apply owns_model; exists (length M1), fv, (pextras fs kvs), Ps; split; [reflexivity|]; split; [apply look_new|]; split; [|reflexivity];
        eapply own_fields_extends; [apply extends_snoc|auto]|].
      split; [apply fresh_snoc; assumption|]. intros x Hx. apply in_app_or in Hx as [Hx|Hx].
      + destruct (HF _ Hx) as (y & Hy & Hpt). eapply part_trans; [apply Hh; exact Hy|exact Hpt].
      + apply Hh. eapply pextras_values; eauto.
  Qed.
  Lemma hroot_built c t d : good t -> forall h M M' r, consistent M -> (forall x, In x (map snd d) -> points M x) -> (forall x, In x (map snd d) -> part M h x) ->
    hroot (hvalidate E) c t d M = (M', r) -> built (TRoot c t) h M M' r.
  Proof.
    intros Ht h M M' r Hc Hp Hh H. unfold hroot in H. destruct (hdict (hvalidate E) t d M) as [M1 a] eqn:E1.
    destruct (hdict_built t Ht d M M1 a Hc Hp E1) as [Hc1 H1]. destruct a as [[d' n]|]; [|injection H as <- <-; split; [exact Hc1|discriminate]].
    assert (He : extends M M1) by (eapply hdict_ext; [apply hvalidate_ext|exact E1]).
    destruct (root_keys_ok (keys_only d')); unfold alloc in H; injection H as <- <-; [|split; [exact Hc1|discriminate]].
    destruct (H1 _ _ eq_refl) as (Hpf & Ps & Ho & Hfr & HF). split.
    - apply consistent_snoc; [apply consistent_snoc; [exact Hc1|exact Hpf]|]. cbn [held]. intros x [<-|[]]. cbn [points]. rewrite app_length. cbn. lia.
    - intros h' m Hr. injection Hr as <- _. split; [cbn [points]; rewrite !app_length; cbn; lia|].
      exists (length (M1 ++ [CDict d']) :: length M1 :: concat (map fst Ps)), (concat (map snd Ps)). split.
      + cbn [owns]. exists (length (M1 ++ [CDict d'])), (length M1), d', Ps. split; [reflexivity|]. split; [apply look_new|].
        split; [eapply extends_look; [apply extends_snoc|apply look_new]|]. split; [|reflexivity]. eapply Forall2_weaken; [|exact Ho]. intros a b _ _. apply owns_extends.
        eapply extends_trans; apply extends_snoc.
      + split; [|intros x Hx; destruct (HF _ Hx) as (y & Hy & Hpt); eapply part_trans; eauto].
        apply fresh_snoc; [eapply extends_trans; [exact He|apply extends_snoc]|]. apply fresh_snoc; assumption.
  Qed.
  Lemma hvalidate_built t : wf_ty t = true -> good t.
  Proof.
    assert (Hleaf : forall t h M M' r, match t with TStr _ | TEmail | TInt | TBool | TUrl _ | TLitS _ | TLitI _ => True | _ => False end -> consistent M -> points M h ->
      match h with HA a => (M, match validate E t a with Some (v', n) => Some (HA v', n) | None => None end) | HL _ => (M, None) end = (M', r) -> built t h M M' r).
    { intros t0 h M M' r Ht Hc Hp H. destruct h as [a|l]; injection H as <- <-; (split; [exact Hc|]); [|discriminate]. intros h' n Hr.
      destruct (validate E t0 a) as [[v m]|]; [|discriminate Hr]. injection Hr as <- _. split; [exact I|]. exists [], []. split; [|split; [apply fresh_nil|intros x []]].
      destruct t0; try destruct Ht; cbn [owns]; (split; [eauto|reflexivity]). }
    induction t as [| | | | | | | |t IH|t IH|t IH|ts IH| |c k fs IH|c t IH] using ty_ind'; intros Hw h M M' r Hc Hp H; cbn [hvalidate] in H;
      try (match goal with |- built ?t _ _ _ _ => exact (Hleaf t h M M' r I Hc Hp H) end).
    - injection H as <- <-. split; [exact Hc|]. intros h' n Hr. injection Hr as <- _. split; [exact Hp|]. exists [], [h]. split; [reflexivity|]. split; [apply fresh_nil|].
      intros x [<-|[]]. apply pt_here.
    - destruct h as [a|l]; [injection H as <- <-; split; [exact Hc|discriminate]|]. destruct (look M l) as [[xs| | |]|] eqn:El; try (injection H as <- <-; split; [exact Hc|discriminate]).
      destruct (hlist (hvalidate E) t xs M) as [M1 a] eqn:E1. assert (He := hlist_ext _ _ (hvalidate_ext E t) _ _ _ _ E1).
      destruct (hlist_built t (IH Hw) xs M M1 a Hc (fun x Hx => Hc l _ x El Hx) E1) as [Hc1 H1]. destruct a as [[xs' n]|]; unfold alloc in H; injection H as <- <-; [|split; [exact Hc1|discriminate]].
      destruct (H1 _ _ eq_refl) as (Hpf & Ps & Ho & Hfr & HF). split; [apply consistent_snoc; assumption|]. intros h' m Hr. injection Hr as <- _.
      split; [cbn [points]; rewrite app_length; cbn; lia|]. exists (length M1 :: concat (map fst Ps)), (concat (map snd Ps)). split; [|split; [apply fresh_snoc; assumption|]].
      + cbn [owns]. exists (length M1), xs', Ps. split; [reflexivity|]. split; [apply look_new|]. split; [|reflexivity]. eapply Forall2_weaken; [|exact Ho]. intros a b _ _. apply owns_extends. apply extends_snoc.
      + intros x Hx. destruct (HF _ Hx) as (y & Hy & Hpt). eapply part_trans; [eapply part_held; eauto|exact Hpt].
    - destruct h as [a|l]; [injection H as <- <-; split; [exact Hc|discriminate]|]. destruct (look M l) as [[|d| |]|] eqn:El; try (injection H as <- <-; split; [exact Hc|discriminate]).
      destruct (hdict (hvalidate E) t d M) as [M1 a] eqn:E1. assert (He := hdict_ext _ _ (hvalidate_ext E t) _ _ _ _ E1).
      destruct (hdict_built t (IH Hw) d M M1 a Hc (fun x Hx => Hc l _ x El Hx) E1) as [Hc1 H1]. destruct a as [[xs' n]|]; unfold alloc in H; injection H as <- <-; [|split; [exact Hc1|discriminate]].
      destruct (H1 _ _ eq_refl) as (Hpf & Ps & Ho & Hfr & HF). split; [apply consistent_snoc; assumption|]. intros h' m Hr. injection Hr as <- _.
      split; [cbn [points]; rewrite app_length; cbn; lia|]. exists (length M1 :: concat (map fst Ps)), (concat (map snd Ps)). split; [|split; [apply fresh_snoc; assumption|]].
      + cbn [owns]. exists (length M1), xs', Ps. split; [reflexivity|]. split; [apply look_new|]. split; [|reflexivity]. eapply Forall2_weaken; [|exact Ho]. intros a b _ _. apply owns_extends. apply extends_snoc.
      + intros x Hx. destruct (HF _ Hx) as (y & Hy & Hpt). eapply part_trans; [eapply part_held; eauto|exact Hpt].
    - assert (Hin : hvalidate E t h M = (M', r) -> built (TOpt t) h M M' r).
      { intros H'. destruct (IH Hw h M M' r Hc Hp H') as [Hc1 H1]. split; [exact Hc1|]. intros h' n Hr. destruct (H1 _ _ Hr) as (Hph & L & F & Ho & Hr').
        split; [exact Hph|]. exists L, F. split; [right; exact Ho|exact Hr']. }
      destruct h as [a|l]; [destruct a; try (apply Hin; exact H)|apply Hin; exact H]. injection H as <- <-. split; [exact Hc|]. intros h' n Hr. injection Hr as <- _.
      split; [exact I|]. exists [], []. split; [left; split; reflexivity|]. split; [apply fresh_nil|intros x []].
    - cbn [wf_ty] in Hw. apply andb_prop in Hw as [_ Hw]. rewrite forallb_forall in Hw. revert M M' r Hc Hp H.
      assert (Hgen : forall us, (forall t, In t us -> In t ts) -> forall M M' r, consistent M -> points M h -> hunion (hvalidate E) h us M = (M', r) -> built (TUnion ts) h M M' r).
      { induction us as [|t us IHus]; intros Hus M M' r Hc Hp H; cbn [hunion] in H; [injection H as <- <-; split; [exact Hc|discriminate]|].
        destruct (hvalidate E t h M) as [M1 a] eqn:E1. change ((fix go (ts : list ty) (M : mem) {struct ts} : mem * option (hv * nat) := _) us M1) with (hunion (hvalidate E) h us M1) in H.
        destruct (hunion (hvalidate E) h us M1) as [M2 b] eqn:E2. injection H as <- <-. rewrite Forall_forall in IH. assert (Hin := Hus t (or_introl eq_refl)).
        destruct (IH t Hin (Hw t Hin) h M M1 a Hc Hp E1) as [Hc1 H1]. assert (He := hvalidate_ext _ _ _ _ _ _ E1).
        assert (He2 : extends M1 M2). { apply (hvalidate_ext E (TUnion us) h M1 M2 b). exact E2. }
        destruct (IHus (fun t Ht => Hus t (or_intror Ht)) M1 M2 b Hc1 (points_extends _ _ _ He Hp) E2) as [Hc2 H2]. split; [exact Hc2|]. intros h' n Hr.
        assert (Ha : a = Some (h', n) -> points M2 h' /\ exists L F, owns M2 (TUnion ts) h' (L, F) /\ fresh M M2 L /\ (forall x, In x F -> part M h x)).
        { intros ->. destruct (H1 _ _ eq_refl) as (Hph & L & F & Ho & [Hn Hb] & HF). split; [eapply points_extends; eauto|]. exists L, F.
          split; [apply owns_union; exists t; split; [exact Hin|eapply owns_extends; eauto]|]. split; [|exact HF]. split; [exact Hn|].
          eapply Forall_impl; [|exact Hb]. intros l. apply between_weaken; [apply extends_refl|exact He2]. }
        assert (Hb : b = Some (h', n) -> points M2 h' /\ exists L F, owns M2 (TUnion ts) h' (L, F) /\ fresh M M2 L /\ (forall x, In x F -> part M h x)).
        { intros ->. destruct (H2 _ _ eq_refl) as (Hph & L & F & Ho & [Hn Hb] & HF). split; [exact Hph|]. exists L, F. split; [exact Ho|]. split.
          - split; [exact Hn|]. eapply Forall_impl; [|exact Hb]. intros l. apply between_weaken; [exact He|apply extends_refl].
          - intros x Hx. eapply part_back; [exact Hc|exact He|exact Hp|auto]. }
        destruct a as [[ha na]|], b as [[hb nb]|]; cbn [better] in Hr; auto. destruct (Nat.ltb na nb); auto. }
      apply Hgen. auto.
    - destruct h as [a|l]; [injection H as <- <-; split; [exact Hc|discriminate]|]. destruct (look M l) as [[xs| | |]|] eqn:El; try (injection H as <- <-; split; [exact Hc|discriminate]).
      destruct (forallb is_hproc xs) eqn:Ex; unfold alloc in H; injection H as <- <-; [|split; [exact Hc|discriminate]]. split; [apply consistent_snoc; [exact Hc|intros x Hx; eapply Hc; eauto]|].
      intros h' n Hr. injection Hr as <- _. split; [cbn [points]; rewrite app_length; cbn; lia|]. exists [length M], []. split.
      + cbn [owns]. exists (length M), xs. split; [reflexivity|]. split; [apply look_new|]. split; [|reflexivity]. intros x Hx. rewrite forallb_forall in Ex. apply Ex in Hx.
        destruct x as [[]|]; try discriminate Hx. eauto.
      + split; [apply fresh_snoc; [apply extends_refl|apply fresh_nil]|intros x []].
    - assert (Hsub : Forall (fun ft => good (snd ft)) fs). { rewrite Forall_forall in IH |- *. intros ft Hi. apply IH; [exact Hi|eapply wf_sub; eauto]. }
      assert (Hdef := model_defaults _ _ _ Hw). destruct h as [a|l]; [injection H as <- <-; split; [exact Hc|discriminate]|].
      destruct (look M l) as [[|d|c' fv ex|]|] eqn:El; try (injection H as <- <-; split; [exact Hc|discriminate]).
      + eapply hmodel_built; [exact Hsub|exact Hdef|exact Hc|intros x Hx; eapply Hc; eauto|intros x Hx; eapply part_held; eauto|exact H].
      + destruct (String.eqb c c'); [|injection H as <- <-; split; [exact Hc|discriminate]].
        assert (Hup : forall x, In x (map snd (pupdate fv ex)) -> In x (held (CObj c' fv ex))) by (intros x Hx; cbn [held]; apply in_or_app; apply pupdate_values; exact Hx).
        eapply hmodel_built; [exact Hsub|exact Hdef|exact Hc|intros x Hx; eapply Hc; eauto|intros x Hx; eapply part_held; eauto|exact H].
    - destruct h as [a|l]; [injection H as <- <-; split; [exact Hc|discriminate]|].
      destruct (look M l) as [[|d| |c' r']|] eqn:El; try (injection H as <- <-; split; [exact Hc|discriminate]).
      + eapply hroot_built; [exact (IH Hw)|exact Hc|intros x Hx; eapply Hc; eauto|intros x Hx; eapply part_held; eauto|exact H].
      + destruct (String.eqb c c'); [|injection H as <- <-; split; [exact Hc|discriminate]]. destruct (look M r') as [[|d| |]|] eqn:Er; try (injection H as <- <-; split; [exact Hc|discriminate]).
        eapply hroot_built; [exact (IH Hw)|exact Hc|intros x Hx; eapply Hc; eauto|intros x Hx; eapply pt_inside; [exact El|left; reflexivity|eapply part_held; eauto]|exact H].
  Qed.
End Own.

(** ** Trees of owned objects *)
Definition own (M : mem) (x : hv) (P : list nat * list hv) : Prop := exists t, owns M t x P.
Lemma Forall2_own M t xs Ps : Forall2 (owns M t) xs Ps -> Forall2 (own M) xs Ps.
Proof. apply Forall2_weaken. intros a b _ _ H. exists t. exact H. Qed.
Lemma own_view M l0 L F : own M (HL l0) (L, F) -> (L = [] /\ F = [HL l0])
  \/ exists c Ps Y X, look M l0 = Some c /\ L = l0 :: concat (map fst Ps) /\ F = concat (map snd Ps) ++ X /\ held c = Y ++ X /\ Forall2 (own M) Y Ps
     /\ match c with CObj _ fv ex => Y = map snd fv /\ X = map snd ex
        | CRoot _ r => X = [] /\ exists d Qs, look M r = Some (CDict d) /\ Forall2 (own M) (map snd d) Qs /\ Ps = [(r :: concat (map fst Qs), concat (map snd Qs))]
        | _ => X = [] end.
Proof.
  intros [t H]. revert H. induction t as [| | | | | | | |t IH|t IH|t IH|ts IH| |c k fs IH|c t IH] using ty_ind'; intros H;
    try (destruct H as [[a Ha] _]; discriminate Ha).
  - left. cbn [owns] in H. injection H as -> ->. auto.
  - right. destruct H as (l & xs & Ps & Hl & Hlk & HF & HP). injection Hl as <-. injection HP as -> ->. exists (CList xs), Ps, xs, [].
    split; [exact Hlk|]. split; [reflexivity|]. split; [rewrite app_nil_r; reflexivity|]. split; [rewrite app_nil_r; reflexivity|]. split; [eapply Forall2_own; eauto|reflexivity].
  - right. destruct H as (l & xs & Ps & Hl & Hlk & HF & HP). injection Hl as <-. injection HP as -> ->. exists (CDict xs), Ps, (map snd xs), [].
    split; [exact Hlk|]. split; [reflexivity|]. split; [rewrite app_nil_r; reflexivity|]. split; [rewrite app_nil_r; reflexivity|]. split; [eapply Forall2_own; eauto|reflexivity].
  - cbn [owns] in H. destruct H as [[H _]|H]; [discriminate H|auto].
  - apply owns_union in H as (t & Hi & H). rewrite Forall_forall in IH. eapply IH; eauto.
  - right. destruct H as (l & xs & Hl & Hlk & Hp & HP). injection Hl as <-. injection HP as -> ->. exists (CList xs), (map (fun _ => ([], [])) xs), xs, [].
    assert (H1 : forall A B, concat (map fst (map (fun _ : hv => (@nil A, @nil B)) xs)) = []) by (intros A B; clear; induction xs; [reflexivity|assumption]).
    assert (H2 : forall A B, concat (map snd (map (fun _ : hv => (@nil A, @nil B)) xs)) = []) by (intros A B; clear; induction xs; [reflexivity|assumption]).
    split; [exact Hlk|]. split; [rewrite H1; reflexivity|]. split; [rewrite H2; reflexivity|]. split; [rewrite app_nil_r; reflexivity|]. split; [|reflexivity].
    clear -Hp. induction xs as [|x xs IHx]; constructor; [|apply IHx; intros; apply Hp; right; assumption]. exists (TStr None). destruct (Hp x (or_introl eq_refl)) as [n ->].
    cbn [owns]. split; [eauto|reflexivity].
  - right. apply owns_model in H as (l & fv & ex & Ps & Hl & Hlk & HF & HP). injection Hl as <-. injection HP as -> ->. exists (CObj c fv ex), Ps, (map snd fv), (map snd ex).
    split; [exact Hlk|]. split; [reflexivity|]. split; [reflexivity|]. split; [reflexivity|]. split; [|auto].
    clear -HF. induction HF; constructor; [exists t; assumption|assumption].
  - right. destruct H as (l & r & d & Ps & Hl & Hlk & Hr & HF & HP). injection Hl as <-. injection HP as -> ->.
    exists (CRoot c r), [(r :: concat (map fst Ps), concat (map snd Ps))], [HL r], []. cbn [map concat fst snd held]. rewrite !app_nil_r.
    split; [exact Hlk|]. split; [reflexivity|]. split; [reflexivity|]. split; [reflexivity|]. split; [constructor; [|constructor]|].
    + exists (TDict t). cbn [owns]. exists r, d, Ps. auto.
    + split; [reflexivity|]. exists d, Ps. split; [exact Hr|]. split; [eapply Forall2_own; eauto|reflexivity].
Qed.
Lemma own_atom M a L F : own M (HA a) (L, F) -> L = [] /\ (forall x, In x F -> x = HA a).
Proof.
  intros [t H]. revert H. induction t as [| | | | | | | |t IH|t IH|t IH|ts IH| |c k fs IH|c t IH] using ty_ind'; intros H;
    try (destruct H as [_ Hq]; injection Hq as -> ->; split; [reflexivity|intros x []]).
  - cbn [owns] in H. injection H as -> ->. split; [reflexivity|]. intros x [<-|[]]. reflexivity.
  - destruct H as (l & xs & Ps & Hl & _). discriminate Hl.
  - destruct H as (l & xs & Ps & Hl & _). discriminate Hl.
  - cbn [owns] in H. destruct H as [[_ H]|H]; [injection H as -> ->; split; [reflexivity|intros x []]|auto].
  - apply owns_union in H as (t & Hi & H). rewrite Forall_forall in IH. eapply IH; eauto.
  - destruct H as (l & xs & Hl & _). discriminate Hl.
  - apply owns_model in H as (l & fv & ex & Ps & Hl & _). discriminate Hl.
  - destruct H as (l & r & d & Ps & Hl & _). discriminate Hl.
Qed.
Lemma Forall2_in_l {A B} (R : A -> B -> Prop) la lb a : Forall2 R la lb -> In a la -> exists b, In b lb /\ R a b.
Proof.
  induction 1 as [|x y la lb Hr F IH]; [intros []|]. intros [<-|Hi]; [exists y; split; [left; reflexivity|exact Hr]|]. destruct (IH Hi) as (b & Hb & Hab).
  exists b. split; [right; exact Hb|exact Hab].
Qed.
Lemma Forall2_in_r {A B} (R : A -> B -> Prop) la lb b : Forall2 R la lb -> In b lb -> exists a, In a la /\ R a b.
Proof.
  induction 1 as [|x y la lb Hr F IH]; [intros []|]. intros [<-|Hi]; [exists x; split; [left; reflexivity|exact Hr]|]. destruct (IH Hi) as (a & Ha & Hab).
  exists a. split; [right; exact Ha|exact Hab].
Qed.
(** What an owned value contains: what it owns, and what is inside its free-form data. *)
Lemma own_contains M h l : contains M h l -> forall L F, own M h (L, F) -> In l L \/ exists x, In x F /\ contains M x l.
Proof.
  unfold contains. intros H. remember (HL l) as y eqn:Ey. induction H as [h|l0 c y0 x Hl Hy Hp IH]; intros L F Ho; subst.
  - apply own_view in Ho as [[-> ->]|(c & Ps & Y & X & Hlk & -> & _)]; [|left; left; reflexivity]. right. exists (HL l). split; [left; reflexivity|apply pt_here].
  - assert (Hin : part M (HL l0) (HL l)) by (eapply pt_inside; eauto).
    apply own_view in Ho as [[-> ->]|(c' & Ps & Y & X & Hlk & -> & -> & Hh & HF & _)].
    + right. exists (HL l0). split; [left; reflexivity|exact Hin].
    + rewrite Hl in Hlk. injection Hlk as <-. rewrite Hh in Hy. apply in_app_or in Hy as [Hy|Hy].
      * destruct (Forall2_in_l _ _ _ _ HF Hy) as ([L1 F1] & HP & Ho). destruct (IH eq_refl _ _ Ho) as [Hi|(z & Hz & Hc)].
        -- left. right. eapply in_concat_fst; eauto.
        -- right. exists z. split; [apply in_or_app; left; eapply in_concat_snd; eauto|exact Hc].
      * right. exists y0. split; [apply in_or_app; right; exact Hy|exact Hp].
Qed.
Lemma owns_contains M t h L F l : owns M t h (L, F) -> contains M h l -> In l L \/ exists x, In x F /\ contains M x l.
Proof. intros Ho Hc. eapply own_contains; eauto. exists t. exact Ho. Qed.
(** Owned addresses and free-form data are inside. *)
Lemma owns_inside M t : forall h L F, owns M t h (L, F) -> (forall l, In l L -> contains M h l) /\ (forall x, In x F -> part M h x).
Proof.
  assert (HG : forall t l c xs Ps, look M l = Some c -> (forall x, In x xs -> In x (held c)) ->
     (forall h L F, owns M t h (L, F) -> (forall l, In l L -> contains M h l) /\ (forall x, In x F -> part M h x)) -> Forall2 (owns M t) xs Ps ->
     (forall l', In l' (concat (map fst Ps)) -> contains M (HL l) l') /\ (forall x, In x (concat (map snd Ps)) -> part M (HL l) x)).
  { intros t0 l c xs Ps Hl Hh IH HF. split; intros y Hy; apply in_concat in Hy as (z & Hz & Hy); apply in_map_iff in Hz as (P & <- & HP);
      destruct (Forall2_in_r _ _ _ _ HF HP) as (x & Hx & Ho); destruct P as [L F]; destruct (IH _ _ _ Ho) as [H1 H2]; (eapply pt_inside; [exact Hl|apply Hh; exact Hx|]).
    - apply H1. exact Hy.
    - apply H2. exact Hy. }
  induction t as [| | | | | | | |t IH|t IH|t IH|ts IH| |c k fs IH|c t IH] using ty_ind'; intros h L F H;
    try (destruct H as [_ Hq]; injection Hq as -> ->; split; intros y []).
  - cbn [owns] in H. injection H as -> ->. split; [intros l []|]. intros x [<-|[]]. apply pt_here.
  - destruct H as (l & xs & Ps & -> & Hlk & HF & HP). injection HP as -> ->. destruct (HG t l _ xs Ps Hlk (fun x Hx => Hx) IH HF) as [H1 H2]. split; [|exact H2]. intros l' [<-|Hl]; [apply pt_here|auto].
  - destruct H as (l & xs & Ps & -> & Hlk & HF & HP). injection HP as -> ->. destruct (HG t l _ _ Ps Hlk (fun x Hx => Hx) IH HF) as [H1 H2]. split; [|exact H2]. intros l' [<-|Hl]; [apply pt_here|auto].
  - cbn [owns] in H. destruct H as [[_ H]|H]; [injection H as -> ->; split; intros y []|auto].
  - apply owns_union in H as (t & Hi & H). rewrite Forall_forall in IH. eapply IH; eauto.
  - destruct H as (l & xs & -> & Hlk & Hp & HP). injection HP as -> ->. split; [intros l' [<-|[]]; apply pt_here|intros x []].
  - apply owns_model in H as (l & fv & ex & Ps & -> & Hlk & HF & HP). injection HP as -> ->.
    assert (Hg : (forall l', In l' (concat (map fst Ps)) -> contains M (HL l) l') /\ (forall x, In x (concat (map snd Ps)) -> part M (HL l) x)).
    { assert (Hh : forall x, In x (map snd fv) -> In x (held (CObj c fv ex))) by (intros x Hx; cbn [held]; apply in_or_app; left; exact Hx).
      revert Hh. generalize (CObj c fv ex) Hlk. intros cc Hcc Hh. clear Hlk. induction HF as [|fi t fs n x fv P Ps Hn Ho HF IHF]; [split; intros y []|].
      inversion IH as [|? ? IHt IHs]; subst. destruct P as [L F]. cbn [snd] in IHt. destruct (IHt _ _ _ Ho) as [H1 H2].
      destruct (IHF IHs (fun y Hy => Hh y (or_intror Hy))) as [H3 H4]. cbn [map concat fst snd]. assert (Hx := Hh x (or_introl eq_refl)).
      split; intros y Hy; apply in_app_or in Hy as [Hy|Hy]; auto; (eapply pt_inside; [exact Hcc|exact Hx|]); [apply H1|apply H2]; exact Hy. }
    destruct Hg as [H1 H2]. split; [intros l' [<-|Hl']; [apply pt_here|auto]|]. intros x Hx. apply in_app_or in Hx as [Hx|Hx]; [auto|].
    eapply part_held; [exact Hlk|]. cbn [held]. apply in_or_app. right. exact Hx.
  - destruct H as (l & r & d & Ps & -> & Hlk & Hr & HF & HP). injection HP as -> ->. destruct (HG t r _ _ Ps Hr (fun x Hx => Hx) IH HF) as [H1 H2].
    assert (Hlr : forall y, part M (HL r) y -> part M (HL l) y) by (intros y Hy; eapply pt_inside; [exact Hlk|left; reflexivity|exact Hy]).
    split; [|intros x Hx; apply Hlr; auto]. intros l' [<-|[<-|Hl]]; [apply pt_here|apply Hlr; apply pt_here|apply Hlr; apply H1; exact Hl].
Qed.
