(** Regular expressions of the repository's validators: syntax, language, and a matcher by
    derivatives that is proved to decide the language.  Python's [re.match] with a pattern
    "^R$" (no flags) accepts s iff R matches all of s, or all of s but one final newline. *)
From Verif Require Import PyStr.

Inductive rx :=
| REmp                      (* nothing *)
| REps                      (* the empty string *)
| RChr (p : N -> bool)      (* one character of a class *)
| RSeq (a b : rx)
| RAlt (a b : rx)
| RStar (a : rx).

(** Specification: the language of an expression. *)
Inductive lang : rx -> pystr -> Prop :=
| LEps : lang REps []
| LChr p c : p c = true -> lang (RChr p) [c]
| LSeq a b s t : lang a s -> lang b t -> lang (RSeq a b) (s ++ t)
| LAltL a b s : lang a s -> lang (RAlt a b) s
| LAltR a b s : lang b s -> lang (RAlt a b) s
| LStar0 a : lang (RStar a) []
| LStarS a s t : lang a s -> lang (RStar a) t -> lang (RStar a) (s ++ t).

Fixpoint nullable (r : rx) : bool :=
  match r with
  | REmp => false | REps => true | RChr _ => false
  | RSeq a b => nullable a && nullable b
  | RAlt a b => nullable a || nullable b
  | RStar _ => true
  end.

Fixpoint deriv (c : N) (r : rx) : rx :=
  match r with
  | REmp => REmp | REps => REmp
  | RChr p => if p c then REps else REmp
  | RSeq a b => if nullable a then RAlt (RSeq (deriv c a) b) (deriv c b) else RSeq (deriv c a) b
  | RAlt a b => RAlt (deriv c a) (deriv c b)
  | RStar a => RSeq (deriv c a) (RStar a)
  end.

(** Full match of the whole string. *)
Fixpoint rmatch (r : rx) (s : pystr) : bool :=
  match s with
  | [] => nullable r
  | c :: s' => rmatch (deriv c r) s'
  end.

Definition RPlus (a : rx) : rx := RSeq a (RStar a).
Definition ROpt (a : rx) : rx := RAlt REps a.
Definition rchar (c : N) : rx := RChr (N.eqb c).
Definition rany : rx := RChr (fun _ => true).
Definition rdot : rx := RChr (fun c => negb (N.eqb c 10)).   (* '.' without DOTALL *)

(** re.match(r"^R$", s): [$] also matches before one trailing newline. *)
Definition strip_nl (s : pystr) : option pystr :=
  match rev s with
  | 10%N :: r => Some (rev r)
  | _ => None
  end.
Definition py_full (r : rx) (s : pystr) : bool :=
  rmatch r s || match strip_nl s with Some s' => rmatch r s' | None => false end.
(** re.search(R, s) *)
Definition py_search (r : rx) (s : pystr) : bool :=
  rmatch (RSeq (RStar rany) (RSeq r (RStar rany))) s.

Lemma nullable_lang r : nullable r = true <-> lang r [].
Proof.
  induction r as [| |p|a IHa b IHb|a IHa b IHb|a IHa]; simpl.
  - split; [discriminate|inversion 1].
  - split; [constructor|reflexivity].
  - split; [discriminate|inversion 1].
  - rewrite andb_true_iff, IHa, IHb. split.
    + intros [H1 H2]. apply (LSeq a b [] [] H1 H2).
    + inversion 1 as [| |? ? s t H1 H2 E1 E2| | | |]; subst.
      match goal with H : ?x ++ ?y = [] |- _ => apply app_eq_nil in H as [-> ->] end. auto.
  - rewrite orb_true_iff, IHa, IHb. split.
    + intros [H|H]; [apply LAltL|apply LAltR]; exact H.
    + inversion 1; auto.
  - split; [constructor|reflexivity].
Qed.

Lemma lang_star_cons a c s : lang (RStar a) (c :: s) ->
  exists s1 s2, s = s1 ++ s2 /\ lang a (c :: s1) /\ lang (RStar a) s2.
Proof.
  intros H. remember (RStar a) as r eqn:Er. remember (c :: s) as w eqn:Ew.
  revert a c s Er Ew. induction H; intros a0 c0 s0 Er Ew; try discriminate.
  inversion Er; subst. destruct s as [|x s].
  - simpl in Ew. eapply IHlang2; eauto.
  - inversion Ew; subst. exists s, t. auto.
Qed.

Lemma deriv_lang r : forall c s, lang (deriv c r) s <-> lang r (c :: s).
Proof.
  induction r as [| |p|a IHa b IHb|a IHa b IHb|a IHa]; intros c s; simpl.
  - split; inversion 1.
  - split; inversion 1.
  - destruct (p c) eqn:E; split; inversion 1; subst.
    + constructor; exact E.
    + constructor.
    + congruence.
  - assert (Hstep : lang (RSeq (deriv c a) b) s \/ (nullable a = true /\ lang (deriv c b) s)
                    <-> lang (RSeq a b) (c :: s)).
    { split.
      - intros [H|[Hn H]].
        + inversion H as [| |? ? s1 t1 H1 H2| | | |]; subst. apply IHa in H1.
          change (c :: s1 ++ t1) with ((c :: s1) ++ t1). constructor; assumption.
        + apply nullable_lang in Hn. apply IHb in H. apply (LSeq a b [] (c :: s) Hn H).
      - inversion 1 as [| |? ? s1 t1 H1 H2 E1 E2| | | |]; subst. destruct s1 as [|x s1].
        + simpl in *; subst. right. split; [apply nullable_lang; exact H1|apply IHb; exact H2].
        + match goal with E : (x :: s1) ++ t1 = c :: s |- _ => inversion E; subst end.
          left. constructor; [apply IHa; exact H1|exact H2]. }
    rewrite <- Hstep. destruct (nullable a).
    + split.
      * inversion 1; subst; auto.
      * intros [H|[_ H]]; [apply LAltL|apply LAltR]; exact H.
    + split; [auto|intros [H|[H _]]; [exact H|discriminate]].
  - split; intros H.
    + inversion H; subst; [apply LAltL, IHa|apply LAltR, IHb]; assumption.
    + inversion H; subst; [apply LAltL, IHa|apply LAltR, IHb]; assumption.
  - split; intros H.
    + inversion H as [| |? ? s1 t1 H1 H2| | | |]; subst. apply IHa in H1.
      change (c :: s1 ++ t1) with ((c :: s1) ++ t1). apply LStarS; assumption.
    + apply lang_star_cons in H as (s1 & s2 & -> & H1 & H2). constructor; [apply IHa; exact H1|exact H2].
Qed.

Theorem rmatch_lang r s : rmatch r s = true <-> lang r s.
Proof.
  revert r; induction s as [|c s IH]; intros r; simpl.
  - apply nullable_lang.
  - rewrite IH. apply deriv_lang.
Qed.

Lemma strip_nl_iff s s' : strip_nl s = Some s' <-> s = s' ++ [10%N].
Proof.
  unfold strip_nl. split.
  - destruct (rev s) as [|x r] eqn:E; [discriminate|].
    intros H. assert (x = 10%N /\ rev r = s') as [-> <-].
    { destruct x as [|p]; [discriminate|]. do 4 (destruct p as [p|p|]; try discriminate). inversion H; auto. }
    rewrite <- (rev_involutive s), E. reflexivity.
  - intros ->. rewrite rev_app_distr. simpl. rewrite rev_involutive. reflexivity.
Qed.

Theorem py_full_iff r s :
  py_full r s = true <-> exists s', lang r s' /\ (s = s' \/ s = s' ++ [10%N]).
Proof.
  unfold py_full. rewrite orb_true_iff, rmatch_lang. split.
  - intros [H|H]; [exists s; auto|].
    destruct (strip_nl s) as [s'|] eqn:E; [|discriminate].
    apply strip_nl_iff in E. apply rmatch_lang in H. exists s'; auto.
  - intros (s' & H & [->| ->]); [left; exact H|right].
    destruct (strip_nl (s' ++ [10%N])) as [w|] eqn:E.
    + apply strip_nl_iff in E. apply app_inj_tail in E as [<- _]. apply rmatch_lang; exact H.
    + assert (strip_nl (s' ++ [10%N]) = Some s') as E' by (apply strip_nl_iff; reflexivity). congruence.
Qed.

(** Language lemmas for the shapes that occur. *)
Lemma lang_chr p s : lang (RChr p) s <-> exists c, s = [c] /\ p c = true.
Proof. split; [inversion 1; subst; eauto|intros (c & -> & H); constructor; exact H]. Qed.
Lemma lang_char c s : lang (rchar c) s <-> s = [c].
Proof.
  unfold rchar. rewrite lang_chr. split.
  - intros (x & -> & E). apply N.eqb_eq in E. congruence.
  - intros ->. exists c. rewrite N.eqb_refl. auto.
Qed.
Lemma lang_seq a b s : lang (RSeq a b) s <-> exists s1 s2, s = s1 ++ s2 /\ lang a s1 /\ lang b s2.
Proof. split; [inversion 1; subst; eauto|intros (s1 & s2 & -> & H1 & H2); constructor; assumption]. Qed.
Lemma lang_alt a b s : lang (RAlt a b) s <-> lang a s \/ lang b s.
Proof. split; [inversion 1; auto|intros [H|H]; [apply LAltL|apply LAltR]; exact H]. Qed.
Lemma lang_eps s : lang REps s <-> s = [].
Proof. split; [inversion 1; auto|intros ->; constructor]. Qed.
Lemma lang_opt a s : lang (ROpt a) s <-> s = [] \/ lang a s.
Proof. unfold ROpt. rewrite lang_alt, lang_eps. tauto. Qed.
Lemma lang_star_chr p s : lang (RStar (RChr p)) s <-> forallb p s = true.
Proof.
  split.
  - intros H. remember (RStar (RChr p)) as r eqn:Er. induction H; try discriminate; [reflexivity|].
    inversion Er; subst. apply lang_chr in H as (c & -> & Hc). simpl. rewrite Hc. auto.
  - induction s as [|c s IH]; intros H; [constructor|].
    simpl in H. apply andb_prop in H as [H1 H2]. apply (LStarS _ [c] s); [constructor; exact H1|auto].
Qed.
Lemma lang_plus_chr p s : lang (RPlus (RChr p)) s <-> s <> [] /\ forallb p s = true.
Proof.
  unfold RPlus. rewrite lang_seq. split.
  - intros (s1 & s2 & -> & H1 & H2). apply lang_chr in H1 as (c & -> & Hc). apply lang_star_chr in H2.
    simpl. rewrite Hc, H2. split; [discriminate|reflexivity].
  - intros [Hne H]. destruct s as [|c s]; [contradiction|]. simpl in H. apply andb_prop in H as [H1 H2].
    exists [c], s. split; [reflexivity|]. split; [constructor; exact H1|apply lang_star_chr; exact H2].
Qed.
Lemma lang_star_any s : lang (RStar rany) s.
Proof. apply lang_star_chr. induction s; simpl; auto. Qed.

Theorem py_search_iff r s :
  py_search r s = true <-> exists a m b, s = a ++ m ++ b /\ lang r m.
Proof.
  unfold py_search. rewrite rmatch_lang, lang_seq. split.
  - intros (a & t & -> & _ & H). apply lang_seq in H as (m & b & -> & Hm & _). exists a, m, b. auto.
  - intros (a & m & b & -> & H). exists a, (m ++ b). split; [reflexivity|]. split; [apply lang_star_any|].
    apply lang_seq. exists m, b. split; [reflexivity|]. split; [exact H|apply lang_star_any].
Qed.
