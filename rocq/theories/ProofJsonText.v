(** Proofs about JSON text: the reader is sound and complete for the grammar. *)
From Verif Require Import PyStr Value Types Rules Pydantic ClassTable Classes SpecParse SpecState SpecDump Dump JsonText SpecJsonText ProofState.

(** ** Characters *)
Lemma hex_iff c n : hex c = Some n <-> hex_means c n.
Proof.
  unfold hex, ascii_digit. split.
  - destruct (N.leb_spec 48 c), (N.leb_spec c 57); cbn [andb].
    all: try (intros [= <-]; replace c with (48 + (c - 48))%N at 1 by lia; constructor; lia).
    all: destruct (N.leb_spec 65 c), (N.leb_spec c 70); cbn [andb].
    all: try (intros [= <-]; replace c with (55 + (c - 55))%N at 1 by lia; constructor; lia).
    all: destruct (N.leb_spec 97 c), (N.leb_spec c 102); cbn [andb]; try discriminate.
    all: try (intros [= <-]; replace c with (87 + (c - 87))%N at 1 by lia; apply hx_lower; lia).
  - intros Hh. inversion Hh; subst.
    + replace (N.leb 48 (48 + n)) with true by (symmetry; apply N.leb_le; lia). replace (N.leb (48 + n) 57) with true by (symmetry; apply N.leb_le; lia). cbn [andb]. f_equal. lia.
    + replace (N.leb (55 + n) 57) with false by (symmetry; apply N.leb_gt; lia). rewrite andb_false_r.
      replace (N.leb 65 (55 + n)) with true by (symmetry; apply N.leb_le; lia). replace (N.leb (55 + n) 70) with true by (symmetry; apply N.leb_le; lia). cbn [andb]. f_equal. lia.
    + replace (N.leb (87 + n) 57) with false by (symmetry; apply N.leb_gt; lia). rewrite andb_false_r.
      replace (N.leb (87 + n) 70) with false by (symmetry; apply N.leb_gt; lia). rewrite andb_false_r.
      replace (N.leb 97 (87 + n)) with true by (symmetry; apply N.leb_le; lia). replace (N.leb (87 + n) 102) with true by (symmetry; apply N.leb_le; lia). cbn [andb]. f_equal. lia.
Qed.
Lemma hex_lt c n : hex_means c n -> (n < 16)%N.
Proof. intros Hh; inversion Hh; lia. Qed.
Lemma hex4_iff a b c d n : hex4 a b c d = Some n <-> hex4_means a b c d n.
Proof.
  unfold hex4, hex4_means. split.
  - destruct (hex a) as [x|] eqn:Ha; [|discriminate]. destruct (hex b) as [y|] eqn:Hb; [|discriminate].
    destruct (hex c) as [z|] eqn:Hc; [|discriminate]. destruct (hex d) as [t|] eqn:Hd; [|discriminate].
    intros Hn. assert (Hn' : n = (4096 * x + 256 * y + 16 * z + t)%N) by congruence. clear Hn. apply hex_iff in Ha, Hb, Hc, Hd. exists x, y, z, t. split; [exact Ha|]. split; [exact Hb|]. split; [exact Hc|]. split; [exact Hd|]. lia.
  - intros (x & y & z & t & Ha & Hb & Hc & Hd & ->). apply hex_iff in Ha, Hb, Hc, Hd. rewrite Ha, Hb, Hc, Hd. f_equal. lia.
Qed.
Lemma unescape_In e l c : unescape e l = Some c -> In (e, c) l.
Proof.
  induction l as [|[a x] l IH]; cbn [unescape]; [discriminate|]. destruct (N.eqb_spec e a) as [->|]; [intros [= ->]; left; reflexivity|]. intros Hx. right. apply IH. exact Hx.
Qed.
Lemma escape_iff e c : unescape e escapes = Some c <-> In (e, c) [(34, 34); (92, 92); (47, 47); (98, 8); (102, 12); (110, 10); (114, 13); (116, 9)]%N.
Proof.
  split; [apply unescape_In|]. intros Hi. cbn [In] in Hi. repeat (destruct Hi as [Hi|Hi]; [injection Hi as <- <-; reflexivity|]). contradiction.
Qed.
Lemma escape_not_u e c : unescape e escapes = Some c -> N.eqb e 117 = false.
Proof. intros He. apply escape_iff in He. cbn [In] in He. repeat (destruct He as [He|He]; [injection He as <- <-; reflexivity|]). contradiction. Qed.
Lemma high_iff c : high_half c = true <-> is_high c.
Proof. unfold high_half, is_high. rewrite andb_true_iff, !N.leb_le. lia. Qed.
Lemma low_iff c : low_half c = true <-> is_low c.
Proof. unfold low_half, is_low. rewrite andb_true_iff, !N.leb_le. lia. Qed.
Lemma high_false c : high_half c = false <-> ~ is_high c.
Proof. rewrite <- high_iff. destruct (high_half c); split; congruence. Qed.
Lemma low_false c : low_half c = false <-> ~ is_low c.
Proof. rewrite <- low_iff. destruct (low_half c); split; congruence. Qed.
Lemma scalar_iff c : scalar c = true <-> is_scalar c.
Proof.
  unfold scalar. rewrite !andb_true_iff, !negb_true_iff, high_false, low_false, N.leb_le. unfold is_scalar, is_high, is_low. lia.
Qed.

(** ** Strings *)
Ltac split_if H := match type of H with context [if ?b then _ else _] => let E := fresh "E" in destruct b eqn:E end.
Lemma push_some c r x rest : push c r = Some (x, rest) -> exists s, r = Some (s, rest) /\ x = c :: s.
Proof. unfold push. destruct r as [[s r']|]; [|discriminate]. intros [= <- <-]. exists s. auto. Qed.
Lemma read_chars_sound n : forall s x r, length s <= n -> read_chars s = Some (x, r) -> exists t, s = t ++ 34%N :: r /\ chars_text t x.
Proof.
  induction n as [|n IH]; intros [|c s] x r Hl; try discriminate; [cbn [length] in Hl; lia|]. cbn [length] in Hl. cbn [read_chars]. intros Hr.
  destruct (N.eqb_spec c 34) as [->|Hq].
  { injection Hr as <- <-. exists []. split; [reflexivity|constructor]. }
  destruct (N.eqb_spec c 92) as [->|Hb].
  - destruct s as [|e s]; [discriminate|]. cbn [length] in Hl. destruct (N.eqb_spec e 117) as [->|Hu].
    + destruct s as [|a [|b [|c [|d s]]]]; try discriminate. cbn [length] in Hl. destruct (hex4 a b c d) as [h|] eqn:Hh; [|discriminate]. apply hex4_iff in Hh.
      destruct (low_half h) eqn:Hlo; [discriminate|]. destruct (high_half h) eqn:Hhi.
      * destruct s as [|b1 [|u1 [|a' [|b' [|c' [|d' s]]]]]]; try discriminate. cbn [length] in Hl. destruct (hex4 a' b' c' d') as [l|] eqn:Hh'; [|discriminate]. apply hex4_iff in Hh'.
        destruct (N.eqb_spec b1 92) as [->|]; [|discriminate]. destruct (N.eqb_spec u1 117) as [->|]; [|discriminate]. cbn [andb] in Hr. destruct (low_half l) eqn:Hl'; [|discriminate].
        apply push_some in Hr as (s' & Hr & ->). destruct (IH s s' r) as (t & -> & Ht); [lia|exact Hr|]. rewrite (N.mul_comm 1024). eexists. split; [|eapply ch_pair with (t := t); [exact Hh|apply high_iff; exact Hhi|exact Hh'|apply low_iff; exact Hl'|exact Ht]].
        reflexivity.
      * apply push_some in Hr as (s' & Hr & ->). destruct (IH s s' r) as (t & -> & Ht); [lia|exact Hr|]. eexists. split; [|eapply ch_code with (t := t); [exact Hh| |exact Ht]].
        1: reflexivity.
        apply scalar_iff. unfold scalar. rewrite Hlo, Hhi, andb_true_r, andb_true_r. apply N.leb_le. destruct Hh as (p & q & v & w & H1 & H2 & H3 & H4 & ->). apply hex_lt in H1, H2, H3, H4. lia.
    + destruct (unescape e escapes) as [c|] eqn:He; [|discriminate]. apply push_some in Hr as (s' & Hr & ->). destruct (IH s s' r) as (t & -> & Ht); [lia|exact Hr|].
      exists (92%N :: e :: t). split; [reflexivity|]. apply ch_escape; [apply escape_iff; exact He|exact Ht].
  - destruct (N.leb_spec 32 c); cbn [andb] in Hr; [|discriminate]. destruct (scalar c) eqn:Hs; [|discriminate].
    apply push_some in Hr as (s' & Hr & ->). destruct (IH s s' r) as (t & -> & Ht); [lia|exact Hr|]. exists (c :: t). split; [reflexivity|]. apply ch_plain; try assumption. apply scalar_iff. exact Hs.
Qed.
Lemma read_chars_complete t x r : chars_text t x -> read_chars (t ++ 34%N :: r) = Some (x, r).
Proof.
  induction 1 as [|c t s H32 Hs Hq Hb Ht IH|e c t s Hi Ht IH|a b c d n t s Hh Hs Ht IH|a b c d h a' b' c' d' l t s Hh Hhi Hh' Hlo Ht IH].
  - reflexivity.
  - cbn [app read_chars]. destruct (N.eqb_spec c 34); [contradiction|]. destruct (N.eqb_spec c 92); [contradiction|].
    replace (N.leb 32 c) with true by (symmetry; apply N.leb_le; exact H32). apply scalar_iff in Hs. rewrite Hs. cbn [andb]. rewrite IH. reflexivity.
  - apply escape_iff in Hi. assert (Hu := escape_not_u _ _ Hi). cbn [app read_chars]. change (N.eqb 92 34) with false. change (N.eqb 92 92) with true. cbv iota. rewrite Hu, Hi, IH. reflexivity.
  - apply hex4_iff in Hh. cbn [app read_chars]. change (N.eqb 92 34) with false. change (N.eqb 92 92) with true. change (N.eqb 117 117) with true. cbv iota. rewrite Hh.
    apply scalar_iff in Hs. unfold scalar in Hs. apply andb_prop in Hs as [Hs Hl]. apply andb_prop in Hs as [_ Hg]. apply negb_true_iff in Hl, Hg. rewrite Hl, Hg, IH. reflexivity.
  - apply hex4_iff in Hh, Hh'. cbn [app read_chars]. change (N.eqb 92 34) with false. change (N.eqb 92 92) with true. change (N.eqb 117 117) with true. cbv iota. rewrite Hh.
    assert (Hl : low_half h = false) by (apply low_false; unfold is_low, is_high in *; lia). rewrite Hl. apply high_iff in Hhi. rewrite Hhi, Hh'. apply low_iff in Hlo. rewrite Hlo. cbn [andb]. rewrite IH. cbn [push]. rewrite (N.mul_comm 1024). reflexivity.
Qed.

(** ** Blanks *)
Lemma blank_iff c : blank c = true <-> c = 32%N \/ c = 9%N \/ c = 10%N \/ c = 13%N.
Proof. unfold blank. rewrite !orb_true_iff, !N.eqb_eq. tauto. Qed.
Lemma blanks_nil : blanks [].
Proof. intros c []. Qed.
Lemma skip_sound s : exists w, blanks w /\ s = w ++ skip_blanks s.
Proof.
  induction s as [|c s (w & Hw & Hs)]; [exists []; split; [apply blanks_nil|reflexivity]|]. cbn [skip_blanks]. destruct (blank c) eqn:Hb.
  - exists (c :: w). split; [|cbn [app]; rewrite <- Hs; reflexivity]. intros x [<-|Hx]; [apply blank_iff; exact Hb|exact (Hw x Hx)].
  - exists []. split; [apply blanks_nil|reflexivity].
Qed.
Definition starts_blank (s : pystr) : bool := match s with c :: _ => blank c | [] => false end.
Lemma skip_over w s : blanks w -> starts_blank s = false -> skip_blanks (w ++ s) = s.
Proof.
  intros Hw Hs. induction w as [|c w IH]; cbn [app].
  - destruct s as [|c s]; [reflexivity|]. cbn [starts_blank] in Hs. cbn [skip_blanks]. rewrite Hs. reflexivity.
  - cbn [skip_blanks]. replace (blank c) with true by (symmetry; apply blank_iff, Hw; left; reflexivity). apply IH. intros x Hx. apply Hw. right. exact Hx.
Qed.
Lemma skip_all w : blanks w -> skip_blanks w = [].
Proof. intros Hw. rewrite <- (app_nil_r w). apply skip_over; [exact Hw|reflexivity]. Qed.
Lemma skip_starts s : starts_blank (skip_blanks s) = false.
Proof. induction s as [|c s IH]; [reflexivity|]. cbn [skip_blanks]. destruct (blank c) eqn:Hb; [exact IH|exact Hb]. Qed.

(** ** Numerals *)
Lemma span_split p s : fst (span p s) ++ snd (span p s) = s.
Proof. induction s as [|c s IH]; [reflexivity|]. cbn [span]. destruct (p c); cbn [fst snd app]; [rewrite IH|]; reflexivity. Qed.
Lemma span_all p s : forall c, In c (fst (span p s)) -> p c = true.
Proof.
  induction s as [|c s IH]; intros x; [intros []|]. cbn [span]. destruct (p c) eqn:Hc; cbn [fst]; [|intros []]. intros [<-|Hx]; [exact Hc|apply IH; exact Hx].
Qed.
Definition starts_with_p (p : N -> bool) (s : pystr) : bool := match s with c :: _ => p c | [] => false end.
Lemma span_rest p s : starts_with_p p (snd (span p s)) = false.
Proof. induction s as [|c s IH]; [reflexivity|]. cbn [span]. destruct (p c) eqn:Hc; cbn [snd]; [exact IH|exact Hc]. Qed.
Lemma span_app p t r : (forall c, In c t -> p c = true) -> starts_with_p p r = false -> span p (t ++ r) = (t, r).
Proof.
  intros Ht Hr. induction t as [|c t IH]; cbn [app].
  - destruct r as [|c r]; [reflexivity|]. cbn [starts_with_p] in Hr. cbn [span]. rewrite Hr. reflexivity.
  - cbn [span]. rewrite (Ht c (or_introl eq_refl)), IH by (intros x Hx; apply Ht; right; exact Hx). reflexivity.
Qed.
Lemma digit_iff c : ascii_digit c = true <-> is_digit c.
Proof. unfold ascii_digit, is_digit. rewrite andb_true_iff, !N.leb_le. tauto. Qed.
Lemma digits_of_all t n : digits_of t n -> forall c, In c t -> is_digit c.
Proof. induction 1 as [|t n c Ht IH Hc]; intros x; [intros []|]. rewrite in_app_iff. intros [Hx|[<-|[]]]; [apply IH; exact Hx|exact Hc]. Qed.
Lemma digits_value_of t : (forall c, In c t -> is_digit c) -> digits_of t (digits_value t).
Proof.
  induction t as [|c t IH] using rev_ind; intros Ha; [constructor|]. unfold digits_value. rewrite fold_left_app. cbn [fold_left]. fold (digits_value t).
  constructor; [apply IH; intros x Hx|]; apply Ha, in_app_iff; [left; exact Hx|right; left; reflexivity].
Qed.
Lemma digits_of_value t n : digits_of t n -> n = digits_value t.
Proof. induction 1 as [|t n c Ht IH Hc]; [reflexivity|]. unfold digits_value. rewrite fold_left_app. cbn [fold_left]. fold (digits_value t). rewrite <- IH. reflexivity. Qed.
Lemma natural_iff t : (forall c, In c t -> is_digit c) -> (natural t = true <-> natural_text t (digits_value t)).
Proof.
  intros Ha. unfold natural_text. assert (Hd := digits_value_of t Ha). destruct t as [|c r]; cbn [natural].
  - split; [discriminate|]. intros [_ [Hx|(c & r & Hx & _)]]; discriminate Hx.
  - rewrite orb_true_iff, negb_true_iff, N.eqb_neq. split.
    + intros [Hc|Hr]; (split; [exact Hd|]); [right; exists c, r; auto|]. destruct r; [|discriminate]. destruct (N.eq_dec c 48) as [->|Hc]; [left; reflexivity|right; exists c, []; auto].
    + intros [_ [Hx|(c' & r' & Hx & Hc)]]; [injection Hx as -> ->; right; reflexivity|injection Hx as <- <-; left; exact Hc].
Qed.
Lemma natural_nonempty t n : natural_text t n -> exists c r, t = c :: r /\ is_digit c /\ (forall x, In x r -> is_digit x).
Proof.
  intros [Hd Hn]. assert (Ha := digits_of_all _ _ Hd). destruct t as [|c r]; [destruct Hn as [Hn|(c & r & Hn & _)]; discriminate Hn|].
  exists c, r. split; [reflexivity|]. split; [apply Ha; left; reflexivity|]. intros x Hx. apply Ha. right. exact Hx.
Qed.
Lemma exponent_iff s : exponent s = true <-> s = [] \/ exponent_text s.
Proof.
  assert (Hda : forall r, forallb ascii_digit r && negb (match r with [] => true | _ => false end) = true <-> digits_text r).
  { intros r. unfold digits_text. rewrite andb_true_iff, forallb_forall. split.
    - intros [Ha Hn]. split; [destruct r; [discriminate|discriminate]|]. intros c Hc. apply digit_iff, Ha, Hc.
    - intros [Hn Ha]. split; [intros c Hc; apply digit_iff, Ha, Hc|destruct r; [contradiction|reflexivity]]. }
  destruct s as [|e r]; cbn [exponent]; [split; [left; reflexivity|reflexivity]|]. rewrite andb_true_iff, orb_true_iff, !N.eqb_eq, Hda. split.
  - intros [He Hr]. right. destruct r as [|c r]; [destruct Hr; contradiction|]. destruct (N.eqb c 43 || N.eqb c 45) eqn:Hc.
    + apply ex_signed; [exact He| |exact Hr]. apply orb_prop in Hc as [Hc|Hc]; apply N.eqb_eq in Hc; auto.
    + apply ex_plain; assumption.
  - intros [Hx|Hx]; [discriminate|]. inversion Hx as [e' t He Ht|e' c t He Hc Ht]; subst; (split; [exact He|]).
    + destruct r as [|c r]; [exact Ht|]. destruct (N.eqb c 43 || N.eqb c 45) eqn:Hc; [|exact Ht]. exfalso. destruct Ht as [_ Ht]. specialize (Ht c (or_introl eq_refl)). unfold is_digit in Ht.
      apply orb_prop in Hc as [Hc|Hc]; apply N.eqb_eq in Hc; lia.
    + replace (N.eqb c 43 || N.eqb c 45) with true by (destruct Hc as [-> | ->]; reflexivity). exact Ht.
Qed.
Lemma exponent_no_digit e : exponent_text e -> starts_with_p ascii_digit e = false.
Proof. intros He. inversion He as [e' t He' Ht|e' c t He' Hc Ht]; subst; destruct He' as [-> | ->]; reflexivity. Qed.
Lemma fraction_iff s : fraction s = true <->
  exists f e, (f = [] \/ exists ds, f = 46%N :: ds /\ digits_text ds) /\ (e = [] \/ exponent_text e) /\ (f <> [] \/ e <> []) /\ s = f ++ e.
Proof.
  destruct s as [|c r]; cbn [fraction].
  { split; [discriminate|]. intros (f & e & _ & _ & Hn & Hs). symmetry in Hs. apply app_eq_nil in Hs as [-> ->]. destruct Hn; contradiction. }
  destruct (N.eqb_spec c 46) as [->|Hc].
  - rewrite andb_true_iff, exponent_iff. split.
    + intros [Hd He]. exists (46%N :: fst (span ascii_digit r)), (snd (span ascii_digit r)). split; [|split; [exact He|split; [left; discriminate|cbn [app]; rewrite span_split; reflexivity]]].
      right. exists (fst (span ascii_digit r)). split; [reflexivity|]. split; [destruct (fst (span ascii_digit r)); [discriminate|discriminate]|]. intros x Hx. apply digit_iff. eapply span_all. exact Hx.
    + intros (f & e & Hf & He & Hn & Hs). destruct Hf as [->|(ds & -> & Hd)].
      { cbn [app] in Hs. destruct He as [->|He]; [discriminate|]. subst e. inversion He as [e' t He' Ht|e' c' t He' Hc Ht]; destruct He'; lia. }
      cbn [app] in Hs. injection Hs as ->. rewrite span_app; [|intros x Hx; apply digit_iff, (proj2 Hd), Hx|destruct He as [->|He]; [reflexivity|apply exponent_no_digit; exact He]].
      cbn [fst snd]. split; [destruct Hd as [Hd _]; destruct ds; [contradiction|reflexivity]|exact He].
  - rewrite exponent_iff. split.
    + intros [Hx|He]; [discriminate|]. exists [], (c :: r). split; [left; reflexivity|]. split; [right; exact He|]. split; [right; discriminate|reflexivity].
    + intros (f & e & Hf & He & Hn & Hs). destruct Hf as [->|(ds & -> & Hd)]; [|cbn [app] in Hs; injection Hs as -> _; contradiction]. cbn [app] in Hs. subst e. exact He.
Qed.
Lemma sign_iff s m r : sign s = (m, r) -> s = (if m then [45%N] else []) ++ r.
Proof. destruct s as [|c s]; cbn [sign]; [intros [= <- <-]; reflexivity|]. destruct (N.eqb_spec c 45) as [->|]; intros [= <- <-]; reflexivity. Qed.
Lemma sign_digit c r : is_digit c -> sign (c :: r) = (false, c :: r).
Proof. intros Hc. cbn [sign]. destruct (N.eqb_spec c 45) as [->|]; [destruct Hc; lia|reflexivity]. Qed.
Definition number_text (F : floats) (t : pystr) (v : pv) : Prop :=
  (exists z, v = VInt z /\ int_text t z) \/ (v = VFloat (f_value F t) /\ float_numeral t).
Lemma numeral_iff F t v : numeral F t = Some v <-> number_text F t v.
Proof.
  unfold numeral, number_text. split.
  - destruct (sign t) as [m r] eqn:Hs. apply sign_iff in Hs. destruct (span ascii_digit r) as [ds rest] eqn:Hp.
    assert (Hr := span_split ascii_digit r). assert (Ha := span_all ascii_digit r). rewrite Hp in Hr, Ha. cbn [fst snd] in Hr, Ha.
    assert (Hda : forall c, In c ds -> is_digit c) by (intros c Hc; apply digit_iff, Ha, Hc). destruct (natural ds) eqn:Hn; cbn [negb]; [|discriminate].
    apply (natural_iff ds Hda) in Hn. destruct rest as [|c0 rest].
    + rewrite app_nil_r in Hr. subst r. destruct (N.leb_spec (N.of_nat (length ds)) 4300) as [Hl|]; [|discriminate]. intros [= <-]. left. eexists. split; [reflexivity|]. subst t.
      destruct m; cbn [app]; [apply in_neg|apply in_pos]; assumption.
    + destruct (fraction (c0 :: rest)) eqn:Hf; [|discriminate]. intros [= <-]. right. split; [reflexivity|]. apply fraction_iff in Hf as (f & e & Hf & He & Hne & Hre).
      exists (if m then [45%N] else []), ds, (digits_value ds), f, e. split; [destruct m; auto|]. split; [exact Hn|]. split; [exact Hf|]. split; [exact He|]. split; [exact Hne|]. subst t r. rewrite Hre. reflexivity.
  - intros [(z & -> & Hi)|(-> & m & ds & n & f & e & Hm & Hn & Hf & He & Hne & Heq)].
    + assert (Hgo : forall ds n (m : bool), natural_text ds n -> (N.of_nat (length ds) <= 4300)%N ->
        (let (ds', rest) := span ascii_digit ds in if negb (natural ds') then None else match rest with
           | [] => if N.leb (N.of_nat (length ds')) 4300 then Some (VInt (if m then - Z.of_N (digits_value ds') else Z.of_N (digits_value ds'))) else None
           | _ => if fraction rest then Some (VFloat (f_value F t)) else None end) = Some (VInt (if m then - Z.of_N n else Z.of_N n))).
      { intros ds n m Hn Hl. assert (Ha := digits_of_all _ _ (proj1 Hn)). rewrite <- (app_nil_r ds) at 1. rewrite span_app; [|intros c Hc; apply digit_iff, Ha, Hc|reflexivity].
        assert (En := digits_of_value _ _ (proj1 Hn)). subst n. apply (natural_iff ds Ha) in Hn as Hn'. rewrite Hn'. cbn [negb].
        apply N.leb_le in Hl. rewrite Hl. reflexivity. }
      inversion Hi as [t' n Hn Hl|t' n Hn Hl]; subst.
      * destruct (natural_nonempty _ _ Hn) as (c & r & -> & Hc & _). rewrite (sign_digit c r Hc). exact (Hgo (c :: r) n false Hn Hl).
      * cbn [sign]. change (N.eqb 45 45) with true. cbv iota. exact (Hgo t' n true Hn Hl).
    + assert (Ha := digits_of_all _ _ (proj1 Hn)).
      assert (Hsg : exists m', sign t = (m', ds ++ f ++ e)).
      { subst t. destruct Hm as [-> | ->]; [exists false|exists true; reflexivity]. destruct (natural_nonempty _ _ Hn) as (c & r & -> & Hc & _). cbn [app]. apply (sign_digit c _ Hc). }
      destruct Hsg as (m' & Hsg). rewrite Hsg. rewrite span_app; [|intros c Hc; apply digit_iff, Ha, Hc|].
      2:{ destruct Hf as [->|(dd & -> & _)]; [|reflexivity]. destruct He as [->|He]; [destruct Hne; contradiction|]. apply exponent_no_digit; exact He. }
      assert (Hn' : natural ds = true) by (apply (natural_iff ds Ha); rewrite <- (digits_of_value _ _ (proj1 Hn)); exact Hn). rewrite Hn'. cbn [negb].
      assert (Hfr : fraction (f ++ e) = true) by (apply fraction_iff; exists f, e; auto). rewrite Hfr. destruct (f ++ e) as [|c0 r0]; [discriminate Hfr|reflexivity].
Qed.
Lemma digit_numchar c : is_digit c -> numchar c = true.
Proof. intros Hc. unfold numchar. apply digit_iff in Hc. rewrite Hc. reflexivity. Qed.
Lemma digits_numchar t : digits_text t -> forall c, In c t -> numchar c = true.
Proof. intros [_ Hd] c Hc. apply digit_numchar, Hd, Hc. Qed.
Lemma number_chars F t v : number_text F t v -> forall c, In c t -> numchar c = true.
Proof.
  intros [(z & -> & Hi)|(-> & m & ds & n & f & e & Hm & Hn & Hf & He & Hne & ->)] c Hc.
  - inversion Hi as [t' n Hn Hl|t' n Hn Hl]; subst; [|destruct Hc as [<-|Hc]; [reflexivity|]]; apply digit_numchar; eapply digits_of_all; [exact (proj1 Hn)|exact Hc|exact (proj1 Hn)|exact Hc].
  - rewrite !in_app_iff in Hc. destruct Hc as [Hc|[Hc|[Hc|Hc]]].
    + destruct Hm as [-> | ->]; [destruct Hc|]. destruct Hc as [<-|[]]. reflexivity.
    + apply digit_numchar. eapply digits_of_all; [exact (proj1 Hn)|exact Hc].
    + destruct Hf as [->|(dd & -> & Hd)]; [destruct Hc|]. destruct Hc as [<-|Hc]; [reflexivity|]. eapply digits_numchar; eassumption.
    + destruct He as [->|He]; [destruct Hc|]. inversion He as [e' t He' Ht|e' c' t He' Hcs Ht]; subst.
      * destruct Hc as [<-|Hc]; [destruct He' as [-> | ->]; reflexivity|]. eapply digits_numchar; eassumption.
      * destruct Hc as [<-|[<-|Hc]]; [destruct He' as [-> | ->]; reflexivity|destruct Hcs as [-> | ->]; reflexivity|]. eapply digits_numchar; eassumption.
Qed.
Lemma number_first F t v : number_text F t v -> exists c r, t = c :: r /\ (is_digit c \/ (c = 45%N /\ exists d r', r = d :: r' /\ is_digit d)).
Proof.
  intros [(z & -> & Hi)|(-> & m & ds & n & f & e & Hm & Hn & Hf & He & Hne & ->)].
  - inversion Hi as [t' n Hn Hl|t' n Hn Hl]; subst; destruct (natural_nonempty _ _ Hn) as (c & r & -> & Hc & _).
    + exists c, r. auto.
    + exists 45%N, (c :: r). split; [reflexivity|]. right. split; [reflexivity|]. exists c, r. auto.
  - destruct (natural_nonempty _ _ Hn) as (c & r & -> & Hc & _). destruct Hm as [-> | ->]; cbn [app].
    + eexists _, _. split; [reflexivity|]. left. exact Hc.
    + eexists _, _. split; [reflexivity|]. right. split; [reflexivity|]. eexists _, _. split; [reflexivity|exact Hc].
Qed.
