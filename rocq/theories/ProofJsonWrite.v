(** What is written as JSON is JSON text of the serialised data. *)
From Coq Require Import DecimalFacts.
From Verif Require Import PyStr Regex Value Types Rules Pydantic ClassTable Classes Canon Fix SpecParse State SpecState ProofState Dump SpecDump ProofDump
  JsonText SpecJsonText ProofJsonText ProofJsonRead.

(** ** Strings *)
Lemma hex_digit_means n : (n < 16)%N -> hex_means (hex_digit n) n.
Proof. intros Hn. unfold hex_digit. destruct (N.ltb_spec n 10); [apply hx_digit; assumption|apply hx_lower; lia]. Qed.
Lemma write_char_text c t s : is_scalar c -> chars_text t s -> chars_text (write_char c ++ t) (c :: s).
Proof.
  intros Hs Ht. unfold write_char.
  destruct (N.eqb_spec c 34) as [->|H34]; [apply ch_escape; [cbn [In]; tauto|exact Ht]|].
  destruct (N.eqb_spec c 92) as [->|H92]; [apply ch_escape; [cbn [In]; tauto|exact Ht]|].
  destruct (N.eqb_spec c 8) as [->|]; [apply ch_escape; [cbn [In]; tauto|exact Ht]|].
  destruct (N.eqb_spec c 9) as [->|]; [apply ch_escape; [cbn [In]; tauto|exact Ht]|].
  destruct (N.eqb_spec c 10) as [->|]; [apply ch_escape; [cbn [In]; tauto|exact Ht]|].
  destruct (N.eqb_spec c 12) as [->|]; [apply ch_escape; [cbn [In]; tauto|exact Ht]|].
  destruct (N.eqb_spec c 13) as [->|]; [apply ch_escape; [cbn [In]; tauto|exact Ht]|].
  destruct (N.ltb_spec c 32) as [Hlt|Hge].
  - cbn [app]. apply ch_code; [|exact Hs|exact Ht]. exists 0%N, 0%N, (c / 16)%N, (c mod 16)%N.
    assert (Hq := N.div_lt_upper_bound c 16 16). assert (Hm := N.mod_lt c 16). assert (He := N.div_mod c 16).
    split; [apply (hx_digit 0); lia|]. split; [apply (hx_digit 0); lia|]. split; [apply hex_digit_means; lia|]. split; [apply hex_digit_means; lia|]. lia.
  - cbn [app]. apply ch_plain; assumption.
Qed.
Lemma write_string_text s t : write_string s = Some t -> string_text t s.
Proof.
  unfold write_string. destruct (forallb scalar s) eqn:Hs; [|discriminate]. intros [= <-]. constructor. rewrite forallb_forall in Hs.
  induction s as [|c s IH]; cbn [flat_map]; [constructor|]. apply write_char_text; [apply scalar_iff, Hs; left; reflexivity|]. apply IH. intros x Hx. apply Hs. right. exact Hx.
Qed.
Lemma write_string_some s : (exists t, write_string s = Some t) <-> forall c, In c s -> is_scalar c.
Proof.
  unfold write_string. destruct (forallb scalar s) eqn:Hs.
  - rewrite forallb_forall in Hs. split; [intros _ c Hc; apply scalar_iff, Hs, Hc|intros _; eexists; reflexivity].
  - split; [intros [t Ht]; discriminate|]. intros Ha. exfalso. assert (forallb scalar s = true) by (apply forallb_forall; intros c Hc; apply scalar_iff, Ha, Hc). congruence.
Qed.

(** ** Integers *)
Lemma value_acc d : forall acc, fold_left (fun a c => (10 * a + (c - 48))%N) (uint_str d) (N.pos acc) = N.pos (Pos.of_uint_acc d acc).
Proof.
  induction d as [|d IH|d IH|d IH|d IH|d IH|d IH|d IH|d IH|d IH|d IH]; intros acc; [reflexivity|..]; cbn [uint_str fold_left Pos.of_uint_acc]; rewrite <- IH; f_equal; lia.
Qed.
Lemma value_uint d : digits_value (uint_str d) = Pos.of_uint d.
Proof.
  unfold digits_value. induction d as [|d IH|d IH|d IH|d IH|d IH|d IH|d IH|d IH|d IH|d IH]; [reflexivity|exact IH|..]; cbn [uint_str fold_left Pos.of_uint]; rewrite <- value_acc; reflexivity.
Qed.
Lemma uint_all d c : In c (uint_str d) -> is_digit c.
Proof. intros Hc. apply digit_iff. assert (Hd := uint_str_digits d). rewrite forallb_forall in Hd. apply Hd, Hc. Qed.
Lemma pos_no_zero p d : Pos.to_uint p <> Decimal.D0 d.
Proof.
  intros Hp. assert (He := DecimalPos.Unsigned.to_of (Pos.to_uint p)). rewrite DecimalPos.Unsigned.of_to in He. cbn [N.to_uint] in He.
  assert (Hz := DecimalPos.Unsigned.to_uint_nonzero p). rewrite Hp in He, Hz. unfold Decimal.unorm in He. destruct (Decimal.nzhead (Decimal.D0 d)) eqn:Hn; try discriminate He; [|eapply nzhead_nonzero; exact Hn].
  apply Hz. exact He.
Qed.
Lemma nat_text n : natural_text (uint_str (N.to_uint n)) n.
Proof.
  split.
  - assert (Hd := digits_value_of (uint_str (N.to_uint n)) (uint_all _)). rewrite value_uint in Hd. destruct n as [|p]; [exact Hd|]. cbn [N.to_uint] in *. rewrite DecimalPos.Unsigned.of_to in Hd. exact Hd.
  - destruct n as [|p]; [left; reflexivity|]. right. cbn [N.to_uint]. assert (Hz := pos_no_zero p). assert (Hn := pos_to_uint_nonnil p).
    destruct (Pos.to_uint p) as [|d|d|d|d|d|d|d|d|d|d]; [congruence|exfalso; eapply Hz; reflexivity|..]; eexists _, _; (split; [reflexivity|discriminate]).
Qed.
Lemma digits_length t n t' : natural_text t n -> natural_text t' n -> length t = length t'.
Proof.
  assert (Hub : forall t n, digits_of t n -> (n < 10 ^ N.of_nat (length t))%N).
  { induction 1 as [|s m c Hs IH Hc]; [reflexivity|]. rewrite app_length. cbn [length]. rewrite Nat.add_1_r, Nat2N.inj_succ, N.pow_succ_r'. unfold is_digit in Hc. lia. }
  assert (Hlb : forall t n, natural_text t n -> n <> 0%N -> (10 ^ N.of_nat (length t - 1) <= n)%N).
  { clear t n t'. intros t n [Hd Hn] Hz. destruct Hn as [->|(c & r & -> & Hc)].
    - exfalso. apply Hz. rewrite (digits_of_value _ _ Hd). reflexivity.
    - cbn [length]. rewrite Nat.sub_0_r || replace (S (length r) - 1) with (length r) by lia. clear Hz.
      remember (c :: r) as t eqn:Ht. revert c r Ht Hc. induction Hd as [|s m x Hs IH Hx]; intros c r Ht Hc; [discriminate|].
      destruct r as [|y r] using rev_ind; [cbn [length]; destruct s as [|z s]; [|destruct s; discriminate Ht]; cbn [app] in Ht; injection Ht as ->; assert (Hm := digits_of_value _ _ Hs); cbn in Hm; subst m; unfold is_digit in Hx; change (10 ^ N.of_nat 0)%N with 1%N; lia|].
      clear IHr. rewrite app_comm_cons in Ht. apply app_inj_tail in Ht as [-> ->]. specialize (IH c r eq_refl Hc). rewrite app_length. cbn [length]. rewrite Nat.add_1_r, Nat2N.inj_succ, N.pow_succ_r'. lia. }
  assert (Hz : forall t, natural_text t 0 -> t = [48%N]).
  { clear t n t'. intros t [Hd [->|(c & r & -> & Hc)]]; [reflexivity|]. exfalso.
    assert (Hl := Hlb). assert (Hn := digits_of_value _ _ Hd). assert (Ha := digits_of_all _ _ Hd). 
    assert (Hp : forall l a, (0 < a)%N -> (0 < fold_left (fun a c => (10 * a + (c - 48))%N) l a)%N).
    { induction l as [|x l IH]; intros a Hpos; [exact Hpos|]. cbn [fold_left]. apply IH. lia. }
    unfold digits_value in Hn. cbn [fold_left] in Hn. assert (Hc' := Ha c (or_introl eq_refl)). unfold is_digit in Hc'. specialize (Hp r (10 * 0 + (c - 48))%N). lia. }
  intros H1 H2. destruct (N.eq_dec n 0) as [->|Hn]; [rewrite (Hz _ H1), (Hz _ H2); reflexivity|].
  assert (U1 := Hub _ _ (proj1 H1)). assert (U2 := Hub _ _ (proj1 H2)). assert (L1 := Hlb _ _ H1 Hn). assert (L2 := Hlb _ _ H2 Hn).
  destruct (natural_nonempty _ _ H1) as (c1 & r1 & -> & _). destruct (natural_nonempty _ _ H2) as (c2 & r2 & -> & _). cbn [length] in *.
  replace (S (length r1) - 1) with (length r1) in L1 by lia. replace (S (length r2) - 1) with (length r2) in L2 by lia.
  destruct (Nat.lt_trichotomy (length r1) (length r2)) as [Hlt|[->|Hlt]]; [exfalso|reflexivity|exfalso].
  - assert (Hm := N.pow_le_mono_r 10 (N.of_nat (S (length r1))) (N.of_nat (length r2))). lia.
  - assert (Hm := N.pow_le_mono_r 10 (N.of_nat (S (length r2))) (N.of_nat (length r1))). lia.
Qed.
Lemma write_nat_text n t : write_nat n = Some t -> natural_text t n /\ (N.of_nat (length t) <= 4300)%N.
Proof. unfold write_nat. destruct (N.leb_spec (N.of_nat (length (uint_str (N.to_uint n)))) 4300); [|discriminate]. intros [= <-]. split; [apply nat_text|assumption]. Qed.
Lemma write_int_text z t : write_int z = Some t -> int_text t z.
Proof.
  unfold write_int. destruct (write_nat (Z.abs_N z)) as [s|] eqn:Hs; [|discriminate]. apply write_nat_text in Hs as [Hn Hl]. intros [= <-].
  destruct (Z.ltb_spec z 0).
  - replace z with (- Z.of_N (Z.abs_N z))%Z by lia. apply in_neg; assumption.
  - replace z with (Z.of_N (Z.abs_N z))%Z by lia. apply in_pos; assumption.
Qed.
Lemma write_int_some z : (exists t, write_int z = Some t) <-> exists t, natural_text t (Z.abs_N z) /\ (N.of_nat (length t) <= 4300)%N.
Proof.
  unfold write_int. destruct (write_nat (Z.abs_N z)) as [s|] eqn:Hs.
  - apply write_nat_text in Hs. split; intros _; [exists s; exact Hs|eexists; reflexivity].
  - split; [intros [t Ht]; discriminate|]. intros (t & Ht & Hl). exfalso. unfold write_nat in Hs. destruct (N.leb_spec (N.of_nat (length (uint_str (N.to_uint (Z.abs_N z))))) 4300); [discriminate|].
    rewrite (digits_length _ _ _ Ht (nat_text _)) in Hl. lia.
Qed.

(** ** More room for nesting *)
Lemma text_deeper F : (forall n t v, value_text F n t v -> forall m, n <= m -> value_text F m t v)
  /\ (forall n t l, items_text F n t l -> forall m, n <= m -> items_text F m t l)
  /\ (forall n t d, members_text F n t d -> forall m, n <= m -> members_text F m t d).
Proof.
  apply text_mutind.
  1-9: intros; constructor; assumption.
  - intros n w Hw [|k] Hk; [lia|]. constructor. exact Hw.
  - intros n w t l Hw Hi IH [|k] Hk; [lia|]. constructor; [exact Hw|apply IH; lia].
  - intros n w Hw [|k] Hk; [lia|]. constructor. exact Hw.
  - intros n w t ms d Hw Hm IH Hb [|k] Hk; [lia|]. econstructor; [exact Hw|apply IH; lia|exact Hb].
  - intros. constructor; auto.
  - intros. constructor; auto.
  - intros. constructor; auto.
  - intros. constructor; auto.
Qed.

(** ** Values *)
Lemma join_cons a l : l <> [] -> join [44%N] (a :: l) = a ++ 44%N :: join [44%N] l.
Proof. intros Hl. destruct l; [contradiction|reflexivity]. Qed.
Lemma all_some_nil l : all_some l = Some [] -> l = [].
Proof. destruct l as [|[x|] r]; [reflexivity| |discriminate]. cbn [all_some]. destruct (all_some r); discriminate. Qed.
Lemma all_some_len l ts : all_some l = Some ts -> length ts = length l.
Proof.
  revert ts. induction l as [|[x|] l IH]; intros ts; cbn [all_some]; [intros [= <-]; reflexivity| |discriminate]. destruct (all_some l) as [r|]; [|discriminate]. intros [= <-]. cbn [length]. rewrite (IH r eq_refl). reflexivity.
Qed.
(** the texts of list items, and of members *)
Lemma items_joined F n (l : list (option pystr)) (vs : list pv) ts : all_some l = Some ts -> l <> [] ->
  Forall2 (fun o v => forall t, o = Some t -> value_text F n t v) l vs -> items_text F n (join [44%N] ts) vs.
Proof.
  intros Ha Hn Hf. revert ts Ha Hn. induction Hf as [|o v l vs Ho Hf IH]; intros ts Ha Hn; [contradiction|]. cbn [all_some] in Ha. destruct o as [t|]; [|discriminate]. destruct (all_some l) as [ts'|] eqn:Hl; [|discriminate]. injection Ha as <-.
  specialize (Ho t eq_refl). destruct l as [|o' l'].
  - inversion Hf; subst. injection Hl as <-. cbn [join]. rewrite <- (app_nil_r t). apply i_one; [exact Ho|apply blanks_nil].
  - assert (Hne : ts' <> []) by (intros ->; apply all_some_nil in Hl; discriminate). rewrite (join_cons _ _ Hne).
    apply (i_more F n t v [] [] (join [44%N] ts') vs Ho blanks_nil blanks_nil). apply IH; [reflexivity|discriminate].
Qed.
Lemma member_text F n k x s v : write_member k x = Some s -> (forall t, x = Some t -> value_text F n t v) -> exists tk t, s = tk ++ 58%N :: t /\ string_text tk k /\ value_text F n t v.
Proof.
  unfold write_member. destruct (write_string k) as [tk|] eqn:Hk; [|discriminate]. destruct x as [t|]; [|discriminate]. intros [= <-] Hx. exists tk, t. split; [reflexivity|]. split; [apply write_string_text; exact Hk|apply Hx; reflexivity].
Qed.
Lemma members_joined F n (l : list (pystr * option pystr)) (vs : fields) ts : all_some (map (fun kx => write_member (fst kx) (snd kx)) l) = Some ts -> l <> [] ->
  Forall2 (fun kx kv => fst kv = fst kx /\ forall t, snd kx = Some t -> value_text F n t (snd kv)) l vs -> members_text F n (join [44%N] ts) vs.
Proof.
  intros Ha Hn Hf. revert ts Ha Hn. induction Hf as [|[k x] [k' v] l vs [Hkk Ho] Hf IH]; intros ts Ha Hn; [contradiction|]. cbn [fst snd] in *. subst k'. cbn [map fst snd all_some] in Ha.
  destruct (write_member k x) as [t|] eqn:Hm; [|discriminate]. destruct (all_some (map (fun kx => write_member (fst kx) (snd kx)) l)) as [ts'|] eqn:Hl; [|discriminate]. injection Ha as <-.
  destruct (member_text F n k x t v Hm Ho) as (tk & tv & -> & Hk & Hv). destruct l as [|o' l'].
  - inversion Hf; subst. injection Hl as <-. cbn [join]. assert (Hr := m_one F n tk k [] [] tv v [] Hk blanks_nil blanks_nil Hv blanks_nil). cbn [app] in Hr. rewrite app_nil_r in Hr. exact Hr.
  - assert (Hne : ts' <> []) by (intros ->; apply all_some_nil in Hl; discriminate). rewrite (join_cons _ _ Hne), <- app_assoc. cbn [app].
    apply (m_more F n tk k [] [] tv v [] [] (join [44%N] ts') vs Hk blanks_nil blanks_nil Hv blanks_nil blanks_nil). apply IH; [reflexivity|discriminate].
Qed.
Lemma bracket_members F n (l : list (pystr * option pystr)) (vs : fields) s : bracket 123 125 (map (fun kx => write_member (fst kx) (snd kx)) l) = Some s ->
  Forall2 (fun kx kv => fst kv = fst kx /\ forall t, snd kx = Some t -> value_text F n t (snd kv)) l vs -> value_text F (S n) s (VDict (dict_update [] vs)).
Proof.
  unfold bracket. destruct (all_some (map (fun kx => write_member (fst kx) (snd kx)) l)) as [ts|] eqn:Ha; [|discriminate]. intros [= <-] Hf. destruct l as [|kx l].
  - inversion Hf; subst. injection Ha as <-. exact (v_nodict F n [] blanks_nil).
  - eapply (v_dict F n [] _ vs); [apply blanks_nil| |apply built_update]. eapply members_joined; [exact Ha|discriminate|exact Hf].
Qed.
(** What an instance writes, as (key, value) pairs. *)
Fixpoint out_fields (infos : list finfo) (fv : fields) : fields :=
  match fv with [] => [] | (k, x) :: r => match out_key infos k x with Some a => (a, x) :: out_fields infos r | None => out_fields infos r end end.
Lemma out_fields_dump infos fv : map (fun kv => (fst kv, dump (snd kv))) (out_fields infos fv) = dump_fields infos fv.
Proof. induction fv as [|[k x] fv IH]; [reflexivity|]. cbn [out_fields dump_fields]. destruct (out_key infos k x); cbn [map fst snd]; [f_equal|]; exact IH. Qed.
Lemma out_fields_in infos fv a x : In (a, x) (out_fields infos fv) -> exists k, In (k, x) fv.
Proof.
  induction fv as [|[k y] fv IH]; [intros []|]. cbn [out_fields]. destruct (out_key infos k y) as [b|]; [intros [[= -> ->]|Hi]; [exists k; left; reflexivity|]|intros Hi]; destruct (IH Hi) as (k' & Hk); exists k'; right; exact Hk.
Qed.
Definition member_of (F : floats) (kv : pystr * pv) : pystr * option pystr := (fst kv, write F (snd kv)).
Lemma write_dict F d : write F (VDict d) = bracket 123 125 (map (fun kx => write_member (fst kx) (snd kx)) (map (member_of F) d)).
Proof. cbn [write]. f_equal. rewrite map_map. apply map_ext. intros [k x]. reflexivity. Qed.
Lemma write_root F c d : write F (VRoot c d) = write F (VDict d).
Proof. reflexivity. Qed.
Lemma write_obj F c fv ex : write F (VObj c fv ex) = bracket 123 125 (map (fun kx => write_member (fst kx) (snd kx)) (map (member_of F) (out_fields (class_infos c) fv ++ ex))).
Proof.
  cbn [write]. generalize (class_infos c). intros infos. f_equal. rewrite map_map, map_app. f_equal; [|apply map_ext; intros [k x]; reflexivity].
  induction fv as [|[k x] fv IH]; [reflexivity|]. cbn [out_fields]. destruct (out_key infos k x); cbn [map]; [f_equal|]; exact IH.
Qed.

(** The data a written text stands for: the serialised data, with null for NaN and the infinities. *)
Fixpoint written (F : floats) (v : pv) {struct v} : pv :=
  match v with
  | VFloat t => match f_text F t with Some _ => v | None => VNone end
  | VUrl s => VStr s
  | VList l => VList (map (written F) l)
  | VDict d => VDict (dict_update [] (map (fun kv => match kv with (k, x) => (k, written F x) end) d))
  | VRoot _ d => VDict (dict_update [] (map (fun kv => match kv with (k, x) => (k, written F x) end) d))
  | VObj c fv ex =>
      VDict (dict_update []
        ((fix go (fv : fields) : fields :=
           match fv with
           | [] => []
           | (k, x) :: r => match out_key (class_infos c) k x with Some a => (a, written F x) :: go r | None => go r end
           end) fv
        ++ map (fun kv => match kv with (k, x) => (k, written F x) end) ex))
  | _ => v
  end.
Definition entry_of (F : floats) (kv : pystr * pv) : pystr * pv := (fst kv, written F (snd kv)).
Lemma written_dict F d : written F (VDict d) = VDict (dict_update [] (map (entry_of F) d)).
Proof. cbn [written]. do 2 f_equal. apply map_ext. intros [k x]. reflexivity. Qed.
Lemma written_root F c d : written F (VRoot c d) = written F (VDict d).
Proof. reflexivity. Qed.
Lemma written_obj F c fv ex : written F (VObj c fv ex) = VDict (dict_update [] (map (entry_of F) (out_fields (class_infos c) fv ++ ex))).
Proof.
  cbn [written]. generalize (class_infos c). intros infos. do 2 f_equal. rewrite map_app. f_equal; [|apply map_ext; intros [k x]; reflexivity].
  induction fv as [|[k x] fv IH]; [reflexivity|]. cbn [out_fields]. destruct (out_key infos k x); cbn [map]; [f_equal|]; exact IH.
Qed.
Lemma list_max_In (l : list nat) a : In a l -> a <= list_max l.
Proof. intros Hi. assert (Hl := proj1 (list_max_le l (list_max l)) (le_n _)). rewrite Forall_forall in Hl. apply Hl, Hi. Qed.
Definition deep (d : fields) : nat := list_max (map (fun kv => match kv with (_, x) => nesting x end) d).
Lemma deep_In d k x : In (k, x) d -> nesting x <= deep d.
Proof. intros Hi. unfold deep. apply list_max_In. change (nesting x) with ((fun kv : pystr * pv => match kv with (_, x) => nesting x end) (k, x)). apply in_map. exact Hi. Qed.
Lemma entries_forall2 F n d : (forall k x, In (k, x) d -> forall t, write F x = Some t -> value_text F n t (written F x)) ->
  Forall2 (fun kx kv => fst kv = fst kx /\ forall t, snd kx = Some t -> value_text F n t (snd kv)) (map (member_of F) d) (map (entry_of F) d).
Proof.
  intros Hd. induction d as [|[k x] d IH]; cbn [map]; constructor; [|apply IH; intros k' x' Hi; apply (Hd k' x'); right; exact Hi].
  cbn [member_of entry_of fst snd]. split; [reflexivity|]. apply (Hd k x). left. reflexivity.
Qed.
Lemma write_text F v : faithful F -> forall s, write F v = Some s -> value_text F (nesting v) s (written F v).
Proof.
  intros HF. induction v using pv_ind'; intros s' Hw; try discriminate.
  - injection Hw as <-. apply v_null.
  - destruct b; injection Hw as <-; constructor.
  - apply v_int, write_int_text. exact Hw.
  - cbn [write] in Hw. cbn [written nesting]. destruct (f_text F t) as [x|] eqn:Hx; injection Hw as <-; [|apply v_null]. destruct (HF _ _ Hx) as [Hn Hv]. rewrite <- Hv. apply v_float. exact Hn.
  - apply v_str, write_string_text. exact Hw.
  - apply v_str, write_string_text. exact Hw.
  - cbn [write nesting written] in *. unfold bracket in Hw. destruct (all_some (map (write F) l)) as [ts|] eqn:Ha; [|discriminate]. injection Hw as <-. destruct l as [|x l].
    + injection Ha as <-. exact (v_nolist F _ [] blanks_nil).
    + apply (v_list F _ [] (join [44%N] ts)); [apply blanks_nil|]. eapply items_joined; [exact Ha|discriminate|].
      assert (Hall : forall y, In y (x :: l) -> forall t, write F y = Some t -> value_text F (list_max (map nesting (x :: l))) t (written F y)).
      { rewrite Forall_forall in H. intros y Hy t Ht. eapply (proj1 (text_deeper F)); [apply (H y Hy); exact Ht|]. apply list_max_In, in_map. exact Hy. }
      revert Hall. generalize (list_max (map nesting (x :: l))). intros n. generalize (x :: l). intros l0 Hall. induction l0 as [|y l0 IH]; cbn [map]; constructor; [apply Hall; left; reflexivity|apply IH; intros z Hz; apply Hall; right; exact Hz].
  - rewrite written_dict. rewrite write_dict in Hw. change (nesting (VDict d)) with (S (deep d)). eapply bracket_members; [exact Hw|]. apply entries_forall2. intros k x Hi t Ht. rewrite Forall_forall in H.
    eapply (proj1 (text_deeper F)); [exact (H _ Hi t Ht)|]. eapply deep_In. exact Hi.
  - rewrite written_obj. rewrite write_obj in Hw. change (nesting (VObj c fs ex)) with (S (Nat.max (deep fs) (deep ex))). revert Hw. generalize (class_infos c). intros infos Hw. eapply bracket_members; [exact Hw|]. apply entries_forall2. intros k x Hi t Ht.
    rewrite Forall_forall in H, H0. apply in_app_iff in Hi as [Hi|Hi].
    + apply out_fields_in in Hi as (k' & Hi). eapply (proj1 (text_deeper F)); [exact (H _ Hi t Ht)|]. assert (Hd := deep_In _ _ _ Hi). cbn [snd]. lia.
    + eapply (proj1 (text_deeper F)); [exact (H0 _ Hi t Ht)|]. assert (Hd := deep_In _ _ _ Hi). cbn [snd]. lia.
  - rewrite written_root, written_dict. rewrite write_root, write_dict in Hw. change (nesting (VRoot c d)) with (S (deep d)). eapply bracket_members; [exact Hw|]. apply entries_forall2. intros k x Hi t Ht. rewrite Forall_forall in H.
    eapply (proj1 (text_deeper F)); [exact (H _ Hi t Ht)|]. eapply deep_In. exact Hi.
Qed.
