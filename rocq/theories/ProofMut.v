(** Attribute assignment in place. *)
From Coq Require Import Lia.
From Verif Require Import PyStr Regex Value Types Rules Pydantic ClassTable Classes Linked State Heap SpecHeap ProofHeap ProofOwn.

Lemma look_write M l c : l < length M -> look (write M l c) l = Some c.
Proof.
  intros H. unfold look, write. rewrite nth_error_app2; rewrite firstn_length_le by lia; [|lia]. rewrite Nat.sub_diag. reflexivity.
Qed.
Lemma length_write M l c : l < length M -> length (write M l c) = length M.
Proof. intros H. unfold write. rewrite app_length, firstn_length_le by lia. cbn [length]. rewrite skipn_length. lia. Qed.
Lemma look_write_other M l c l' : l < length M -> l' <> l -> look (write M l c) l' = look M l'.
Proof.
  intros H Hn. unfold look, write. rewrite <- (firstn_skipn l M) at 3. destruct (Nat.lt_ge_cases l' l) as [Hlt|Hge].
  - rewrite !nth_error_app1; try reflexivity; rewrite firstn_length_le; lia.
  - rewrite !nth_error_app2; rewrite ?firstn_length_le by lia; try lia. destruct (l' - l) as [|n] eqn:Ed; [lia|]. cbn [nth_error].
    destruct (skipn l M) as [|x r] eqn:Es; [exfalso; apply (f_equal (@length _)) in Es; rewrite skipn_length in Es; cbn in Es; lia|].
    cbn [nth_error]. f_equal. change r with (tl (x :: r)). rewrite <- Es. clear. revert M. induction l as [|l IH]; intros [|y M]; try reflexivity.
    cbn [skipn]. destruct M; [destruct l; reflexivity|]. apply (IH (c :: M)).
Qed.

(** ** Readable values are trees *)
Fixpoint psize (v : pv) : nat :=
  let sum := fix sum (d : list (pystr * pv)) := match d with [] => 0 | (_, x) :: r => psize x + sum r end in
  match v with
  | VList l => S ((fix go (l : list pv) := match l with [] => 0 | x :: r => psize x + go r end) l)
  | VDict d => S (sum d)
  | VObj _ fs ex => S (sum fs + sum ex)
  | VRoot _ d => S (S (sum d))
  | _ => 0
  end.
Definition dsize : list (pystr * pv) -> nat := fix sum d := match d with [] => 0 | (_, x) :: r => psize x + sum r end.
Definition lsize : list pv -> nat := fix go l := match l with [] => 0 | x :: r => psize x + go r end.
Lemma dsize_in kv d : In kv d -> psize (snd kv) <= dsize d.
Proof. induction d as [|[k x] d IH]; [intros []|]. cbn [dsize]. intros [<-|H]; [cbn; lia|]. apply IH in H. lia. Qed.
Lemma lsize_in x d : In x d -> psize x <= lsize d.
Proof. induction d as [|y d IH]; [intros []|]. cbn [lsize]. intros [<-|H]; [lia|]. apply IH in H. lia. Qed.
Lemma reads_held M l v c y : reads M (HL l) v -> look M l = Some c -> In y (held c) -> exists w, reads M y w /\ psize w < psize v.
Proof.
  intros Hr Hl Hy.
  apply reads_HL in Hr as [(xs & vs & El & -> & H)|[(d & e & El & -> & H)|[(c' & d & d' & fs & ex & El & -> & H & H')|(c' & r & d & e & El & Er & -> & H)]]];
    rewrite El in Hl; injection Hl as <-; cbn [held] in Hy.
  - destruct (Forall2_in_l _ _ _ _ H Hy) as (w & Hw & Hrd). exists w. split; [exact Hrd|]. apply lsize_in in Hw. change (psize (VList vs)) with (S (lsize vs)). lia.
  - apply in_map_iff in Hy as (kv & <- & Hy). destruct (Forall2_in_l _ _ _ _ H Hy) as (w & Hw & _ & Hrd). exists (snd w). split; [exact Hrd|]. apply dsize_in in Hw. change (psize (VDict e)) with (S (dsize e)). lia.
  - change (psize (VObj c' fs ex)) with (S (dsize fs + dsize ex)). apply in_app_or in Hy as [Hy|Hy]; apply in_map_iff in Hy as (kv & <- & Hy).
    + destruct (Forall2_in_l _ _ _ _ H Hy) as (w & Hw & _ & Hrd). exists (snd w). split; [exact Hrd|]. apply dsize_in in Hw. lia.
    + destruct (Forall2_in_l _ _ _ _ H' Hy) as (w & Hw & _ & Hrd). exists (snd w). split; [exact Hrd|]. apply dsize_in in Hw. lia.
  - destruct Hy as [<-|[]]. exists (VDict e). split; [apply reads_dict; eauto|]. change (psize (VRoot c' e)) with (S (S (dsize e))). change (psize (VDict e)) with (S (dsize e)). lia.
Qed.
Lemma reads_part M h x : part M h x -> forall v, reads M h v -> exists w, reads M x w /\ psize w <= psize v.
Proof.
  induction 1 as [h|l c y x Hl Hy Hp IH]; intros v Hr; [eauto|]. destruct (reads_held _ _ _ _ _ Hr Hl Hy) as (w & Hw & Hs).
  destruct (IH _ Hw) as (w' & Hw' & Hs'). exists w'. split; [exact Hw'|lia].
Qed.
Lemma entries_fun M d : forall e e', (forall kv, In kv d -> forall a b, reads M (snd kv) a -> reads M (snd kv) b -> a = b) ->
  Forall2 (same_entry M) d e -> Forall2 (same_entry M) d e' -> e = e'.
Proof.
  induction d as [|[k x] d IH]; intros e e' Hd H H'; inversion H as [|? [k1 v1] ? e1 [K1 R1] T1]; inversion H' as [|? [k2 v2] ? e2 [K2 R2] T2]; subst; [reflexivity|].
  cbn [fst snd] in *. subst. f_equal; [|apply IH; auto; intros; eapply Hd; eauto; right; assumption]. f_equal. eapply (Hd (k2, x)); [left; reflexivity|exact R1|exact R2].
Qed.
Lemma reads_fun M v : forall h v', reads M h v -> reads M h v' -> v = v'.
Proof.
  assert (Hs : forall n v, psize v <= n -> forall h v', reads M h v -> reads M h v' -> v = v').
  { induction n as [n IHn] using lt_wf_ind. intros v0 Hn h v' H H'. destruct h as [a|l].
    - apply reads_HA in H as [-> _]. apply reads_HA in H' as [-> _]. reflexivity.
    - assert (Hkid : forall c y, look M l = Some c -> In y (held c) -> forall a b, reads M y a -> reads M y b -> a = b).
      { intros c y Hl Hy a b Ha Hb. destruct (reads_held _ _ _ _ _ H Hl Hy) as (w & Hw & Hlt).
        assert (w = a) by (eapply (IHn (psize w)); eauto; lia). assert (w = b) by (eapply (IHn (psize w)); eauto; lia). congruence. }
      apply reads_HL in H as [(xs & vs & El & -> & H)|[(d & e & El & -> & H)|[(c' & d & d' & fs & ex & El & -> & H & Hx)|(c' & r & d & e & El & Er & -> & H)]]];
      apply reads_HL in H' as [(xs' & vs' & El' & -> & H')|[(d0 & e' & El' & -> & H')|[(c0 & d0 & d0' & fs' & ex' & El' & -> & H' & Hx')|(c0 & r' & d0 & e' & El' & Er' & -> & H')]]];
      rewrite El in El'; try discriminate El'; injection El' as; subst.
      + f_equal. assert (Hk : forall x, In x xs' -> forall a b, reads M x a -> reads M x b -> a = b) by (intros x Hx; eapply Hkid; eauto).
        clear -H H' Hk. revert vs' H'. induction H as [|x w xs vs Hr F IH]; intros vs' H'; inversion H'; subst; [reflexivity|].
        f_equal; [eapply Hk; eauto; left; reflexivity|apply IH; auto]. intros z Hz. apply Hk. right. exact Hz.
      + f_equal. eapply entries_fun; eauto. intros kv Hkv. eapply Hkid; eauto. cbn [held]. apply in_map. exact Hkv.
      + f_equal; (eapply entries_fun; [|eassumption|eassumption]); intros kv Hkv; eapply Hkid; eauto; cbn [held]; apply in_or_app; [left|right]; apply in_map; exact Hkv.
      + rewrite Er in Er'. injection Er' as <-. f_equal.
        assert (Hd : VDict e = VDict e'); [|congruence]. eapply (Hkid _ (HL r')); [exact El|left; reflexivity| |]; apply reads_dict; eauto. }
  intros h v'. eapply Hs. reflexivity.
Qed.
(** a readable object is not inside itself *)
Lemma reads_acyclic M l v c y : reads M (HL l) v -> look M l = Some c -> In y (held c) -> ~ contains M y l.
Proof.
  intros Hr Hl Hy Hc. destruct (reads_held _ _ _ _ _ Hr Hl Hy) as (w & Hw & Hlt). destruct (reads_part _ _ _ Hc _ Hw) as (v' & Hv' & Hle).
  rewrite (reads_fun _ _ _ _ Hv' Hr) in Hle. lia.
Qed.
Lemma reads_write M l c h v : l < length M -> ~ contains M h l -> reads M h v -> reads (write M l c) h v.
Proof. intros Hl Hn Hr. eapply reads_agree; [exact Hr|]. intros l' Hc. apply look_write_other; [exact Hl|]. intros ->. contradiction. Qed.

(** ** [hassign] does what State.v says *)
Lemma entries_values M d e x : Forall2 (same_entry M) d e -> In x (map snd d) -> exists w, reads M x w.
Proof. intros H Hx. apply in_map_iff in Hx as (kv & <- & Hx). destruct (Forall2_in_l _ _ _ _ H Hx) as (w & _ & _ & Hr). eauto. Qed.
Lemma entries_write M l c d e : l < length M -> (forall x, In x (map snd d) -> ~ contains M x l) -> Forall2 (same_entry M) d e -> Forall2 (same_entry (write M l c)) d e.
Proof.
  intros Hl Hn. apply Forall2_weaken. intros a b Ha _ [Hk Hr]. split; [exact Hk|]. apply reads_write; [exact Hl| |exact Hr]. apply Hn. apply in_map. exact Ha.
Qed.
Lemma entries_attr M d e f : Forall2 (same_entry M) d e -> reads M (hattr f d) (attr f e).
Proof. intros H. unfold hattr, attr. assert (Ha := entries_assoc _ _ _ f H). destruct (assoc f d); [destruct Ha as (v & -> & Hr); exact Hr|rewrite Ha; reflexivity]. Qed.
Lemma entries_filter M (p : pystr -> bool) d e : Forall2 (same_entry M) d e -> Forall2 (same_entry M) (filter (fun kv => p (fst kv)) d) (filter (fun kv => p (fst kv)) e).
Proof.
  induction 1 as [|[a y] [b w] la lb [Hk Hrd] F IH]; [constructor|]. cbn [filter fst snd] in *. subst b. destruct (p a); [constructor; [split; auto|exact IH]|exact IH].
Qed.
Lemma hattr_values f (d : hfields) : hattr f d = HA VNone \/ In (hattr f d) (map snd d).
Proof. unfold hattr. destruct (assoc f d) as [x|] eqn:E; [|left; reflexivity]. right. apply assoc_In in E. apply (in_map snd) in E. exact E. Qed.
Section Assign.
  Context (E : env) (verdict : mem -> nat -> bool) (procs : pv -> bool * pv).
  Lemma hstore_refines : only_reads verdict procs -> forall M l c fv ex e ee name h w,
    l < length M -> Forall2 (same_entry M) fv e -> Forall2 (same_entry M) ex ee -> reads M h w ->
    (forall x, In x (map snd fv ++ map snd ex) -> ~ contains M x l) -> ~ contains M h l ->
    exists o', store E procs c e ee name w = (snd (hstore E verdict M l c fv ex name h), o') /\ reads (fst (hstore E verdict M l c fv ex name h)) (HL l) o'.
  Proof.
    intros Hp M l c fv ex e ee name h w Hl H1 H2 Hw Hn Hnh. unfold store, store_in, hstore. generalize (class_fields c) as fs, (class_kind c) as k. intros fs k.
    assert (Hnew := entries_set M name h w _ _ (entries_update M _ _ _ _ H1 H2) Hw).
    set (new := pset name h (pupdate fv ex)) in *. set (newv := dict_set name w (dict_update e ee)) in *.
    set (fv' := map (fun ft => (f_name (fst ft), hattr (f_name (fst ft)) new)) fs).
    set (ev' := map (fun ft : finfo * ty => (f_name (fst ft), attr (f_name (fst ft)) newv)) fs).
    set (p := fun k : pystr => negb (mem_str k (map (fun ft : finfo * ty => f_name (fst ft)) fs))).
    change (filter (fun kv => negb (mem_str (fst kv) (map (fun ft : finfo * ty => f_name (fst ft)) fs))) new) with (filter (fun kv => p (fst kv)) new).
    change (filter (fun kv => negb (mem_str (fst kv) (map (fun ft : finfo * ty => f_name (fst ft)) fs))) newv) with (filter (fun kv => p (fst kv)) newv).
    assert (Hvals : forall x, In x (map snd new) -> ~ contains M x l).
    { intros x Hx. apply pset_values in Hx as [->|Hx]; [exact Hnh|]. apply Hn. apply in_or_app. apply pupdate_values. exact Hx. }
    assert (Hf : Forall2 (same_entry M) fv' ev').
    { subst fv' ev'. clear -Hnew. induction fs as [|[fi t] fs IH]; [constructor|]. cbn [map fst]. constructor; [|exact IH]. split; [reflexivity|]. apply entries_attr. exact Hnew. }
    assert (Hx : Forall2 (same_entry M) (filter (fun kv => p (fst kv)) new) (filter (fun kv => p (fst kv)) newv)) by (apply entries_filter; exact Hnew).
    set (M' := write M l (CObj c fv' (filter (fun kv => p (fst kv)) new))).
    assert (Hf' : Forall2 (same_entry M') fv' ev').
    { apply entries_write; [exact Hl| |exact Hf]. intros x Hxi. subst fv'. rewrite map_map in Hxi. cbn [snd] in Hxi. apply in_map_iff in Hxi as (ft & <- & _).
      destruct (hattr_values (f_name (fst ft)) new) as [->|Hi]; [intros Hc; inversion Hc|auto]. }
    assert (Hx' : Forall2 (same_entry M') (filter (fun kv => p (fst kv)) new) (filter (fun kv => p (fst kv)) newv)).
    { apply entries_write; [exact Hl| |exact Hx]. intros x Hxi. apply Hvals. apply in_map_iff in Hxi as (kv & <- & Hi). apply filter_In in Hi as [Hi _]. apply in_map. exact Hi. }
    assert (Hr : reads M' (HL l) (VObj c ev' (filter (fun kv => p (fst kv)) newv))).
    { apply reads_obj. exists l, fv', (filter (fun kv => p (fst kv)) new). split; [reflexivity|]. split; [apply look_write; exact Hl|]. split; assumption. }
    cbn [fst snd]. rewrite (after_peeks E M' c k fv' ev' _ _ Hf' (entries_keys _ _ _ Hx')).
    exists (VObj c ev' (filter (fun kv => p (fst kv)) newv)). split; [|exact Hr]. destruct (after_ok E c k ev' _); [|reflexivity]. cbn [andb].
    destruct (String.eqb c "AsyncAPI3"); [|reflexivity]. apply Hp. exact Hr.
  Qed.
  Lemma validated_apart t h M M' h' n l : wf_ty t = true -> consistent M -> points M h -> hvalidate E t h M = (M', Some (h', n)) -> l < length M ->
    ~ contains M h l -> ~ contains M' h' l.
  Proof.
    intros Hw Hc Hp Hv Hl Hn Hc'. assert (Hx := hvalidate_ext _ _ _ _ _ _ Hv). destruct (hvalidate_built E t Hw _ _ _ _ Hc Hp Hv) as [_ Hb]. destruct (Hb _ _ eq_refl) as (_ & L & F & Ho & [_ Hf] & HF).
    destruct (owns_contains _ _ _ _ _ _ Ho Hc') as [Hi|(x & Hi & Hc2)].
    - rewrite Forall_forall in Hf. apply Hf in Hi. unfold between in Hi. lia.
    - apply Hn. specialize (HF _ Hi). eapply part_trans; [exact HF|]. eapply part_back; eauto. eapply part_points; eauto.
  Qed.
  Lemma class_types_wf c : Forall (fun ft => wf_ty (snd ft) = true) (class_fields c).
  Proof.
    unfold class_fields. destruct (find_class c all_types) as [[k fs]|] eqn:Ef; [|constructor]. apply Linked.find_class_In in Ef. apply wf_all in Ef.
    apply Forall_forall. intros ft Hft. eapply wf_sub; eauto.
  Qed.
  Lemma find_field_in' n fs fi t : find_field n fs = Some (fi, t) -> In (fi, t) fs.
  Proof. induction fs as [|ft fs IH]; [discriminate|]. cbn [find_field]. destruct (str_eqb n (f_name (fst ft))); [intros H; injection H as ->; left; reflexivity|right; auto]. Qed.
  Lemma hassign_refines : only_reads verdict procs -> forall M l o name h w, consistent M -> points M h -> reads M (HL l) o -> reads M h w -> ~ contains M h l ->
    exists o', assign E procs o name w = (snd (hassign E verdict M l name h), o') /\ reads (fst (hassign E verdict M l name h)) (HL l) o'.
  Proof.
    intros Hp M l o name h w Hc Hh Ho Hw Hn. assert (Ho' := Ho).
    assert (Hself : forall c, look M l = Some c -> forall y, In y (held c) -> ~ contains M y l) by (intros; eapply reads_acyclic; eauto).
    apply reads_HL in Ho as [(xs & vs & El & -> & H)|[(d & e & El & -> & H)|[(c & fv & ex & fs & xs & El & -> & H1 & H2)|(c & r & d & e & El & Er & -> & H)]]].
    - unfold hassign. rewrite El. cbn [assign]. eauto.
    - unfold hassign. rewrite El. cbn [assign]. eauto.
    - assert (Hl := look_lt _ _ _ El). unfold hassign, assign. rewrite El. assert (Hwf := class_types_wf c). assert (Hst := hstore_refines Hp).
      assert (Hv : forall M1, extends M M1 -> forall x, In x (map snd fv ++ map snd ex) -> ~ contains M1 x l).
      { intros M1 He x Hx Hcx. eapply (Hself _ El x Hx). eapply part_back; [exact Hc|exact He| |exact Hcx]. eapply Hc; [exact El|exact Hx]. }
      destruct (find_field name (class_fields c)) as [[fi t]|] eqn:Ef.
      + apply find_field_in' in Ef. rewrite Forall_forall in Hwf. assert (Ht := Hwf _ Ef). cbn [snd] in Ht. clear Hwf Ef.
        assert (Hr := hvalidate_refines E t Ht h M w Hw). destruct (hvalidate E t h M) as [M1 a] eqn:Ev. cbn [fst snd] in Hr.
        assert (He := hvalidate_ext _ _ _ _ _ _ Ev). unfold agrees in Hr. destruct a as [[h' n]|], (validate E t w) as [[w' m]|]; try contradiction.
        * destruct Hr as [Hr <-]. assert (Hap := validated_apart _ _ _ _ _ _ _ Ht Hc Hh Ev Hl Hn).
          rewrite (alike_fv E (f_val fi) _ _ (peek_alike _ _ _ Hr)). destruct (fv_check E (f_val fi) (peek M1 h')); [|cbn [fst snd]; eexists; split; [reflexivity|eapply reads_extends; eauto]].
          apply Hst; auto; [|eapply entries_extends; eauto|eapply entries_extends; eauto]. apply extends_length in He. lia.
        * cbn [fst snd]. eexists. split; [reflexivity|]. eapply reads_extends; eauto.
      + destruct (class_kind c); try (cbn [fst snd]; eexists; split; [reflexivity|exact Ho']); apply Hst; auto; apply Hv; apply extends_refl.
    - assert (Hl := look_lt _ _ _ El). unfold hassign, assign. rewrite El. destruct (str_eqb name (u "root")); [|cbn [fst snd]; eauto].
      assert (Hwf : forall t, find_root c all_types = Some t -> wf_ty t = true).
      { intros t Hf. apply find_root_In in Hf. apply wf_all in Hf. cbn [wf_ty] in Hf. first [apply andb_prop in Hf as [_ Hf]; exact Hf|exact Hf]. }
      destruct (find_root c all_types) as [t|]; [|cbn [fst snd]; eauto]. specialize (Hwf _ eq_refl). destruct h as [a|l0].
      + apply reads_HA in Hw as [-> Hi]. destruct a; try (cbn [fst snd]; eauto). destruct Hi.
      + apply reads_HL in Hw as [(xs & vs & El0 & -> & H0)|[(d0 & e0 & El0 & -> & H0)|[(c0 & fv & ex & fs & xs & El0 & -> & H1 & H2)|(c0 & r0 & d0 & e0 & El0 & Er0 & -> & H0)]]];
          rewrite El0; try (cbn [fst snd]; eauto; fail).
        assert (Hr := hdict_refines E t (hvalidate_refines E t Hwf) d0 M e0 H0).
        assert (Hd0 : forall x, In x (map snd d0) -> points M x) by (intros x Hx; eapply Hc; [exact El0|exact Hx]).
        destruct (hdict (hvalidate E) t d0 M) as [M1 a] eqn:Ev. assert (He := hdict_ext E t (hvalidate_ext E t) _ _ _ _ Ev).
        assert (Hb := hdict_built E t (hvalidate_built E t Hwf) _ _ _ _ Hc Hd0 Ev).
        destruct a as [[d' n]|], (vdict (validate E) t e0) as [[e' m]|]; try contradiction; [|cbn [fst snd]; eexists; split; [reflexivity|eapply reads_extends; eauto]].
        destruct Hr as [Hr _]. cbn [fst snd]. exists (VRoot c e'). rewrite (keys_only_root _ _ (entries_keys _ _ _ Hr)). split; [reflexivity|].
        assert (He2 := extends_snoc M1 (CDict d')). assert (Hle := extends_length _ _ He). assert (Hl2 : l < length (M1 ++ [CDict d'])) by (rewrite app_length; cbn; lia).
        apply reads_root. exists l, (length M1), d'. split; [reflexivity|]. split; [apply look_write; exact Hl2|]. split; [rewrite look_write_other; [apply look_new|exact Hl2|lia]|].
        apply entries_write; [exact Hl2| |eapply entries_extends; eauto].
        intros x Hx Hcx. destruct Hb as [Hc1 Hb]. destruct (Hb _ _ eq_refl) as (Hp1 & Ps & HPs & [_ Hf] & HF).
        apply (part_back M1) in Hcx; [|exact Hc1|exact He2|apply Hp1; exact Hx]. destruct (Forall2_in_l _ _ _ _ HPs Hx) as ([L F] & HP & Hox).
        destruct (owns_contains _ _ _ _ _ _ Hox Hcx) as [Hi|(z & Hi & Hc2)].
        * assert (Hi' := in_concat_fst _ _ _ HP Hi). rewrite Forall_forall in Hf. apply Hf in Hi'. unfold between in Hi'. lia.
        * destruct (HF _ (in_concat_snd _ _ _ HP Hi)) as (y & Hy & Hpy). apply Hn. eapply pt_inside; [exact El0|exact Hy|]. eapply part_trans; [exact Hpy|].
          eapply part_back; [exact Hc|exact He| |exact Hc2]. eapply part_points; [exact Hc| |exact Hpy]. eauto.
  Qed.
End Assign.
