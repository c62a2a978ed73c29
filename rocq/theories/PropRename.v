(** C73: renaming an entry together with the references through it keeps the verdict of the unified validator. *)
From Verif Require Import PyStr Value Types Rules Pydantic ClassTable Classes Linked State Resolve Unified
  SpecParse SpecState SpecResolve SpecUnified SpecRename ProofParse ProofRules ProofState ProofDump ProofResolve ProofUnified ProofCheck Canon Fix Sample PropResolve PropUnified.

(** ** One step into a value, as a function *)
Definition nn (r : option pv) : option pv := match r with Some VNone => None | _ => r end.
Lemma nn_some x : x <> VNone -> nn (Some x) = Some x.
Proof. destruct x; intros H; [contradiction|..]; reflexivity. Qed.
Definition stp (v : pv) (p : pystr) : option pv :=
  match v with
  | VRoot _ d | VDict d => assoc p d
  | VObj c fv _ => match find_field_name p (class_infos c) with
                   | Some n => nn (assoc n fv)
                   | None => None end
  | _ => None
  end.
Lemma goes_stp v p w : goes v p w <-> stp v p = Some w.
Proof.
  split.
  - intros H. destruct H as [c d k v H|d k v H|c fv ex fi t v Hin Ha Hv|c fv ex fi t v Hin Ha Hv]; try exact H; cbn [stp].
    + assert (Ef : find_field_name (f_name fi) (class_infos c) = Some (f_name fi)).
      { apply (find_name_spec _ _ (class_keys_NoDup c)). exists fi. split; [apply infos_in; eauto|auto]. }
      rewrite Ef, Ha. apply nn_some. exact Hv.
    + assert (Ef : find_field_name (f_alias fi) (class_infos c) = Some (f_name fi)).
      { apply (find_name_spec _ _ (class_keys_NoDup c)). exists fi. split; [apply infos_in; eauto|auto]. }
      rewrite Ef, Ha. apply nn_some. exact Hv.
  - destruct v; cbn [stp]; try discriminate; intros H; [constructor; exact H| |constructor; exact H].
    destruct (find_field_name p (class_infos c)) as [name|] eqn:Ef; [|discriminate H].
    apply (find_name_spec _ _ (class_keys_NoDup c)) in Ef as (fi & Hfi & <- & Hp). apply infos_in in Hfi as [t Hfi].
    destruct (assoc (f_name fi) fs) as [x|] eqn:Ea; [|discriminate H].
    assert (x = w /\ x <> VNone) as [-> Hn] by (destruct x; cbn in H; inversion H; subst; split; congruence).
    destruct Hp as [->| ->]; [eapply go_field|eapply go_alias]; eauto.
Qed.
Lemma assoc_map_val (g : pystr -> pv -> pv) p (d : fields) : assoc p (map (fun kv => match kv with (k, x) => (k, g k x) end) d) = option_map (g p) (assoc p d).
Proof. induction d as [|[k x] d IH]; [reflexivity|]. cbn [map assoc]. destruct (str_eqb p k) eqn:E; [apply str_eqb_eq in E; subst; reflexivity|exact IH]. Qed.
Lemma assoc_map_at (g : pv -> pv) n p (d : fields) : assoc p (map (fun kv => if str_eqb (fst kv) n then (fst kv, g (snd kv)) else kv) d) = option_map (fun x => if str_eqb p n then g x else x) (assoc p d).
Proof.
  induction d as [|[k x] d IH]; [reflexivity|]. cbn [map assoc fst snd]. destruct (str_eqb k n) eqn:E; cbn [assoc fst]; destruct (str_eqb p k) eqn:E2; try exact IH;
    apply str_eqb_eq in E2; subst p; rewrite E; reflexivity.
Qed.
Lemma assoc_rename_key k k' p (d : fields) : ~ In k' (map fst d) -> p <> k' -> assoc (if str_eqb p k then k' else p) (rename_key k k' d) = assoc p d.
Proof.
  intros Hf Hp. induction d as [|[q x] d IH]; [reflexivity|]. cbn [map fst] in Hf. specialize (IH (fun h => Hf (or_intror h))).
  unfold rename_key in *. cbn [map fst snd]. destruct (str_eqb q k) eqn:Eq; cbn [assoc fst].
  - apply str_eqb_eq in Eq. subst q. destruct (str_eqb p k) eqn:Ep; cbn [assoc]; [rewrite str_eqb_refl; reflexivity|].
    destruct (str_eqb p k') eqn:E; [apply str_eqb_eq in E; congruence|]. exact IH.
  - destruct (str_eqb p k) eqn:Ep.
    + destruct (str_eqb k' q) eqn:E; [apply str_eqb_eq in E; exfalso; apply Hf; left; auto|]. destruct (str_eqb p q) eqn:E2; [apply str_eqb_eq in E2; subst q; congruence|]. exact IH.
    + destruct (str_eqb p q); [reflexivity|exact IH].
Qed.

Section Rename.
  Context (f : pystr -> pystr) (k k' : pystr) (d0 : fields) (Hfresh : ~ In k' (map fst d0)).
  (** Where we are relative to the way to the renamed map: [None]: off it; [Some a]: [a] is left. *)
  Definition stage := option (list (pystr * pystr)).
  Definition spellb (p : pystr) (h : pystr * pystr) : bool := str_eqb p (fst h) || str_eqb p (snd h).
  Definition next (T : stage) (p : pystr) : stage := match T with Some (h :: a) => if spellb p h then Some a else None | _ => None end.
  Definition seg (T : stage) (p : pystr) : pystr := match T with Some [] => if str_eqb p k then k' else p | _ => p end.
  Definition ok (T : stage) (v : pv) : Prop := match T with Some a => trail v a d0 | None => True end.
  Definition image (T : stage) (v : pv) : pv := match T with Some a => rename_entry a k k' (retarget f v) | None => retarget f v end.
  Definition simw (T : stage) (w w' : pv) : Prop := (ok T w /\ w' = image T w) \/ exists a b, w = VStr a /\ w' = VStr b.
  Definition osim (T : stage) (r r' : option pv) : Prop := match r, r' with None, None => True | Some w, Some w' => simw T w w' | _, _ => False end.
  Definition rf (c : string) (n : pystr) (x : pv) : pv :=
    if String.eqb c "Reference" && str_eqb n (u "ref") then match x with VStr s => VStr (f s) | _ => retarget f x end else retarget f x.
  Lemma retarget_obj c fv ex : retarget f (VObj c fv ex) = VObj c (map (fun kv => match kv with (n, x) => (n, rf c n x) end) fv) ex.
  Proof. reflexivity. Qed.
  Lemma retarget_none x : retarget f x = VNone <-> x = VNone.
  Proof. destruct x; cbn [retarget]; split; intros H; try discriminate H; reflexivity. Qed.
  Lemma rf_none c n x : rf c n x = VNone <-> x = VNone.
  Proof. unfold rf. destruct (String.eqb c "Reference" && str_eqb n (u "ref")); [|apply retarget_none]. destruct x; try apply retarget_none. split; discriminate. Qed.
  Lemma rename_none a x : rename_entry a k k' x = VNone <-> x = VNone.
  Proof. destruct a, x; cbn [rename_entry]; split; intros H; try discriminate H; reflexivity. Qed.
  Lemma rf_sim c n x : simw None x (rf c n x).
  Proof.
    unfold rf. destruct (String.eqb c "Reference" && str_eqb n (u "ref")); [|left; split; [exact I|reflexivity]].
    destruct x; try (left; split; [exact I|reflexivity]). right. eauto.
  Qed.
  Lemma rf_trail c n x a : trail x a d0 -> rf c n x = retarget f x.
  Proof. intros H. unfold rf. destruct (String.eqb c "Reference" && str_eqb n (u "ref")); [|reflexivity]. destruct H; reflexivity. Qed.
  Lemma nth_none (r : option pv) (g : pv -> pv) : (forall x, g x = VNone <-> x = VNone) ->
    nn (option_map g r) = option_map g (nn r).
  Proof.
    intros Hg. destruct r as [x|]; [|reflexivity]. cbn [option_map]. assert (Hx : x = VNone \/ x <> VNone) by (destruct x; (left; reflexivity) || (right; discriminate)).
    destruct Hx as [->|Hx]; [rewrite (proj2 (Hg VNone) eq_refl); reflexivity|]. rewrite !nn_some; [reflexivity|exact Hx|]. intros H. apply Hx, Hg, H.
  Qed.
  Lemma stp_sim T v p : ok T v -> (T = Some [] -> p <> k') -> osim (next T p) (stp v p) (stp (image T v) (seg T p)).
  Proof.
    intros Hok Hp. destruct T as [[|h a]|].
    - (* at the map *) cbn [ok] in Hok. inversion Hok; subst. cbn [image retarget rename_entry seg next stp].
      rewrite assoc_rename_key; [|rewrite map_map; erewrite map_ext; [exact Hfresh|intros []; reflexivity]|apply Hp; reflexivity].
      rewrite (assoc_map_val (fun _ => retarget f)). destruct (assoc p d0); cbn; [left; split; [exact I|reflexivity]|exact I].
    - (* on the way *) cbn [ok] in Hok. cbn [seg next]. inversion Hok as [|c fv ex fi t x a1 d1 Hin Hx Ht|c d1 key x a1 d2 Hx Ht]; subst.
      + cbn [image]. rewrite retarget_obj. cbn [rename_entry stp fst snd]. destruct (find_field_name p (class_infos c)) as [n|] eqn:En; [|exact I].
        rewrite (assoc_map_at (rename_entry a k k')), (assoc_map_val (rf c)). apply (find_name_spec _ _ (class_keys_NoDup c)) in En as (gi & Hg & <- & Hgp).
        assert (Hin' : In fi (class_infos c)) by (apply infos_in; eauto). assert (Hnd := class_keys_NoDup c).
        assert (Huniq : forall q, (q = f_name fi \/ q = f_alias fi) -> (q = f_name gi \/ q = f_alias gi) -> f_name gi = f_name fi).
        { intros q H1 H2. assert (E1 : find_field_name q (class_infos c) = Some (f_name fi)) by (apply (find_name_spec _ _ Hnd); eauto).
          assert (E2 : find_field_name q (class_infos c) = Some (f_name gi)) by (apply (find_name_spec _ _ Hnd); eauto). congruence. }
        destruct (spellb p (f_name fi, f_alias fi)) eqn:Es.
        * unfold spellb in Es. cbn [fst snd] in Es. assert (Hs : p = f_name fi \/ p = f_alias fi) by (apply orb_prop in Es as [Es|Es]; apply str_eqb_eq in Es; auto).
          rewrite (Huniq p Hs Hgp), Hx. cbn [option_map]. rewrite str_eqb_refl, (rf_trail _ _ _ _ Ht).
          assert (Hn : x <> VNone) by (intros ->; inversion Ht). assert (Hn' : rename_entry a k k' (retarget f x) <> VNone) by (intros Hc; exact (Hn (proj1 (retarget_none x) (proj1 (rename_none a _) Hc)))).
          rewrite (nn_some x Hn), (nn_some _ Hn'). left. split; [exact Ht|reflexivity].
        * assert (Hne : str_eqb (f_name gi) (f_name fi) = false).
          { destruct (str_eqb (f_name gi) (f_name fi)) eqn:Ee; [|reflexivity]. exfalso. apply str_eqb_eq in Ee. unfold spellb in Es. cbn [fst snd] in Es. apply orb_false_iff in Es as [E1 E2].
            (* gi and fi have the same name, hence are the same field *)
            assert (Hsame : gi = fi).
            { clear -Hnd Hg Hin' Ee. induction (class_infos c) as [|z l IH]; [destruct Hg|]. cbn [all_keys flat_map] in Hnd. apply NoDup_app_inv in Hnd as (_ & Hb & Hd).
              destruct Hg as [->|Hg], Hin' as [->|Hi]; [reflexivity| | |auto].
              - exfalso. apply (Hd (f_name gi) (field_keys_name _)). rewrite Ee. apply (all_keys_in fi); [exact Hi|apply field_keys_name].
              - exfalso. apply (Hd (f_name fi) (field_keys_name _)). rewrite <- Ee. apply (all_keys_in gi); [exact Hg|apply field_keys_name]. }
            subst gi. destruct Hgp as [->| ->]; rewrite str_eqb_refl in *; discriminate. }
          rewrite Hne. replace (option_map (fun x0 => x0) (option_map (rf c (f_name gi)) (assoc (f_name gi) fv))) with (option_map (rf c (f_name gi)) (assoc (f_name gi) fv)) by (destruct (assoc (f_name gi) fv); reflexivity).
          rewrite (nth_none _ (rf c (f_name gi))) by (intros; apply rf_none). destruct (nn (assoc (f_name gi) fv)); [apply rf_sim|exact I].
      + cbn [image retarget rename_entry stp fst snd]. rewrite (assoc_map_at (rename_entry a k k')), (assoc_map_val (fun _ => retarget f)). unfold spellb. cbn [fst snd]. rewrite orb_diag.
        destruct (str_eqb p key) eqn:Ek.
        * apply str_eqb_eq in Ek. subst p. rewrite Hx. cbn [option_map osim]. left. split; [exact Ht|reflexivity].
        * destruct (assoc p d1); cbn [option_map osim]; [left; split; [exact I|reflexivity]|exact I].
    - (* off the way *) cbn [image seg next]. destruct v; cbn [retarget stp]; try exact I.
      + rewrite (assoc_map_val (fun _ => retarget f)). destruct (assoc p d); cbn; [left; split; [exact I|reflexivity]|exact I].
      + destruct (find_field_name p (class_infos c)) as [n|]; [|exact I]. change (map _ fs) with (map (fun kv => match kv with (n, x) => (n, rf c n x) end) fs).
        rewrite (assoc_map_val (rf c)), (nth_none _ (rf c n)) by (intros; apply rf_none).
        destruct (nn (assoc n fs)); cbn [option_map osim]; [apply rf_sim|exact I].
      + rewrite (assoc_map_val (fun _ => retarget f)). destruct (assoc p d); cbn; [left; split; [exact I|reflexivity]|exact I].
  Qed.
  Fixpoint segs (T : stage) (l : list pystr) : list pystr := match l with [] => [] | p :: l => seg T p :: segs (next T p) l end.
  Fixpoint avoid (T : stage) (l : list pystr) : Prop := match l with [] => True | p :: l => (T = Some [] -> p <> k') /\ avoid (next T p) l end.
  Lemma segs_none l : segs None l = l.
  Proof. induction l as [|p l IH]; [reflexivity|]. cbn [segs next seg]. rewrite IH. reflexivity. Qed.
  Lemma avoid_none l : avoid None l.
  Proof. induction l as [|p l IH]; [exact I|]. cbn [avoid next]. split; [discriminate|exact IH]. Qed.
  Lemma spellb_iff p h : spellb p h = true <-> spelled p h.
  Proof. unfold spellb, spelled. rewrite orb_true_iff, !str_eqb_eq. reflexivity. Qed.
  Lemma segs_through names : forall a rest, Forall2 spelled names a -> segs (Some a) (names ++ k :: rest) = names ++ k' :: rest.
  Proof.
    induction names as [|p names IH]; intros a rest H; inversion H as [|? h ? a' Hp Hr]; subst; cbn [app segs seg next].
    - rewrite str_eqb_refl, segs_none. reflexivity.
    - apply spellb_iff in Hp. rewrite Hp, IH by exact Hr. reflexivity.
  Qed.
  Lemma segs_other a : forall l, ~ through a k l -> segs (Some a) l = l.
  Proof.
    induction a as [|h a IH]; intros [|p l] H; try reflexivity; cbn [segs seg next].
    - rewrite segs_none. destruct (str_eqb p k) eqn:E; [|reflexivity]. exfalso. apply H. apply str_eqb_eq in E. subst p. exists [], l. split; [reflexivity|constructor].
    - f_equal. destruct (spellb p h) eqn:E; [|apply segs_none]. apply IH. intros (names & rest & -> & Hn). apply H. exists (p :: names), rest. split; [reflexivity|]. constructor; [apply spellb_iff; exact E|exact Hn].
  Qed.
  Lemma avoid_other a : forall l, ~ through a k' l -> avoid (Some a) l.
  Proof.
    induction a as [|h a IH]; intros [|p l] H; try exact I; cbn [avoid next]; split; try discriminate.
    - intros _ ->. apply H. exists [], l. split; [reflexivity|constructor].
    - apply avoid_none.
    - destruct (spellb p h) eqn:E; [|apply avoid_none]. apply IH. intros (names & rest & -> & Hn). apply H. exists (p :: names), rest. split; [reflexivity|]. constructor; [apply spellb_iff; exact E|exact Hn].
  Qed.
  Lemma walks_fwd l : forall T v x, ok T v -> walks v l x -> exists T' x', walks (image T v) (segs T l) x' /\ simw T' x x'.
  Proof.
    induction l as [|p l IH]; intros T v x Hok H; inversion H as [|v0 p0 w l0 x0 Hg Hw]; subst.
    - exists T, (image T x). split; [constructor|left; auto].
    - apply goes_stp in Hg. assert (Hp : T = Some [] -> p <> k').
      { intros ->. cbn [ok] in Hok. inversion Hok; subst. cbn [stp] in Hg. intros ->. apply Hfresh. apply assoc_In in Hg. apply in_map_iff. exists (k', w). auto. }
      assert (Hs := stp_sim T v p Hok Hp). rewrite Hg in Hs. destruct (stp (image T v) (seg T p)) as [w'|] eqn:Eg; [|destruct Hs]. apply goes_stp in Eg. cbn [osim] in Hs. cbn [segs].
      destruct Hs as [[Ho ->]|(a & b & -> & ->)].
      + destruct (IH _ _ _ Ho Hw) as (T' & x' & Hx & Hsx). exists T', x'. split; [econstructor; eauto|exact Hsx].
      + inversion Hw as [|v1 p1 w1 l1 x1 Hg1 _]; subst; [|apply goes_stp in Hg1; discriminate Hg1]. exists None, (VStr b). split; [econstructor; [exact Eg|constructor]|right; eauto].
  Qed.
  Lemma walks_bwd l : forall T v x', ok T v -> avoid T l -> walks (image T v) (segs T l) x' -> exists T' x, walks v l x /\ simw T' x x'.
  Proof.
    induction l as [|p l IH]; intros T v x' Hok Ha H; cbn [segs] in H; inversion H as [|v0 p0 w' l0 x0 Hg Hw]; subst.
    - exists T, v. split; [constructor|left; auto].
    - apply goes_stp in Hg. cbn [avoid] in Ha. destruct Ha as [Hp Ha]. assert (Hs := stp_sim T v p Hok Hp). rewrite Hg in Hs. destruct (stp v p) as [w|] eqn:Eg; [|destruct Hs].
      apply goes_stp in Eg. cbn [osim] in Hs. destruct Hs as [[Ho ->]|(a & b & -> & ->)].
      + destruct (IH _ _ _ Ho Ha Hw) as (T' & x & Hx & Hsx). exists T', x. split; [econstructor; eauto|exact Hsx].
      + inversion Hw as [? Hl|v1 p1 w1 l1 x1 Hg1 _]; [|apply goes_stp in Hg1; discriminate Hg1].
        assert (l = []) by (destruct l; [reflexivity|discriminate]). subst l x'. exists None, (VStr a). split; [econstructor; [exact Eg|constructor]|right; eauto].
  Qed.
  Lemma type_image T x x' : simw T x x' -> type_name x' = type_name x.
  Proof. intros [[_ ->]|(a & b & -> & ->)]; [|reflexivity]. destruct T as [[|h a]|], x; reflexivity. Qed.
  Lemma rename_str a y s : rename_entry a k k' y = VStr s <-> y = VStr s.
  Proof. destruct a, y; cbn [rename_entry]; split; intros H; try discriminate H; exact H. Qed.
  Lemma retarget_ref x s' : is_reference (retarget f x) s' <-> exists s, is_reference x s /\ s' = f s.
  Proof.
    unfold is_reference. split.
    - intros (fv & ex & Hx & Ha). destruct x; try discriminate Hx. rewrite retarget_obj in Hx. injection Hx as -> <- <-. rewrite (assoc_map_val (rf "Reference")) in Ha.
      destruct (assoc (u "ref") fs) as [y|] eqn:Ey; [|discriminate Ha]. cbn [option_map] in Ha. unfold rf in Ha. rewrite String.eqb_refl, str_eqb_refl in Ha. cbn [andb] in Ha.
      destruct y; try discriminate Ha. injection Ha as <-. eexists. split; [eexists _, _; split; [reflexivity|exact Ey]|reflexivity].
    - intros (s & (fv & ex & -> & Ha) & ->). rewrite retarget_obj. eexists _, _. split; [reflexivity|]. rewrite (assoc_map_val (rf "Reference")), Ha. cbn [option_map]. unfold rf.
      rewrite String.eqb_refl, str_eqb_refl. reflexivity.
  Qed.
  Lemma rename_ref a x s : is_reference (rename_entry a k k' x) s <-> is_reference x s.
  Proof.
    unfold is_reference. destruct a as [|h a], x; cbn [rename_entry]; try reflexivity; try (split; intros (fv & ex0 & Hx & _); discriminate Hx).
    split; intros (fv & ex0 & Hx & Ha); injection Hx as Hx1 Hx2 Hx3; subst.
    - exists fs, ex0. split; [reflexivity|]. rewrite (assoc_map_at (rename_entry a k k')) in Ha. destruct (assoc (u "ref") fs) as [y|]; [|discriminate Ha]. cbn [option_map] in Ha.
      destruct (str_eqb (u "ref") (fst h)); [|exact Ha]. injection Ha as Ha. apply rename_str in Ha. subst y. reflexivity.
    - eexists _, ex0. split; [reflexivity|]. rewrite (assoc_map_at (rename_entry a k k')), Ha. cbn [option_map]. destruct (str_eqb (u "ref") (fst h)); [|reflexivity]. destruct a; reflexivity.
  Qed.
  Lemma sim_ref T x x' s' : simw T x x' -> (is_reference x' s' <-> exists s, is_reference x s /\ s' = f s).
  Proof.
    intros [[_ ->]|(a & b & -> & ->)].
    - destruct T as [a|]; cbn [image]; [rewrite rename_ref|]; apply retarget_ref.
    - split; [intros (fv & ex & H & _); discriminate H|intros (s & (fv & ex & H & _) & _); discriminate H].
  Qed.
End Rename.

(** ** Resolution *)
Lemma walks_within v l x : walks v l x -> within x v.
Proof. induction 1 as [v|v p w l x Hg _ IH]; [constructor|]. eapply within_trans; [exact IH|]. eapply goes_within. exact Hg. Qed.
Lemma through_dec a k : forall l, through a k l \/ ~ through a k l.
Proof.
  induction a as [|h a IH]; intros [|p l].
  - right. intros (names & rest & H & _). destruct names; discriminate H.
  - destruct (str_eqb p k) eqn:E; [left; apply str_eqb_eq in E; subst p; exists [], l; split; [reflexivity|constructor]|right].
    intros (names & rest & H & Hn). inversion Hn; subst. injection H as -> _. rewrite str_eqb_refl in E. discriminate E.
  - right. intros (names & rest & H & _). destruct names; discriminate H.
  - destruct (spellb p h) eqn:E.
    + destruct (IH l) as [(names & rest & -> & Hn)|H]; [left; exists (p :: names), rest; split; [reflexivity|constructor; [apply spellb_iff; exact E|exact Hn]]|right].
      intros (names & rest & Hx & Hn). inversion Hn as [|q ? names' ? Hq Hr]; subst. injection Hx as -> ->. apply H. exists names', rest. auto.
    + right. intros (names & rest & Hx & Hn). inversion Hn as [|q ? names' ? Hq Hr]; subst. injection Hx as -> ->. apply spellb_iff in Hq. congruence.
Qed.
Section Resolution.
  Context (f : pystr -> pystr) (a : list (pystr * pystr)) (k k' : pystr) (d : fields) (doc : pv).
  Context (Hfresh : ~ In k' (map fst d)) (Htr : trail doc a d) (Hf : rewrites a k k' f).
  Notation doc' := (renamed_document f a k k' doc).
  Lemma f_hash r l : segments r l -> exists r', f (u "#" ++ r) = u "#" ++ r' /\ segments r' (segs k k' (Some a) l).
  Proof.
    intros Hl. destruct (proj2 Hf r l Hl) as (r' & l' & Hr & Hs & Ht & Hn). exists r'. split; [exact Hr|].
    destruct (through_dec a k l) as [H|H].
    - destruct (Ht H) as (names & rest & -> & Hsp & ->). rewrite segs_through by exact Hsp. exact Hs.
    - rewrite segs_other by exact H. rewrite (Hn H) in Hs. exact Hs.
  Qed.
  Lemma designates_fwd s l x : designates doc s l x -> exists T x', designates doc' (f s) (segs k k' (Some a) l) x' /\ simw f k k' d T x x'.
  Proof.
    intros (r & -> & Hs & Hl & Hw). destruct (f_hash r l Hs) as (r' & -> & Hs').
    destruct (walks_fwd f k k' d Hfresh l (Some a) doc x Htr Hw) as (T & x' & Hw' & Hsim). exists T, x'. split; [|exact Hsim].
    exists r'. split; [reflexivity|]. split; [exact Hs'|]. split; [|exact Hw']. destruct l; [contradiction|discriminate].
  Qed.
  (** [s] does not already lead through the new name *)
  Definition free (s : pystr) : Prop := forall r l, s = u "#" ++ r -> segments r l -> ~ through a k' l.
  Lemma hash_dec s : (exists r, s = u "#" ++ r) \/ ~ (exists r, s = u "#" ++ r).
  Proof.
    destruct s as [|c s]; [right; intros [r H]; discriminate H|]. destruct (N.eq_dec c 35) as [->|Hc]; [left; exists s; reflexivity|right; intros [r H]; injection H as H _; contradiction].
  Qed.
  Lemma hash_inj r r' : u "#" ++ r = u "#" ++ r' -> r = r'.
  Proof. intros H. injection H as H. exact H. Qed.
  Lemma designates_bwd s l' x' : free s -> designates doc' (f s) l' x' -> exists T l x, designates doc s l x /\ simw f k k' d T x x' /\ l' = segs k k' (Some a) l.
  Proof.
    intros Hfree (r' & Hr' & Hs' & Hl' & Hw'). destruct (hash_dec s) as [[r ->]|Hn].
    - assert (Hs := parts_segments r). destruct (f_hash r _ Hs) as (r2 & Hr2 & Hs2). rewrite Hr2 in Hr'. apply hash_inj in Hr'. subst r2.
      assert (He := segments_fun _ _ _ Hs' Hs2). subst l'.
      destruct (walks_bwd f k k' d Hfresh _ (Some a) doc x' Htr (avoid_other _ _ _ (Hfree _ _ eq_refl Hs)) Hw') as (T & x & Hw & Hsim).
      exists T, (parts_of r), x. split; [|split; [exact Hsim|reflexivity]]. exists r. split; [reflexivity|]. split; [exact Hs|]. split; [|exact Hw].
      intros He. rewrite He in Hl'. apply Hl'. reflexivity.
    - rewrite (proj1 Hf s Hn) in Hr'. exfalso. apply Hn. eauto.
  Qed.
  Lemma hops_fwd n s t : hops doc n s t -> hops doc' n (f s) (f t).
  Proof.
    induction 1 as [s|n s l v s' s'' Hd Hr _ IH]; [constructor|]. destruct (designates_fwd _ _ _ Hd) as (T & x' & Hd' & Hsim).
    econstructor; [exact Hd'| |exact IH]. apply (sim_ref _ _ _ _ _ _ _ _ Hsim). eauto.
  Qed.
  Context (Hall : forall r s, within r doc -> is_reference r s -> free s).
  Lemma hops_bwd n : forall s t', free s -> hops doc' n (f s) t' -> exists t, hops doc n s t /\ t' = f t /\ free t.
  Proof.
    induction n as [|n IH]; intros s t' Hs H; inversion H as [|m s0 l v s' s'' Hd Hr Hh]; subst.
    - exists s. split; [constructor|auto].
    - destruct (designates_bwd _ _ _ Hs Hd) as (T & l0 & x & Hd0 & Hsim & _). apply (sim_ref _ _ _ _ _ _ _ _ Hsim) in Hr as (s1 & Hr & ->).
      assert (Hf1 : free s1). { apply (Hall x); [|exact Hr]. destruct Hd0 as (r & _ & _ & _ & Hw). exact (walks_within _ _ _ Hw). }
      destruct (IH _ _ Hf1 Hh) as (t & Ht & -> & Hft). exists t. split; [econstructor; eauto|auto].
  Qed.
  Lemma external_f s : external (f s) <-> external s.
  Proof.
    destruct (hash_dec s) as [[r ->]|Hn]; [|rewrite (proj1 Hf s Hn); reflexivity].
    destruct (f_hash r _ (parts_segments r)) as (r' & -> & _). split; intros (q & [H|H]); discriminate H.
  Qed.
  Lemma external_fwd n s t : hops doc n s t -> external t -> hops doc' n (f s) (f t) /\ external (f t).
  Proof. intros H Hx. split; [apply hops_fwd; exact H|apply external_f; exact Hx]. Qed.
  Lemma ends_fwd s o l : ends_at doc s o l -> exists o', ends_at doc' (f s) o' (segs k k' (Some a) l) /\ type_name o' = type_name o.
  Proof.
    intros (n & s' & Hh & Hd & Hno). destruct (designates_fwd _ _ _ Hd) as (T & o' & Hd' & Hsim). exists o'. split; [|exact (type_image _ _ _ _ _ _ _ Hsim)].
    exists n, (f s'). split; [apply hops_fwd; exact Hh|]. split; [exact Hd'|]. intros s'' H. apply (sim_ref _ _ _ _ _ _ _ _ Hsim) in H as (s1 & H & _). exact (Hno _ H).
  Qed.
  Lemma ends_bwd s o' l' : free s -> ends_at doc' (f s) o' l' -> exists o l, ends_at doc s o l /\ type_name o' = type_name o /\ l' = segs k k' (Some a) l.
  Proof.
    intros Hs (n & s' & Hh & Hd & Hno). destruct (hops_bwd _ _ _ Hs Hh) as (t & Ht & -> & Hft). destruct (designates_bwd _ _ _ Hft Hd) as (T & l & o & Hd0 & Hsim & ->).
    exists o, l. split; [|split; [exact (type_image _ _ _ _ _ _ _ Hsim)|reflexivity]]. exists n, t. split; [exact Ht|]. split; [exact Hd0|].
    intros s'' H. apply (Hno (f s'')). apply (sim_ref _ _ _ _ _ _ _ _ Hsim). eauto.
  Qed.
End Resolution.

(** ** Routes *)
Section Routes.
  Context (f : pystr -> pystr) (k k' : pystr).
  Notation image := (image f k k').
  Definition simr (T : stage) (w w' : pv) : Prop := w' = image T w \/ exists a b, w = VStr a /\ w' = VStr b.
  Lemma simr_ref T x x' s' : simr T x x' -> (is_reference x' s' <-> exists s, is_reference x s /\ s' = f s).
  Proof.
    intros [->|(a & b & -> & ->)].
    - destruct T as [a|]; cbn [PropRename.image]; [rewrite rename_ref|]; apply retarget_ref.
    - split; [intros (fv & ex & H & _); discriminate H|intros (s & (fv & ex & H & _) & _); discriminate H].
  Qed.
  Lemma image_none T x : image T x = VNone <-> x = VNone.
  Proof. destruct T as [a|]; cbn [PropRename.image]; [rewrite rename_none|]; apply retarget_none. Qed.
  Lemma simr_none T x x' : simr T x x' -> (x' = VNone <-> x = VNone).
  Proof. intros [->|(a & b & -> & ->)]; [apply image_none|split; discriminate]. Qed.
  Lemma image_list T l : image T (VList l) = VList (map (retarget f) l).
  Proof. destruct T as [[|h a]|]; reflexivity. Qed.
  Lemma image_dict T d : image T (VDict d) = VDict (map (fun kv => (fst kv, retarget f (snd kv))) d).
  Proof. destruct T as [[|h a]|]; cbn [PropRename.image retarget rename_entry]; f_equal; apply map_ext; intros []; reflexivity. Qed.
  Lemma image_root T c d : exists kk g, image T (VRoot c d) = VRoot c (map (fun kv => (kk (fst kv), g kv)) d)
    /\ (forall q, kk q = q \/ kk q = k') /\ forall kv, exists T', simr T' (snd kv) (g kv).
  Proof.
    destruct T as [[|h a]|].
    - exists (fun q => if str_eqb q k then k' else q), (fun kv => retarget f (snd kv)). split; [|split].
      + cbn [PropRename.image retarget rename_entry]. unfold rename_key. rewrite map_map. f_equal. apply map_ext. intros [q x]. cbn [fst snd]. destruct (str_eqb q k); reflexivity.
      + intros q. destruct (str_eqb q k); auto.
      + intros kv. exists None. left. reflexivity.
    - exists (fun q => q), (fun kv => if str_eqb (fst kv) (fst h) then rename_entry a k k' (retarget f (snd kv)) else retarget f (snd kv)). split; [|split].
      + cbn [PropRename.image retarget rename_entry]. rewrite map_map. f_equal. apply map_ext. intros [q x]. cbn [fst snd]. destruct (str_eqb q (fst h)); reflexivity.
      + auto.
      + intros kv. destruct (str_eqb (fst kv) (fst h)); [exists (Some a)|exists None]; left; reflexivity.
    - exists (fun q => q), (fun kv => retarget f (snd kv)). split; [|split].
      + cbn [PropRename.image retarget]. f_equal. apply map_ext. intros []; reflexivity.
      + auto.
      + intros kv. exists None. left. reflexivity.
  Qed.
  Lemma image_obj T c fv ex : exists g, image T (VObj c fv ex) = VObj c (map (fun kv => (fst kv, g kv)) fv) ex
    /\ forall kv, exists T', simr T' (snd kv) (g kv).
  Proof.
    assert (Hrf : forall n x, rf f c n x = retarget f x \/ exists s s', x = VStr s /\ rf f c n x = VStr s').
    { intros n x. unfold rf. destruct (String.eqb c "Reference" && str_eqb n (u "ref")); [|left; reflexivity]. destruct x; try (left; reflexivity). right. eauto. }
    destruct T as [[|h a]|]; cbn [PropRename.image]; rewrite retarget_obj.
    - exists (fun kv => rf f c (fst kv) (snd kv)). split.
      + cbn [rename_entry]. f_equal. apply map_ext. intros []; reflexivity.
      + intros [n x]. exists None. cbn [fst snd]. destruct (Hrf n x) as [->|(s & s' & -> & ->)]; [left; reflexivity|right; eauto].
    - exists (fun kv => if str_eqb (fst kv) (fst h) then rename_entry a k k' (rf f c (fst kv) (snd kv)) else rf f c (fst kv) (snd kv)). split.
      + cbn [rename_entry]. rewrite map_map. f_equal. apply map_ext. intros [q x]. cbn [fst snd]. destruct (str_eqb q (fst h)); reflexivity.
      + intros [n x]. cbn [fst snd]. destruct (str_eqb n (fst h)).
        * exists (Some a). destruct (Hrf n x) as [->|(s & s' & -> & ->)]; [left; reflexivity|right; exists s, s'; split; [reflexivity|destruct a; reflexivity]].
        * exists None. destruct (Hrf n x) as [->|(s & s' & -> & ->)]; [left; reflexivity|right; eauto].
    - exists (fun kv => rf f c (fst kv) (snd kv)). split.
      + f_equal. apply map_ext. intros []; reflexivity.
      + intros [n x]. exists None. cbn [fst snd]. destruct (Hrf n x) as [->|(s & s' & -> & ->)]; [left; reflexivity|right; eauto].
  Qed.
  Definition skeys (st st' : lstep) : Prop := same_step st st' /\ (forall q, In q (step_keys st') -> In q (step_keys st) \/ q = k').
  Lemma step_fwd T v i st w : step v i st w -> exists T' st' w', step (image T v) i st' w' /\ simr T' w w' /\ skeys st st'.
  Proof.
    intros H. destruct H as [l i x Hn|d i q x Hn|c d i q x Hn|c fv ex i q x Hn Hr Hx He].
    - exists None, (LIdx i), (retarget f x). rewrite image_list. split; [constructor; rewrite nth_error_map, Hn; reflexivity|]. split; [left; reflexivity|]. split; [constructor|intros q []].
    - exists None, (LKey q), (retarget f x). rewrite image_dict. split; [constructor; rewrite nth_error_map, Hn; reflexivity|]. split; [left; reflexivity|]. split; [constructor|auto].
    - destruct (image_root T c d) as (kk & g & -> & Hk & Hg). destruct (Hg (q, x)) as [T' Hs]. exists T', (LMapKey (kk q)), (g (q, x)).
      split; [constructor; rewrite nth_error_map, Hn; reflexivity|]. split; [exact Hs|]. split; [constructor|].
      intros q' [<-|[]]. destruct (Hk q) as [->| ->]; [left; left; reflexivity|right; reflexivity].
    - assert (Hr' : forall s', ~ is_reference (image T (VObj c fv ex)) s').
      { intros s' H. apply (simr_ref T (VObj c fv ex)) in H as (s & H & _); [exact (Hr _ H)|left; reflexivity]. }
      destruct (image_obj T c fv ex) as (g & Hi & Hg). rewrite Hi in *. destruct (Hg (q, x)) as [T' Hs]. exists T', (LField q), (g (q, x)).
      split; [|split; [exact Hs|split; [constructor|intros ? []]]].
      constructor; [rewrite nth_error_map, Hn; reflexivity|exact Hr'| |exact He]. intros Hc. apply Hx. apply (simr_none _ _ _ Hs). exact Hc.
  Qed.
  Lemma step_bwd T v i st' w' : step (image T v) i st' w' -> exists T' st w, step v i st w /\ simr T' w w' /\ skeys st st'.
  Proof.
    intros H. destruct v as [| | | | | |l|d|c fv ex|c d| | ] eqn:Ev; try (destruct T as [[|h a]|]; inversion H; fail).
    - rewrite image_list in H. inversion H as [l' i' x' Hn| | |]; subst. rewrite nth_error_map in Hn. destruct (nth_error l i) as [x|] eqn:En; [|discriminate Hn]. injection Hn as <-.
      exists None, (LIdx i), x. split; [constructor; exact En|]. split; [left; reflexivity|]. split; [constructor|intros q []].
    - rewrite image_dict in H. inversion H as [|d' i' q x' Hn| |]; subst. rewrite nth_error_map in Hn. destruct (nth_error d i) as [[q0 x]|] eqn:En; [|discriminate Hn]. injection Hn as <- <-.
      exists None, (LKey q0), x. split; [constructor; exact En|]. split; [left; reflexivity|]. split; [constructor|auto].
    - assert (Hr : forall s, is_reference (VObj c fv ex) s -> is_reference (image T (VObj c fv ex)) (f s)).
      { intros s Hs. apply (simr_ref T (VObj c fv ex)); [left; reflexivity|eauto]. }
      destruct (image_obj T c fv ex) as (g & Hi & Hg). rewrite Hi in *. inversion H as [| | |c' fv' ex' i' q x' Hn Hr' Hx He]; subst.
      rewrite nth_error_map in Hn. destruct (nth_error fv i) as [[q0 x]|] eqn:En; [|discriminate Hn]. injection Hn as <- <-. destruct (Hg (q0, x)) as [T' Hs].
      exists T', (LField q0), x. split; [|split; [exact Hs|split; [constructor|intros ? []]]].
      constructor; [exact En| | |exact He].
      + intros s Hc. exact (Hr' _ (Hr s Hc)).
      + intros Hc. apply Hx. apply (simr_none _ _ _ Hs). exact Hc.
    - destruct (image_root T c d) as (kk & g & Hi & Hk & Hg). rewrite Hi in H. inversion H as [| |c' d' i' q x' Hn|]; subst.
      rewrite nth_error_map in Hn. destruct (nth_error d i) as [[q0 x]|] eqn:En; [|discriminate Hn]. injection Hn as <- <-. destruct (Hg (q0, x)) as [T' Hs].
      exists T', (LMapKey q0), x. split; [constructor; exact En|]. split; [exact Hs|]. split; [constructor|].
      intros q' [<-|[]]. cbn [fst]. destruct (Hk q0) as [->| ->]; [left; left; reflexivity|right; reflexivity].
  Qed.
  Lemma route_fwd v pos p r : route v pos p r -> forall T v' s, simr T v v' -> is_reference r s ->
    exists p' r', route v' pos p' r' /\ is_reference r' (f s) /\ renamed p p' /\ (forall q, In q (keys_of p') -> In q (keys_of p) \/ q = k').
  Proof.
    induction 1 as [v|v i st w pos p x Hst _ IH]; intros T v' s Hv Hs.
    - exists [], v'. split; [constructor|]. split; [apply (simr_ref _ _ _ _ Hv); eauto|]. split; [constructor|intros q []].
    - destruct Hv as [->|(a & b & -> & _)]; [|inversion Hst]. destruct (step_fwd T _ _ _ _ Hst) as (T' & st' & w' & Hst' & Hw & Hsame & Hk).
      destruct (IH T' w' s Hw Hs) as (p' & r' & Hr & Hs' & Hre & Hks). exists (st' :: p'), r'. split; [econstructor; eauto|]. split; [exact Hs'|]. split; [constructor; assumption|].
      intros q Hq. cbn [keys_of flat_map] in *. apply in_app_or in Hq as [Hq|Hq]; [destruct (Hk q Hq)|destruct (Hks q Hq)]; auto using in_or_app.
  Qed.
  Lemma route_bwd v' pos p' r' : route v' pos p' r' -> forall T v s', simr T v v' -> is_reference r' s' ->
    exists p r s, route v pos p r /\ is_reference r s /\ s' = f s /\ renamed p p' /\ (forall q, In q (keys_of p') -> In q (keys_of p) \/ q = k').
  Proof.
    induction 1 as [v'|v' i st' w' pos p' x' Hst _ IH]; intros T v s' Hv Hs.
    - apply (simr_ref _ _ _ _ Hv) in Hs as (s & Hs & ->). exists [], v, s. split; [constructor|]. split; [exact Hs|]. split; [reflexivity|]. split; [constructor|intros q []].
    - destruct Hv as [->|(a & b & -> & ->)]; [|inversion Hst]. destruct (step_bwd T _ _ _ _ Hst) as (T' & st & w & Hst' & Hw & Hsame & Hk).
      destruct (IH T' w s' Hw Hs) as (p & r & s & Hr & Hs' & -> & Hre & Hks). exists (st :: p), r, s. split; [econstructor; eauto|]. split; [exact Hs'|]. split; [reflexivity|]. split; [constructor; assumption|].
      intros q Hq. cbn [keys_of flat_map] in *. apply in_app_or in Hq as [Hq|Hq]; [destruct (Hk q Hq)|destruct (Hks q Hq)]; auto using in_or_app.
  Qed.
  Lemma within_image y v' : within y v' -> forall T v, simr T v v' -> within y v \/ exists T' w, within w v /\ simr T' w y.
  Proof.
    induction 1 as [|l z Hz _ IH|d q z Hz _ IH|c fv ex q z Hz _ IH|c fv ex q z Hz Hw _|c d q z Hz _ IH]; intros T v Hv.
    - right. exists T, v. split; [constructor|exact Hv].
    - destruct Hv as [Hv|(a & b & _ & Hv)]; [|discriminate Hv]. destruct v as [| | | | | |l0|d0|c0 fv0 ex0|c0 d0| | ]; try (destruct T as [[|h a]|]; discriminate Hv).
      rewrite image_list in Hv. injection Hv as ->. apply in_map_iff in Hz as (x & <- & Hx). destruct (IH None x (or_introl eq_refl)) as [H|(T' & w & Hw & Hs)].
      + left. econstructor; eauto.
      + right. exists T', w. split; [econstructor; eauto|exact Hs].
    - destruct Hv as [Hv|(a & b & _ & Hv)]; [|discriminate Hv]. destruct v as [| | | | | |l0|d0|c0 fv0 ex0|c0 d0| | ]; try (destruct T as [[|h a]|]; discriminate Hv).
      rewrite image_dict in Hv. injection Hv as ->. apply in_map_iff in Hz as ([q0 x] & Hq & Hx). injection Hq as <- <-. destruct (IH None x (or_introl eq_refl)) as [H|(T' & w & Hw & Hs)].
      + left. econstructor; eauto.
      + right. exists T', w. split; [econstructor; eauto|exact Hs].
    - destruct Hv as [Hv|(a & b & _ & Hv)]; [|discriminate Hv]. destruct v as [| | | | | |l0|d0|c0 fv0 ex0|c0 d0| | ]; try (destruct T as [[|h a]|]; discriminate Hv).
      destruct (image_obj T c0 fv0 ex0) as (g & Hi & Hg). rewrite Hi in Hv. injection Hv as -> -> ->. apply in_map_iff in Hz as ([q0 x] & Hq & Hx). injection Hq as <- <-.
      destruct (Hg (q0, x)) as [T1 H1]. destruct (IH T1 x H1) as [H|(T' & w & Hw & Hs)].
      + left. eapply w_field; eauto.
      + right. exists T', w. split; [eapply w_field; eauto|exact Hs].
    - destruct Hv as [Hv|(a & b & _ & Hv)]; [|discriminate Hv]. destruct v as [| | | | | |l0|d0|c0 fv0 ex0|c0 d0| | ]; try (destruct T as [[|h a]|]; discriminate Hv).
      destruct (image_obj T c0 fv0 ex0) as (g & Hi & _). rewrite Hi in Hv. injection Hv as -> -> ->. left. eapply w_extra; eauto.
    - destruct Hv as [Hv|(a & b & _ & Hv)]; [|discriminate Hv]. destruct v as [| | | | | |l0|d0|c0 fv0 ex0|c0 d0| | ]; try (destruct T as [[|h a]|]; discriminate Hv).
      destruct (image_root T c0 d0) as (kk & g & Hi & _ & Hg). rewrite Hi in Hv. injection Hv as -> ->. apply in_map_iff in Hz as ([q0 x] & Hq & Hx). injection Hq as <- <-.
      destruct (Hg (q0, x)) as [T1 H1]. destruct (IH T1 x H1) as [H|(T' & w & Hw & Hs)].
      + left. eapply w_root; eauto.
      + right. exists T', w. split; [eapply w_root; eauto|exact Hs].
  Qed.
  Lemma no_root_image a doc : no_root_keyword doc -> no_root_keyword (renamed_document f a k k' doc).
  Proof.
    intros H c fv ex d Hw. destruct (within_image _ _ Hw (Some a) doc (or_introl eq_refl)) as [Hx|(T & w & Hx & [Hs|(x & y & _ & Hs)])]; [exact (H _ _ _ _ Hx)| |discriminate Hs].
    destruct w as [| | | | | |l0|d0|c0 fv0 ex0|c0 d0| | ]; try (destruct T as [[|h a']|]; discriminate Hs).
    destruct (image_obj T c0 fv0 ex0) as (g & Hi & _). rewrite Hi in Hs. injection Hs as -> -> ->. exact (H _ _ _ _ Hx).
  Qed.
End Routes.

Lemma route_reached v pos p r : route v pos p r -> reached v pos (flat_map step_text p) r.
Proof.
  induction 1 as [v|v i st w pos p x Hst _ IH]; [constructor; reflexivity|]. cbn [flat_map]. econstructor; [|exact IH]. destruct Hst; cbn [step_text]; constructor; assumption.
Qed.
Lemma reached_route v pos path r : reached v pos path r -> exists p, route v pos p r /\ path = flat_map step_text p.
Proof.
  induction 1 as [v p0 ->|v i text w pos path x Hc _ (p & Hr & ->)]; [exists []; split; [constructor|reflexivity]|].
  destruct Hc; [exists (LIdx i :: p)|exists (LKey k :: p)|exists (LMapKey k :: p)|exists (LField k :: p)];
    (split; [econstructor; [|exact Hr]; constructor; eassumption|reflexivity]).
Qed.
Lemma step_within v i st w : step v i st w -> within w v.
Proof. destruct 1 as [l i x Hn|d i q x Hn|c d i q x Hn|c fv ex i q x Hn _ _ _]; apply nth_error_In in Hn; econstructor; try eassumption; constructor. Qed.
Lemma route_within v pos p r : route v pos p r -> within r v.
Proof. induction 1 as [v|v i st w pos p x Hst _ IH]; [constructor|]. eapply within_trans; [exact IH|]. eapply step_within. exact Hst. Qed.

(** The route to a reference is one of the locations of the object model. *)
Lemma canon_route E t : linked t = true -> wf_ty t = true -> refs_placed t = true -> no_ref_dicts t = true -> forall v, canon no_objects E t v ->
  forall pos p r s, route v pos p r -> is_reference r s -> only_reference t p \/ exists D, location t p D.
Proof.
  induction t using ty_ind'; intros Hl Hw Hp Hd v Hc pos p r s Hro Hs; assert (Hr := route_within _ _ _ _ Hro); cbn [canon] in Hc;
    try (exfalso; destruct Hs as (fv0 & ex0 & -> & _); (destruct Hc as (z & -> & _) || destruct Hc as (z & ->)); apply within_atom in Hr; discriminate Hr).
  - exfalso. destruct Hs as (fv0 & ex0 & -> & _). exact (Hc _ _ _ Hr).
  - destruct Hc as (l & -> & HF). inversion Hro as [|i st y pos' p' x Hst Hro']; subst; [destruct Hs as (? & ? & Hx & _); discriminate Hx|]. inversion Hst as [l' i' y' Hn| | |]; subst.
    rewrite Forall_forall in HF. destruct (IHt Hl Hw Hp Hd y (HF _ (nth_error_In _ _ Hn)) _ _ _ _ Hro' Hs) as [Hlo|[D Hlo]]; [left; constructor; exact Hlo|right; exists D; constructor; exact Hlo].
  - destruct Hc as (d & -> & HF). inversion Hro as [|i st y pos' p' x Hst Hro']; subst; [destruct Hs as (? & ? & Hx & _); discriminate Hx|]. inversion Hst as [|d' i' q y' Hn| |]; subst.
    rewrite Forall_forall in HF. cbn [no_ref_dicts] in Hd. apply andb_prop in Hd as [Hd1 Hd2]. apply is_nil_spec in Hd1.
    destruct (IHt Hl Hw Hp Hd2 y (HF (q, y) (nth_error_In _ _ Hn)) _ _ _ _ Hro' Hs) as [Hlo|[D Hlo]]; [exfalso; exact (opos_spec _ Hd1 _ Hlo)|].
    right. exists D. constructor. exact Hlo.
  - destruct Hc as [->|Hc]; [exfalso; destruct Hs as (? & ? & -> & _); apply within_atom in Hr; discriminate Hr|].
    destruct (IHt Hl Hw Hp Hd v Hc _ _ _ _ Hro Hs) as [Hlo|[D Hlo]]; [left; constructor; exact Hlo|right; exists D; constructor; exact Hlo].
  - apply canon_union_each in Hc as (t & Ht & Hc). rewrite Forall_forall in H. cbn [refs_placed no_ref_dicts] in Hp, Hd. rewrite forallb_forall in Hp, Hd.
    specialize (Hp t Ht). specialize (Hd t Ht). apply andb_prop in Hp as [Hp1 Hp2]. right.
    destruct (H t Ht (linked_union _ _ Hl Ht) (wf_union _ _ Hw Ht) Hp2 Hd v Hc _ _ _ _ Hro Hs) as [Hlo|[D Hlo]]; [|exists D; eapply lo_member; eauto].
    apply orb_prop in Hp1 as [Hp1|Hp1]; [|apply is_nil_spec in Hp1; exfalso; exact (opos_spec _ Hp1 _ Hlo)].
    destruct t; try discriminate Hp1. apply String.eqb_eq in Hp1. subst c. inversion Hlo; subst. eexists. eapply lo_here. exact Ht.
  - exfalso. destruct Hs as (fv0 & ex0 & -> & _). refine (no_refs_spec E TProcs eq_refl v _ _ _ _ Hr). exact Hc.
  - destruct Hc as (fv & ex & -> & Hf & Hex & Ha). cbn [refs_placed no_ref_dicts] in Hp, Hd. destruct (String.eqb c "Reference") eqn:Ec.
    + apply String.eqb_eq in Ec. subst c. rewrite forallb_forall in Hp. inversion Hro as [|i st y pos' p' x Hst Hro']; subst; [left; constructor|].
      exfalso. inversion Hst as [| | |c' fv' ex' i' q y' Hn _ _ _]; subst. apply nth_error_In in Hn. assert (H2 := route_within _ _ _ _ Hro').
      destruct (canon_fields_named _ _ _ _ Hf _ _ Hn) as (fi & t & Hin & _ & Hct). destruct Hs as (fv0 & ex0 & -> & _).
      exact (no_refs_spec E t (Hp _ Hin) y Hct _ _ _ H2).
    + inversion Hro as [|i st y pos' p' x Hst Hro']; subst; [destruct Hs as (? & ? & Hx & _); injection Hx as -> _ _; discriminate Ec|].
      inversion Hst as [| | |c' fv' ex' i' q y' Hn _ _ _]; subst. apply nth_error_In in Hn. assert (H2 := route_within _ _ _ _ Hro').
      destruct (canon_fields_named _ _ _ _ Hf _ _ Hn) as (fi & t & Hin & Hnm & Hct). rewrite Forall_forall in H. rewrite forallb_forall in Hp, Hd.
      specialize (Hp _ Hin). specialize (Hd _ Hin). cbn beta iota in Hp, Hd. apply andb_prop in Hp as [Hp Hp3]. apply andb_prop in Hp as [Hp1 Hp2].
      assert (Hlo := H (fi, t) Hin (linked_sub _ _ _ _ Hl Hin) (wf_sub _ _ _ _ Hw Hin) Hp1 Hd y Hct _ _ _ _ Hro' Hs). cbn [snd] in *.
      assert (Hx : f_excl fi = false).
      { destruct (f_excl fi); [|reflexivity]. exfalso. cbn [negb orb] in Hp2. destruct Hs as (fv0 & ex0 & -> & _). exact (no_refs_spec E t Hp2 y Hct _ _ _ H2). }
      subst q. right. destruct Hlo as [Hlo|[D Hlo]]; [|exists D; apply (lo_field c k fs fi t); assumption].
      apply orb_prop in Hp3 as [Hp3|Hp3]; [apply is_nil_spec in Hp3; exfalso; exact (opos_spec _ Hp3 _ Hlo)|].
      apply existsb_exists in Hp3 as ([[c' f] D] & Hrf & Hcf). apply andb_prop in Hcf as [Hc1 Hc2]. apply String.eqb_eq in Hc1. apply str_eqb_eq in Hc2. subst c'.
      exists [D]. rewrite Hc2. eapply lo_only; eauto.
  - destruct Hc as (d & -> & HF & _). inversion Hro as [|i st y pos' p' x Hst Hro']; subst; [destruct Hs as (? & ? & Hx & _); discriminate Hx|]. inversion Hst as [| |c' d' i' q y' Hn|]; subst.
    rewrite Forall_forall in HF. cbn [refs_placed no_ref_dicts] in Hp, Hd. apply andb_prop in Hp as [Hp1 Hp2]. apply is_nil_spec in Hp1.
    destruct (IHt (linked_root_sub _ _ Hl) Hw Hp2 Hd y (HF (q, y) (nth_error_In _ _ Hn)) _ _ _ _ Hro' Hs) as [Hlo|[D Hlo]]; [exfalso; exact (opos_spec _ Hp1 _ Hlo)|].
    right. exists D. constructor. exact Hlo.
Qed.

(** ** A rewriter *)
Definition joined (l : list pystr) : pystr := flat_map (fun p => slash :: p) l.
Lemma segments_joined l : Forall (fun p => p <> [] /\ ~ In slash p) l -> segments (joined l) l.
Proof.
  induction l as [|p l IH]; intros H; [constructor|]. inversion H as [|? ? [Hp Hs] Hl]; subst. cbn [joined flat_map]. apply seg_slash.
  apply seg_name; [exact Hp|exact Hs|exact (IH Hl)|]. destruct l; [left; reflexivity|right; eexists; reflexivity].
Qed.
Lemma segments_words s l : segments s l -> Forall (fun p => p <> [] /\ ~ In slash p) l.
Proof. induction 1; [constructor|assumption|constructor; auto]. Qed.
Fixpoint through_b (a : list (pystr * pystr)) (k : pystr) (l : list pystr) : bool :=
  match a, l with
  | [], p :: _ => str_eqb p k
  | h :: a', p :: l' => spellb p h && through_b a' k l'
  | _, [] => false
  end.
Definition rewriter (a : list (pystr * pystr)) (k k' : pystr) (s : pystr) : pystr :=
  match s with
  | c :: r => if N.eqb c 35 && through_b a k (parts_of r) then u "#" ++ joined (segs k k' (Some a) (parts_of r)) else s
  | [] => s
  end.
Lemma through_b_iff a k : forall l, through_b a k l = true <-> through a k l.
Proof.
  induction a as [|h a IH]; intros [|p l]; cbn [through_b].
  - split; [discriminate|]. intros (names & rest & H & _). destruct names; discriminate H.
  - rewrite str_eqb_eq. split; [intros ->; exists [], l; split; [reflexivity|constructor]|]. intros (names & rest & H & Hn). inversion Hn; subst. injection H as -> _. reflexivity.
  - split; [discriminate|]. intros (names & rest & H & _). destruct names; discriminate H.
  - rewrite andb_true_iff, IH, spellb_iff. split.
    + intros [Hp (names & rest & -> & Hn)]. exists (p :: names), rest. split; [reflexivity|constructor; assumption].
    + intros (names & rest & H & Hn). inversion Hn as [|q ? names' ? Hq Hr]; subst. injection H as -> ->. split; [exact Hq|]. exists names', rest. auto.
Qed.
(** Such a rewriting always exists. *)
Theorem c73_rewriter a k k' : k' <> [] -> ~ In slash k' -> rewrites a k k' (rewriter a k k').
Proof.
  intros Hk Hk'. split.
  - intros s Hs. destruct s as [|c r]; [reflexivity|]. cbn [rewriter]. destruct (N.eqb c 35) eqn:E; [|reflexivity]. apply N.eqb_eq in E. subst c. exfalso. apply Hs. exists r. reflexivity.
  - intros r l Hl. assert (Hp := segments_parts _ _ Hl). change (u "#" ++ r) with (35%N :: r). cbn [rewriter]. rewrite Hp, N.eqb_refl. cbn [andb].
    destruct (through_b a k l) eqn:E.
    + apply through_b_iff in E. destruct E as (names & rest & -> & Hn). rewrite segs_through by exact Hn. exists (joined (names ++ k' :: rest)), (names ++ k' :: rest). split; [reflexivity|]. split.
      * apply segments_joined. apply segments_words in Hl. apply Forall_app in Hl as [H1 H2]. inversion H2; subst. apply Forall_app. split; [exact H1|]. constructor; auto.
      * split; [intros _; eauto|]. intros Hc. exfalso. apply Hc. exists names, rest. auto.
    + exists r, l. split; [reflexivity|]. split; [exact Hl|]. split; [|reflexivity]. intros Hc. apply through_b_iff in Hc. congruence.
Qed.

(** ** The theorems *)
(** Every resolution keeps its object, up to the renaming. *)
Theorem c73_resolves f a k k' d doc s o l : trail doc a d -> ~ In k' (map fst d) -> rewrites a k k' f -> ends_at doc s o l ->
  exists o' l', ends_at (renamed_document f a k k' doc) (f s) o' l' /\ type_name o' = type_name o
    /\ (through a k l -> exists names rest, l = names ++ k :: rest /\ Forall2 spelled names a /\ l' = names ++ k' :: rest)
    /\ (~ through a k l -> l' = l).
Proof.
  intros Ht Hn Hf He. destruct (ends_fwd f a k k' d doc Hn Ht Hf s o l He) as (o' & He' & Ho). exists o', (segs k k' (Some a) l). split; [exact He'|]. split; [exact Ho|]. split.
  - intros (names & rest & -> & Hs). exists names, rest. rewrite segs_through by exact Hs. auto.
  - intros Hc. apply segs_other. exact Hc.
Qed.
Definition avoids (a : list (pystr * pystr)) (k' : pystr) (doc : pv) : Prop :=
  forall r s, within r doc -> is_reference r s -> forall q l, s = u "#" ++ q -> segments q l -> ~ through a k' l.
Lemma location_expected E v doc pos p p' r s k' : parse E T_AsyncAPI3 v = Some doc -> no_objects v ->
  (forall q, keys_above_references doc q -> ordinary E q) -> ordinary E k' ->
  route doc pos p r -> is_reference r s -> renamed p p' -> (forall q, In q (keys_of p') -> In q (keys_of p) \/ q = k') ->
  expected E (u "spec" ++ flat_map step_text p) = expected E (u "spec" ++ flat_map step_text p').
Proof.
  intros Hp Hno Ho Hk' Hr Hs Hre Hks. assert (HinA : In T_AsyncAPI3 all_types) by (apply Linked.find_class_In; vm_compute; reflexivity).
  destruct (canon_route E _ (linked_all _ HinA) (wf_all _ HinA) root_refs_placed root_no_ref_dicts _ (document_canon _ _ _ Hp Hno) _ _ _ _ Hr Hs) as [Hlo|[D Hlo]].
  - exfalso. apply opos_complete in Hlo. exact Hlo.
  - apply (c33_renaming_partial E p p' D Hlo Hre). intros q Hq.
    assert (Hpk : forall q, In q (keys_of p) -> ordinary E q) by (intros z Hz; apply Ho; exists pos, p, r, s; auto).
    apply in_app_or in Hq as [Hq|Hq]; [auto|]. destruct (Hks q Hq) as [H| ->]; [auto|exact Hk'].
Qed.
(** An accepted document stays accepted (keys that look like the path syntax of the validator excepted, see [c73_ordinary_needed]). *)
Theorem c73_accepts E v doc f a k k' d : parse E T_AsyncAPI3 v = Some doc -> no_objects v -> no_root_keyword doc ->
  trail doc a d -> ~ In k' (map fst d) -> rewrites a k k' f ->
  (forall q, keys_above_references doc q -> ordinary E q) -> ordinary E k' ->
  unified E doc = None -> unified E (renamed_document f a k k' doc) = None.
Proof.
  intros Hp Hno Hnr Ht Hn Hf Ho Hk' Hu. apply (c28_accepts_iff E _ (no_root_image f k k' a doc Hnr)). intros pos path r' s' Hr' Hs'.
  apply reached_route in Hr' as (p' & Hr' & ->).
  destruct (route_bwd f k k' _ _ _ _ Hr' (Some a) doc s' (or_introl eq_refl) Hs') as (p & r & s & Hr & Hs & -> & Hre & Hks).
  assert (He := location_expected E v doc pos p p' r s k' Hp Hno Ho Hk' Hr Hs Hre Hks).
  destruct (proj1 (c28_accepts_iff E doc Hnr) Hu _ _ _ _ (route_reached _ _ _ _ Hr) Hs) as [(n & t & Hh & Hx)|(o & l & tys & Hend & Hty & Hin)].
  - left. exists n, (f t). exact (external_fwd f a k k' d doc Hn Ht Hf n s t Hh Hx).
  - right. destruct (ends_fwd f a k k' d doc Hn Ht Hf s o l Hend) as (o' & Hend' & Hname). exists o', (segs k k' (Some a) l), tys.
    split; [exact Hend'|]. split; [rewrite <- He; exact Hty|]. rewrite Hname. exact Hin.
Qed.
(** A rejected document stays rejected unless a reference already leads through the new name. *)
Theorem c73_rejects E v doc f a k k' d : parse E T_AsyncAPI3 v = Some doc -> no_objects v -> no_root_keyword doc ->
  trail doc a d -> ~ In k' (map fst d) -> rewrites a k k' f -> avoids a k' doc ->
  (forall q, keys_above_references doc q -> ordinary E q) -> ordinary E k' ->
  unified E (renamed_document f a k k' doc) = None -> unified E doc = None.
Proof.
  intros Hp Hno Hnr Ht Hn Hf Hav Ho Hk' Hu. apply (c28_accepts_iff E _ Hnr). intros pos path r s Hr Hs.
  apply reached_route in Hr as (p & Hr & ->). assert (Hfree : free a k' s) by (intros q l; apply (Hav r s (route_within _ _ _ _ Hr) Hs)).
  destruct (route_fwd f k k' _ _ _ _ Hr (Some a) _ s (or_introl eq_refl) Hs) as (p' & r' & Hr' & Hs' & Hre & Hks).
  assert (He := location_expected E v doc pos p p' r s k' Hp Hno Ho Hk' Hr Hs Hre Hks).
  destruct (proj1 (c28_accepts_iff E _ (no_root_image f k k' a doc Hnr)) Hu _ _ _ _ (route_reached _ _ _ _ Hr') Hs') as [(n & t & Hh & Hx)|(o & l & tys & Hend & Hty & Hin)].
  - left. destruct (hops_bwd f a k k' d doc Hn Ht Hf Hav n s t Hfree Hh) as (t0 & Ht0 & -> & _). exists n, t0. split; [exact Ht0|]. apply (external_f f a k k' Hf). exact Hx.
  - right. destruct (ends_bwd f a k k' d doc Hn Ht Hf Hav s o l Hfree Hend) as (o0 & l0 & Hend0 & Hname & _). exists o0, l0, tys.
    split; [exact Hend0|]. split; [rewrite He; exact Hty|]. rewrite <- Hname. exact Hin.
Qed.

(** ** Cases *)
Definition by_name (n : pystr) (fs : list (finfo * ty)) : option (finfo * ty) := find (fun ft => str_eqb (f_name (fst ft)) n) fs.
Lemma by_name_in n fs fi t : by_name n fs = Some (fi, t) -> In (fi, t) fs /\ f_name fi = n.
Proof. intros H. apply find_some in H as [Hin Hn]. cbn [fst] in Hn. apply str_eqb_eq in Hn. auto. Qed.
Section Find.
  Context (look : pystr -> string -> option (finfo * ty)) (Hlook : forall n c fi t, look n c = Some (fi, t) -> In (fi, t) (class_fields c) /\ f_name fi = n).
  Fixpoint find_trail_with (ns : list pystr) (v : pv) : option (list (pystr * pystr) * fields) :=
    match ns, v with
    | [], VRoot _ d => Some ([], d)
    | n :: ns', VObj c fv _ =>
        match look n c, assoc n fv with
        | Some (fi, _), Some x => match find_trail_with ns' x with Some (a, d) => Some ((f_name fi, f_alias fi) :: a, d) | None => None end
        | _, _ => None end
    | n :: ns', VRoot _ d0 => match assoc n d0 with Some x => match find_trail_with ns' x with Some (a, d) => Some ((n, n) :: a, d) | None => None end | None => None end
    | _, _ => None
    end.
  Lemma find_trail_with_sound ns : forall v a d, find_trail_with ns v = Some (a, d) -> trail v a d.
  Proof.
    induction ns as [|n ns IH]; intros v a d H; destruct v; try discriminate H; cbn [find_trail_with] in H.
    - injection H as <- <-. constructor.
    - destruct (look n c) as [[fi t]|] eqn:Ef; [|discriminate H]. apply Hlook in Ef as [Hin Hn].
      destruct (assoc n fs) as [x|] eqn:Ea; [|discriminate H]. destruct (find_trail_with ns x) as [[a0 d0]|] eqn:Et; [|discriminate H]. injection H as <- <-. subst n.
      apply (tr_field c fs ex fi t x a0 d0 Hin Ea). exact (IH _ _ _ Et).
    - destruct (assoc n d0) as [x|] eqn:Ea; [|discriminate H]. destruct (find_trail_with ns x) as [[a0 d1]|] eqn:Et; [|discriminate H]. injection H as <- <-.
      econstructor; [exact Ea|exact (IH _ _ _ Et)].
  Qed.
End Find.
Definition find_trail : list pystr -> pv -> option (list (pystr * pystr) * fields) := find_trail_with (fun n c => by_name n (class_fields c)).
Lemma find_trail_sound ns v a d : find_trail ns v = Some (a, d) -> trail v a d.
Proof. exact (find_trail_with_sound _ (fun n c fi t => by_name_in n (class_fields c) fi t) ns v a d). Qed.
Fixpoint map_keys (v : pv) : list pystr :=
  match v with
  | VList l => flat_map map_keys l
  | VDict d | VRoot _ d => map fst d ++ flat_map (fun kv => match kv with (_, x) => map_keys x end) d
  | VObj _ fv _ => flat_map (fun kv => match kv with (_, x) => map_keys x end) fv
  | _ => []
  end.
Lemma route_keys v pos p r : route v pos p r -> forall q, In q (keys_of p) -> In q (map_keys v).
Proof.
  induction 1 as [v|v i st w pos p x Hst _ IH]; intros q Hq; [destruct Hq|]. cbn [keys_of flat_map] in Hq.
  destruct Hst as [l i y Hn|d i z y Hn|c d i z y Hn|c fv ex i z y Hn _ _ _]; apply nth_error_In in Hn; cbn [step_keys app] in Hq; cbn [map_keys].
  - apply in_flat_map. exists y. auto.
  - destruct Hq as [<-|Hq]; apply in_or_app; [left; apply in_map_iff; exists (z, y); auto|right; apply in_flat_map; exists (z, y); auto].
  - destruct Hq as [<-|Hq]; apply in_or_app; [left; apply in_map_iff; exists (z, y); auto|right; apply in_flat_map; exists (z, y); auto].
  - apply in_flat_map. exists (z, y). auto.
Qed.
Lemma keys_dec E doc : forallb ordinary_b (map_keys doc) = true -> forall q, keys_above_references doc q -> ordinary E q.
Proof. intros H q (pos & p & r & s & Hr & _ & Hq). rewrite forallb_forall in H. apply ordinary_dec, H. exact (route_keys _ _ _ _ Hr _ Hq). Qed.
Lemma avoids_dec a k' doc : forallb (fun s => negb (through_b a k' (parts_of (tl s)))) (reference_strings doc) = true -> avoids a k' doc.
Proof.
  intros H r s Hw Hs q l -> Hl Ht. rewrite forallb_forall in H. apply as_reference_iff in Hs. specialize (H _ (within_references _ _ _ Hw Hs)). cbv beta in H.
  change (tl (u "#" ++ q)) with q in H. rewrite (segments_parts _ _ Hl) in H. apply through_b_iff in Ht. rewrite Ht in H. discriminate H.
Qed.
Local Open Scope string_scope.
Definition way_channels : list (pystr * pystr) := [(u "channels", u "channels")].
Definition way_schemes : list (pystr * pystr) := [(u "components", u "components"); (u "security_schemes", u "securitySchemes")].
(** Renaming the channel "c1" to "first", and the security scheme "k" to "key-2"; two references go through the
    first, one through the second, which is spelled by its alias. *)
Definition docU_renamed : pv :=
  spec [("channels", obj [("first", obj [("address", str "a"); ("messages", obj [("m_1", ref "#/components/messages/m")]);
                                      ("servers", VList [ref "#/servers/s"])]);
                          ("c2", ref "#/channels/first"); ("c3", ref "https://e.org/c")]);
        ("servers", obj [("s", obj [("host", str "h"); ("protocol", str "kafka"); ("security", VList [ref "#/components/securitySchemes/key-2"])])]);
        ("operations", obj [("o", obj [("action", str "send"); ("channel", ref "#/channels/c2")])]);
        ("components", obj [("messages", obj [("m", obj [("payload", ref "#/components/schemas/x"); ("tags", VList [ref "#/components/tags/t"])])]);
                            ("schemas", obj [("x", obj [("type", str "object")])]);
                            ("securitySchemes", obj [("key-2", obj [("type", str "plain")])]);
                            ("tags", obj [("t", obj [("name", str "n")])])])].
Example c73_ex : exists d d2, trail parsedU way_channels d /\ ~ In (u "first") (map fst d)
  /\ rewrites way_channels (u "c1") (u "first") (rewriter way_channels (u "c1") (u "first")) /\ avoids way_channels (u "first") parsedU
  /\ (forall q, keys_above_references parsedU q -> ordinary E0 q) /\ ordinary E0 (u "first") /\ unified E0 parsedU = None
  /\ let doc1 := renamed_document (rewriter way_channels (u "c1") (u "first")) way_channels (u "c1") (u "first") parsedU in
     trail doc1 way_schemes d2 /\ ~ In (u "key-2") (map fst d2)
     /\ renamed_document (rewriter way_schemes (u "k") (u "key-2")) way_schemes (u "k") (u "key-2") doc1 = load_doc docU_renamed
     /\ parse E0 T_AsyncAPI3 docU_renamed = Some (load_doc docU_renamed) /\ unified E0 (load_doc docU_renamed) = None
     /\ resolve parsedU (u "#/channels/c2") = Resolved (snd (nth 0 d (u "", VNone))) (access_path [u "channels"; u "c1"]).
Proof.
  destruct (find_trail [u "channels"] parsedU) as [[a d]|] eqn:Ed; [|vm_compute in Ed; discriminate Ed].
  destruct (find_trail [u "components"; u "security_schemes"] (renamed_document (rewriter way_channels (u "c1") (u "first")) way_channels (u "c1") (u "first") parsedU)) as [[a2 d2]|] eqn:Ed2;
    [|vm_compute in Ed2; discriminate Ed2].
  assert (Hd := Ed). assert (Hd2 := Ed2). vm_compute in Hd, Hd2.
  exists d, d2. split; [apply (find_trail_sound [u "channels"]); rewrite Ed; f_equal; injection Hd as <- _; reflexivity|].
  split; [injection Hd as _ <-; intros [H|[H|[H|[]]]]; discriminate H|].
  split; [apply c73_rewriter; [discriminate|intros H; cbn in H; repeat (destruct H as [H|H]; [discriminate H|]); destruct H]|].
  split; [apply avoids_dec; vm_compute; reflexivity|]. split; [apply keys_dec; vm_compute; reflexivity|]. split; [apply ordinary_dec; vm_compute; reflexivity|].
  split; [vm_compute; reflexivity|]. cbv zeta.
  split; [apply (find_trail_sound [u "components"; u "security_schemes"]); rewrite Ed2; f_equal; injection Hd2 as <- _; reflexivity|].
  split; [injection Hd2 as _ <-; intros [H|[]]; discriminate H|].
  split; [vm_compute; reflexivity|]. split; [apply load_doc_ok; vm_compute; reflexivity|]. split; [vm_compute; reflexivity|].
  injection Hd as _ <-. vm_compute. reflexivity.
Qed.
(** Without [ordinary]: the channel entry "c", renamed to "root", and the document is rejected ([c33_rejects]). *)
Theorem c73_ordinary_needed : ~ (forall E v doc f a k k' d, parse E T_AsyncAPI3 v = Some doc -> no_objects v -> no_root_keyword doc ->
  trail doc a d -> ~ In k' (map fst d) -> rewrites a k k' f -> avoids a k' doc -> doc_key k' ->
  unified E doc = None -> unified E (renamed_document f a k k' doc) = None).
Proof.
  intros H. destruct (find_trail [u "channels"] (load_doc (doc_named "c"))) as [[a d]|] eqn:Ed; [|vm_compute in Ed; discriminate Ed].
  assert (Hd := Ed). vm_compute in Hd. injection Hd as Ha Hd.
  specialize (H E0 (doc_named "c") (load_doc (doc_named "c")) (rewriter way_channels (u "c") (u "root")) way_channels (u "c") (u "root") d).
  assert (Hu : unified E0 (renamed_document (rewriter way_channels (u "c") (u "root")) way_channels (u "c") (u "root") (load_doc (doc_named "c"))) = Some (u "spec.channels.root.root", UUnknown)) by (vm_compute; reflexivity).
  rewrite Hu in H. enough (Hx : Some (u "spec.channels.root.root", UUnknown) = None) by discriminate Hx. apply H.
  - apply load_doc_ok. vm_compute. reflexivity.
  - apply plain_dec. vm_compute. reflexivity.
  - apply no_root_dec. vm_compute. reflexivity.
  - apply (find_trail_sound [u "channels"]). rewrite Ed, <- Ha. reflexivity.
  - rewrite <- Hd. intros [Hc|[]]. discriminate Hc.
  - apply c73_rewriter; [discriminate|intros Hc; cbn in Hc; repeat (destruct Hc as [Hc|Hc]; [discriminate Hc|]); destruct Hc].
  - apply avoids_dec. vm_compute. reflexivity.
  - apply (key_ok "root"); [vm_compute; reflexivity|discriminate 1].
  - vm_compute. reflexivity.
Qed.
(** Without [avoids]: a dangling reference to "d" is caught by the renaming of "c" to "d". *)
Definition doc_dangling : pv :=
  spec [("channels", obj [("c", obj [("address", str "a")])]); ("operations", obj [("o", obj [("action", str "send"); ("channel", ref "#/channels/d")])])].
Theorem c73_avoids_needed : ~ (forall E v doc f a k k' d, parse E T_AsyncAPI3 v = Some doc -> no_objects v -> no_root_keyword doc ->
  trail doc a d -> ~ In k' (map fst d) -> rewrites a k k' f ->
  (forall q, keys_above_references doc q -> ordinary E q) -> ordinary E k' ->
  unified E (renamed_document f a k k' doc) = None -> unified E doc = None).
Proof.
  intros H. destruct (find_trail [u "channels"] (load_doc doc_dangling)) as [[a d]|] eqn:Ed; [|vm_compute in Ed; discriminate Ed].
  assert (Hd := Ed). vm_compute in Hd. injection Hd as Ha Hd.
  specialize (H E0 doc_dangling (load_doc doc_dangling) (rewriter way_channels (u "c") (u "d")) way_channels (u "c") (u "d") d).
  assert (Hu : unified E0 (load_doc doc_dangling) = Some (u "spec.operations.root.o.channel", UInvalid ENavigate)) by (vm_compute; reflexivity).
  rewrite Hu in H. enough (Hx : Some (u "spec.operations.root.o.channel", UInvalid ENavigate) = None) by discriminate Hx. apply H.
  - apply load_doc_ok. vm_compute. reflexivity.
  - apply plain_dec. vm_compute. reflexivity.
  - apply no_root_dec. vm_compute. reflexivity.
  - apply (find_trail_sound [u "channels"]). rewrite Ed, <- Ha. reflexivity.
  - rewrite <- Hd. intros [Hc|[]]. discriminate Hc.
  - apply c73_rewriter; [discriminate|intros Hc; cbn in Hc; repeat (destruct Hc as [Hc|Hc]; [discriminate Hc|]); destruct Hc].
  - apply keys_dec. vm_compute. reflexivity.
  - apply ordinary_dec. vm_compute. reflexivity.
  - vm_compute. reflexivity.
Qed.
