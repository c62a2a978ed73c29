(** C72, continued: what the item edits of a processor do to the document, and what they tell the processor. *)
From Verif Require Import PyStr Value Types Rules Pydantic ClassTable Classes Linked State Resolve Unified Validators Pipeline Reentry
  SpecParse SpecState SpecReentry ProofState Sample PropUnified.
Local Open Scope string_scope.
Local Open Scope list_scope.

(** ** Vocabulary *)
(** The part at [p] is a map or a dictionary with these entries. *)
Definition entries_at (doc : pv) (p : list pstep) (d : fields) : Prop := get_path p doc = Some (VDict d) \/ exists c, get_path p doc = Some (VRoot c d).
(** Two paths part: neither leads to a part of the other. *)
Definition apart_paths (p q : list pstep) : Prop := exists r s t p' q', p = r ++ s :: p' /\ q = r ++ t :: q' /\ s <> t.
(** The documents are the same at every path that parts from [p], and [p] leads from one class of container to the same. *)
Definition same_beside (p : list pstep) (doc doc' : pv) : Prop := forall q, apart_paths p q -> get_path q doc' = get_path q doc.

Lemma upd_key_None f k (d : fields) : upd_key f k d = None <-> match assoc k d with Some x => f x = None | None => True end.
Proof.
  induction d as [|[k' x] d IH]; cbn [upd_key assoc]; [tauto|]. destruct (str_eqb k k').
  - destruct (f x); cbn [option_map]; split; intros H; first [discriminate H|reflexivity].
  - rewrite <- IH. destruct (upd_key f k d); cbn [option_map]; split; intros H; first [discriminate H|reflexivity].
Qed.
Lemma upd_key_Some f k (d : fields) b d' : upd_key f k d = Some (b, d') -> exists x y, assoc k d = Some x /\ f x = Some (b, y) /\ assoc k d' = Some y
  /\ (forall j, j <> k -> assoc j d' = assoc j d).
Proof.
  revert d'. induction d as [|[k' x] d IH]; intros d' H; cbn [upd_key assoc] in *; [discriminate H|]. destruct (str_eqb k k') eqn:Ek.
  - apply str_eqb_eq in Ek. subst k'. destruct (f x) as [[b0 y]|] eqn:Ef; [|discriminate H]. cbn [option_map fst snd] in H. injection H as <- <-. exists x, y.
    split; [reflexivity|]. split; [exact Ef|]. split; [cbn [assoc]; rewrite str_eqb_refl; reflexivity|]. intros j Hj. cbn [assoc]. destruct (str_eqb j k) eqn:Ej; [apply str_eqb_eq in Ej; contradiction|reflexivity].
  - destruct (upd_key f k d) as [[b0 d0]|] eqn:Eu; [|discriminate H]. cbn [option_map fst snd] in H. injection H as <- <-. destruct (IH d0 eq_refl) as (x0 & y & H1 & H2 & H3 & H4).
    exists x0, y. split; [exact H1|]. split; [exact H2|]. split; [cbn [assoc]; rewrite Ek; exact H3|]. intros j Hj. cbn [assoc]. destruct (str_eqb j k'); [reflexivity|auto].
Qed.
Lemma upd_idx_Some f l i b l' : upd_idx f i l = Some (b, l') -> exists x y, nth_error l i = Some x /\ f x = Some (b, y) /\ nth_error l' i = Some y
  /\ (forall j, j <> i -> nth_error l' j = nth_error l j).
Proof.
  revert i l'. induction l as [|x l IH]; intros [|i] l' H; cbn [upd_idx nth_error] in *; try discriminate H.
  - destruct (f x) as [[b0 y]|] eqn:Ef; [|discriminate H]. cbn [option_map fst snd] in H. injection H as <- <-. exists x, y.
    split; [reflexivity|]. split; [exact Ef|]. split; [reflexivity|]. intros [|j] Hj; [contradiction|reflexivity].
  - destruct (upd_idx f i l) as [[b0 l0]|] eqn:Eu; [|discriminate H]. cbn [option_map fst snd] in H. injection H as <- <-. destruct (IH i l0 Eu) as (x0 & y & H1 & H2 & H3 & H4).
    exists x0, y. split; [exact H1|]. split; [exact H2|]. split; [exact H3|]. intros [|j] Hj; [reflexivity|]. cbn [nth_error]. apply H4. congruence.
Qed.
Lemma upd_idx_None f l i : upd_idx f i l = None -> match nth_error l i with Some x => f x = None | None => True end.
Proof.
  revert i. induction l as [|x l IH]; intros [|i] H; cbn [upd_idx nth_error] in *; try exact I.
  - destruct (f x); [discriminate H|reflexivity].
  - apply IH. destruct (upd_idx f i l); [discriminate H|reflexivity].
Qed.
Lemma apart_cons s p q : apart_paths (s :: p) q -> (exists t q', q = t :: q' /\ s <> t) \/ exists q', q = s :: q' /\ apart_paths p q'.
Proof.
  intros (r & a & b & p' & q' & Hp & Hq & Hn). destruct r as [|r0 r]; cbn [app] in *; injection Hp as -> Hp'.
  - left. eauto.
  - right. exists (r ++ b :: q'). split; [exact Hq|]. exists r, a, b, p', q'. auto.
Qed.
(** What [at_path] does: the part is replaced, the rest stays. *)
Lemma at_path_part f : forall p v, match at_path p f v with
  | Some (b, v') => exists o, get_path p v = Some o /\ b = fst (f o) /\ get_path p v' = Some (snd (f o)) /\ same_beside p v v'
  | None => get_path p v = None end.
Proof.
  induction p as [|s p IH]; intros v.
  - cbn [at_path get_path]. destruct (f v) as [b v'] eqn:Ef. exists v. rewrite Ef. split; [reflexivity|]. split; [reflexivity|]. split; [reflexivity|].
    intros q (r & a & b0 & p' & q' & Hp & _). destruct r; discriminate Hp.
  - assert (Hok : forall F (Hf : forall q, get_path (s :: q) v = match F v with Some x => get_path q x | None => None end) v' (Hf' : forall q y, F v' = Some y -> get_path (s :: q) v' = get_path q y) b x y,
      F v = Some x -> at_path p f x = Some (b, y) -> F v' = Some y -> (forall t q, t <> s -> get_path (t :: q) v' = get_path (t :: q) v) ->
      exists o, get_path (s :: p) v = Some o /\ b = fst (f o) /\ get_path (s :: p) v' = Some (snd (f o)) /\ same_beside (s :: p) v v').
    { intros F Hf v' Hf' b x y Hx Ha Hy Ho. specialize (IH x). rewrite Ha in IH. destruct IH as (o & Hg & Hb & Hg' & Hs). exists o. rewrite Hf, Hx.
      split; [exact Hg|]. split; [exact Hb|]. split; [rewrite (Hf' p y Hy); exact Hg'|]. intros q Hq. apply apart_cons in Hq as [(t & q' & -> & Hn)|(q' & -> & Hq)].
      - apply Ho. congruence.
      - rewrite (Hf' q' y Hy), Hf, Hx. exact (Hs q' Hq). }
    assert (Hno : forall x, at_path p f x = None -> get_path p x = None) by (intros x Hx; specialize (IH x); rewrite Hx in IH; exact IH).
    destruct s as [n|n|n|i], v as [| | | | | |l|d|c fv ex|c d| |]; cbn [at_path get_path]; try reflexivity.
    + destruct (upd_key (at_path p f) n fv) as [[b d']|] eqn:Eu; cbn [option_map fst snd].
      * apply upd_key_Some in Eu as (x & y & H1 & H2 & H3 & H4).
        apply (Hok (fun v => match v with VObj _ fv _ => assoc n fv | _ => None end) (fun q => eq_refl) (VObj c d' ex)) with (x := x) (y := y); try assumption.
        -- intros q z Hz. cbn [get_path]. rewrite Hz. reflexivity.
        -- intros [m|m|m|m] q Ht; cbn [get_path]; try reflexivity. rewrite H4 by congruence. reflexivity.
      * apply upd_key_None in Eu. destruct (assoc n fv) as [x|]; [apply Hno; exact Eu|reflexivity].
    + destruct (upd_key (at_path p f) n ex) as [[b d']|] eqn:Eu; cbn [option_map fst snd].
      * apply upd_key_Some in Eu as (x & y & H1 & H2 & H3 & H4).
        apply (Hok (fun v => match v with VObj _ _ ex => assoc n ex | _ => None end) (fun q => eq_refl) (VObj c fv d')) with (x := x) (y := y); try assumption.
        -- intros q z Hz. cbn [get_path]. rewrite Hz. reflexivity.
        -- intros [m|m|m|m] q Ht; cbn [get_path]; try reflexivity. rewrite H4 by congruence. reflexivity.
      * apply upd_key_None in Eu. destruct (assoc n ex) as [x|]; [apply Hno; exact Eu|reflexivity].
    + destruct (upd_key (at_path p f) n d) as [[b d']|] eqn:Eu; cbn [option_map fst snd].
      * apply upd_key_Some in Eu as (x & y & H1 & H2 & H3 & H4).
        apply (Hok (fun v => match v with VDict d => assoc n d | _ => None end) (fun q => eq_refl) (VDict d')) with (x := x) (y := y); try assumption.
        -- intros q z Hz. cbn [get_path]. rewrite Hz. reflexivity.
        -- intros [m|m|m|m] q Ht; cbn [get_path]; try reflexivity. rewrite H4 by congruence. reflexivity.
      * apply upd_key_None in Eu. destruct (assoc n d) as [x|]; [apply Hno; exact Eu|reflexivity].
    + destruct (upd_key (at_path p f) n d) as [[b d']|] eqn:Eu; cbn [option_map fst snd].
      * apply upd_key_Some in Eu as (x & y & H1 & H2 & H3 & H4).
        apply (Hok (fun v => match v with VRoot _ d => assoc n d | _ => None end) (fun q => eq_refl) (VRoot c d')) with (x := x) (y := y); try assumption.
        -- intros q z Hz. cbn [get_path]. rewrite Hz. reflexivity.
        -- intros [m|m|m|m] q Ht; cbn [get_path]; try reflexivity. rewrite H4 by congruence. reflexivity.
      * apply upd_key_None in Eu. destruct (assoc n d) as [x|]; [apply Hno; exact Eu|reflexivity].
    + destruct (upd_idx (at_path p f) i l) as [[b d']|] eqn:Eu; cbn [option_map fst snd].
      * apply upd_idx_Some in Eu as (x & y & H1 & H2 & H3 & H4).
        apply (Hok (fun v => match v with VList l => nth_error l i | _ => None end) (fun q => eq_refl) (VList d')) with (x := x) (y := y); try assumption.
        -- intros q z Hz. cbn [get_path]. rewrite Hz. reflexivity.
        -- intros [m|m|m|m] q Ht; cbn [get_path]; try reflexivity. rewrite H4 by congruence. reflexivity.
      * apply upd_idx_None in Eu. destruct (nth_error l i) as [x|]; [apply Hno; exact Eu|reflexivity].
Qed.

Lemma at_path_stays f b : forall p v o, get_path p v = Some o -> f o = (b, o) -> at_path p f v = Some (b, v).
Proof.
  assert (Hk : forall F k (d : fields) x, assoc k d = Some x -> F x = Some (b, x) -> upd_key F k d = Some (b, d)).
  { intros F k. induction d as [|[k' y] d IH]; intros x Hx Hf; cbn [assoc upd_key] in *; [discriminate Hx|].
    destruct (str_eqb k k'); [injection Hx as ->; rewrite Hf; reflexivity|]. rewrite (IH x Hx Hf). reflexivity. }
  assert (Hi : forall F l i x, nth_error l i = Some x -> F x = Some (b, x) -> upd_idx F i l = Some (b, l)).
  { intros F. induction l as [|y l IH]; intros [|i] x Hx Hf; cbn [nth_error upd_idx] in *; try discriminate Hx; [injection Hx as ->; rewrite Hf; reflexivity|]. rewrite (IH i x Hx Hf). reflexivity. }
  induction p as [|s p IH]; intros v o Hg Hf; cbn [get_path at_path] in *; [injection Hg as ->; rewrite Hf; reflexivity|].
  destruct s as [n|n|n|i], v as [| | | | | |l|d|c fv ex|c d| |]; try discriminate Hg.
  - destruct (assoc n fv) as [x|] eqn:Ea; [|discriminate Hg]. rewrite (Hk _ _ _ x Ea (IH x o Hg Hf)). reflexivity.
  - destruct (assoc n ex) as [x|] eqn:Ea; [|discriminate Hg]. rewrite (Hk _ _ _ x Ea (IH x o Hg Hf)). reflexivity.
  - destruct (assoc n d) as [x|] eqn:Ea; [|discriminate Hg]. rewrite (Hk _ _ _ x Ea (IH x o Hg Hf)). reflexivity.
  - destruct (assoc n d) as [x|] eqn:Ea; [|discriminate Hg]. rewrite (Hk _ _ _ x Ea (IH x o Hg Hf)). reflexivity.
  - destruct (nth_error l i) as [x|] eqn:Ea; [|discriminate Hg]. rewrite (Hi _ _ _ x Ea (IH x o Hg Hf)). reflexivity.
Qed.

(** ** The edits *)
(** spec.<path>[k] = w: always done, any key, any value; the other entries and the order of the keys stay, a new key comes last. *)
Theorem c72_set_item E p k w doc d : entries_at doc p d -> exists doc' d', inside E (SetItem p k w) doc = (true, doc') /\ entries_at doc' p d'
  /\ assoc k d' = Some w /\ (forall j, j <> k -> assoc j d' = assoc j d) /\ map fst d' = (if mem_str k (map fst d) then map fst d else map fst d ++ [k]) /\ same_beside p doc doc'.
Proof.
  intros Hd. unfold inside. assert (H := at_path_part (item (RSet k w)) p doc). destruct (at_path p (item (RSet k w)) doc) as [[b doc']|].
  2:{ exfalso. destruct Hd as [Hd|(c & Hd)]; congruence. }
  destruct H as (o & Hg & -> & Hg' & Hs). exists doc', (dict_set k w d). cbn [or_missing].
  assert (Ho : o = VDict d \/ exists c, o = VRoot c d) by (destruct Hd as [Hd|(c & Hd)]; rewrite Hd in Hg; injection Hg as <-; eauto).
  split; [|split; [|split; [|split; [|split; [|exact Hs]]]]].
  - destruct Ho as [->|(c & ->)]; reflexivity.
  - destruct Ho as [->|(c & ->)]; cbn [item root_step snd] in Hg'; [left; exact Hg'|right; eauto].
  - rewrite assoc_dict_set, str_eqb_refl. reflexivity.
  - intros j Hj. rewrite assoc_dict_set. destruct (str_eqb j k) eqn:Ej; [apply str_eqb_eq in Ej; contradiction|reflexivity].
  - rewrite dict_set_keys. destruct (has_key k d) eqn:Eh, (mem_str k (map fst d)) eqn:Em; try reflexivity.
    + apply has_key_iff in Eh. apply mem_str_In in Eh. congruence.
    + apply mem_str_In, has_key_iff in Em. congruence.
Qed.
(** del spec.<path>[k]: done when the key is there, and the other entries stay; otherwise the processor sees a KeyError and nothing has changed. *)
Theorem c72_del_item E p k doc d : entries_at doc p d -> NoDup (map fst d) ->
  (In k (map fst d) -> exists doc' d', inside E (DelItem p k) doc = (true, doc') /\ entries_at doc' p d'
     /\ assoc k d' = None /\ (forall j, j <> k -> assoc j d' = assoc j d) /\ same_beside p doc doc')
  /\ (~ In k (map fst d) -> inside E (DelItem p k) doc = (false, doc)).
Proof.
  intros Hd Hnd. unfold inside. assert (H := at_path_part (item (RDel k)) p doc). destruct (at_path p (item (RDel k)) doc) as [[b doc']|] eqn:Hat.
  2:{ exfalso. destruct Hd as [Hd|(c & Hd)]; congruence. }
  destruct H as (o & Hg & Hb & Hg' & Hs). cbn [or_missing fst snd].
  assert (Ho : o = VDict d \/ exists c, o = VRoot c d) by (destruct Hd as [Hd|(c & Hd)]; rewrite Hd in Hg; injection Hg as <-; eauto).
  split; intros Hk.
  - apply has_key_iff in Hk. exists doc', (dict_del k d).
    assert (Hi : item (RDel k) o = (true, match o with VRoot c _ => VRoot c (dict_del k d) | _ => VDict (dict_del k d) end)) by (destruct Ho as [->|(c & ->)]; cbn [item root_step]; rewrite Hk; reflexivity).
    rewrite Hi in Hb, Hg'. cbn [fst snd] in *. subst b. split; [reflexivity|]. split; [destruct Ho as [->|(c & ->)]; [left; exact Hg'|right; eauto]|].
    split; [rewrite (assoc_dict_del _ _ _ Hnd), str_eqb_refl; reflexivity|]. split; [|exact Hs].
    intros j Hj. rewrite (assoc_dict_del _ _ _ Hnd). destruct (str_eqb j k) eqn:Ej; [apply str_eqb_eq in Ej; contradiction|reflexivity].
  - assert (Hf : has_key k d = false) by (destruct (has_key k d) eqn:Eh; [apply has_key_iff in Eh; contradiction|reflexivity]).
    assert (Hi : item (RDel k) o = (false, o)) by (destruct Ho as [->|(c & ->)]; cbn [item root_step]; rewrite Hf; reflexivity).
    assert (Hp := at_path_stays (item (RDel k)) false p doc o Hg Hi). rewrite Hp in Hat. injection Hat as <- <-. reflexivity.
Qed.
(** On anything that is not a map or a dictionary, or where the path leads nowhere, the processor sees an error and nothing changes. *)
Theorem c72_no_item E p k w doc : (forall d, ~ entries_at doc p d) -> inside E (SetItem p k w) doc = (false, doc) /\ inside E (DelItem p k) doc = (false, doc).
Proof.
  intros Hno. assert (Hi : forall op o, get_path p doc = Some o -> item op o = (false, o)).
  { intros op o Ho. destruct o; try reflexivity; exfalso; [apply (Hno d); left; exact Ho|apply (Hno d); right; eauto]. }
  assert (Hx : forall op, or_missing doc (at_path p (item op) doc) = (false, doc)).
  { intros op. destruct (get_path p doc) as [o|] eqn:Eg.
    - rewrite (at_path_stays (item op) false p doc o Eg (Hi op o eq_refl)). reflexivity.
    - assert (H := at_path_part (item op) p doc). destruct (at_path p (item op) doc) as [[b doc']|]; [|reflexivity]. destruct H as (o & Hg & _). congruence. }
  unfold inside. auto.
Qed.
(** An attribute of a part: the part becomes what the assignment makes of it (C14, C67), the rest stays. *)
Theorem c72_set_attribute E p name w doc o : get_path p doc = Some o ->
  let r := inside E (SetAttr p name w) doc in
  fst r = fst (assign E plain o name w) /\ get_path p (snd r) = Some (snd (assign E plain o name w)) /\ same_beside p doc (snd r).
Proof.
  intros Ho. cbv zeta. unfold inside. assert (H := at_path_part (fun o => assign E plain o name w) p doc). destruct (at_path p _ doc) as [[b doc']|]; [|congruence].
  destruct H as (o' & Hg & -> & Hg' & Hs). rewrite Ho in Hg. injection Hg as <-. cbn [or_missing fst snd]. auto.
Qed.
(** An example: tags of a document with two channels. *)
Definition two_channels : pv := load_doc (spec [("channels", obj [("a", obj [("address", str "x")]); ("b", obj [("address", str "y")])])]).
Example c72_items_ex : exists d, entries_at two_channels [PField (u "channels")] d /\ In (u "a") (map fst d) /\ ~ In (u "c") (map fst d) /\ NoDup (map fst d)
  /\ fst (inside E0 (DelItem [PField (u "channels")] (u "a")) two_channels) = true /\ fst (inside E0 (DelItem [PField (u "channels")] (u "c")) two_channels) = false
  /\ (forall d, ~ entries_at two_channels [PField (u "asyncapi")] d)
  /\ apart_paths [PField (u "channels"); PKey (u "a")] [PField (u "channels"); PKey (u "b")].
Proof.
  eexists. split; [right; eexists; vm_compute; reflexivity|]. split; [left; reflexivity|].
  split; [intros [H|[H|[]]]; discriminate H|]. split; [constructor; [intros [H|[]]; discriminate H|constructor; [intros []|constructor]]|].
  split; [vm_compute; reflexivity|]. split; [vm_compute; reflexivity|]. split; [intros d [H|(c & H)]; vm_compute in H; discriminate H|].
  exists [PField (u "channels")], (PKey (u "a")), (PKey (u "b")), [], []. split; [reflexivity|]. split; [reflexivity|]. intros H. discriminate H.
Qed.
Print Assumptions c72_set_item.
Print Assumptions c72_del_item.
Print Assumptions c72_no_item.
Print Assumptions c72_set_attribute.
Print Assumptions c72_items_ex.
