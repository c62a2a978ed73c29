(** The unified validator on object graphs. *)
From Verif Require Import PyStr Regex Value Types Rules Pydantic ClassTable Classes Canon Fix Linked SpecParse ProofRules ProofParse
  State SpecState ProofState Resolve SpecResolve ProofResolve Unified SpecUnified ProofUnified ProofCheck.

Section Graph.
Variable chk : pystr -> pystr -> option uerror.
Variable h : heap.

(** the loop over the parts *)
Fixpoint gscan (f : pystr * nat -> option (option (pystr * uerror))) (l : list (pystr * nat)) : option (option (pystr * uerror)) :=
  match l with
  | [] => Some None
  | k :: r => match f k with Some None => gscan f r | x => x end
  end.
Lemma gcheck_S f visited n path : gcheck chk h (S f) visited n path =
  if existsb (Nat.eqb n) visited then Some None
  else match node_reference h n with
       | Some s => Some (option_map (fun e => (path, e)) (chk path s))
       | None => gscan (fun tm => gcheck chk h f (n :: visited) (snd tm) (path ++ fst tm)) (parts h n)
       end.
Proof.
  cbn [gcheck]. destruct (existsb (Nat.eqb n) visited); [reflexivity|]. destruct (node_reference h n); [reflexivity|].
  induction (parts h n) as [|[t m] l IH]; [reflexivity|]. cbn [gscan fst snd]. destruct (gcheck chk h f (n :: visited) m (path ++ t)) as [[e|]|]; try reflexivity. exact IH.
Qed.
Lemma gscan_total f l : (forall k, In k l -> exists r, f k = Some r) -> exists r, gscan f l = Some r.
Proof.
  induction l as [|k l IH]; intros H; [eexists; reflexivity|]. cbn [gscan]. destruct (H k (or_introl eq_refl)) as [[e|] ->]; [eexists; reflexivity|].
  apply IH. intros k' Hk. apply H. right. exact Hk.
Qed.
Lemma gscan_ext f g l r : (forall k x, In k l -> f k = Some x -> g k = Some x) -> gscan f l = Some r -> gscan g l = Some r.
Proof.
  induction l as [|k l IH]; intros H Hs; [exact Hs|]. cbn [gscan] in *. destruct (f k) as [[e|]|] eqn:E; [| |discriminate Hs].
  - rewrite (H k _ (or_introl eq_refl) E). exact Hs.
  - rewrite (H k _ (or_introl eq_refl) E). apply IH; [|exact Hs]. intros k' x Hk. apply H. right. exact Hk.
Qed.
Lemma gcheck_mono f : forall visited n path r, gcheck chk h f visited n path = Some r -> forall f', f <= f' -> gcheck chk h f' visited n path = Some r.
Proof.
  induction f as [|f IH]; intros visited n path r H f' Hf; [discriminate H|]. destruct f' as [|f']; [lia|]. rewrite gcheck_S in *.
  destruct (existsb (Nat.eqb n) visited); [exact H|]. destruct (node_reference h n); [exact H|].
  eapply gscan_ext; [|exact H]. intros k x _ Hx. eapply IH; [exact Hx|lia].
Qed.
Lemma existsb_nat n l : existsb (Nat.eqb n) l = true <-> In n l.
Proof. rewrite existsb_exists. split; [intros (x & Hx & E); apply Nat.eqb_eq in E; subst; exact Hx|intros H; exists n; split; [exact H|apply Nat.eqb_refl]]. Qed.
Lemma no_parts n : length h <= n -> parts h n = [].
Proof. intros H. unfold parts, load. rewrite nth_overflow by exact H. reflexivity. Qed.
Lemma bound_NoDup (l : list nat) N : NoDup l -> (forall x, In x l -> x < N) -> length l <= N.
Proof.
  intros H1 H2. rewrite <- (seq_length N 0). apply NoDup_incl_length; [exact H1|]. intros x Hx. apply in_seq. specialize (H2 _ Hx). lia.
Qed.
Lemma gcheck_total f : forall visited n path, NoDup visited -> (forall x, In x visited -> x < length h) -> length h < f + length visited ->
  exists r, gcheck chk h f visited n path = Some r.
Proof.
  induction f as [|f IH]; intros visited n path Hn Hb Hl.
  - exfalso. assert (H := bound_NoDup _ _ Hn Hb). lia.
  - rewrite gcheck_S. destruct (existsb (Nat.eqb n) visited) eqn:Ev; [eexists; reflexivity|]. destruct (node_reference h n); [eexists; reflexivity|].
    apply gscan_total. intros [t m] Hk. cbn [fst snd].
    destruct (le_lt_dec (length h) n) as [Hle|Hlt]; [rewrite no_parts in Hk by exact Hle; contradiction|].
    apply IH; [constructor; [|exact Hn]|intros x [<-|Hx]; auto|cbn [length]; lia].
    intros Hi. apply existsb_nat in Hi. congruence.
Qed.

(** simple walks *)
Inductive simple : list nat -> nat -> pystr -> nat -> Prop :=
| si_here av n : ~ In n av -> simple av n [] n
| si_step av n t m text k : ~ In n av -> node_reference h n = None -> In (t, m) (parts h n) -> simple (n :: av) m text k -> simple av n (t ++ text) k.
Inductive walk : nat -> list (pystr * nat) -> nat -> Prop :=
| wa_here n : walk n [] n
| wa_step n t m l k : node_reference h n = None -> In (t, m) (parts h n) -> walk m l k -> walk n ((t, m) :: l) k.
Lemma walk_suffix n l k : walk n l k -> forall x, In x (map snd l) -> exists l', walk x l' k /\ incl (map snd l') (map snd l) /\ length l' < length l /\
  (NoDup (map snd l) -> ~ In x (map snd l') /\ NoDup (map snd l')).
Proof.
  induction 1 as [n|n t m l k Hn Hi Hw IH]; intros x Hx; [contradiction|]. cbn [map snd] in Hx. destruct Hx as [->|Hx].
  - exists l. split; [exact Hw|]. split; [intros y Hy; right; exact Hy|]. split; [cbn; lia|]. intros Hd. inversion Hd; subst. auto.
  - destruct (IH _ Hx) as (l' & H1 & H2 & H3 & H4). exists l'. split; [exact H1|]. split; [intros y Hy; right; apply H2; exact Hy|]. split; [cbn; lia|].
    intros Hd. inversion Hd; subst. auto.
Qed.
Lemma walk_simplify n l k : walk n l k -> exists l', walk n l' k /\ NoDup (n :: map snd l').
Proof.
  induction 1 as [n|n t m l k Hn Hi Hw IH].
  - exists []. split; [constructor|]. constructor; [intros []|constructor].
  - destruct IH as (l' & Hw' & Hd). destruct (in_dec Nat.eq_dec n (m :: map snd l')) as [Hin|Hni].
    + destruct Hin as [->|Hin]; [exists l'; auto|]. inversion Hd as [|? ? Hm Hd']; subst.
      destruct (walk_suffix _ _ _ Hw' _ Hin) as (l2 & H1 & H2 & _ & H4). exists l2. split; [exact H1|]. destruct (H4 Hd'). constructor; assumption.
    + exists ((t, m) :: l'). split; [apply wa_step; assumption|]. cbn [map snd]. constructor; assumption.
Qed.
Lemma walk_simple n l k : walk n l k -> forall av, NoDup (n :: map snd l) -> (forall x, In x av -> ~ In x (n :: map snd l)) -> simple av n (flat_map fst l) k.
Proof.
  induction 1 as [n|n t m l k Hn Hi Hw IH]; intros av Hd Hav.
  - constructor. intros Hx. exact (Hav _ Hx (or_introl eq_refl)).
  - cbn [flat_map fst map snd] in *. inversion Hd as [|? ? Hni Hd']; subst. apply (si_step av n t m); [intros Hx; exact (Hav _ Hx (or_introl eq_refl))|exact Hn|exact Hi|].
    apply IH; [exact Hd'|]. intros x [<-|Hx]; [exact Hni|]. intros Hx2. apply (Hav _ Hx). right. exact Hx2.
Qed.
Lemma gpath_walk n text k : gpath h n text k -> exists l, walk n l k /\ text = flat_map fst l.
Proof.
  induction 1 as [n|n t m text k Hn Hi Hp IH]; [exists []; split; [constructor|reflexivity]|]. destruct IH as (l & Hw & ->).
  exists ((t, m) :: l). split; [apply wa_step; assumption|reflexivity].
Qed.
Lemma walk_gpath n l k : walk n l k -> gpath h n (flat_map fst l) k.
Proof. induction 1 as [n|n t m l k Hn Hi Hw IH]; [constructor|]. cbn [flat_map fst]. apply (gp_step h n t m); assumption. Qed.
Lemma gscan_none f l : gscan f l = Some None -> forall k, In k l -> f k = Some None.
Proof.
  induction l as [|k l IH]; intros H k' Hk; [contradiction|]. cbn [gscan] in H. destruct (f k) as [[e|]|] eqn:E; try discriminate H.
  destruct Hk as [<-|Hk]; [exact E|apply IH; assumption].
Qed.
Lemma gcheck_covers av n text k : simple av n text k -> forall f path s, gcheck chk h f av n path = Some None -> node_reference h k = Some s -> chk (path ++ text) s = None.
Proof.
  induction 1 as [av n Hn|av n t m text k Hn Hr Hi Hs IH]; intros f path s Hg Hk; (destruct f as [|f]; [discriminate Hg|]); rewrite gcheck_S in Hg.
  - replace (existsb (Nat.eqb n) av) with false in Hg by (symmetry; apply not_true_iff_false; rewrite existsb_nat; exact Hn). rewrite Hk in Hg.
    rewrite app_nil_r. destruct (chk path s); [discriminate Hg|reflexivity].
  - replace (existsb (Nat.eqb n) av) with false in Hg by (symmetry; apply not_true_iff_false; rewrite existsb_nat; exact Hn). rewrite Hr in Hg.
    assert (Hx := gscan_none _ _ Hg _ Hi). cbn [fst snd] in Hx. rewrite app_assoc. eapply IH; eauto.
Qed.
Lemma gscan_some f l e : gscan f l = Some (Some e) -> exists k, In k l /\ f k = Some (Some e).
Proof.
  induction l as [|k l IH]; [discriminate|]. cbn [gscan]. destruct (f k) as [[e'|]|] eqn:E; intros H.
  - injection H as ->. exists k. split; [left; reflexivity|exact E].
  - destruct (IH H) as (k' & Hk & Hf). exists k'. split; [right; exact Hk|exact Hf].
  - discriminate H.
Qed.
Lemma gcheck_error f : forall visited n path p e, gcheck chk h f visited n path = Some (Some (p, e)) ->
  exists text m s, gpath h n text m /\ node_reference h m = Some s /\ p = path ++ text /\ chk p s = Some e.
Proof.
  induction f as [|f IH]; intros visited n path p e H; [discriminate H|]. rewrite gcheck_S in H. destruct (existsb (Nat.eqb n) visited); [discriminate H|].
  destruct (node_reference h n) as [s|] eqn:Er.
  - destruct (chk path s) as [e'|] eqn:Ec; [|discriminate H]. injection H as <- <-. exists [], n, s. rewrite app_nil_r. split; [constructor|auto].
  - apply gscan_some in H as ([t m] & Hi & H). cbn [fst snd] in H. destruct (IH _ _ _ _ _ H) as (text & k & s & Hp & Hk & -> & Hc).
    exists (t ++ text), k, s. split; [apply (gp_step h n t m); assumption|]. split; [exact Hk|]. rewrite app_assoc. auto.
Qed.
End Graph.

(** ** Trees *)
Fixpoint psize (v : pv) : nat :=
  match v with
  | VList l => S (fold_right (fun x n => psize x + n) 0 l)
  | VDict d => S (fold_right (fun kv n => match kv with (_, x) => psize x + n end) 0 d)
  | VRoot _ d => S (S (fold_right (fun kv n => match kv with (_, x) => psize x + n end) 0 d))
  | VObj _ fv ex => S (fold_right (fun kv n => match kv with (_, x) => psize x + n end) 0 fv + fold_right (fun kv n => match kv with (_, x) => psize x + n end) 0 ex)
  | _ => 1
  end.
Lemma psize_in l x : In x l -> psize x <= fold_right (fun x n => psize x + n) 0 l.
Proof. induction l as [|y l IH]; [intros []|]. cbn [fold_right]. intros [->|H]; [lia|]. specialize (IH H). lia. Qed.
Lemma psize_in_d (d : fields) k x : In (k, x) d -> psize x <= fold_right (fun (kv : pystr * pv) n => match kv with (_, x) => psize x + n end) 0 d.
Proof. induction d as [|[k0 y] l IH]; [intros []|]. cbn [fold_right]. intros [H|H]; [injection H as -> ->; lia|]. specialize (IH H). lia. Qed.

Section Tree.
Variable h : heap.
Lemma rel_in (R : nat -> pv -> Prop) d (vs : fields) : Forall2 (fun a b => fst a = fst b /\ R (snd a) (snd b)) d vs -> forall k m, In (k, m) d -> exists x, In (k, x) vs /\ R m x.
Proof.
  induction 1 as [|[k0 m0] [k1 x1] d vs [Hk Hr] H IH]; intros k m Hi; [contradiction|]. cbn [fst snd] in *. destruct Hi as [Hi|Hi].
  - injection Hi as -> ->. subst k1. exists x1. split; [left; reflexivity|exact Hr].
  - destruct (IH _ _ Hi) as (x & Hx & Hrx). exists x. split; [right; exact Hx|exact Hrx].
Qed.
(** the tree below an object is unique *)
Lemma represents_size N : forall v n, psize v < N -> represents h n v -> forall v', represents h n v' -> v = v'.
Proof.
  induction N as [|N IH]; intros v n Hs H v' H'; [lia|].
  assert (Hd : forall d vs vs', fold_right (fun (kv : pystr * pv) n => match kv with (_, x) => psize x + n end) 0 vs < N ->
     Forall2 (fun a b => fst a = fst b /\ represents h (snd a) (snd b)) d vs -> Forall2 (fun a b => fst a = fst b /\ represents h (snd a) (snd b)) d vs' -> vs = vs').
  { intros d vs vs' Hsz Ha. revert vs'. induction Ha as [|[k m] [k1 x] d vs [Hk Hr] Ha IHa]; intros vs' Hb; inversion Hb as [|? [k2 y] ? vs2 [Hk2 Hr2] Hb2]; subst; [reflexivity|].
    cbn [fst snd fold_right] in *. subst k1 k2. f_equal; [f_equal; eapply IH; [|exact Hr|exact Hr2]; lia|apply IHa; [lia|exact Hb2]]. }
  destruct H as [n v Hl Ha|n l vs Hl HF|n d vs Hl HF|n c fv ex fvs exs Hl Hnr HF1 HF2|n c m d vs Hl Hl2 HF];
  destruct H' as [n v0 Hl' Ha'|n l' vs' Hl' HF'|n d' vs' Hl' HF'|n c' fv' ex' fvs' exs' Hl' Hnr' HF1' HF2'|n c' m' d' vs' Hl' Hl2' HF'];
    rewrite Hl in Hl'; try discriminate Hl'.
  - injection Hl' as ->. reflexivity.
  - injection Hl' as <-. f_equal. cbn [psize] in Hs. clear Hl. revert Hs vs' HF'. induction HF as [|m x l vs Hr HF IHf]; intros Hs vs' HF'; inversion HF' as [|? y ? vs2 Hr2 HF2]; subst; [reflexivity|].
    cbn [fold_right] in Hs. f_equal; [eapply IH; [|exact Hr|exact Hr2]; lia|apply IHf; [lia|exact HF2]].
  - injection Hl' as <-. f_equal. cbn [psize] in Hs. eapply Hd; [|exact HF|exact HF']. lia.
  - injection Hl' as <- <- <-. cbn [psize] in Hs. f_equal; eapply Hd; eauto; lia.
  - injection Hl' as -> -> ->. exfalso. exact (Hnr _ eq_refl).
  - injection Hl' as <- <- <-. exfalso. exact (Hnr' _ eq_refl).
  - injection Hl' as <- <-. rewrite Hl2 in Hl2'. injection Hl2' as <-. f_equal. cbn [psize] in Hs. eapply Hd; [|exact HF|exact HF']. lia.
Qed.
Lemma represents_fun n v v' : represents h n v -> represents h n v' -> v = v'.
Proof. intros H. exact (represents_size (S (psize v)) v n (Nat.lt_succ_diag_r _) H v'). Qed.

(** an object on the stack represents a bigger tree *)
Definition above (n N : nat) : Prop := exists v, represents h n v /\ N < psize v.
Lemma above_not n v N : represents h n v -> psize v <= N -> ~ above n N.
Proof. intros Hr Hs (v' & Hr' & Hs'). rewrite (represents_fun _ _ _ Hr Hr') in Hs. lia. Qed.
Lemma represents_atom_str n s : represents h n (VStr s) <-> load h n = NAtom (VStr s).
Proof. split; [intros H; inversion H; assumption|intros H; constructor; [exact H|exact I]]. Qed.
Lemma node_reference_tree n v : represents h n v -> node_reference h n = as_reference v.
Proof.
  intros H. unfold node_reference. destruct H as [n v Hl Ha|n l vs Hl HF|n d vs Hl HF|n c fv ex fvs exs Hl Hnr HF1 HF2|n c m d vs Hl Hl2 HF]; rewrite Hl; try reflexivity.
  - destruct v; try reflexivity; contradiction.
  - cbn [as_reference]. destruct (String.eqb c "Reference"); [|reflexivity].
    clear -HF1. induction HF1 as [|[k m] [k1 x] fv fvs [Hk Hr] HF IH]; [reflexivity|]. cbn [fst snd] in *. subst k1. cbn [assoc]. destruct (str_eqb (u "ref") k); [|exact IH].
    destruct Hr as [n v Hl Ha|n l vs Hl HF'|n d vs Hl HF'|n c0 fv0 ex0 fvs0 exs0 Hl Hnr HF1 HF2|n c0 m d vs Hl Hl2 HF']; rewrite Hl; try reflexivity.
  - cbn [as_reference assoc]. destruct (String.eqb c "Reference"); reflexivity.
Qed.
Lemma is_none_tree n v : represents h n v -> match load h n with NAtom VNone => true | _ => false end = is_none v.
Proof. intros H. destruct H as [n v Hl Ha|n l vs Hl HF|n d vs Hl HF|n c fv ex fvs exs Hl Hnr HF1 HF2|n c m d vs Hl Hl2 HF]; rewrite Hl; try reflexivity. Qed.

Definition matching (p : pystr * nat) (k : kid) : Prop := fst p = fst (snd k) /\ represents h (snd p) (snd (snd k)).
Lemma items_numbered l vs : Forall2 (represents h) l vs -> forall i,
  Forall2 matching (items i l) (map (fun ix => (fst ix, (u "[" ++ str_of_nat (fst ix) ++ u "]", snd ix))) (numbered i vs)).
Proof. induction 1 as [|m x l vs Hr H IH]; intros i; [constructor|]. cbn [items numbered map fst snd]. constructor; [split; [reflexivity|exact Hr]|apply IH]. Qed.
Lemma entries_numbered (f : pystr -> pystr) d (vs : fields) : Forall2 (fun a b => fst a = fst b /\ represents h (snd a) (snd b)) d vs -> forall i,
  Forall2 matching (map (fun kv => (f (fst kv), snd kv)) d) (map (fun ix => (fst ix, (f (fst (snd ix)), snd (snd ix)))) (numbered i vs)).
Proof. induction 1 as [|[k m] [k1 x] d vs [Hk Hr] H IH]; intros i; [constructor|]. cbn [fst snd] in *. subst k1. cbn [numbered map fst snd]. constructor; [split; [reflexivity|exact Hr]|apply IH]. Qed.
Lemma fields_numbered c fv fvs : Forall2 (fun a b => fst a = fst b /\ represents h (snd a) (snd b)) fv fvs -> forall i,
  Forall2 matching
    (map (fun kv => (u "." ++ fst kv, snd kv)) (filter (fun kv => negb (match load h (snd kv) with NAtom VNone => true | _ => false end || excluded c (fst kv))) fv))
    (map (fun ix => (fst ix, (u "." ++ fst (snd ix), snd (snd ix)))) (filter (fun ix => negb (is_none (snd (snd ix)) || excluded c (fst (snd ix)))) (numbered i fvs))).
Proof.
  induction 1 as [|[k m] [k1 x] fv fvs [Hk Hr] H IH]; intros i; [constructor|]. cbn [fst snd] in *. subst k1. cbn [numbered filter fst snd]. rewrite (is_none_tree _ _ Hr).
  destruct (is_none x || excluded c k); cbn [negb]; [apply IH|]. cbn [map fst snd]. constructor; [split; [reflexivity|exact Hr]|apply IH].
Qed.
Lemma scan_tree F (G : kid -> option (pystr * uerror)) ps ks r :
  Forall2 (fun p k => forall r, F p = Some r -> r = G k) ps ks -> gscan F ps = Some r -> r = scan G ks.
Proof.
  intros H. revert r. induction H as [|p k ps ks Hp H IH]; intros r Hs; cbn [gscan scan] in *; [congruence|].
  destruct (F p) as [[e|]|] eqn:Ef; [| |discriminate Hs].
  - rewrite <- (Hp _ eq_refl). congruence.
  - rewrite <- (Hp _ eq_refl). apply IH. exact Hs.
Qed.
End Tree.
Definition no_root_fields (t : ty) : bool := match t with TModel _ _ fs => forallb (fun ft => negb (str_eqb (f_name (fst ft)) (u "root"))) fs | _ => true end.
Lemma no_root_field : forallb no_root_fields all_types = true.
Proof. vm_compute. reflexivity. Qed.
Lemma no_root_gen l c k fs ft : forallb no_root_fields l = true -> find_class c l = Some (k, fs) -> In ft fs -> f_name (fst ft) <> u "root".
Proof.
  intros Hl Hf Hi Hn. apply Linked.find_class_In in Hf. rewrite forallb_forall in Hl. specialize (Hl _ Hf). cbn [no_root_fields] in Hl.
  rewrite forallb_forall in Hl. specialize (Hl _ Hi). rewrite Hn, str_eqb_refl in Hl. discriminate Hl.
Qed.
Lemma class_fields_find c ft : In ft (class_fields c) -> exists k fs, find_class c all_types = Some (k, fs) /\ In ft fs.
Proof. unfold class_fields. generalize (find_class c all_types). intros [[k fs]|] H; [exists k, fs; auto|contradiction]. Qed.
Lemma excluded_root c : excluded c (u "root") = false.
Proof.
  apply excluded_iff. intros fi t Hi Hn. exfalso. apply class_fields_find in Hi as (k & fs & Hf & Hi).
  exact (no_root_gen _ _ _ _ _ no_root_field Hf Hi Hn).
Qed.
Lemma kid_size v i t x : In (i, (t, x)) (kids v) -> psize x < psize v.
Proof.
  destruct v; cbn [kids]; intros H; try contradiction; apply in_map_iff in H as (ix & Heq & H); injection Heq as <- <- <-; cbn [psize].
  - destruct ix as [j y]. apply numbered_in in H as [_ H]. apply nth_error_In, psize_in in H. cbn [snd]. lia.
  - destruct ix as [j [k y]]. apply numbered_in in H as [_ H]. apply nth_error_In, psize_in_d in H. cbn [snd]. lia.
  - destruct ix as [j [k y]]. apply filter_In in H as [H _]. apply numbered_in in H as [_ H]. apply nth_error_In, psize_in_d in H. cbn [snd]. lia.
  - destruct ix as [j [k y]]. apply numbered_in in H as [_ H]. apply nth_error_In, psize_in_d in H. cbn [snd]. lia.
Qed.
Lemma Forall2_and_in {X Y} (R : X -> Y -> Prop) (Q : X -> Y -> Prop) a b : Forall2 R a b -> (forall x y, In x a -> In y b -> R x y -> Q x y) -> Forall2 Q a b.
Proof. induction 1 as [|x y a b Hr H IH]; intros Hq; [constructor|]. constructor; [apply Hq; [left; reflexivity|left; reflexivity|exact Hr]|]. apply IH. intros x0 y0 H1 H2. apply Hq; right; assumption. Qed.
Theorem gcheck_tree E doc h f : forall visited n v path r, represents h n v -> (forall a, In a visited -> above h a (psize v)) ->
  gcheck (check_reference E doc) h f visited n path = Some r -> r = check E doc v path.
Proof.
  induction f as [f IH] using lt_wf_ind. intros visited n v path r Hr Hv Hg. destruct f as [|f]; [discriminate Hg|]. rewrite gcheck_S in Hg.
  assert (Hnv : forall n v, represents h n v -> forall vis, (forall a, In a vis -> above h a (psize v)) -> existsb (Nat.eqb n) vis = false).
  { clear. intros n v Hr vis Hv. apply not_true_iff_false. rewrite existsb_nat. intros Hi. exact (above_not h n v _ Hr (le_n _) (Hv _ Hi)). }
  rewrite (Hnv _ _ Hr _ Hv), (node_reference_tree h n v Hr) in Hg. rewrite check_kids. destruct (as_reference v) as [s|] eqn:Es; [congruence|].
  assert (Hstep : forall f', f' <= f -> forall vis path0 ps, Forall2 (matching h) ps (kids v) -> (forall a, In a vis -> forall i t x, In (i, (t, x)) (kids v) -> above h a (psize x)) ->
     forall r0, gscan (fun tm => gcheck (check_reference E doc) h f' vis (snd tm) (path0 ++ fst tm)) ps = Some r0 ->
     r0 = scan (fun k => check E doc (snd (snd k)) (path0 ++ fst (snd k))) (kids v)).
  { intros f' Hf vis path0 ps HF Hvis r0. apply scan_tree. eapply Forall2_and_in; [exact HF|]. intros [t m] [i [t' x]] _ Hk [Ht Hm] r1. cbn [fst snd] in *. subst t'.
    apply IH; [lia|exact Hm|]. intros a Ha. exact (Hvis a Ha _ _ _ Hk). }
  assert (Hvis : forall a, In a (n :: visited) -> forall i t x, In (i, (t, x)) (kids v) -> above h a (psize x)).
  { intros a Ha i t x Hk. apply kid_size in Hk. destruct Ha as [<-|Ha]; [exists v; split; [exact Hr|exact Hk]|]. destruct (Hv a Ha) as (va & Hva & Hs). exists va. split; [exact Hva|lia]. }
  assert (Hr0 := Hr). destruct Hr as [n v Hl Ha|n l vs Hl HF|n d vs Hl HF|n c fv ex fvs exs Hl Hnr HF1 HF2|n c m d vs Hl Hl2 HF].
  - unfold parts in Hg. rewrite Hl in Hg. cbn [gscan] in Hg. destruct v; try contradiction; cbn [kids scan]; congruence.
  - unfold parts in Hg. rewrite Hl in Hg. eapply (Hstep f (le_n _) _ path _ (items_numbered h _ _ HF 0) Hvis). exact Hg.
  - unfold parts in Hg. rewrite Hl in Hg. eapply (Hstep f (le_n _) _ path _ (entries_numbered h (fun k => u "." ++ escape k) _ _ HF 0) Hvis). exact Hg.
  - unfold parts in Hg. rewrite Hl in Hg. eapply (Hstep f (le_n _) _ path _ (fields_numbered h c _ _ HF1 0) Hvis). exact Hg.
  - unfold parts in Hg. rewrite Hl in Hg. cbn [filter fst snd] in Hg. rewrite Hl2, excluded_root in Hg. cbn [orb negb map fst snd gscan] in Hg.
    assert (Hm : represents h m (VDict vs)) by (eapply rp_dict; eauto).
    assert (Hg' : exists f', f = S f' /\ gscan (fun tm => gcheck (check_reference E doc) h f' (m :: n :: visited) (snd tm) ((path ++ u ".root") ++ fst tm)) (parts h m) = Some r).
    { destruct f as [|f']; [discriminate Hg|]. exists f'. split; [reflexivity|]. rewrite gcheck_S in Hg.
      rewrite (Hnv _ _ Hm) in Hg.
      - rewrite (node_reference_tree h m _ Hm) in Hg. cbn [as_reference] in Hg. change (u "." ++ u "root") with (u ".root") in Hg.
        destruct (gscan _ (parts h m)) as [[e|]|]; try discriminate Hg; exact Hg.
      - intros a [<-|Ha]; [exists (VRoot c vs); split; [exact Hr0|cbn [psize]; lia]|]. destruct (Hv a Ha) as (va & Hva & Hs). exists va. split; [exact Hva|]. cbn [psize] in *. lia. }
    destruct Hg' as (f' & -> & Hg'). unfold parts in Hg'. rewrite Hl2 in Hg'.
    rewrite <- (Hstep f' ltac:(lia) (m :: n :: visited) path _ (entries_numbered h (fun k => u ".root." ++ escape k) _ _ HF 0)) with (r0 := r); [reflexivity| |].
    + intros a [<-|Ha]; [|exact (Hvis a Ha)]. intros i t x Hk. exists (VDict vs). split; [exact Hm|]. cbn [kids] in Hk.
      apply in_map_iff in Hk as ([j [k y]] & Heq & Hk). injection Heq as <- <- <-. apply numbered_in in Hk as [_ Hk]. apply nth_error_In, psize_in_d in Hk. cbn [psize snd]. lia.
    + rewrite <- Hg'. clear. induction d as [|[k0 m0] d IHd]; [reflexivity|]. cbn [map fst snd gscan].
      replace ((path ++ u ".root") ++ u "." ++ escape k0) with (path ++ u ".root." ++ escape k0) by (rewrite <- app_assoc; reflexivity).
      destruct (gcheck _ _ _ _ _ _) as [[e|]|]; try reflexivity. exact IHd.
Qed.
