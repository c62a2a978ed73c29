(** Properties C39-C41: processors, as_builder, bundled validators. *)
From Verif Require Import PyStr Regex Value Types Rules Pydantic ClassTable Classes Canon Linked SpecParse Sample ProofRules ProofParse
  State SpecState ProofState PropState Resolve SpecResolve ProofResolve PropResolve Unified SpecUnified ProofUnified ProofCheck PropUnified
  ProofDump Validators SpecValidators ProofValidators PropValidators Pipeline SpecPipeline.
Local Open Scope string_scope.

(** ** Reading the lists *)
Lemma processors_listed doc f l : processors doc f = Some l -> (exists c fv ex v, doc = VObj c fv ex /\ assoc (u f) fv = Some v /\ (v = VNone \/ exists l, v = VList l)) -> listed doc f l.
Proof.
  intros H (c & fv & ex & v & -> & Hv & Hs). exists c, fv, ex. split; [reflexivity|]. unfold processors in H. cbn [getattr] in H. rewrite Hv in H.
  destruct Hs as [->|[l' ->]]; cbn [truthy] in H.
  - injection H as <-. right. auto.
  - left. destruct l'; injection H as <-; exact Hv.
Qed.
Lemma listed_processors doc f l : listed doc f l -> processors doc f = Some l.
Proof.
  intros (c & fv & ex & -> & [H|[H ->]]); unfold processors; cbn [getattr]; rewrite H; cbn [truthy]; [|reflexivity]. destruct l; reflexivity.
Qed.
Lemma typed_listed E doc f : well_typed E T_AsyncAPI3 doc -> f = "extra_converters" \/ f = "extra_validators" -> exists l, listed doc f l /\ processors doc f = Some l.
Proof.
  intros Hwt Hf. unfold T_AsyncAPI3 in Hwt. apply obj_shape in Hwt as (fv & ex & -> & Hwt & _).
  assert (Hx : exists fi, find_field (u f) (class_fields "AsyncAPI3") = Some (fi, TOpt TProcs)) by (destruct Hf as [->| ->]; eexists; vm_compute; reflexivity).
  destruct Hx as (fi & Hx). change (find_field (u f) (class_fields "AsyncAPI3")) with (find_field (u f) (match T_AsyncAPI3 with TModel _ _ fs => fs | _ => [] end)) in Hx.
  destruct (find_typed _ _ _ _ _ _ Hwt Hx) as (x & Ha & Ht).
  assert (Hl : exists l, listed (VObj "AsyncAPI3" fv ex) f l).
  { destruct Ht as [->|(l & -> & _)].
    - exists []. exists "AsyncAPI3", fv, ex. auto.
    - exists l. exists "AsyncAPI3", fv, ex. auto. }
  destruct Hl as (l & Hl). exists l. split; [exact Hl|apply listed_processors; exact Hl].
Qed.

(** ** The loop *)
Lemma state_cons d p d0 b d1 calls : state_after d (Call p d0 b d1 :: calls) = state_after d1 calls.
Proof. unfold state_after. cbn [map c_out last]. destruct (map c_out calls) eqn:E; [reflexivity|]. clear E. revert p0; induction l as [|y l IH]; intros; [reflexivity|apply IH]. Qed.
Lemma state_app d a b : state_after d (a ++ b)%list = state_after (state_after d a) b.
Proof. revert d. induction a as [|[p d0 k d1] a IH]; intros d; [reflexivity|]. cbn [app]. rewrite !state_cons. apply IH. Qed.
Lemma chained_nil d : chained d [].
Proof. intros [|x b] c a H; discriminate H. Qed.
Lemma chained_cons d p ok d1 calls : chained d1 calls -> chained d (Call p d ok d1 :: calls).
Proof.
  intros H [|x b] c a Heq; cbn [app] in Heq; injection Heq as Hx Ha; subst; [reflexivity|]. rewrite state_cons. eapply H. reflexivity.
Qed.
Lemma chained_app d a : forall b, chained d a -> chained (state_after d a) b -> chained d (a ++ b)%list.
Proof.
  intros b Ha Hb bf c af Heq. 
  destruct (le_lt_dec (length a) (length bf)) as [Hle|Hlt].
  - assert (Hx : exists b1, bf = (a ++ b1)%list /\ b = (b1 ++ c :: af)%list).
    { clear Ha Hb. revert bf Hle Heq. induction a as [|y a IH]; intros bf Hle Heq; [exists bf; auto|].
      destruct bf as [|z bf]; cbn in Hle; [lia|]. cbn [app] in Heq. injection Heq as -> Heq. destruct (IH bf ltac:(lia) Heq) as (b1 & -> & ->). exists b1. auto. }
    destruct Hx as (b1 & -> & ->). rewrite state_app. eapply Hb. reflexivity.
  - assert (Hx : exists a1, a = (bf ++ c :: a1)%list).
    { clear Ha Hb. revert bf Hlt Heq. induction a as [|y a IH]; intros bf Hlt Heq; cbn in Hlt; [lia|].
      destruct bf as [|z bf]; cbn [app] in Heq; injection Heq as -> Heq; [exists a; reflexivity|]. cbn in Hlt. destruct (IH bf ltac:(lia) Heq) as (a1 & ->). exists a1. reflexivity. }
    destruct Hx as (a1 & ->). eapply Ha. reflexivity.
Qed.
Definition all_ok (calls : list call) : Prop := forall c, In c calls -> c_ok c = true.
Lemma skipn_nth {X} (l : list X) : forall i, nth_error l i = None -> skipn i l = [].
Proof. intros i H. apply skipn_all2. apply nth_error_None. exact H. Qed.
Lemma skipn_cons {X} (l : list X) : forall i x, nth_error l i = Some x -> skipn i l = x :: skipn (S i) l.
Proof. induction l as [|y l IH]; intros [|i] x H; cbn in H |- *; try discriminate H; [injection H as ->; reflexivity|]. apply IH. exact H. Qed.
Section Stable.
  Context (E : env) (acts : pv -> pv * list pv -> bool -> pv * list pv -> Prop).
  Hypothesis Hwb : well_behaved E acts.
  Lemma loop_spec i doc live calls ok doc' : loop acts i doc live calls ok doc' ->
    chained doc calls /\ real acts calls /\ doc' = state_after doc calls /\ (well_typed E T_AsyncAPI3 doc -> well_typed E T_AsyncAPI3 doc')
    /\ ((ok = true /\ map c_proc calls = skipn i live /\ all_ok calls)
        \/ (ok = false /\ exists before c rest, calls = (before ++ [c])%list /\ all_ok before /\ c_ok c = false /\ skipn i live = (map c_proc calls ++ rest)%list)).
  Proof.
    induction 1 as [i doc live Hn|i doc live p doc1 live1 calls ok doc2 Hn Ha Hl IH|i doc live p doc1 live1 Hn Ha].
    - split; [apply chained_nil|]. split; [intros c []|]. split; [reflexivity|]. split; [auto|]. left. split; [reflexivity|]. split; [|intros c []].
      rewrite skipn_nth by exact Hn. reflexivity.
    - destruct (Hwb _ _ _ _ _ _ Ha) as [-> Ht]. destruct IH as (H1 & H2 & H3 & H4 & H5).
      split; [apply chained_cons; exact H1|]. split; [intros c [<-|Hc]; [cbn; eauto|apply H2; exact Hc]|].
      split; [rewrite state_cons; exact H3|]. split; [auto|]. rewrite (skipn_cons _ _ _ Hn).
      destruct H5 as [(-> & Hm & Ho)|(-> & bf & c & rest & -> & Ho & Hc & Hm)].
      + left. split; [reflexivity|]. split; [cbn [map c_proc]; f_equal; exact Hm|]. intros c [<-|Hc]; [reflexivity|auto].
      + right. split; [reflexivity|]. exists (Call p doc true doc1 :: bf), c, rest. split; [reflexivity|]. split; [intros x [<-|Hx]; [reflexivity|auto]|].
        split; [exact Hc|]. rewrite Hm. reflexivity.
    - destruct (Hwb _ _ _ _ _ _ Ha) as [-> Ht]. split; [apply chained_cons, chained_nil|]. split; [intros c [<-|[]]; cbn; eauto|].
      split; [reflexivity|]. split; [exact Ht|]. right. split; [reflexivity|]. exists [], (Call p doc false doc1), (skipn (S i) live).
      split; [reflexivity|]. split; [intros c []|]. split; [reflexivity|]. rewrite (skipn_cons _ _ _ Hn). reflexivity.
  Qed.
  Lemma firstn_here {X} (a b : list X) : firstn (length a) (a ++ b)%list = a.
  Proof. rewrite firstn_app, Nat.sub_diag, firstn_all. cbn. apply app_nil_r. Qed.
  Lemma run_spec doc calls ok doc' : well_typed E T_AsyncAPI3 doc -> run acts doc calls ok doc' ->
    chained doc calls /\ real acts calls /\ doc' = state_after doc calls /\ well_typed E T_AsyncAPI3 doc' /\
    exists conv, listed doc "extra_converters" conv /\
    ((ok = true /\ all_ok calls /\ exists vals, listed (state_after doc (firstn (length conv) calls)) "extra_validators" vals /\ map c_proc calls = (conv ++ vals)%list)
     \/ (ok = false /\ exists before c rest, calls = (before ++ [c])%list /\ all_ok before /\ c_ok c = false /\
          (conv = (map c_proc calls ++ rest)%list
           \/ (length conv <= length before /\ exists vals, listed (state_after doc (firstn (length conv) calls)) "extra_validators" vals
                /\ conv ++ vals = map c_proc calls ++ rest)%list))).
  Proof.
    intros Hwt H. destruct (typed_listed E doc "extra_converters" Hwt (or_introl eq_refl)) as (conv & Hc & Hp).
    destruct H as [l1 calls1 doc1 l2 calls2 ok doc2 H1 L1 H2 L2|l1 calls1 doc1 H1 L1|H1|l1 calls1 doc1 H1 L1 H2].
    - rewrite Hp in H1. injection H1 as <-. destruct (loop_spec _ _ _ _ _ _ L1) as (C1 & R1 & -> & T1 & [(_ & M1 & O1)|(Hf & _)]); [|discriminate Hf].
      specialize (T1 Hwt). destruct (typed_listed E _ "extra_validators" T1 (or_intror eq_refl)) as (vals & Hv & Hp2). rewrite Hp2 in H2. injection H2 as <-.
      destruct (loop_spec _ _ _ _ _ _ L2) as (C2 & R2 & -> & T2 & Hcase). specialize (T2 T1).
      split; [apply chained_app; assumption|]. split; [intros c Hi; apply in_app_or in Hi as [Hi|Hi]; auto|].
      rewrite state_app. split; [reflexivity|]. split; [exact T2|]. exists conv. split; [exact Hc|]. cbn [skipn] in M1.
      assert (Hlen : length conv = length calls1) by (rewrite <- M1, map_length; reflexivity).
      assert (Hfirst : forall b, firstn (length conv) (calls1 ++ b)%list = calls1) by (intros b; rewrite Hlen; apply firstn_here).
      destruct Hcase as [(-> & M2 & O2)|(-> & bf & c & rest & Heq & O2 & Hcf & M2)]; cbn [skipn] in M2.
      + left. split; [reflexivity|]. split; [intros c Hi; apply in_app_or in Hi as [Hi|Hi]; auto|]. exists vals. rewrite Hfirst. split; [exact Hv|].
        rewrite map_app, M1, M2. reflexivity.
      + right. split; [reflexivity|]. exists (calls1 ++ bf)%list, c, rest. split; [rewrite Heq, app_assoc; reflexivity|].
        split; [intros x Hi; apply in_app_or in Hi as [Hi|Hi]; auto|]. split; [exact Hcf|]. right. split; [rewrite Hlen, app_length; lia|].
        exists vals. rewrite Hfirst. split; [exact Hv|]. rewrite map_app, M1, M2, app_assoc. reflexivity.
    - rewrite Hp in H1. injection H1 as <-. destruct (loop_spec _ _ _ _ _ _ L1) as (C1 & R1 & -> & T1 & [(Hf & _)|(_ & bf & c & rest & Heq & O1 & Hcf & M1)]); [discriminate Hf|].
      split; [exact C1|]. split; [exact R1|]. split; [reflexivity|]. split; [auto|]. exists conv. split; [exact Hc|]. right. split; [reflexivity|].
      exists bf, c, rest. split; [exact Heq|]. split; [exact O1|]. split; [exact Hcf|]. left. exact M1.
    - rewrite Hp in H1. discriminate H1.
    - rewrite Hp in H1. injection H1 as <-. destruct (loop_spec _ _ _ _ _ _ L1) as (_ & _ & -> & T1 & _). specialize (T1 Hwt).
      destruct (typed_listed E _ "extra_validators" T1 (or_intror eq_refl)) as (vals & Hv & Hp2). rewrite Hp2 in H2. discriminate H2.
  Qed.
End Stable.

(** ** C39.  A successful construction: every converter once, in order, then every validator (as listed by the document the converters left)
    once, in order, each on the document left by the previous one, all returning normally. *)
Theorem c39_success E acts v calls doc' : well_behaved E acts -> construct acts E v calls (Some doc') ->
  exists doc conv vals, parse E T_AsyncAPI3 v = Some doc
    /\ listed doc "extra_converters" conv /\ listed (state_after doc (firstn (length conv) calls)) "extra_validators" vals
    /\ map c_proc calls = (conv ++ vals)%list /\ chained doc calls /\ real acts calls /\ (forall c, In c calls -> c_ok c = true)
    /\ doc' = state_after doc calls.
Proof.
  intros Hwb H. inversion H as [|doc calls0 doc1 Hp Hr|]; subst. exists doc.
  destruct (run_spec E acts Hwb _ _ _ _ (parsed_wt _ _ _ Hp) Hr) as (C & R & S & _ & conv & Hc & [(_ & O & vals & Hv & M)|(Hf & _)]); [|discriminate Hf].
  exists conv, vals. repeat (split; [assumption|]). assumption.
Qed.
(** A failed construction of valid data: the calls are an initial part of that sequence, and exactly the last one raised. *)
Theorem c39_failure E acts v doc calls : well_behaved E acts -> parse E T_AsyncAPI3 v = Some doc -> construct acts E v calls None ->
  exists before c rest conv, calls = (before ++ [c])%list /\ (forall b, In b before -> c_ok b = true) /\ c_ok c = false
    /\ chained doc calls /\ real acts calls /\ listed doc "extra_converters" conv
    /\ (conv = (map c_proc calls ++ rest)%list
        \/ (length conv <= length before /\ exists vals, listed (state_after doc (firstn (length conv) calls)) "extra_validators" vals
             /\ conv ++ vals = map c_proc calls ++ rest)%list).
Proof.
  intros Hwb Hp H. inversion H as [Hn| |doc0 calls0 doc1 Hp' Hr]; subst; [rewrite Hp in Hn; discriminate Hn|]. rewrite Hp in Hp'. injection Hp' as <-.
  destruct (run_spec E acts Hwb _ _ _ _ (parsed_wt _ _ _ Hp) Hr) as (C & R & S & _ & conv & Hc & [(Hf & _)|(_ & bf & c & rest & Heq & O & Hcf & M)]); [discriminate Hf|].
  exists bf, c, rest, conv. repeat (split; [assumption|]). assumption.
Qed.
(** Invalid data: nothing runs. *)
Theorem c39_invalid E acts v calls r : parse E T_AsyncAPI3 v = None -> construct acts E v calls r -> calls = [] /\ r = None.
Proof. intros Hn H. inversion H; subst; [auto|congruence|congruence]. Qed.
(** Without processors the document is returned as validated (whatever the runtime). *)
Theorem c39_none E acts v doc calls r : parse E T_AsyncAPI3 v = Some doc -> listed doc "extra_converters" [] -> listed doc "extra_validators" [] ->
  (construct acts E v calls r <-> calls = [] /\ r = Some doc).
Proof.
  intros Hp Hc Hv. apply listed_processors in Hc, Hv.
  assert (Hl : forall c o d, loop acts 0 doc [] c o d <-> c = [] /\ o = true /\ d = doc).
  { intros c o d. split.
    - intros H. inversion H as [i d0 l Hn|i d0 l p d1 l1 cs k d2 Hn|i d0 l p d1 l1 Hn]; subst; [auto|discriminate Hn|discriminate Hn].
    - intros (-> & -> & ->). constructor. reflexivity. }
  split.
  - intros H. inversion H as [Hn|doc0 c0 d1 Hp' Hr|doc0 c0 d1 Hp' Hr]; subst; [rewrite Hp in Hn; discriminate Hn| |]; rewrite Hp in Hp'; injection Hp' as <-;
      inversion Hr as [l1 c1 d2 l2 c2 ok d3 H1 L1 H2 L2|l1 c1 d2 H1 L1|H1|l1 c1 d2 H1 L1 H2]; subst; rewrite Hc in H1; try discriminate H1; injection H1 as <-;
      apply Hl in L1 as (-> & Ho & ->); try discriminate Ho; rewrite Hv in H2; try discriminate H2; injection H2 as <-; apply Hl in L2 as (-> & Ho2 & ->);
      try discriminate Ho2; auto.
  - intros [-> ->]. apply (cs_done acts E v doc [] doc Hp). change (@nil call) with (@nil call ++ [])%list.
    apply (run_both acts doc [] [] doc [] [] true doc Hc); [apply Hl; auto|exact Hv|apply Hl; auto].
Qed.
(** When every call ends, the construction does. *)
Theorem c39_ends E acts v : well_behaved E acts -> total acts -> exists calls r, construct acts E v calls r.
Proof.
  intros Hwb Ht.
  assert (Hl : forall live n i doc, n = length live - i -> exists calls ok doc', loop acts i doc live calls ok doc').
  { intros live n. induction n as [|n IH]; intros i doc Hn.
    - exists [], true, doc. constructor. apply nth_error_None. lia.
    - destruct (nth_error live i) as [p|] eqn:Ei; [|apply nth_error_None in Ei; lia].
      destruct (Ht p (doc, live)) as ([] & [d1 l1] & Ha); destruct (Hwb _ _ _ _ _ _ Ha) as [-> _].
      + destruct (IH (S i) d1 ltac:(lia)) as (cs & ok & d' & H). exists (Call p doc true d1 :: cs), ok, d'. eapply lp_next; eassumption.
      + eexists _, _, _. eapply lp_stop; eassumption. }
  destruct (parse E T_AsyncAPI3 v) as [doc|] eqn:Hp; [|exists [], None; constructor; exact Hp].
  assert (Hr : exists calls ok doc', run acts doc calls ok doc').
  { destruct (processors doc "extra_converters") as [l1|] eqn:E1; [|eexists _, _, _; apply run_bad_converters; exact E1].
    destruct (Hl l1 _ 0 doc eq_refl) as (c1 & [] & d1 & L1); [|eexists _, _, _; eapply run_converter; eassumption].
    destruct (processors d1 "extra_validators") as [l2|] eqn:E2; [|eexists _, _, _; eapply run_bad_validators; eassumption].
    destruct (Hl l2 _ 0 d1 eq_refl) as (c2 & ok & d2 & L2). eexists _, _, _. eapply run_both; eassumption. }
  destruct Hr as (calls & [] & doc' & Hr); eexists _, _; [eapply cs_done|eapply cs_raise]; eassumption.
Qed.
(** Deterministic processors: one outcome. *)
Theorem c39_deterministic E (acts : pv -> pv * list pv -> bool -> pv * list pv -> Prop) v c1 r1 c2 r2 : (forall p s o1 s1 o2 s2, acts p s o1 s1 -> acts p s o2 s2 -> o1 = o2 /\ s1 = s2) ->
  construct acts E v c1 r1 -> construct acts E v c2 r2 -> c1 = c2 /\ r1 = r2.
Proof.
  intros Hd.
  assert (Hl : forall i doc live a x d, loop acts i doc live a x d -> forall b y e, loop acts i doc live b y e -> a = b /\ x = y /\ d = e).
  { induction 1 as [i doc live Hn|i doc live p doc1 live1 calls ok doc2 Hn Ha Hl IH|i doc live p doc1 live1 Hn Ha]; intros b y e H2;
      inversion H2 as [i0 d0 l0 Hn0|i0 d0 l0 p0 d1 l1 cs k d2 Hn0 Ha0 Hl0|i0 d0 l0 p0 d1 l1 Hn0 Ha0]; subst;
      try (rewrite Hn in Hn0; first [discriminate Hn0|injection Hn0 as <-]); auto.
    - destruct (Hd _ _ _ _ _ _ Ha Ha0) as [_ Hs]. injection Hs as <- <-. destruct (IH _ _ _ Hl0) as (-> & -> & ->). auto.
    - destruct (Hd _ _ _ _ _ _ Ha Ha0) as [Hs _]. discriminate Hs.
    - destruct (Hd _ _ _ _ _ _ Ha Ha0) as [Hs _]. discriminate Hs.
    - destruct (Hd _ _ _ _ _ _ Ha Ha0) as [_ Hs]. injection Hs as <- <-. auto. }
  assert (Hr : forall doc a x d, run acts doc a x d -> forall b y e, run acts doc b y e -> a = b /\ x = y /\ d = e).
  { intros doc a x d Hr1 b y e Hr2.
    destruct Hr1 as [l1 calls1 doc1 l2 calls2 ok doc2 H1 L1 H2 L2|l1 calls1 doc1 H1 L1|H1|l1 calls1 doc1 H1 L1 H2];
    inversion Hr2 as [l1' calls1' doc1' l2' calls2' ok' doc2' H1' L1' H2' L2'|l1' calls1' doc1' H1' L1'|H1'|l1' calls1' doc1' H1' L1' H2']; subst;
    rewrite H1 in H1'; try discriminate H1'; try (injection H1' as <-);
    try (destruct (Hl _ _ _ _ _ _ L1 _ _ _ L1') as (? & Hx & ?); try discriminate Hx; subst);
    try (rewrite H2 in H2'; try discriminate H2'; try (injection H2' as <-));
    try (destruct (Hl _ _ _ _ _ _ L2 _ _ _ L2') as (? & ? & ?); subst); auto. }
  intros H1 H2. destruct H1 as [Hp|doc ca da Hp Ha|doc ca da Hp Ha], H2 as [Hp'|doc' cb db Hp' Hb|doc' cb db Hp' Hb];
    rewrite Hp in Hp'; try discriminate Hp'; try (injection Hp' as <-); auto;
    destruct (Hr _ _ _ _ Ha _ _ _ Hb) as (-> & Hx & ->); try discriminate Hx; auto.
Qed.

(** A runtime with two converters that leave a mark and a validator that raises when the mark is missing. *)
Definition mark (k : pystr) (doc : pv) : pv := match doc with VObj c fv ex => VObj c fv (dict_set k (VBool true) ex) | _ => doc end.
Definition marked (k : pystr) (doc : pv) : bool := match doc with VObj _ _ ex => has_key k ex | _ => false end.
Definition sample_proc (n : pystr) (doc : pv) : bool * pv :=
  if str_eqb n (u "A") then (true, mark (u "x-a") doc)
  else if str_eqb n (u "B") then (marked (u "x-a") doc, mark (u "x-b") doc)
  else if str_eqb n (u "CheckB") then (marked (u "x-b") doc, doc)
  else (true, doc).
Definition sample_acts (p : pv) (s : pv * list pv) (ok : bool) (s' : pv * list pv) : Prop :=
  exists n, p = VProc n /\ ok = fst (sample_proc n (fst s)) /\ s' = (snd (sample_proc n (fst s)), snd s).
Definition proc_names (l : list string) : pv := VList (map (fun n => VProc (u n)) l).
Definition docP : pv := spec [("extra_converters", proc_names ["A"; "B"]); ("extra_validators", proc_names ["CheckB"; "Other"])].
Definition docP_bad : pv := spec [("extra_converters", proc_names ["B"; "A"]); ("extra_validators", proc_names ["CheckB"])].
Lemma mark_typed E k doc : str_eqb (u "x-") (firstn 2 k) = true -> well_typed E T_AsyncAPI3 doc -> well_typed E T_AsyncAPI3 (mark k doc).
Proof.
  intros Hk Hwt. unfold T_AsyncAPI3 in *. cbn [well_typed] in Hwt |- *. destruct Hwt as (fv & ex & -> & Hf & Ha & Hb). eexists fv, _.
  split; [reflexivity|]. split; [exact Hf|]. split; [discriminate|]. intros _ fi t Hin Hc. rewrite dict_set_keys in Hc.
  assert (Hx : In (f_name fi) (map fst ex) \/ f_name fi = k) by (destruct (has_key k ex); [auto|apply in_app_or in Hc as [Hc|[Hc|[]]]; auto]).
  clear Hc. destruct Hx as [Hc|Hc]; [exact (Hb eq_refl fi t Hin Hc)|].
  apply str_eqb_eq in Hk. rewrite <- Hc in Hk. clear -Hin Hk. cbn [In] in Hin. repeat (destruct Hin as [Heq|Hin]; [injection Heq as <- _; vm_compute in Hk; discriminate Hk|]). exact Hin.
Qed.
Lemma sample_well_behaved E : well_behaved E sample_acts.
Proof.
  intros p d l ok d' l' (n & -> & -> & Heq). injection Heq as -> ->. split; [reflexivity|]. cbn [fst snd]. unfold sample_proc.
  destruct (str_eqb n (u "A")); [intros; apply mark_typed; [reflexivity|assumption]|].
  destruct (str_eqb n (u "B")); [intros; apply mark_typed; [reflexivity|assumption]|]. destruct (str_eqb n (u "CheckB")); auto.
Qed.
Lemma docP_ok : parse E0 T_AsyncAPI3 docP = Some (load_doc docP).
Proof. apply load_doc_ok. vm_compute. reflexivity. Qed.
Lemma docP_bad_ok : parse E0 T_AsyncAPI3 docP_bad = Some (load_doc docP_bad).
Proof. apply load_doc_ok. vm_compute. reflexivity. Qed.
Ltac acts_as n := exists (u n); split; [reflexivity|split; [reflexivity|reflexivity]].
Example c39_ex : well_behaved E0 sample_acts
  /\ (let d0 := load_doc docP in let d1 := mark (u "x-a") d0 in let d2 := mark (u "x-b") d1 in
      d1 <> d0 /\ d2 <> d1 /\
      construct sample_acts E0 docP [Call (VProc (u "A")) d0 true d1; Call (VProc (u "B")) d1 true d2; Call (VProc (u "CheckB")) d2 true d2;
                                     Call (VProc (u "Other")) d2 true d2] (Some d2))
  /\ (let d0 := load_doc docP_bad in construct sample_acts E0 docP_bad [Call (VProc (u "B")) d0 false (mark (u "x-b") d0)] None).
Proof.
  split; [apply sample_well_behaved|]. split.
  - cbv zeta. split; [vm_compute; discriminate|]. split; [vm_compute; discriminate|].
    apply (cs_done _ _ _ (load_doc docP)); [exact docP_ok|].
    match goal with |- run _ _ [?a; ?b; ?c; ?d] _ _ => change [a; b; c; d] with ([a; b] ++ [c; d])%list end.
    eapply (run_both _ _ _ _ (mark (u "x-b") (mark (u "x-a") (load_doc docP)))); [vm_compute; reflexivity| |vm_compute; reflexivity|].
    + eapply lp_next; [reflexivity|acts_as "A"|]. eapply lp_next; [reflexivity|acts_as "B"|]. apply lp_end. reflexivity.
    + eapply lp_next; [reflexivity|acts_as "CheckB"|]. eapply lp_next; [reflexivity|acts_as "Other"|]. apply lp_end. reflexivity.
  - cbv zeta. eapply cs_raise; [exact docP_bad_ok|]. eapply run_converter; [vm_compute; reflexivity|]. eapply lp_stop; [reflexivity|acts_as "B"].
Qed.

(** ** C41 *)
Definition all_bundled (E : env) (l : list pv) : Prop := forall p, In p l -> exists n, p = VProc n /\ forall doc, bundled E n doc <> None.
(** The 20 names exported by asyncapi3.validators. *)
Theorem c41_bundled_names E : forall n, In n (["UnifiedReferencesValidator"; "TagsRefValidator"; "ExternalDocsRefValidator"] ++ stubs)%list ->
  forall doc, bundled E (u n) doc <> None.
Proof.
  intros n Hn doc. cbn [app] in Hn. repeat (destruct Hn as [<-|Hn]; [unfold bundled; simpl; discriminate|]). destruct Hn.
Qed.
Theorem c41_stubs E : length stubs = 17 /\ forall n, In n stubs -> forall doc, bundled E (u n) doc = Some true.
Proof.
  split; [reflexivity|]. intros n Hn doc. repeat (destruct Hn as [<-|Hn]; [reflexivity|]). destruct Hn.
Qed.
Definition accepts (E : env) (doc p : pv) : Prop := exists n, p = VProc n /\ bundled E n doc = Some true.
Lemma bundled_loop E acts : standard E acts -> forall doc live i calls ok doc', all_bundled E live -> loop acts i doc live calls ok doc' ->
  doc' = doc /\ (forall c, In c calls -> c_in c = doc /\ c_out c = doc) /\ (ok = true <-> forall p, In p (skipn i live) -> accepts E doc p).
Proof.
  intros Hst doc live i calls ok doc' Hall H.
  assert (Hact : forall p d st k, In p live -> acts p (d, live) k st -> st = (d, live) /\ (k = true <-> accepts E d p)).
  { intros p d st k Hp Ha. destruct (Hall p Hp) as (n & -> & Hb). destruct (bundled E n d) as [b|] eqn:Eb; [|destruct (Hb d Eb)].
    apply (Hst n d live k b st Eb) in Ha as [-> ->]. split; [reflexivity|]. unfold accepts. split.
    - intros ->. exists n. auto.
    - intros (m & Hm & Hb'). injection Hm as <-. rewrite Eb in Hb'. injection Hb' as ->. reflexivity. }
  induction H as [i doc live Hn|i doc live p doc1 live1 calls ok doc2 Hn Ha Hl IH|i doc live p doc1 live1 Hn Ha].
  - split; [reflexivity|]. split; [intros c []|]. rewrite skipn_nth by exact Hn. split; [intros _ p []|auto].
  - destruct (Hact p doc _ _ (nth_error_In _ _ Hn) Ha) as [Heq Hacc]. injection Heq as -> ->. destruct (IH Hall Hact) as (-> & Hc & Ho).
    split; [reflexivity|]. split; [intros c [<-|Hi]; [auto|apply Hc; exact Hi]|]. rewrite Ho, (skipn_cons _ _ _ Hn). split.
    + intros Hp q [<-|Hq]; [apply Hacc; reflexivity|auto].
    + intros Hp q Hq. apply Hp. right. exact Hq.
  - destruct (Hact p doc _ _ (nth_error_In _ _ Hn) Ha) as [Heq Hacc]. injection Heq as -> ->. split; [reflexivity|]. split; [intros c [<-|[]]; auto|].
    rewrite (skipn_cons _ _ _ Hn). split; [discriminate|]. intros Hp. apply Hacc. apply Hp. left. reflexivity.
Qed.
(** With bundled processors only (in either list) the document is never changed, and it is returned iff each of them accepts it; so their
    order and repetitions do not matter. *)
Theorem c41_unchanged E acts v doc conv vals calls r : standard E acts -> parse E T_AsyncAPI3 v = Some doc ->
  listed doc "extra_converters" conv -> listed doc "extra_validators" vals -> all_bundled E conv -> all_bundled E vals ->
  construct acts E v calls r ->
  (forall c, In c calls -> c_in c = doc /\ c_out c = doc)
  /\ (r = None \/ r = Some doc)
  /\ (r = Some doc <-> forall p, In p (conv ++ vals)%list -> accepts E doc p).
Proof.
  intros Hst Hp Hc Hv Ac Av H. apply listed_processors in Hc, Hv.
  assert (Hr : forall ok d', run acts doc calls ok d' -> d' = doc /\ (forall c, In c calls -> c_in c = doc /\ c_out c = doc)
     /\ (ok = true <-> forall p, In p (conv ++ vals)%list -> accepts E doc p)).
  { intros ok d' Hr. destruct Hr as [l1 calls1 doc1 l2 calls2 ok doc2 H1 L1 H2 L2|l1 calls1 doc1 H1 L1|H1|l1 calls1 doc1 H1 L1 H2];
      rewrite Hc in H1; try discriminate H1; injection H1 as <-;
      destruct (bundled_loop E acts Hst _ _ _ _ _ _ Ac L1) as (-> & C1 & O1); cbn [skipn] in O1.
    - rewrite Hv in H2. injection H2 as <-. destruct (bundled_loop E acts Hst _ _ _ _ _ _ Av L2) as (-> & C2 & O2). cbn [skipn] in O2.
      split; [reflexivity|]. split; [intros c Hi; apply in_app_or in Hi as [Hi|Hi]; auto|]. rewrite O2. split.
      + intros Ho p Hi. apply in_app_or in Hi as [Hi|Hi]; [apply (proj1 O1 eq_refl p Hi)|auto].
      + intros Ho p Hi. apply Ho. apply in_or_app. auto.
    - split; [reflexivity|]. split; [exact C1|]. split; [discriminate|]. intros Ho. apply O1. intros p Hi. apply Ho. apply in_or_app. auto.
    - rewrite Hv in H2. discriminate H2. }
  inversion H as [Hn|doc0 c0 d1 Hp' Hrun|doc0 c0 d1 Hp' Hrun]; subst; [rewrite Hp in Hn; discriminate Hn| |]; rewrite Hp in Hp'; injection Hp' as <-;
    destruct (Hr _ _ Hrun) as (-> & Hcalls & Ho); (split; [exact Hcalls|]).
  - split; [auto|]. split; [intros _; apply Ho; reflexivity|auto].
  - split; [auto|]. split; [discriminate|]. intros Hx. apply Ho in Hx. discriminate Hx.
Qed.
(** What accepting means for each of them (C28, C35, C37). *)
Theorem c41_accepts E doc : (accepts E doc (VProc (u "UnifiedReferencesValidator")) <-> unified E doc = None)
  /\ (accepts E doc (VProc (u "TagsRefValidator")) <-> snd (tags_validator doc) = None)
  /\ (accepts E doc (VProc (u "ExternalDocsRefValidator")) <-> snd (docs_validator doc) = None).
Proof.
  assert (Hx : forall X (o : option X), Some (returns o) = Some true <-> o = None) by (intros X [x|]; cbn; split; congruence).
  split; [|split]; (split; [intros (n & Hn & Hb); injection Hn as <-; apply Hx; exact Hb|intros Ho; eexists; split; [reflexivity|apply Hx in Ho; exact Ho]]).
Qed.
(** A runtime of the bundled processors. *)
Definition bundled_acts (E : env) (p : pv) (s : pv * list pv) (ok : bool) (s' : pv * list pv) : Prop :=
  match p with
  | VProc n => ok = match bundled E n (fst s) with Some b => b | None => false end /\ s' = s
  | _ => ok = false /\ s' = s
  end.
Lemma bundled_standard E : standard E (bundled_acts E).
Proof. intros n doc live ok b st Hb. unfold bundled_acts. cbn [fst]. rewrite Hb. tauto. Qed.
Definition docB : pv := spec [("channels", obj [("c", obj [("tags", VList [ref "#/components/tags/gone"])])]);
  ("extra_converters", proc_names ["ServersRefValidator"]); ("extra_validators", proc_names ["ExternalDocsRefValidator"; "TagsRefValidator"; "UnifiedReferencesValidator"])].
Example c41_ex : exists conv vals, parse E0 T_AsyncAPI3 docB = Some (load_doc docB) /\ listed (load_doc docB) "extra_converters" conv
  /\ listed (load_doc docB) "extra_validators" vals /\ all_bundled E0 conv /\ all_bundled E0 vals
  /\ accepts E0 (load_doc docB) (VProc (u "ExternalDocsRefValidator")) /\ ~ accepts E0 (load_doc docB) (VProc (u "TagsRefValidator"))
  /\ exists calls, length calls = 3 /\ construct (bundled_acts E0) E0 docB calls None.
Proof.
  exists (map (fun n => VProc (u n)) ["ServersRefValidator"]), (map (fun n => VProc (u n)) ["ExternalDocsRefValidator"; "TagsRefValidator"; "UnifiedReferencesValidator"]).
  assert (Hp : parse E0 T_AsyncAPI3 docB = Some (load_doc docB)) by (apply load_doc_ok; vm_compute; reflexivity).
  split; [exact Hp|].
  split; [eexists _, _, _; split; [vm_compute; reflexivity|left; vm_compute; reflexivity]|].
  split; [eexists _, _, _; split; [vm_compute; reflexivity|left; vm_compute; reflexivity]|].
  split; [intros p [<-|[]]; eexists; split; [reflexivity|apply c41_bundled_names; cbn; tauto]|].
  split; [intros p [<-|[<-|[<-|[]]]]; eexists; (split; [reflexivity|apply c41_bundled_names; cbn; tauto])|].
  split; [apply c41_accepts; vm_compute; reflexivity|].
  split; [intros H; apply c41_accepts in H; vm_compute in H; discriminate H|].
  eexists. split; [|eapply cs_raise; [exact Hp|]].
  2:{ eapply (run_both _ _ _ _ (load_doc docB)); [vm_compute; reflexivity| |vm_compute; reflexivity|].
      - eapply lp_next; [reflexivity|apply bundled_standard with (b := true); [vm_compute; reflexivity|auto]|]. apply lp_end. reflexivity.
      - eapply lp_next; [reflexivity|apply bundled_standard with (b := true); [vm_compute; reflexivity|auto]|].
        eapply lp_stop; [reflexivity|apply bundled_standard with (b := false); [vm_compute; reflexivity|auto]]. }
  reflexivity.
Qed.

(** ** C40 *)
Lemma components_ok E : parse E T_Components builder_components = Some empty_components.
Proof. reflexivity. Qed.
Lemma merged d e k : NoDup (map fst e) -> assoc k (dict_update d e) = match assoc k e with Some x => Some x | None => assoc k d end.
Proof.
  intros Hn. destruct (assoc k e) as [x|] eqn:Ea.
  - apply assoc_dict_update_in; [exact Hn|apply assoc_In; exact Ea].
  - apply assoc_dict_update. apply assoc_None. exact Ea.
Qed.
Lemma default_document E info info' : parse E T_Info info = Some info' ->
  parse E T_AsyncAPI3 (VDict (builder_defaults info empty_components)) = Some (empty_document info').
Proof.
  intros H. unfold T_AsyncAPI3. apply model_parse_iff. eexists. split; [reflexivity|]. split; [|split].
  - repeat (apply Forall2_cons; [cbn [fst snd]; split; [reflexivity|]|]); [..|apply Forall2_nil];
      try (right; split; [reflexivity|split; reflexivity]); left; eexists; (split; [left; reflexivity|split; [|try exact I]]); try exact H; reflexivity.
  - apply extras_ok_iff. reflexivity.
  - apply hook_iff. reflexivity.
Qed.
Lemma no_references_accepted E info : (forall x s, within x info -> ~ is_reference x s) -> unified E (empty_document info) = None.
Proof.
  intros H. unfold unified. apply check_none. intros pos path r s Hr Hs. exfalso.
  apply reached_within in Hr. assert (Hi : In s (reference_strings (empty_document info))) by (apply reference_strings_iff; eauto).
  assert (Heq : reference_strings (empty_document info) = ((reference_strings info ++ []) ++ [])%list) by reflexivity.
  rewrite Heq, !app_nil_r in Hi. apply reference_strings_iff in Hi as (x & Hx & Hs'). exact (H x s Hx Hs').
Qed.
Lemma builder_construct E acts args kwargs info calls r : parse E T_Info (builder_info args) = Some info ->
  (as_builder E acts args kwargs calls r <-> construct acts E (VDict (dict_update (builder_defaults info empty_components) kwargs)) calls r).
Proof.
  intros Hp. split.
  - intros H. inversion H as [Hn|info0 Hi Hn|info0 comps c0 r0 Hi Hc Hk]; subst; [rewrite Hp in Hn; discriminate Hn|rewrite components_ok in Hn; discriminate Hn|].
    rewrite Hp in Hi. injection Hi as <-. rewrite components_ok in Hc. injection Hc as <-. exact Hk.
  - intros H. apply (ab_build E acts args kwargs info empty_components calls r Hp (components_ok E) H).
Qed.
(** Running just the unified validator. *)
Lemma unified_only E acts v doc calls r : standard E acts -> parse E T_AsyncAPI3 v = Some doc -> listed doc "extra_converters" [] ->
  listed doc "extra_validators" [unified_validator] ->
  (construct acts E v calls r <-> calls = [Call unified_validator doc (returns (unified E doc)) doc] /\ r = if returns (unified E doc) then Some doc else None).
Proof.
  intros Hst Hp Hc Hv. apply listed_processors in Hc, Hv.
  assert (Hact : forall ok st live, acts unified_validator (doc, live) ok st <-> ok = returns (unified E doc) /\ st = (doc, live)).
  { intros ok st live. exact (Hst (u "UnifiedReferencesValidator") doc live ok (returns (unified E doc)) st eq_refl). }
  assert (Hl0 : forall c o d, loop acts 0 doc [] c o d <-> c = [] /\ o = true /\ d = doc).
  { intros c o d. split.
    - intros H. inversion H as [i d0 l Hn|i d0 l p d1 l1 cs k d2 Hn|i d0 l p d1 l1 Hn]; subst; [auto|discriminate Hn|discriminate Hn].
    - intros (-> & -> & ->). constructor. reflexivity. }
  assert (Hl1 : forall c o d, loop acts 0 doc [unified_validator] c o d <-> c = [Call unified_validator doc (returns (unified E doc)) doc] /\ o = returns (unified E doc) /\ d = doc).
  { intros c o d. split.
    - intros H. inversion H as [i d0 l Hn|i d0 l p d1 l1 cs k d2 Hn Ha Hl|i d0 l p d1 l1 Hn Ha]; subst; [discriminate Hn| |]; injection Hn as <-; apply Hact in Ha as [Hb Heq]; injection Heq as -> ->.
      + inversion Hl as [i d0 l Hn|i d0 l p d1 l1 cs' k d2 Hn|i d0 l p d1 l1 Hn]; subst; [|discriminate Hn|discriminate Hn]. rewrite <- Hb. auto.
      + rewrite <- Hb. auto.
    - intros (-> & -> & ->). destruct (returns (unified E doc)) eqn:Er.
      + eapply lp_next; [reflexivity|apply Hact; auto|]. constructor. reflexivity.
      + eapply lp_stop; [reflexivity|apply Hact; auto]. }
  split.
  - intros H. inversion H as [Hn|doc0 c0 d1 Hp' Hr|doc0 c0 d1 Hp' Hr]; subst; [rewrite Hp in Hn; discriminate Hn| |]; rewrite Hp in Hp'; injection Hp' as <-;
      inversion Hr as [l1 c1 d2 l2 c2 ok d3 H1 L1 H2 L2|l1 c1 d2 H1 L1|H1|l1 c1 d2 H1 L1 H2]; subst; rewrite Hc in H1; try discriminate H1; injection H1 as <-;
      apply Hl0 in L1 as (-> & Ho & ->); try discriminate Ho; rewrite Hv in H2; try discriminate H2; injection H2 as <-; apply Hl1 in L2 as (-> & Ho2 & ->);
      rewrite <- Ho2; auto.
  - intros [-> ->]. match goal with |- construct _ _ _ ?cs _ => change cs with ([] ++ cs)%list end. destruct (returns (unified E doc)) eqn:Er.
    + eapply (cs_done acts E v doc); [exact Hp|]. eapply run_both; [exact Hc|apply Hl0; auto|exact Hv|apply Hl1; auto].
    + eapply (cs_raise acts E v doc); [exact Hp|]. eapply run_both; [exact Hc|apply Hl0; auto|exact Hv|apply Hl1; auto].
Qed.
(** Metadata only: the empty document, checked once by the unified validator. *)
Theorem c40_metadata E acts args info calls r : url_idem E -> standard E acts -> python_dicts (builder_info args) ->
  parse E T_Info (builder_info args) = Some info -> no_shadowing info ->
  (as_builder E acts args [] calls r <->
   calls = [Call unified_validator (empty_document info) (returns (unified E (empty_document info))) (empty_document info)]
   /\ r = if returns (unified E (empty_document info)) then Some (empty_document info) else None).
Proof.
  intros Hu Hst Hd Hp Hs. rewrite (builder_construct E acts args [] info calls r Hp). cbn [dict_update fold_left].
  assert (Hi : parse E T_Info info = Some info) by (apply (c16_revalidation E T_Info (builder_info args)); try assumption; left; in_table).
  apply unified_only; [exact Hst|apply default_document; exact Hi| |]; eexists _, _, _; (split; [reflexivity|left; reflexivity]).
Qed.
(** ... and returned when the metadata carries no reference. *)
Theorem c40_empty E acts args info : url_idem E -> standard E acts -> python_dicts (builder_info args) ->
  parse E T_Info (builder_info args) = Some info -> no_shadowing info -> (forall x s, within x info -> ~ is_reference x s) ->
  forall calls r, as_builder E acts args [] calls r <-> calls = [Call unified_validator (empty_document info) true (empty_document info)] /\ r = Some (empty_document info).
Proof.
  intros Hu Hst Hd Hp Hs Hr calls r. rewrite (c40_metadata E acts args info calls r Hu Hst Hd Hp Hs), (no_references_accepted E info Hr). reflexivity.
Qed.
(** Metadata Info rejects: as_builder raises. *)
Theorem c40_bad_metadata E acts args kwargs calls r : parse E T_Info (builder_info args) = None -> as_builder E acts args kwargs calls r -> r = None /\ calls = [].
Proof. intros Hp H. inversion H; subst; auto; congruence. Qed.
(** Keywords: the document handed to the processors has, for each declared field, what the caller passed, else the builder's default, else the
    default of the class; undeclared keywords are its extensions. *)
Lemma field_alias : forallb (fun ft => str_eqb (f_alias (fst ft)) (f_name (fst ft)) || negb (has_key (f_alias (fst ft)) (builder_defaults VNone VNone) || has_key (f_name (fst ft)) (builder_defaults VNone VNone)))
  (class_fields "AsyncAPI3") = true.
Proof. vm_compute. reflexivity. Qed.
Lemma defaults_keys info comps k : has_key k (builder_defaults info comps) = has_key k (builder_defaults VNone VNone).
Proof. reflexivity. Qed.
Lemma typed_find E kvs fs : forall fv fi t, typed_fields E kvs fs fv -> NoDup (map (fun ft => f_name (fst ft)) fs) -> In (fi, t) fs ->
  exists x, assoc (f_name fi) fv = Some x /\ field_value E kvs fi t x.
Proof.
  intros fv fi t H. induction H as [|[gi s] [k x] fs fv [Hk Hv] H IH]; intros Hnd Hi; [destruct Hi|]. cbn [fst snd] in Hk, Hv. subst k.
  cbn [map fst] in Hnd. inversion Hnd as [|? ? Hni Hnd']; subst. cbn [assoc]. destruct Hi as [Heq|Hi].
  - injection Heq as -> ->. rewrite str_eqb_refl. eauto.
  - destruct (str_eqb (f_name fi) (f_name gi)) eqn:Ee; [|exact (IH Hnd' Hi)]. apply str_eqb_eq in Ee. exfalso. apply Hni. rewrite <- Ee.
    exact (in_map (fun ft => f_name (fst ft)) fs (fi, t) Hi).
Qed.
Lemma defaults_declared_b : forallb (fun k => existsb (fun ft => str_eqb k (f_alias (fst ft))) (class_fields "AsyncAPI3")) (map fst (builder_defaults VNone VNone)) = true.
Proof. vm_compute. reflexivity. Qed.
Lemma defaults_declared info comps k x : In (k, x) (builder_defaults info comps) -> exists fi t, In (fi, t) (class_fields "AsyncAPI3") /\ k = f_alias fi.
Proof.
  intros Hi. apply (in_map fst) in Hi. change (In k (map fst (builder_defaults VNone VNone))) in Hi.
  assert (Hb := proj1 (forallb_forall _ _) defaults_declared_b k Hi). cbv beta in Hb. apply existsb_exists in Hb as ([fi t] & Hf & He). exists fi, t. split; [exact Hf|].
  apply str_eqb_eq. exact He.
Qed.
Lemma builder_doc E kwargs info doc : NoDup (map fst kwargs) ->
  parse E T_AsyncAPI3 (VDict (dict_update (builder_defaults info empty_components) kwargs)) = Some doc ->
  exists fv ex, doc = VObj "AsyncAPI3" fv ex
    /\ (forall fi t, In (fi, t) (class_fields "AsyncAPI3") -> exists x, assoc (f_name fi) fv = Some x /\
         ((exists y, gives fi kwargs y /\ parse E t y = Some x)
          \/ (~ passed fi kwargs /\ exists y, In (f_name fi, y) (builder_defaults info empty_components) /\ parse E t y = Some x)
          \/ (~ passed fi kwargs /\ ~ In (f_name fi) (map fst (builder_defaults info empty_components)) /\ f_def fi = Some x)))
    /\ (forall k x, In (k, x) ex -> In (k, x) kwargs).
Proof.
  intros Hnd Hd. unfold T_AsyncAPI3 in Hd. apply model_parse_iff in Hd as (fv & -> & Ht & _ & _).
  assert (Hfs : forall fi t, In (fi, t) (class_fields "AsyncAPI3") -> str_eqb (f_alias fi) (f_name fi) = true \/
     (assoc (f_alias fi) (builder_defaults info empty_components) = None /\ assoc (f_name fi) (builder_defaults info empty_components) = None)).
  { intros fi t Hi. assert (Hb := proj1 (forallb_forall _ _) field_alias (fi, t) Hi). cbn [fst] in Hb. apply orb_prop in Hb as [Hb|Hb]; [auto|right].
    apply negb_true_iff, orb_false_iff in Hb as [H1 H2]. rewrite <- (defaults_keys info empty_components) in H1, H2.
    split; apply assoc_None; intros Hx; apply has_key_iff in Hx; [rewrite Hx in H1; discriminate H1|rewrite Hx in H2; discriminate H2]. }
  assert (Hdecl := fun k x => defaults_declared info empty_components k x).
  assert (Hcf : class_fields "AsyncAPI3" = match T_AsyncAPI3 with TModel _ _ fs => fs | _ => [] end) by (vm_compute; reflexivity).
  rewrite Hcf in *. unfold T_AsyncAPI3 in *. clear Hcf.
  match type of Ht with typed_fields _ _ ?l _ => set (fs := l) in * end.
  assert (Hnd0 : NoDup (map (fun ft => f_name (fst ft)) fs)) by (apply (names_NoDup "AsyncAPI3" KExt); exact (wf_all _ in_root)).
  eexists fv, _. split; [reflexivity|]. split.
  - intros fi t Hi. destruct (typed_find E _ fs fv fi t Ht Hnd0 Hi) as (x & Hx & Hv). exists x. split; [exact Hx|].
    specialize (Hfs fi t Hi). clearbody fs. clear Hi Hx Ht Hnd0.
    destruct Hv as [(y & Hg & Hy & _)|(Ha & Hn & Hdef)].
    + unfold gives in Hg. rewrite !merged in Hg by exact Hnd.
      destruct (assoc (f_alias fi) kwargs) as [z|] eqn:Ea.
      * left. exists z. destruct Hg as [Hg|[Hg _]]; [|discriminate Hg]. injection Hg as ->. split; [left; exact Ea|exact Hy].
      * destruct (assoc (f_name fi) kwargs) as [z|] eqn:En.
        -- left. exists z. destruct Hg as [Hg|[Hg1 Hg2]].
           ++ exfalso. destruct Hfs as [He|[Hz _]]; [|rewrite Hz in Hg; discriminate Hg]. apply str_eqb_eq in He. rewrite He, En in Ea. discriminate Ea.
           ++ injection Hg2 as ->. split; [right; auto|exact Hy].
        -- right. left. split.
           ++ intros [Hi|Hi]; [apply assoc_None in En|apply assoc_None in Ea]; contradiction.
           ++ exists y. split; [|exact Hy]. apply assoc_In. destruct Hg as [Hg|[_ Hg]]; [|exact Hg].
              destruct Hfs as [He|[Hz _]]; [|rewrite Hz in Hg; discriminate Hg]. apply str_eqb_eq in He. rewrite He in Hg. exact Hg.
    + right. right. rewrite merged in Ha, Hn by exact Hnd. destruct (assoc (f_alias fi) kwargs) eqn:Ea; [discriminate Ha|]. destruct (assoc (f_name fi) kwargs) eqn:En; [discriminate Hn|].
      split; [intros [Hi|Hi]; [apply assoc_None in En|apply assoc_None in Ea]; contradiction|]. split; [apply assoc_None; exact Hn|exact Hdef].
  - intros k x Hi. apply extras_unclaimed in Hi as [Hi Hu]. cbn [fst] in Hu.
    destruct (dict_update_In _ _ _ Hi) as [Hd|Hk]; [|exact Hk]. exfalso.
    destruct (Hdecl _ _ Hd) as (fi & t & Hf & ->). destruct Hu as [_ Hu]. destruct (Hu fi t Hf) as [Hu1 _]. apply Hu1. reflexivity.
Qed.
Theorem c40_keywords E acts args kwargs calls r info : NoDup (map fst kwargs) -> parse E T_Info (builder_info args) = Some info ->
  as_builder E acts args kwargs calls (Some r) ->
  exists doc fv ex, doc = VObj "AsyncAPI3" fv ex /\ run acts doc calls true r
    /\ (forall fi t, In (fi, t) (class_fields "AsyncAPI3") -> exists x, assoc (f_name fi) fv = Some x /\
         ((exists y, gives fi kwargs y /\ parse E t y = Some x)
          \/ (~ passed fi kwargs /\ exists y, In (f_name fi, y) (builder_defaults info empty_components) /\ parse E t y = Some x)
          \/ (~ passed fi kwargs /\ ~ In (f_name fi) (map fst (builder_defaults info empty_components)) /\ f_def fi = Some x)))
    /\ (forall k x, In (k, x) ex -> In (k, x) kwargs).
Proof.
  intros Hnd Hp H. rewrite (builder_construct E acts args kwargs info calls _ Hp) in H.
  inversion H as [|doc c0 d1 Hd Hr|]; subst. destruct (builder_doc E kwargs info doc Hnd Hd) as (fv & ex & -> & H1 & H2). exists (VObj "AsyncAPI3" fv ex), fv, ex. auto.
Qed.
Lemma default_kept E kwargs info fv n fi t y x : nth_error (class_fields "AsyncAPI3") n = Some (fi, t) -> ~ passed fi kwargs ->
  NoDup (map fst (builder_defaults info empty_components)) -> In (f_name fi, y) (builder_defaults info empty_components) -> parse E t y = Some x ->
  (forall fi t, In (fi, t) (class_fields "AsyncAPI3") -> exists x, assoc (f_name fi) fv = Some x /\
         ((exists y, gives fi kwargs y /\ parse E t y = Some x)
          \/ (~ passed fi kwargs /\ exists y, In (f_name fi, y) (builder_defaults info empty_components) /\ parse E t y = Some x)
          \/ (~ passed fi kwargs /\ ~ In (f_name fi) (map fst (builder_defaults info empty_components)) /\ f_def fi = Some x))) ->
  assoc (f_name fi) fv = Some x.
Proof.
  intros Hn Hp Hd Hi Hx H. destruct (H fi t (in_field _ _ _ _ Hn)) as (z & Hz & [(w & Hg & _)|[(_ & w & Hw & Hpw)|(_ & Hno & _)]]); rewrite Hz.
  - exfalso. apply Hp. destruct Hg as [Hg|[_ Hg]]; apply assoc_In in Hg; [right|left]; exact (in_map fst _ _ Hg).
  - apply In_assoc in Hi; [|exact Hd]. apply In_assoc in Hw; [|exact Hd]. rewrite Hi in Hw. injection Hw as <-. rewrite Hx in Hpw. symmetry. exact Hpw.
  - exfalso. apply Hno. exact (in_map fst _ _ Hi).
Qed.
Lemma defaults_nodup info comps : NoDup (map fst (builder_defaults info comps)).
Proof. apply nodupb_NoDup. reflexivity. Qed.
(** With the processor keywords left alone, the result is the unified validator's verdict on the document: a bad reference makes it raise. *)
Theorem c40_checked E acts args kwargs info doc calls r : standard E acts -> NoDup (map fst kwargs) ->
  ~ In (u "extra_converters") (map fst kwargs) -> ~ In (u "extra_validators") (map fst kwargs) ->
  parse E T_Info (builder_info args) = Some info ->
  parse E T_AsyncAPI3 (VDict (dict_update (builder_defaults info empty_components) kwargs)) = Some doc ->
  as_builder E acts args kwargs calls r ->
  (unified E doc = None -> r = Some doc) /\ (unified E doc <> None -> r = None).
Proof.
  intros Hst Hnd Hc Hv Hi Hd H. rewrite (builder_construct E acts args kwargs info calls _ Hi) in H.
  destruct (builder_doc E kwargs info doc Hnd Hd) as (fv & ex & Heq & H1 & _).
  assert (Lc : listed doc "extra_converters" []).
  { exists "AsyncAPI3", fv, ex. split; [exact Heq|]. left. refine (default_kept E kwargs info fv 8 _ _ (VList []) (VList []) eq_refl _ (defaults_nodup _ _) _ eq_refl H1).
    - intros [Hx|Hx]; exact (Hc Hx).
    - do 5 right. left. reflexivity. }
  assert (Lv : listed doc "extra_validators" [unified_validator]).
  { exists "AsyncAPI3", fv, ex. split; [exact Heq|]. left. refine (default_kept E kwargs info fv 9 _ _ (VList [unified_validator]) (VList [unified_validator]) eq_refl _ (defaults_nodup _ _) _ eq_refl H1).
    - intros [Hx|Hx]; exact (Hv Hx).
    - do 6 right. left. reflexivity. }
  apply (unified_only E acts _ doc calls r Hst Hd Lc Lv) in H as [_ ->]. destruct (unified E doc); cbn [returns]; split; auto; congruence.
Qed.
(** With the validators overridden by an empty list, references are not checked at all. *)
Theorem c40_unchecked E acts args kwargs info doc calls r y : NoDup (map fst kwargs) ->
  ~ In (u "extra_converters") (map fst kwargs) -> In (u "extra_validators", y) kwargs -> y = VList [] \/ y = VNone ->
  parse E T_Info (builder_info args) = Some info ->
  parse E T_AsyncAPI3 (VDict (dict_update (builder_defaults info empty_components) kwargs)) = Some doc ->
  (as_builder E acts args kwargs calls r <-> calls = [] /\ r = Some doc).
Proof.
  intros Hnd Hc Hv Hy Hi Hd. rewrite (builder_construct E acts args kwargs info calls _ Hi).
  destruct (builder_doc E kwargs info doc Hnd Hd) as (fv & ex & Heq & H1 & _).
  apply c39_none; [exact Hd| |].
  - exists "AsyncAPI3", fv, ex. split; [exact Heq|]. left. refine (default_kept E kwargs info fv 8 _ _ (VList []) (VList []) eq_refl _ (defaults_nodup _ _) _ eq_refl H1).
    + intros [Hx|Hx]; exact (Hc Hx).
    + do 5 right. left. reflexivity.
  - exists "AsyncAPI3", fv, ex. split; [exact Heq|].
    assert (Hn : nth_error (class_fields "AsyncAPI3") 9 = Some (fld "extra_validators" "extra_validators" (Some VNone) false true FvNone, TOpt TProcs)) by (vm_compute; reflexivity).
    destruct (H1 _ _ (in_field _ _ _ _ Hn)) as (z & Hz & Hcase). cbn [f_name fld] in Hz. 
    apply (In_assoc _ _ _ Hnd) in Hv.
    destruct Hcase as [(w & Hg & Hpw)|[(Hnp & _)|(Hnp & _)]].
    + assert (w = y) by (destruct Hg as [Hg|[_ Hg]]; cbn [f_name f_alias fld] in Hg; rewrite Hv in Hg; injection Hg as <-; reflexivity). subst w.
      destruct Hy as [->| ->]; cbn in Hpw; injection Hpw as <-; auto.
    + exfalso. apply Hnp. left. cbn [f_name fld]. apply assoc_In in Hv. exact (in_map fst _ _ Hv).
    + exfalso. apply Hnp. left. cbn [f_name fld]. apply assoc_In in Hv. exact (in_map fst _ _ Hv).
Qed.
(** What the metadata becomes: for every declared field of Info, the argument of that name, else its default in the signature. *)
Lemma info_fields : class_fields "Info" = match T_Info with TModel _ _ fs => fs | _ => [] end.
Proof. vm_compute. reflexivity. Qed.
Lemma builder_info_metadata args : builder_info args = VDict (map (fun nd => (u (fst nd), argument args (fst nd) (snd nd))) metadata).
Proof. reflexivity. Qed.
Lemma info_keys_b : forallb (fun ft => existsb (fun nd => str_eqb (f_name (fst ft)) (u (fst nd))) metadata
    && (str_eqb (f_alias (fst ft)) (f_name (fst ft)) || negb (existsb (fun nd => str_eqb (f_alias (fst ft)) (u (fst nd))) metadata)))
  (match T_Info with TModel _ _ fs => fs | _ => [] end) = true.
Proof. vm_compute. reflexivity. Qed.
Lemma metadata_nodup : NoDup (map (fun nd : string * pv => u (fst nd)) metadata).
Proof. apply nodupb_NoDup. vm_compute. reflexivity. Qed.
Lemma assoc_named (f : string * pv -> pv) (l : list (string * pv)) n d : NoDup (map (fun nd => u (fst nd)) l) -> In (n, d) l ->
  assoc (u n) (map (fun nd => (u (fst nd), f nd)) l) = Some (f (n, d)).
Proof.
  intros Hn Hi. apply In_assoc; [rewrite map_map; exact Hn|]. exact (in_map (fun nd => (u (fst nd), f nd)) l (n, d) Hi).
Qed.
Lemma assoc_unnamed k (f : string * pv -> pv) (l : list (string * pv)) : existsb (fun nd => str_eqb k (u (fst nd))) l = false ->
  assoc k (map (fun nd => (u (fst nd), f nd)) l) = None.
Proof.
  induction l as [|nd l IH]; [reflexivity|]. cbn [existsb map assoc]. intros H. apply orb_false_iff in H as [-> H]. exact (IH H).
Qed.
Lemma info_values E args info : parse E T_Info (builder_info args) = Some info ->
  exists fv ex, info = VObj "Info" fv ex /\ forall fi t, In (fi, t) (class_fields "Info") -> exists n d x,
    f_name fi = u n /\ In (n, d) metadata /\ assoc (u n) fv = Some x /\ parse E t (argument args n d) = Some x.
Proof.
  rewrite builder_info_metadata, info_fields. intros H.
  assert (Hnd0 : NoDup (map (fun ft => f_name (fst ft)) (match T_Info with TModel _ _ fs => fs | _ => [] end))).
  { apply nodupb_NoDup. vm_compute. reflexivity. }
  assert (Hk := info_keys_b). revert Hk Hnd0 H. unfold T_Info.
  match goal with |- _ -> _ -> parse _ (TModel _ _ ?l) _ = _ -> _ => generalize l end. intros fs Hk Hnd0 H.
  apply model_parse_iff in H as (fv & -> & Ht & _ & _). eexists fv, _. split; [reflexivity|].
  intros fi t Hi. destruct (typed_find E _ _ fv fi t Ht Hnd0 Hi) as (x & Hx & Hv).
  assert (Hb := proj1 (forallb_forall _ _) Hk (fi, t) Hi). cbn [fst] in Hb. apply andb_true_iff in Hb as [H1 H2].
  apply existsb_exists in H1 as ([n d] & Hm & He). cbn [fst] in He. apply str_eqb_eq in He. exists n, d, x.
  split; [exact He|]. split; [exact Hm|]. rewrite He in Hx. split; [exact Hx|].
  assert (Ha := assoc_named (fun nd => argument args (fst nd) (snd nd)) metadata n d metadata_nodup Hm). cbn [fst snd] in Ha.
  destruct Hv as [(y & Hg & Hy & _)|(_ & Hn & _)]; [|rewrite He, Ha in Hn; discriminate Hn].
  assert (Heq : Some y = Some (argument args n d)).
  { apply orb_prop in H2 as [H2|H2].
    - apply str_eqb_eq in H2. unfold gives in Hg. rewrite H2, He, Ha in Hg. destruct Hg as [Hg|[Hg _]]; [symmetry; exact Hg|discriminate Hg].
    - apply negb_true_iff in H2. unfold gives in Hg. rewrite (assoc_unnamed (f_alias fi) (fun nd => argument args (fst nd) (snd nd)) metadata H2), He, Ha in Hg.
      destruct Hg as [Hg|[_ Hg]]; [discriminate Hg|symmetry; exact Hg]. }
  injection Heq as <-. exact Hy.
Qed.
Theorem c40_info E acts args info calls doc : url_idem E -> standard E acts -> python_dicts (builder_info args) ->
  parse E T_Info (builder_info args) = Some info -> no_shadowing info -> as_builder E acts args [] calls (Some doc) ->
  exists fv ex, get_in "info" doc = VObj "Info" fv ex /\ forall fi t, In (fi, t) (class_fields "Info") -> exists n d x,
    f_name fi = u n /\ In (n, d) metadata /\ assoc (u n) fv = Some x /\ parse E t (argument args n d) = Some x.
Proof.
  intros Hu Hst Hd Hp Hs H. apply (c40_metadata E acts args info calls (Some doc) Hu Hst Hd Hp Hs) in H as [_ H].
  destruct (returns (unified E (empty_document info))); [|discriminate H]. injection H as ->.
  destruct (info_values E args info Hp) as (fv & ex & -> & H). exists fv, ex. split; [reflexivity|exact H].
Qed.
Definition argsA : fields := [(u "title", str "My API"); (u "contact", obj [("email", str "a@b.org")]); (u "tags", VList [obj [("name", str "t")]])].
Definition argsR : fields := [(u "tags", VList [ref "#/components/tags/t"])].
Definition info_of (args : fields) : pv := match parse E0 T_Info (builder_info args) with Some i => i | None => VNone end.
Example c40_ex : url_idem E0 /\ standard E0 (bundled_acts E0) /\ python_dicts (builder_info argsA)
  /\ parse E0 T_Info (builder_info argsA) = Some (info_of argsA) /\ no_shadowing (info_of argsA) /\ (forall x s, within x (info_of argsA) -> ~ is_reference x s)
  /\ (exists fv, info_of argsA = VObj "Info" fv [] /\ assoc (u "title") fv = Some (str "My API") /\ assoc (u "version") fv = Some (str "0.0.1")).
Proof.
  split; [exact E0_url_idem|]. split; [apply bundled_standard|]. split; [apply python_dicts_dec; vm_compute; reflexivity|].
  split; [vm_compute; reflexivity|]. split; [|split].
  - apply no_shadowing_dec. vm_compute. reflexivity.
  - intros x s Hx Hs. assert (Hi : In s (reference_strings (info_of argsA))) by (apply reference_strings_iff; eauto). vm_compute in Hi. exact Hi.
  - eexists. split; [vm_compute; reflexivity|]. split; vm_compute; reflexivity.
Qed.
(** Metadata with a reference into the (empty) components is refused. *)
Example c40_ex_reference : forall calls r, as_builder E0 (bundled_acts E0) argsR [] calls r -> r = None.
Proof.
  intros calls r H. assert (Hi : parse E0 T_Info (builder_info argsR) = Some (info_of argsR)) by (vm_compute; reflexivity).
  apply (c40_metadata E0 _ argsR (info_of argsR) calls r E0_url_idem (bundled_standard E0)) in H as [_ ->]; [vm_compute; reflexivity|apply python_dicts_dec; vm_compute; reflexivity|exact Hi|].
  apply no_shadowing_dec. vm_compute. reflexivity.
Qed.
(** Keywords: a channel that refers to nothing. *)
Definition kwargsC : fields := [(u "channels", obj [("c", ref "#/channels/gone")]); (u "x-a", VInt 1)].
Definition doc_of (args kwargs : fields) : pv :=
  match parse E0 T_AsyncAPI3 (VDict (dict_update (builder_defaults (info_of args) empty_components) kwargs)) with Some d => d | None => VNone end.
Example c40_ex_keywords : NoDup (map fst kwargsC) /\ ~ In (u "extra_converters") (map fst kwargsC) /\ ~ In (u "extra_validators") (map fst kwargsC)
  /\ parse E0 T_AsyncAPI3 (VDict (dict_update (builder_defaults (info_of argsA) empty_components) kwargsC)) = Some (doc_of argsA kwargsC)
  /\ unified E0 (doc_of argsA kwargsC) <> None.
Proof.
  split; [apply nodupb_NoDup; vm_compute; reflexivity|]. split; [vm_compute; intuition discriminate|]. split; [vm_compute; intuition discriminate|].
  split; [vm_compute; reflexivity|]. vm_compute. discriminate.
Qed.
