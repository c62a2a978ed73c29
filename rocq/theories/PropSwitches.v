(** C111: the bundled processors are switches: what is listed decides, not where, in which order or how often; and the deprecated ones do nothing. *)
From Verif Require Import PyStr Regex Value Types Rules Pydantic ClassTable Classes Canon Linked SpecParse Sample ProofRules ProofParse
  State SpecState ProofState PropState Resolve SpecResolve ProofResolve PropResolve Unified SpecUnified ProofUnified ProofCheck PropUnified
  Dump SpecDump ProofDump PropDump Validators SpecValidators ProofValidators PropValidators Pipeline SpecPipeline PropPipeline PropReload SpecDeep SpecAssign PropAssign ProofJsonRead SpecSwitches.
Local Open Scope string_scope.
Local Open Scope list_scope.

Lemma silent_keys D : silent D -> forall k, mem_str k procs_keys = true -> assoc k D = None.
Proof. intros [H1 H2] k Hk. apply assoc_None. apply mem_str_In in Hk as [<-|[<-|[]]]; assumption. Qed.
Lemma proc_default : forallb (fun ft : finfo * ty => if mem_str (f_name (fst ft)) procs_keys then match f_def (fst ft) with Some VNone => true | _ => false end else true) doc_fs = true.
Proof. vm_compute. reflexivity. Qed.
Lemma cross_doc fv : cross_field_spec "AsyncAPI3" fv.
Proof. apply hook_iff. reflexivity. Qed.

Section Switch.
  Context (E : env) (D : fields) (a b : pv) (HD : silent D) (Hc : well_typed E (TOpt TProcs) a) (Hv : well_typed E (TOpt TProcs) b).
  Let P : fields := [(u "extra_converters", a); (u "extra_validators", b)].
  Definition set_procs (kv : pystr * pv) : pystr * pv := match assoc (fst kv) P with Some x => (fst kv, x) | None => kv end.
  Lemma set_key kv : fst (set_procs kv) = fst kv.
  Proof. unfold set_procs. destruct (assoc (fst kv) P); reflexivity. Qed.
  Lemma P_keys k : mem_str k procs_keys = true <-> assoc k P <> None.
  Proof.
    rewrite mem_str_In. split.
    - intros [<-|[<-|[]]]; discriminate.
    - intros H. unfold P in H. cbn [assoc] in H. destruct (str_eqb k (u "extra_converters")) eqn:E1; [apply str_eqb_eq in E1; left; congruence|].
      destruct (str_eqb k (u "extra_validators")) eqn:E2; [apply str_eqb_eq in E2; right; left; congruence|]. contradiction.
  Qed.
  Lemma P_typed k x : assoc k P = Some x -> well_typed E (TOpt TProcs) x.
  Proof.
    intros H. unfold P in H. cbn [assoc] in H. destruct (str_eqb k (u "extra_converters")); [injection H as <-; exact Hc|].
    destruct (str_eqb k (u "extra_validators")); [injection H as <-; exact Hv|discriminate H].
  Qed.
  (** Without processors in the data, the two fields hold their default. *)
  Lemma plain_fields fs : forallb proc_field fs = true ->
    forallb (fun ft : finfo * ty => if mem_str (f_name (fst ft)) procs_keys then match f_def (fst ft) with Some VNone => true | _ => false end else true) fs = true ->
    forall fv, typed_fields E D fs fv -> map blank (map set_procs fv) = fv.
  Proof.
    intros Hfs Hdef fv H. unfold typed_fields in H. revert Hfs Hdef. induction H as [|[fi t] [k x] fs fv [Hk Hx] _ IH]; intros Hfs Hdef; [reflexivity|]. cbn [forallb fst snd map] in *.
    apply andb_prop in Hfs as [Hfi Hfs]. apply andb_prop in Hdef as [Hd Hdef]. rewrite (IH Hfs Hdef). f_equal. unfold blank. rewrite set_key. cbn [fst].
    destruct (mem_str k procs_keys) eqn:Em.
    - rewrite Hk in Em. rewrite Em in Hd. destruct (f_def fi) as [[]|] eqn:Ed; try discriminate Hd.
      destruct (proc_field_spec fi t Hfi (or_intror Em)) as (Hna & _).
      assert (Ha : assoc (f_name fi) D = None) by exact (silent_keys D HD _ Em).
      destruct Hx as [(y & Hy & _)|(_ & _ & Hx)]; [|congruence]. exfalso. unfold gives in Hy. rewrite <- Hna in Hy. destruct Hy as [Hy|[_ Hy]]; congruence.
    - unfold set_procs. cbn [fst]. destruct (assoc k P) as [y|] eqn:Ey; [|reflexivity]. exfalso.
      assert (Hm : mem_str k procs_keys = true) by (apply P_keys; congruence). congruence.
  Qed.
  Lemma typed_drop fs : forallb proc_field fs = true ->
    forallb (fun ft : finfo * ty => if mem_str (f_name (fst ft)) procs_keys then match f_def (fst ft) with Some VNone => true | _ => false end else true) fs = true ->
    forall fv, typed_fields E (D ++ P) fs fv -> typed_fields E D fs (map blank fv).
  Proof.
    intros Hfs Hdef fv H. unfold typed_fields in *. revert Hfs Hdef. induction H as [|[fi t] [k x] fs fv [Hk Hx] _ IH]; intros Hfs Hdef; [constructor|]. cbn [forallb fst snd map] in *.
    apply andb_prop in Hfs as [Hfi Hfs]. apply andb_prop in Hdef as [Hd Hdef]. constructor; [|exact (IH Hfs Hdef)]. cbn [fst snd]. rewrite blank_key. cbn [fst]. split; [exact Hk|].
    unfold blank. cbn [fst]. destruct (mem_str k procs_keys) eqn:Em; cbn [snd].
    - rewrite Hk in Em. rewrite Em in Hd. destruct (f_def fi) as [[]|] eqn:Ed; try discriminate Hd. destruct (proc_field_spec fi t Hfi (or_intror Em)) as (Hna & _).
      assert (Ha : assoc (f_name fi) D = None) by exact (silent_keys D HD _ Em). right. rewrite <- Hna. auto.
    - unfold P in Hx. rewrite Hk in Em. assert (Ea : mem_str (f_alias fi) procs_keys = false).
      { destruct (mem_str (f_alias fi) procs_keys) eqn:Ea; [|reflexivity]. destruct (proc_field_spec fi t Hfi (or_introl Ea)) as (Hna & _). congruence. }
      unfold field_value, gives in *. rewrite (assoc_other D _ _ _ Em), (assoc_other D _ _ _ Ea) in Hx. exact Hx.
  Qed.
End Switch.

Lemma procs_typed E l : Forall (fun y => exists n, y = VProc n) l -> well_typed E (TOpt TProcs) (VList l).
Proof. intros H. cbn [well_typed]. right. eauto. Qed.
Lemma doc_alias fi t : In (fi, t) doc_fs -> mem_str (f_alias fi) procs_keys = true -> f_name fi = f_alias fi.
Proof. intros Hi Hm. assert (Hf : proc_field (fi, t) = true) by exact (proj1 (forallb_forall _ _) doc_fs_procs _ Hi). exact (proj1 (proc_field_spec fi t Hf (or_introl Hm))). Qed.
Lemma map_assoc (g : pystr -> option pv) k (fv : fields) : assoc k (map (fun kv => match g (fst kv) with Some x => (fst kv, x) | None => kv end) fv) =
  match assoc k fv with Some x => Some (match g k with Some y => y | None => x end) | None => None end.
Proof.
  induction fv as [|[k0 x] fv IH]; [reflexivity|]. cbn [map fst]. destruct (str_eqb k k0) eqn:Ek.
  - assert (Heq := Ek). apply str_eqb_eq in Heq. subst k0. destruct (g k) as [z|]; cbn [assoc]; rewrite Ek; reflexivity.
  - destruct (g k0); cbn [assoc]; rewrite Ek; exact IH.
Qed.
Lemma set_assoc a b k (fv : fields) : assoc k (map (set_procs a b) fv) =
  match assoc k fv with Some x => Some (match assoc k [(u "extra_converters", a); (u "extra_validators", b)] with Some y => y | None => x end) | None => None end.
Proof. exact (map_assoc (fun k => assoc k [(u "extra_converters", a); (u "extra_validators", b)]) k fv). Qed.
Lemma has_procs E D fv k : typed_fields E D doc_fs fv -> mem_str k procs_keys = true -> In k (map fst fv).
Proof.
  intros Ht Hm. destruct (doc_fs_has k Hm) as ([fi t] & Hi & Hal). cbn [fst] in Hal. rewrite <- Hal in Hm |- *. rewrite <- (doc_alias fi t Hi Hm).
  clear -Ht Hi. unfold typed_fields in Ht. induction Ht as [|[gi s] [k0 x] fs fv [Hk _] _ IH]; [destruct Hi|]. cbn [map fst] in *. destruct Hi as [Hi|Hi]; [injection Hi as -> ->; left; exact Hk|right; auto].
Qed.
Lemma switched_parse E D a b doc : silent D -> well_typed E (TOpt TProcs) a -> well_typed E (TOpt TProcs) b -> parse E T_AsyncAPI3 (VDict D) = Some doc ->
  exists fv, doc = VObj "AsyncAPI3" fv (extras doc_fs D) /\ map blank (map (set_procs a b) fv) = fv /\ (forall k, mem_str k procs_keys = true -> assoc k fv = Some VNone)
    /\ parse E T_AsyncAPI3 (VDict (D ++ [(u "extra_converters", a); (u "extra_validators", b)])) = Some (VObj "AsyncAPI3" (map (set_procs a b) fv) (extras doc_fs D)).
Proof.
  intros HD Ha Hb Hp. assert (HD' := silent_keys D HD). rewrite doc_type in *. apply model_parse_iff in Hp as (fv & -> & Ht & Hpol & _). exists fv.
  assert (Hpl := plain_fields E D a b HD doc_fs doc_fs_procs proc_default fv Ht). split; [reflexivity|]. split; [exact Hpl|]. split.
  { intros k Hm. assert (Hin := has_procs E D fv k Ht Hm). destruct (assoc k fv) as [x|] eqn:Ea; [|apply assoc_None in Ea; contradiction].
    assert (Hb' := assoc_blank (map (set_procs a b) fv) k). rewrite Hpl, Ea, Hm, set_assoc, Ea in Hb'. exact Hb'. }
  apply model_parse_iff. exists (map (set_procs a b) fv). split; [f_equal; symmetry; exact (extras_add D _ _ doc_fs doc_fs_procs doc_fs_has)|].
  split; [|split; [exact (policy_add E D _ _ KExt doc_fs doc_fs_has doc_alias Hpol)|apply cross_doc]].
  apply (typed_add E D _ _ HD' doc_fs doc_fs_procs); [intros k Hk; apply (P_keys a b); exact Hk|rewrite Hpl; exact Ht|].
  intros fi t k x Hi Hin -> Hk. apply in_map_iff in Hin as ([k0 x0] & Hs & _). assert (Hk0 : k0 = f_name fi) by (assert (H := set_key a b (k0, x0)); rewrite Hs in H; cbn [fst] in H; congruence).
  subst k0. unfold set_procs in Hs. cbn [fst] in Hs. assert (Hn := proj1 (P_keys a b _) Hk). destruct (assoc (f_name fi) _) as [y|] eqn:Ey; [|contradiction]. injection Hs as ->.
  split; [reflexivity|]. assert (Hf : proc_field (fi, t) = true) by exact (proj1 (forallb_forall _ _) doc_fs_procs _ Hi).
  destruct (proc_field_spec fi t Hf (or_intror Hk)) as (_ & _ & -> & _). exact (P_typed E a b Ha Hb _ _ Ey).
Qed.

(** ** The parse with and without the switches *)
Theorem c111_same_data E D conv vals doc : silent D -> Forall (fun y => exists n, y = VProc n) conv -> Forall (fun y => exists n, y = VProc n) vals ->
  ((exists doc', parse E T_AsyncAPI3 (switched D conv vals) = Some doc' /\ without_processors doc' = doc
      /\ listed doc' "extra_converters" conv /\ listed doc' "extra_validators" vals)
   <-> parse E T_AsyncAPI3 (VDict D) = Some doc).
Proof.
  intros HD Hc Hv. unfold switched. split.
  - intros (doc' & Hp & Hw & _). rewrite doc_type in *. apply model_parse_iff in Hp as (fv & -> & Ht & Hpol & _). rewrite without_obj in Hw. subst doc.
    apply model_parse_iff. exists (map blank fv). split; [f_equal; exact (extras_add D _ _ doc_fs doc_fs_procs doc_fs_has)|].
    split; [exact (typed_drop E D _ _ HD doc_fs doc_fs_procs proc_default fv Ht)|]. split; [|apply cross_doc].
    apply extras_ok_iff. apply extras_ok_iff in Hpol. rewrite (extras_add D _ _ doc_fs doc_fs_procs doc_fs_has) in Hpol. exact Hpol.
  - intros Hp. destruct (switched_parse E D _ _ doc HD (procs_typed E conv Hc) (procs_typed E vals Hv) Hp) as (fv & -> & Hpl & Hnone & Hp').
    eexists. split; [exact Hp'|]. split; [rewrite without_obj, Hpl; reflexivity|].
    split; (eexists _, _, _; split; [reflexivity|left; rewrite set_assoc, Hnone by reflexivity; reflexivity]).
Qed.
Lemma bundled_classes E l : all_bundled E l -> Forall (fun y => exists n, y = VProc n) l.
Proof. intros H. apply Forall_forall. intros x Hx. destruct (H x Hx) as (n & Hn & _). eauto. Qed.

(** ** The verdict *)
Lemma json_blank (fs : list (finfo * ty)) : forallb proc_field fs = true -> forall fv, Forall2 (fun (ft : finfo * ty) (kv : pystr * pv) => fst kv = f_name (fst ft)) fs fv ->
  json_fields json_data fs (map blank fv) -> json_fields json_data fs fv.
Proof.
  intros Hfs fv H. revert Hfs. induction H as [|[fi t] [k x] fs fv Hk _ IH]; intros Hfs Hj; cbn [json_fields map forallb fst snd] in *; [exact I|].
  apply andb_prop in Hfs as [Hfi Hfs]. unfold blank in Hj at 1. cbn [fst] in Hj. destruct (mem_str k procs_keys) eqn:Em; destruct Hj as [Hj Hr]; (split; [|exact (IH Hfs Hr)]); [|exact Hj].
  rewrite Hk in Em. destruct (proc_field_spec fi t Hfi (or_intror Em)) as (_ & _ & -> & _). cbn [json_data]. right. exact I.
Qed.
Lemma json_switched E w doc' doc : parse E T_AsyncAPI3 w = Some doc' -> without_processors doc' = doc -> json_data T_AsyncAPI3 doc -> json_data T_AsyncAPI3 doc'.
Proof.
  intros Hp Hw Hj. assert (Hwt := parsed_wt _ _ _ Hp). destruct (doc_shape E doc' Hwt) as (fv & ex & -> & Hf & _). rewrite without_obj in Hw. subst doc.
  rewrite doc_type in *. cbn [json_data] in *. intros Hn. destruct (Hj Hn) as [H1 H2]. split; [|exact H2]. apply (json_blank doc_fs doc_fs_procs); [|exact H1].
  assert (Hnames := wt_fields_names _ _ _ _ Hf). clear -Hnames. revert fv Hnames. induction doc_fs as [|ft fs IH]; intros [|kv fv] H; try discriminate H; constructor; cbn [map] in H; injection H as H1 H2; auto.
Qed.
(** What it takes for all the listed ones to accept. *)
Lemma accept_all E w doc' doc conv vals : parse E T_AsyncAPI3 w = Some doc' -> without_processors doc' = doc -> json_data T_AsyncAPI3 doc -> all_bundled E conv -> all_bundled E vals ->
  ((forall p, In p (conv ++ vals) -> accepts E doc' p) <->
     (on "UnifiedReferencesValidator" conv vals -> unified E doc = None)
     /\ (on "TagsRefValidator" conv vals -> snd (tags_validator doc) = None)
     /\ (on "ExternalDocsRefValidator" conv vals -> snd (docs_validator doc) = None)).
Proof.
  intros Hp' Hw Hj Ac Av. assert (Hjd' := json_switched E _ doc' doc Hp' Hw Hj).
  destruct (c69_without_processors E _ doc' Hp' Hjd') as [Hb _]. rewrite Hw in Hb.
  assert (Hacc' : forall p, accepts E doc' p <-> accepts E doc p) by (intros p; unfold accepts; split; intros (n & Hn & H0); exists n; (split; [exact Hn|]); [rewrite Hb|rewrite <- Hb]; exact H0).
  destruct (c41_accepts E doc) as (A1 & A2 & A3). unfold on. split.
  - intros Hall. assert (Hx : forall p, In p conv \/ In p vals -> accepts E doc p) by (intros p Hi; apply Hacc', Hall, in_or_app; exact Hi).
    split; [intros Hi; apply A1, Hx, Hi|split; [intros Hi; apply A2, Hx, Hi|intros Hi; apply A3, Hx, Hi]].
  - intros (H1 & H2 & H3) p Hi. apply Hacc'. apply in_app_or in Hi.
    assert (Hb' : exists n, p = VProc n /\ forall d, bundled E n d <> None) by (destruct Hi as [Hi|Hi]; [exact (Ac p Hi)|exact (Av p Hi)]).
    destruct Hb' as (n & -> & Hn).
    destruct (str_eqb n (u "UnifiedReferencesValidator")) eqn:E1; [apply str_eqb_eq in E1; subst n; apply A1, H1, Hi|].
    destruct (str_eqb n (u "TagsRefValidator")) eqn:E2; [apply str_eqb_eq in E2; subst n; apply A2, H2, Hi|].
    destruct (str_eqb n (u "ExternalDocsRefValidator")) eqn:E3; [apply str_eqb_eq in E3; subst n; apply A3, H3, Hi|].
    exists n. split; [reflexivity|]. specialize (Hn doc). unfold bundled in *. rewrite E1, E2, E3 in *. destruct (existsb _ stubs); [reflexivity|contradiction].
Qed.
Theorem c111_verdict E acts D doc conv vals calls r : standard E acts -> is_json (VDict D) -> silent D -> parse E T_AsyncAPI3 (VDict D) = Some doc ->
  all_bundled E conv -> all_bundled E vals -> construct acts E (switched D conv vals) calls r ->
  (r = None \/ exists doc', r = Some doc' /\ without_processors doc' = doc)
  /\ (r <> None <-> (on "UnifiedReferencesValidator" conv vals -> unified E doc = None)
                 /\ (on "TagsRefValidator" conv vals -> snd (tags_validator doc) = None)
                 /\ (on "ExternalDocsRefValidator" conv vals -> snd (docs_validator doc) = None)).
Proof.
  intros Hst Hj HD Hp Ac Av H.
  destruct (proj2 (c111_same_data E D conv vals doc HD (bundled_classes _ _ Ac) (bundled_classes _ _ Av)) Hp) as (doc' & Hp' & Hw & Lc & Lv).
  destruct (c41_unchanged E acts _ doc' conv vals calls r Hst Hp' Lc Lv Ac Av H) as (_ & Hr & Hacc).
  split; [destruct Hr as [-> | ->]; [left; reflexivity|right; eauto]|].
  rewrite <- (accept_all E _ doc' doc conv vals Hp' Hw (loaded_json_data E T_AsyncAPI3 _ doc ltac:(in_table) Hj Hp) Ac Av), <- Hacc.
  destruct Hr as [-> | ->]; split; congruence.
Qed.
Lemma some_load acts procs E w doc : runs acts procs -> parse E T_AsyncAPI3 w = Some doc -> exists calls r, construct acts E w calls r.
Proof.
  intros Hr Hp. destruct (Hr doc) as (calls & H). exists calls. destruct (fst (procs doc)) eqn:Ef; [exists (Some (snd (procs doc)))|exists None].
  - exact (cs_done _ _ _ doc calls _ Hp H).
  - exact (cs_raise _ _ _ doc calls _ Hp H).
Qed.
(** Data that is refused is refused whatever is listed. *)
Theorem c111_invalid E acts D conv vals calls r : silent D -> Forall (fun y => exists n, y = VProc n) conv -> Forall (fun y => exists n, y = VProc n) vals ->
  parse E T_AsyncAPI3 (VDict D) = None -> construct acts E (switched D conv vals) calls r -> calls = [] /\ r = None.
Proof.
  intros HD Hc Hv Hn H. assert (Hw : parse E T_AsyncAPI3 (switched D conv vals) = None).
  { destruct (parse E T_AsyncAPI3 (switched D conv vals)) as [doc'|] eqn:Ep; [|reflexivity]. exfalso.
    unfold switched in Ep. rewrite doc_type in *. apply model_parse_iff in Ep as (fv & _ & Ht & Hpol & _).
    assert (Hd : parse E (TModel "AsyncAPI3" KExt doc_fs) (VDict D) = Some (VObj "AsyncAPI3" (map blank fv) (extras doc_fs D))); [|rewrite Hn in Hd; discriminate Hd].
    apply model_parse_iff. exists (map blank fv). split; [reflexivity|].
    split; [exact (typed_drop E D _ _ HD doc_fs doc_fs_procs proc_default fv Ht)|]. split; [|apply cross_doc].
    apply extras_ok_iff. apply extras_ok_iff in Hpol. rewrite (extras_add D _ _ doc_fs doc_fs_procs doc_fs_has) in Hpol. exact Hpol. }
  inversion H as [Hx|doc0 c0 d1 Hp Hrun|doc0 c0 d1 Hp Hrun]; subst; [auto|rewrite Hw in Hp; discriminate Hp|rewrite Hw in Hp; discriminate Hp].
Qed.

(** ** What is listed decides: not in which of the two lists, in which order, how often or with which deprecated ones. *)
Section Two.
  Context (E : env) (acts : pv -> pv * list pv -> bool -> pv * list pv -> Prop) (Hst : standard E acts) (D : fields) (HD : silent D) (Hj : is_json (VDict D)).
  Context (conv1 vals1 conv2 vals2 : list pv) (B1 : all_bundled E conv1) (B2 : all_bundled E vals1) (B3 : all_bundled E conv2) (B4 : all_bundled E vals2).
  Context (calls1 calls2 : list call) (r1 r2 : option pv) (H1 : construct acts E (switched D conv1 vals1) calls1 r1) (H2 : construct acts E (switched D conv2 vals2) calls2 r2).
  Lemma fewer : (forall n, In n working -> on n conv2 vals2 -> on n conv1 vals1) -> r1 <> None -> r2 <> None.
  Proof.
    intros Hon Hr. destruct (parse E T_AsyncAPI3 (VDict D)) as [doc|] eqn:Ep.
    - destruct (proj1 (proj2 (c111_verdict E acts D doc conv1 vals1 calls1 r1 Hst Hj HD Ep B1 B2 H1)) Hr) as (V1 & V2 & V3).
      apply (c111_verdict E acts D doc conv2 vals2 calls2 r2 Hst Hj HD Ep B3 B4 H2).
      split; [intros Hi; apply V1, Hon; [left; reflexivity|exact Hi]|]. split; [intros Hi; apply V2, Hon; [right; left; reflexivity|exact Hi]|].
      intros Hi. apply V3, Hon; [right; right; left; reflexivity|exact Hi].
    - exfalso. apply Hr. exact (proj2 (c111_invalid E acts D conv1 vals1 calls1 r1 HD (bundled_classes _ _ B1) (bundled_classes _ _ B2) Ep H1)).
  Qed.
  Lemma kept doc1 doc2 : r1 = Some doc1 -> r2 = Some doc2 -> without_processors doc1 = without_processors doc2.
  Proof.
    intros -> ->. destruct (parse E T_AsyncAPI3 (VDict D)) as [doc|] eqn:Ep.
    - destruct (c111_verdict E acts D doc conv1 vals1 calls1 _ Hst Hj HD Ep B1 B2 H1) as [[Hx|(d & Hd & Hw)] _]; [discriminate Hx|]. injection Hd as <-.
      destruct (c111_verdict E acts D doc conv2 vals2 calls2 _ Hst Hj HD Ep B3 B4 H2) as [[Hx|(d' & Hd' & Hw')] _]; [discriminate Hx|]. injection Hd' as <-. congruence.
    - destruct (c111_invalid E acts D conv1 vals1 calls1 _ HD (bundled_classes _ _ B1) (bundled_classes _ _ B2) Ep H1) as [_ Hx]. discriminate Hx.
  Qed.
End Two.
Theorem c111_listing E acts D conv1 vals1 conv2 vals2 calls1 calls2 r1 r2 : standard E acts -> silent D -> is_json (VDict D) ->
  all_bundled E conv1 -> all_bundled E vals1 -> all_bundled E conv2 -> all_bundled E vals2 ->
  construct acts E (switched D conv1 vals1) calls1 r1 -> construct acts E (switched D conv2 vals2) calls2 r2 ->
  (forall n, In n working -> (on n conv1 vals1 <-> on n conv2 vals2)) ->
  (r1 = None <-> r2 = None) /\ (forall doc1 doc2, r1 = Some doc1 -> r2 = Some doc2 -> without_processors doc1 = without_processors doc2).
Proof.
  intros Hst HD Hj B1 B2 B3 B4 H1 H2 Hon.
  assert (F1 := fewer E acts Hst D HD Hj _ _ _ _ B1 B2 B3 B4 _ _ _ _ H1 H2 (fun n Hn => proj2 (Hon n Hn))).
  assert (F2 := fewer E acts Hst D HD Hj _ _ _ _ B3 B4 B1 B2 _ _ _ _ H2 H1 (fun n Hn => proj1 (Hon n Hn))).
  split; [destruct r1, r2; split; intros Hx; try reflexivity; try discriminate Hx; exfalso; [apply F1|apply F2]; congruence|].
  exact (kept E acts Hst D HD Hj _ _ _ _ B1 B2 B3 B4 _ _ _ _ H1 H2).
Qed.
(** Listing more classes refuses more documents, never fewer. *)
Theorem c111_stricter E acts D conv1 vals1 conv2 vals2 calls1 calls2 r1 r2 : standard E acts -> silent D -> is_json (VDict D) ->
  all_bundled E conv1 -> all_bundled E vals1 -> all_bundled E conv2 -> all_bundled E vals2 ->
  construct acts E (switched D conv1 vals1) calls1 r1 -> construct acts E (switched D conv2 vals2) calls2 r2 ->
  (forall n, on n conv2 vals2 -> on n conv1 vals1) -> r1 <> None -> r2 <> None.
Proof. intros Hst HD Hj B1 B2 B3 B4 H1 H2 Hon. exact (fewer E acts Hst D HD Hj _ _ _ _ B1 B2 B3 B4 _ _ _ _ H1 H2 (fun n _ => Hon n)). Qed.
(** With none of the three working classes listed - say, only the deprecated ones - every document that fits the model is accepted, dangling references or not. *)
Theorem c111_deprecated E acts D doc conv vals calls r : standard E acts -> silent D -> is_json (VDict D) -> parse E T_AsyncAPI3 (VDict D) = Some doc ->
  all_bundled E conv -> all_bundled E vals -> (forall n, In n working -> ~ on n conv vals) -> construct acts E (switched D conv vals) calls r -> r <> None.
Proof.
  intros Hst HD Hj Hp Ac Av Hno H. apply (c111_verdict E acts D doc conv vals calls r Hst Hj HD Hp Ac Av H).
  split; [intros Hi|split; intros Hi]; exfalso; (eapply Hno; [|exact Hi]); cbn; tauto.
Qed.

(** Listing them afterwards, by assignment to either attribute of the loaded document, gives the same answer; the list is stored either way, nothing else changes. *)
Theorem c111_later E acts procs D doc f l conv vals : standard E acts -> runs acts procs -> silent D -> NoDup (map fst D) -> is_json (VDict D) ->
  parse E T_AsyncAPI3 (VDict D) = Some doc -> all_bundled E l ->
  (f = "extra_converters" /\ conv = l /\ vals = [] \/ f = "extra_validators" /\ conv = [] /\ vals = l) ->
  let r := assign E procs doc (u f) (VList l) in
  without_processors (snd r) = doc /\ listed (snd r) f l
  /\ (fst r = true <-> forall calls r', construct acts E (switched D conv vals) calls r' -> r' <> None).
Proof.
  intros Hst Hr HD Hnd Hj Hp Al Hf. cbv zeta.
  set (a := if String.eqb f "extra_converters" then VList l else VNone). set (b := if String.eqb f "extra_converters" then VNone else VList l).
  assert (Tl := procs_typed E l (bundled_classes E l Al)).
  assert (Ta : well_typed E (TOpt TProcs) a) by (unfold a; destruct (String.eqb f "extra_converters"); [exact Tl|cbn [well_typed]; left; reflexivity]).
  assert (Tb : well_typed E (TOpt TProcs) b) by (unfold b; destruct (String.eqb f "extra_converters"); [cbn [well_typed]; left; reflexivity|exact Tl]).
  destruct (switched_parse E D a b doc HD Ta Tb Hp) as (fv & Hdoc & Hpl & Hnone & Hp').
  assert (Hm : mem_str (u f) procs_keys = true) by (destruct Hf as [(-> & _)|(-> & _)]; reflexivity).
  assert (Hin : exists fi, In (fi, TOpt TProcs) doc_fs /\ f_name fi = u f /\ f_val fi = FvNone).
  { destruct (doc_fs_has (u f) Hm) as ([fi t] & Hi & Hal). cbn [fst] in Hal. assert (Hpf : proc_field (fi, t) = true) by exact (proj1 (forallb_forall _ _) doc_fs_procs _ Hi).
    rewrite <- Hal in Hm. destruct (proc_field_spec fi t Hpf (or_introl Hm)) as (Hna & Hv & -> & _). exists fi. split; [exact Hi|]. split; [congruence|exact Hv]. }
  destruct Hin as (fi & Hi & Hname & Hval). subst doc.
  assert (Ht : In (TModel "AsyncAPI3" KExt doc_fs) all_types) by (rewrite <- doc_type; in_table).
  assert (Hov : object_valid E "AsyncAPI3" fv (extras doc_fs D)) by (rewrite doc_type in Hp; exact (parsed_object_valid E _ _ _ _ _ _ Ht Hp)).
  assert (Hne : NoDup (map fst (extras doc_fs D))).
  { unfold extras. generalize (fun kv : pystr * pv => negb (mem_str (fst kv) (map (fun ft : finfo * ty => used_key D (fst ft)) doc_fs))). intros pr. clear -Hnd. induction D as [|kv d IH]; [constructor|]. inversion Hnd as [|? ? H1 H2]; subst. cbn [filter]. destruct (pr kv); [|exact (IH H2)].
    cbn [map]. constructor; [|exact (IH H2)]. intros Hi. apply H1. apply in_map_iff in Hi as (x & Hx & Hi). apply filter_In in Hi as [Hi _]. rewrite <- Hx. exact (in_map fst _ _ Hi). }
  assert (Hc := c58_assignment E acts procs KExt doc_fs fv (extras doc_fs D) fi (TOpt TProcs) (VList l) Hr Ht Hov Hne Hi). cbv zeta in Hc. rewrite Hname in Hc.
  assert (Hpl' := procs_parse E (VList l) Tl).
  destruct Hc as [(Hno & _)|(y & fv' & calls & Hy & _ & Hrep & Hrun)]; [exfalso; apply Hno; exists (VList l); rewrite Hval; split; [exact Hpl'|exact I]|].
  rewrite Hpl' in Hy. injection Hy as <-.
  assert (Heq : fv' = map (set_procs a b) fv).
  { destruct Hrep as (Hk & Ha & Ho). assert (Hf' := parsed_wt _ _ _ Hp). destruct (doc_shape E _ Hf') as (fv0 & ex0 & Heq & _ & _ & Hndf & _). injection Heq as <- _.
    apply assoc_ext; [rewrite Hk; exact Hndf| |].
    - rewrite Hk, map_map. apply map_ext. intros kv. symmetry. apply set_key.
    - intros k. rewrite set_assoc. destruct (str_eqb k (u f)) eqn:Ek.
      + apply str_eqb_eq in Ek. subst k. rewrite Ha, (Hnone (u f) Hm). destruct Hf as [(-> & _)|(-> & _)]; reflexivity.
      + rewrite (Ho k) by (intros ->; rewrite str_eqb_refl in Ek; discriminate Ek). destruct (assoc k fv) as [x|] eqn:Ex; [|reflexivity]. f_equal.
        destruct (mem_str k procs_keys) eqn:Em.
        * rewrite (Hnone k Em) in Ex. injection Ex as <-. apply mem_str_In in Em. destruct Hf as [(-> & _)|(-> & _)]; destruct Em as [<-|[<-|[]]];
            first [reflexivity|rewrite str_eqb_refl in Ek; discriminate Ek].
        * destruct (assoc k [(u "extra_converters", a); (u "extra_validators", b)]) as [y|] eqn:Ey; [|reflexivity]. exfalso.
          assert (Hm' : mem_str k procs_keys = true) by (apply (P_keys a b); rewrite Ey; discriminate 1). congruence. }
  subst fv'.
  assert (Lc : listed (VObj "AsyncAPI3" (map (set_procs a b) fv) (extras doc_fs D)) "extra_converters" conv).
  { eexists _, _, _. split; [reflexivity|]. rewrite set_assoc, (Hnone (u "extra_converters") eq_refl). destruct Hf as [(-> & -> & ->)|(-> & -> & ->)]; [left; reflexivity|right; split; reflexivity]. }
  assert (Lv : listed (VObj "AsyncAPI3" (map (set_procs a b) fv) (extras doc_fs D)) "extra_validators" vals).
  { eexists _, _, _. split; [reflexivity|]. rewrite set_assoc, (Hnone (u "extra_validators") eq_refl). destruct Hf as [(-> & -> & ->)|(-> & -> & ->)]; [right; split; reflexivity|left; reflexivity]. }
  assert (Ac : all_bundled E conv /\ all_bundled E vals) by (destruct Hf as [(_ & -> & ->)|(_ & -> & ->)]; split; first [exact Al|intros p []]). destruct Ac as [Ac Av].
  destruct (bundled_run E acts _ conv vals calls _ _ Hst Lc Lv Ac Av Hrun) as (Hsnd & Hacc). rewrite Hsnd.
  split; [rewrite without_obj, Hpl; reflexivity|]. split; [destruct Hf as [(-> & <- & _)|(-> & _ & <-)]; assumption|].
  assert (Hw : without_processors (VObj "AsyncAPI3" (map (set_procs a b) fv) (extras doc_fs D)) = VObj "AsyncAPI3" fv (extras doc_fs D)) by (rewrite without_obj, Hpl; reflexivity).
  rewrite Hacc, (accept_all E _ _ _ conv vals Hp' Hw (loaded_json_data E T_AsyncAPI3 _ _ ltac:(in_table) Hj Hp) Ac Av).
  split.
  - intros Hall calls0 r0 H0. apply (c111_verdict E acts D _ conv vals calls0 r0 Hst Hj HD Hp Ac Av H0). exact Hall.
  - intros Hall. destruct (proj2 (c111_same_data E D conv vals _ HD (bundled_classes _ _ Ac) (bundled_classes _ _ Av)) Hp) as (doc' & Hd' & _).
    destruct (some_load acts procs E _ doc' Hr Hd') as (calls0 & r0 & H0). apply (c111_verdict E acts D _ conv vals calls0 r0 Hst Hj HD Hp Ac Av H0). exact (Hall _ _ H0).
Qed.

(** An example: a channel with a dangling tag reference, and two ways of listing the same. *)
Definition tagged_data : fields := match spec [("channels", obj [("c", obj [("tags", VList [ref "#/components/tags/gone"])])])] with VDict d => d | _ => [] end.
Definition classes (l : list string) : list pv := map (fun n => VProc (u n)) l.
Lemma classes_bundled E l : (forall n, In n l -> In n (working ++ stubs)%list) -> all_bundled E (classes l).
Proof. intros H p Hp. apply in_map_iff in Hp as (n & <- & Hn). exists (u n). split; [reflexivity|]. apply c41_bundled_names. exact (H n Hn). Qed.
Lemma some_run E w doc : parse E T_AsyncAPI3 w = Some doc -> exists calls, construct (bundled_acts E) E w calls (if fst (bundled_procs E doc) then Some doc else None).
Proof.
  intros Hp. destruct (bundled_runs E doc) as (calls & Hr). exists calls. destruct (fst (bundled_procs E doc)) eqn:Ef.
  - apply (cs_done _ _ _ doc calls doc Hp). exact Hr.
  - apply (cs_raise _ _ _ doc calls doc Hp). exact Hr.
Qed.
Example c111_ex : silent tagged_data /\ is_json (VDict tagged_data) /\ parse E0 T_AsyncAPI3 (VDict tagged_data) = Some (load_doc (VDict tagged_data))
  /\ (exists calls1 calls2, construct (bundled_acts E0) E0 (switched tagged_data (classes ["TagsRefValidator"]) []) calls1 None
       /\ construct (bundled_acts E0) E0 (switched tagged_data (classes ["ServersRefValidator"]) (classes ["ExternalDocsRefValidator"; "TagsRefValidator"; "TagsRefValidator"])) calls2 None)
  /\ (exists calls doc', construct (bundled_acts E0) E0 (switched tagged_data (classes ["ServersRefValidator"]) (classes ["ExternalDocsRefValidator"])) calls (Some doc'))
  /\ (forall n, In n working -> (on n (classes ["TagsRefValidator"; "ExternalDocsRefValidator"]) [] <->
       on n (classes ["ServersRefValidator"]) (classes ["ExternalDocsRefValidator"; "TagsRefValidator"; "TagsRefValidator"])))
  /\ all_bundled E0 (classes ["ExternalDocsRefValidator"; "TagsRefValidator"; "TagsRefValidator"])
  /\ snd (tags_validator (load_doc (VDict tagged_data))) <> None.
Proof.
  assert (Hr : forall c v b, fst (bundled_procs E0 (load_doc (switched tagged_data (classes c) (classes v)))) = b -> some_doc (parse E0 T_AsyncAPI3 (switched tagged_data (classes c) (classes v))) = true ->
     exists calls, construct (bundled_acts E0) E0 (switched tagged_data (classes c) (classes v)) calls (if b then Some (load_doc (switched tagged_data (classes c) (classes v))) else None)).
  { intros c v b <- Hp. apply some_run. apply load_doc_ok. exact Hp. }
  split; [split; vm_compute; intros H; repeat (destruct H as [H|H]; [discriminate H|]); exact H|].
  split; [apply json_dec; vm_compute; reflexivity|]. split; [apply load_doc_ok; vm_compute; reflexivity|].
  split.
  { destruct (Hr ["TagsRefValidator"] [] false) as (c1 & R1); [vm_compute; reflexivity|vm_compute; reflexivity|].
    destruct (Hr ["ServersRefValidator"] ["ExternalDocsRefValidator"; "TagsRefValidator"; "TagsRefValidator"] false) as (c2 & R2); [vm_compute; reflexivity|vm_compute; reflexivity|].
    exists c1, c2. split; [exact R1|exact R2]. }
  split.
  { destruct (Hr ["ServersRefValidator"] ["ExternalDocsRefValidator"] true) as (c1 & R1); [vm_compute; reflexivity|vm_compute; reflexivity|]. eauto. }
  split.
  { intros n Hn. unfold on, classes. cbn [map In]. destruct Hn as [<-|[<-|[<-|[]]]]; split; intros H; repeat (destruct H as [H|H]; try discriminate H; try contradiction); tauto. }
  split; [apply classes_bundled; cbn; tauto|]. vm_compute. discriminate.
Qed.
Example c111_later_ex : runs (bundled_acts E0) (bundled_procs E0) /\ NoDup (map fst tagged_data)
  /\ fst (assign E0 (bundled_procs E0) (load_doc (VDict tagged_data)) (u "extra_validators") (VList (classes ["TagsRefValidator"]))) = false
  /\ fst (assign E0 (bundled_procs E0) (load_doc (VDict tagged_data)) (u "extra_converters") (VList (classes ["ExternalDocsRefValidator"]))) = true.
Proof.
  split; [apply bundled_runs|]. split; [|split; vm_compute; reflexivity].
  assert (H : NoDup (map fst tagged_data) <-> True); [|tauto]. split; [auto|intros _]. vm_compute.
  repeat (constructor; [intros H; repeat (destruct H as [H|H]; [discriminate H|]); exact H|]). constructor.
Qed.
Print Assumptions c111_same_data.
Print Assumptions c111_verdict.
Print Assumptions c111_invalid.
Print Assumptions c111_listing.
Print Assumptions c111_stricter.
Print Assumptions c111_deprecated.
Print Assumptions c111_later.
Print Assumptions c111_later_ex.
Print Assumptions c111_ex.
