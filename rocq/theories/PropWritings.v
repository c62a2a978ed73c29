(** C109: every way of writing a document reads back as that document. *)
From Verif Require Import PyStr Regex Value Types Rules Pydantic ClassTable Classes Canon Fix Linked SpecParse Sample ProofRules ProofParse
  State SpecState ProofState PropState Resolve SpecResolve ProofResolve Dump SpecDump ProofDump SpecUnified PropSame PropDump JsonText SpecJsonText ProofJsonText ProofJsonRead SpecWritings ProofWritings.
Local Open Scope string_scope.

(** Whatever declared fields are left out (because they are never serialised, or have their default), under whichever of its two names each of the
    others is written, and whether URLs are written as URLs or strings. *)
Theorem c109_reads E t v o w :
  url_idem E -> In t all_types -> python_dicts v -> parse E t v = Some o -> json_data t o -> no_shadowing o -> no_ambiguity o ->
  writes o w -> parse E t w = Some (without_processors o).
Proof.
  intros Hu Hi Hp Ho Hj Hs Ha Hw. destruct (any_written E t o w Hu Hi (parsed_json _ _ _ _ Hi Ho Hj)) as [n Hn]; [|exact Hw|apply parse_some; eauto].
  split; [eapply parse_pd; [exact (wf_all _ Hi)|exact Hp|exact Ho]|]. auto.
Qed.
(** So any two ways of writing it are the same document. *)
Theorem c109_same E t v o w w' :
  url_idem E -> In t all_types -> python_dicts v -> parse E t v = Some o -> json_data t o -> no_shadowing o -> no_ambiguity o ->
  writes o w -> writes o w' -> parse E t w = parse E t w' /\ parse E t w <> None.
Proof.
  intros Hu Hi Hp Ho Hj Hs Ha H1 H2. rewrite (c109_reads E t v o w), (c109_reads E t v o w') by assumption. split; [reflexivity|discriminate].
Qed.
(** Different documents are never written alike. *)
Theorem c109_injective E t v1 v2 o1 o2 w :
  url_idem E -> In t all_types -> python_dicts v1 -> parse E t v1 = Some o1 -> json_data t o1 -> no_shadowing o1 -> no_ambiguity o1 ->
  python_dicts v2 -> parse E t v2 = Some o2 -> json_data t o2 -> no_shadowing o2 -> no_ambiguity o2 ->
  writes o1 w -> writes o2 w -> without_processors o1 = without_processors o2.
Proof.
  intros Hu Hi Hp1 Ho1 Hj1 Hs1 Ha1 Hp2 Ho2 Hj2 Hs2 Ha2 H1 H2. assert (G1 := c109_reads E t v1 o1 w Hu Hi Hp1 Ho1 Hj1 Hs1 Ha1 H1). rewrite (c109_reads E t v2 o2 w Hu Hi Hp2 Ho2 Hj2 Hs2 Ha2 H2) in G1. congruence.
Qed.
(** Every combination of the options of model_dump is such a way of writing. *)
Theorem c109_options op E t v o :
  In t all_types -> parse E t v = Some o -> json_data t o -> no_null_over_default o -> (o_none op = true -> nulls_omissible o) -> writes o (dump_with op o).
Proof. intros Hi Ho Hj Hn Hx. exact (any_options op E t o Hi (parsed_json _ _ _ _ Hi Ho Hj) (conj Hn Hx)). Qed.
Theorem c109_dump_reads op E t v o :
  url_idem E -> In t all_types -> python_dicts v -> parse E t v = Some o -> json_data t o -> no_shadowing o -> no_ambiguity o ->
  no_null_over_default o -> (o_none op = true -> nulls_omissible o) -> parse E t (dump_with op o) = Some (without_processors o).
Proof. intros Hu Hi Hp Ho Hj Hs Ha Hn Hx. eapply c109_reads; eauto. eapply c109_options; eauto. Qed.
(** With the options as they are by default it is the serialisation of C17. *)
Definition by_default : options := {| o_names := false; o_python := false; o_none := false; o_defaults := false |}.
Definition known_class (v : pv) : Prop :=
  match v with VObj c fv _ => exists k fs, linked (TModel c k fs) = true /\ wf_ty (TModel c k fs) = true /\ map fst fv = map (fun ft => f_name (fst ft)) fs | _ => True end.
Lemma with_fields_zip fs : forall fv, map fst fv = map (fun ft => f_name (fst ft)) fs -> Forall (fun kv => dump_with by_default (snd kv) = dump (snd kv)) fv ->
  with_fields by_default fs fv = zdump fs fv.
Proof.
  induction fs as [|[fi t] fs IH]; intros [|[k x] fv] Hn Hf; cbn [map fst] in Hn; try discriminate Hn; [reflexivity|]. injection Hn as _ Hn. inversion Hf as [|? ? H1 H2]; subst. cbn [snd] in H1.
  cbn [with_fields zdump]. unfold left_out, written. cbn [o_names o_none o_defaults by_default]. rewrite orb_false_r. cbn [andb]. rewrite orb_false_r. rewrite <- (IH fv Hn H2), H1.
  destruct (f_excl fi || f_exnull fi && is_none x); reflexivity.
Qed.
Lemma dump_default v : (forall x, within x v -> known_class x) -> dump_with by_default v = dump v.
Proof.
  induction v using pv_ind'; intros Hk; try reflexivity.
  - cbn [dump_with dump]. f_equal. apply map_ext_in. intros x Hi. rewrite Forall_forall in H. apply H; [exact Hi|]. intros y Hy. apply Hk. exact (w_list _ _ _ Hi Hy).
  - cbn [dump_with dump]. f_equal. apply map_ext_in. intros [k x] Hi. f_equal. rewrite Forall_forall in H. apply (H _ Hi). intros y Hy. apply Hk. exact (w_dict _ _ _ _ Hi Hy).
  - match goal with H1 : Forall _ ?f, H2 : Forall _ ?e |- dump_with _ (VObj ?x _ _) = _ => rename H1 into HF, H2 into HE, x into c, f into fv, e into ex end.
    destruct (Hk _ (w_self _)) as (k0 & gs & Hl & Hw & Hn). rewrite (dump_zip c k0 gs fv ex Hl Hw Hn), dump_with_obj, (proj1 (linked_fields c k0 gs Hl)). rewrite Forall_forall in HF, HE. f_equal. f_equal.
    + apply with_fields_zip; [exact Hn|]. apply Forall_forall. intros [k1 x] Hi. apply (HF _ Hi). intros y Hy. apply Hk. exact (w_field _ _ _ _ _ _ Hi Hy).
    + assert (G : forall k1 x, In (k1, x) ex -> dump_with by_default x = dump x) by (intros k1 x Hi; apply (HE _ Hi); intros y Hy; apply Hk; exact (w_extra _ _ _ _ _ _ Hi Hy)).
      clear - G. unfold dump_entries. induction ex as [|[k1 x] ex IH]; [reflexivity|]. cbn [with_extras map o_none by_default andb]. rewrite (G k1 x (or_introl eq_refl)). f_equal. apply IH. intros k2 y Hi. exact (G k2 y (or_intror Hi)).
  - cbn [dump_with dump]. f_equal. apply map_ext_in. intros [k x] Hi. f_equal. rewrite Forall_forall in H. apply (H _ Hi). intros y Hy. apply Hk. exact (w_root _ _ _ _ _ Hi Hy).
Qed.
Theorem c109_default E t v o : In t all_types -> parse E t v = Some o -> json_data t o -> dump_with by_default o = dump o.
Proof.
  intros Hi Ho Hj. apply dump_default. intros x Hx. destruct x as [| | | | | | | |c fv ex| | |]; try exact I.
  destruct (obj_in E t o c fv ex (linked_all _ Hi) (wf_all _ Hi) (parsed_json _ _ _ _ Hi Ho Hj) Hx) as (k & fs & Hl & Hw & Hc). exists k, fs. split; [exact Hl|]. split; [exact Hw|].
  cbn [canon] in Hc. destruct Hc as (fv' & ex' & He & Hf & _). injection He as <- <-. exact (canon_fields_names _ _ _ _ Hf).
Qed.

(** ** The conditions on leaving nulls out are needed. *)
Definition no_nulls : options := {| o_names := false; o_python := false; o_none := true; o_defaults := false |}.
Definition shortest : options := {| o_names := true; o_python := true; o_none := true; o_defaults := true |}.
Definition nullable_of (fv : fields) (l : list (finfo * ty)) : bool :=
  forallb (fun ft => match f_def (fst ft), assoc (f_name (fst ft)) fv with None, Some VNone => false | _, _ => true end) l.
Definition omissible_b (v : pv) : bool :=
  match v with VObj c fv ex => forallb (fun kv => negb (is_none (snd kv))) ex && nullable_of fv (class_fields c) | _ => true end.
Lemma nullable_of_spec fv l fi t : nullable_of fv l = true -> In (fi, t) l -> f_def fi = None -> assoc (f_name fi) fv <> Some VNone.
Proof. intros H Hi Hd Ha. unfold nullable_of in H. rewrite forallb_forall in H. specialize (H _ Hi). cbn [fst] in H. rewrite Hd, Ha in H. discriminate H. Qed.
Lemma omissible_b_obj c fv ex : omissible_b (VObj c fv ex) = forallb (fun kv => negb (is_none (snd kv))) ex && nullable_of fv (class_fields c). Proof. reflexivity. Qed.
Lemma omissible_dec v : all_within omissible_b v = true -> nulls_omissible v.
Proof.
  intros H c fv ex Hx. assert (Hb := all_within_spec _ _ _ Hx H). rewrite omissible_b_obj in Hb. revert Hb. generalize (class_fields c). intros l Hb. apply andb_prop in Hb as [H1 H2]. split.
  - intros k Hi. rewrite forallb_forall in H1. specialize (H1 _ Hi). discriminate H1.
  - intros fi t. exact (nullable_of_spec fv l fi t H2).
Qed.
(** An extension entry that is null is lost; a MultiFormatSchema whose schema is null can no longer be read. *)
Theorem c109_null_extra_lost E : exists v o o', is_json v /\ python_dicts v /\ parse E T_Info v = Some o /\ no_shadowing o /\ no_ambiguity o /\ no_null_over_default o
  /\ parse E T_Info (dump o) = Some o /\ parse E T_Info (dump_with no_nulls o) = Some o' /\ o' <> o.
Proof.
  exists (obj [("title", str "t"); ("version", str "1"); ("x-a", VNone)]). eexists _, _. split; [apply json_dec; reflexivity|]. split; [apply python_dicts_dec; reflexivity|]. split; [vm_compute; reflexivity|].
  split; [apply no_shadowing_dec; vm_compute; reflexivity|]. split; [apply ambiguity_dec; vm_compute; reflexivity|]. split; [apply null_dec; vm_compute; reflexivity|].
  split; [vm_compute; reflexivity|]. split; [vm_compute; reflexivity|]. discriminate.
Qed.
Theorem c109_null_required_lost E : exists v o, is_json v /\ python_dicts v /\ parse E T_MultiFormatSchema v = Some o /\ no_shadowing o /\ no_ambiguity o /\ no_null_over_default o
  /\ parse E T_MultiFormatSchema (dump o) = Some o /\ parse E T_MultiFormatSchema (dump_with no_nulls o) = None.
Proof.
  exists (obj [("schemaFormat", str "f"); ("schema", VNone)]). eexists. split; [apply json_dec; reflexivity|]. split; [apply python_dicts_dec; reflexivity|]. split; [vm_compute; reflexivity|].
  split; [apply no_shadowing_dec; vm_compute; reflexivity|]. split; [apply ambiguity_dec; vm_compute; reflexivity|]. split; [apply null_dec; vm_compute; reflexivity|].
  split; vm_compute; reflexivity.
Qed.
(** A document that meets every condition, and is not written the same under other options. *)
Example c109_ex : exists o, is_json sample_doc /\ python_dicts sample_doc /\ parse E0 T_AsyncAPI3 sample_doc = Some o
  /\ no_shadowing o /\ no_null_over_default o /\ no_ambiguity o /\ nulls_omissible o /\ dump_with shortest o <> dump o /\ dump_with no_nulls o <> dump o
  /\ parse E0 T_AsyncAPI3 (dump_with shortest o) = Some (without_processors o).
Proof.
  eexists. split; [apply json_dec; vm_compute; reflexivity|]. split; [apply python_dicts_dec; vm_compute; reflexivity|]. split; [vm_compute; reflexivity|].
  split; [apply no_shadowing_dec; vm_compute; reflexivity|]. split; [apply null_dec; vm_compute; reflexivity|]. split; [apply ambiguity_dec; vm_compute; reflexivity|].
  split; [apply omissible_dec; vm_compute; reflexivity|]. split; [intros H; vm_compute in H; discriminate H|]. split; [intros H; vm_compute in H; discriminate H|]. vm_compute. reflexivity.
Qed.
(** ** What the options leave out, and nothing else. *)
Definition out_name (op : options) (fi : finfo) : pystr := if o_names op then f_name fi else f_alias fi.
Lemma with_fields_in op fs : forall fv a y, map fst fv = map (fun ft => f_name (fst ft)) fs -> In (a, y) (with_fields op fs fv) ->
  exists fi t x, In (fi, t) fs /\ In (f_name fi, x) fv /\ left_out op fi x = false /\ a = out_name op fi /\ y = dump_with op x.
Proof.
  induction fs as [|[fi t] fs IH]; intros [|[k x] fv] a y Hn Hi; try discriminate Hn; [contradiction|]. cbn [map fst] in Hn. injection Hn as -> Hn. cbn [with_fields] in Hi.
  assert (Hr : In (a, y) (with_fields op fs fv) -> exists fi0 t0 x0, In (fi0, t0) ((fi, t) :: fs) /\ In (f_name fi0, x0) ((f_name fi, x) :: fv) /\ left_out op fi0 x0 = false /\ a = out_name op fi0 /\ y = dump_with op x0).
  { intros H. destruct (IH _ _ _ Hn H) as (g & t' & z & H1 & H2 & H3). exists g, t', z. split; [right; exact H1|]. split; [right; exact H2|exact H3]. }
  destruct (left_out op fi x) eqn:El; [exact (Hr Hi)|]. destruct Hi as [Hi|Hi]; [|exact (Hr Hi)]. injection Hi as <- <-.
  exists fi, t, x. split; [left; reflexivity|]. split; [left; reflexivity|]. split; [exact El|]. split; reflexivity.
Qed.
Lemma with_fields_has op fs : forall fv fi t x, map fst fv = map (fun ft => f_name (fst ft)) fs -> NoDup (map (fun ft => f_name (fst ft)) fs) ->
  In (fi, t) fs -> In (f_name fi, x) fv -> left_out op fi x = false -> In (out_name op fi, dump_with op x) (with_fields op fs fv).
Proof.
  induction fs as [|[g t'] fs IH]; intros [|[k y] fv] fi t x Hn Hd Hi Hx Hw; try discriminate Hn; [contradiction|].
  cbn [map fst] in Hn, Hd. injection Hn as -> Hn. inversion Hd as [|? ? Hni Hd']; subst. cbn [with_fields]. destruct Hi as [Hi|Hi].
  - injection Hi as -> ->. destruct Hx as [Hx|Hx].
    + injection Hx as ->. rewrite Hw. left. reflexivity.
    + exfalso. apply Hni. rewrite <- Hn. apply in_map with (f := fst) in Hx. exact Hx.
  - destruct Hx as [Hx|Hx].
    + exfalso. injection Hx as Hx _. apply Hni. rewrite Hx. apply in_map_iff. exists (fi, t). split; [reflexivity|exact Hi].
    + assert (Hr := IH fv fi t x Hn Hd' Hi Hx Hw). destruct (left_out op g y); [exact Hr|right; exact Hr].
Qed.
Lemma with_extras_in op ex k y : In (k, y) (with_extras op ex) -> exists x, In (k, x) ex /\ (o_none op && is_none x) = false /\ y = dump_with op x.
Proof.
  induction ex as [|[k0 x] ex IH]; [contradiction|]. cbn [with_extras]. intros Hi. destruct (o_none op && is_none x) eqn:Ez.
  - destruct (IH Hi) as (z & H1 & H2). exists z. split; [right; exact H1|exact H2].
  - destruct Hi as [Hi|Hi]; [injection Hi as -> <-; exists x; split; [left; reflexivity|auto]|]. destruct (IH Hi) as (z & H1 & H2). exists z. split; [right; exact H1|exact H2].
Qed.
Lemma with_extras_has op ex k x : In (k, x) ex -> (o_none op && is_none x) = false -> In (k, dump_with op x) (with_extras op ex).
Proof.
  induction ex as [|[k0 x0] ex IH]; [contradiction|]. intros [Hi|Hi] Hz; cbn [with_extras].
  - injection Hi as -> ->. rewrite Hz. left. reflexivity.
  - destruct (o_none op && is_none x0); [exact (IH Hi Hz)|right; exact (IH Hi Hz)].
Qed.
Lemma with_extras_keys op ex k : In k (map fst (with_extras op ex)) -> In k (map fst ex).
Proof. intros H. apply in_map_iff in H as ([k0 y] & <- & H). apply with_extras_in in H as (x & H & _). apply in_map_iff. exists (k0, x). split; [reflexivity|exact H]. Qed.
Lemma with_extras_nodup op ex : NoDup (map fst ex) -> NoDup (map fst (with_extras op ex)).
Proof.
  induction ex as [|[k x] ex IH]; [intros; constructor|]. intros H. cbn [map fst] in H. inversion H as [|? ? H1 H2]; subst. cbn [with_extras]. destruct (o_none op && is_none x); [auto|].
  cbn [map fst]. constructor; [|auto]. intros Hi. exact (H1 (with_extras_keys _ _ _ Hi)).
Qed.
Definition comparable (d : pv) : bool := match d with VNone | VBool _ | VInt _ | VStr _ => true | _ => false end.
Lemma defaults_comparable : forallb (fun t => match t with TModel _ _ fs => forallb (fun ft => f_excl (fst ft) || match f_def (fst ft) with Some d => comparable d | None => true end) fs | _ => true end) all_types = true.
Proof. vm_compute. reflexivity. Qed.
Lemma eq_default_refl d : comparable d = true -> eq_default d d = true.
Proof. destruct d; try discriminate; intros _; cbn [eq_default]; [reflexivity|apply Bool.eqb_reflx|apply Z.eqb_refl|apply str_eqb_refl]. Qed.
Lemma left_out_iff op c k fs fi t x : In (TModel c k fs) all_types -> In (fi, t) fs -> left_out op fi x = true <-> omits op fi x.
Proof.
  intros Hi Hf. assert (Hd := proj1 (forallb_forall _ _) defaults_comparable _ Hi). cbv beta iota in Hd. clear Hi. assert (Hd' := proj1 (forallb_forall _ _) Hd _ Hf). cbv beta in Hd'. cbn [fst] in Hd'. clear Hd.
  unfold left_out, omits. destruct (f_excl fi); [split; auto|]. cbn [orb] in *. rewrite orb_true_iff, !andb_true_iff, orb_true_iff, is_none_iff. split.
  - intros [[H1 H2]|[H1 H2]]; [right; left; auto|]. right. right. destruct (f_def fi) as [d|]; [|discriminate H2]. apply eq_default_eq in H2. subst. auto.
  - intros [H|[[H1 H2]|[H1 H2]]]; [discriminate H|left; auto|]. right. split; [exact H1|]. rewrite H2 in *. apply eq_default_refl. exact Hd'.
Qed.
Section Object.
  Context (op : options) (c : string) (k : kind) (fs : list (finfo * ty)) (fv ex d : fields).
  Context (Hl : linked (TModel c k fs) = true) (Hw : wf_ty (TModel c k fs) = true) (Hn : map fst fv = map (fun ft => f_name (fst ft)) fs) (Hd : dump_with op (VObj c fv ex) = VDict d).
  Lemma dict_of : d = dict_update (with_fields op fs fv) (with_extras op ex).
  Proof. rewrite dump_with_obj, (proj1 (linked_fields c k fs Hl)) in Hd. injection Hd as <-. reflexivity. Qed.
  Lemma out_name_key fi : In (out_name op fi) (field_keys fi).
  Proof. unfold out_name. destruct (o_names op); [apply field_keys_name|apply field_keys_alias]. Qed.
  Lemma owner fi t x gi t' z : In (fi, t) fs -> In (gi, t') fs -> In (f_name fi, x) fv -> In (f_name gi, z) fv -> out_name op fi = out_name op gi -> fi = gi /\ x = z.
  Proof.
    intros Hi Hg Hx Hz He. assert (Hk : NoDup (all_keys (map fst fs))) by (eapply wf_keys; exact Hw).
    assert (G : fi = gi). { apply (key_owner (map fst fs) fi gi (out_name op fi) Hk); [change fi with (fst (fi, t)); apply in_map; exact Hi|change gi with (fst (gi, t')); apply in_map; exact Hg|apply out_name_key|rewrite He; apply out_name_key]. }
    split; [exact G|]. subst gi. assert (Hnd := fields_nodup _ _ _ _ Hw Hn). assert (H1 := In_assoc _ _ _ Hnd Hx). assert (H2 := In_assoc _ _ _ Hnd Hz). congruence.
  Qed.
  Lemma written_field fi t x : In (fi, t) fs -> In (f_name fi, x) fv -> ~ In (out_name op fi) (map fst ex) ->
    assoc (out_name op fi) d = if left_out op fi x then None else Some (dump_with op x).
  Proof.
    intros Hi Hx Hne. rewrite dict_of. rewrite assoc_dict_update by (intros H; exact (Hne (with_extras_keys _ _ _ H))).
    assert (G : forall y, In (out_name op fi, y) (with_fields op fs fv) -> left_out op fi x = false /\ y = dump_with op x).
    { intros y Hy. apply with_fields_in in Hy as (gi & t' & z & H1 & H2 & H3 & H4 & ->); [|exact Hn]. destruct (owner fi t x gi t' z Hi H1 Hx H2 H4) as [<- <-]. auto. }
    destruct (assoc (out_name op fi) (with_fields op fs fv)) as [y|] eqn:Ea.
    - apply assoc_In in Ea. destruct (G y Ea) as [-> ->]. reflexivity.
    - destruct (left_out op fi x) eqn:El; [reflexivity|]. exfalso. apply assoc_None in Ea. apply Ea. assert (H := with_fields_has op fs fv fi t x Hn (names_NoDup _ _ _ Hw) Hi Hx El). apply in_map with (f := fst) in H. exact H.
  Qed.
End Object.
Theorem c109_omitted op E t v o c fv ex d fi t' x key :
  In t all_types -> parse E t v = Some o -> json_data t o -> within (VObj c fv ex) o -> dump_with op (VObj c fv ex) = VDict d ->
  In (fi, t') (class_fields c) -> assoc (f_name fi) fv = Some x -> key = (if o_names op then f_name fi else f_alias fi) -> ~ In key (map fst ex) ->
  (omits op fi x -> assoc key d = None) /\ (~ omits op fi x -> assoc key d = Some (dump_with op x)).
Proof.
  intros Hi Ho Hj Hx Hd Hf Ha -> Hne. destruct (obj_in E t o c fv ex (linked_all _ Hi) (wf_all _ Hi) (parsed_json _ _ _ _ Hi Ho Hj) Hx) as (k & fs & Hl & Hw & Hc).
  rewrite (proj1 (linked_fields c k fs Hl)) in Hf. cbn [canon] in Hc. destruct Hc as (fv' & ex' & He & Hfc & _). injection He as <- <-. assert (Hn := canon_fields_names _ _ _ _ Hfc). apply assoc_In in Ha.
  assert (G := written_field op c k fs fv ex d Hl Hw Hn Hd fi t' x Hf Ha Hne). assert (Hlo := left_out_iff op c k fs fi t' x (linked_in_table _ _ _ Hl) Hf). unfold out_name in G. rewrite G. split; intros H.
  - rewrite (proj2 Hlo H). reflexivity.
  - destruct (left_out op fi x); [destruct (H (proj1 Hlo eq_refl))|reflexivity].
Qed.
(** Everything written is a declared field or extra data, and extra data is all written but for nulls under exclude_none. *)
Theorem c109_keys op E t v o c fv ex d key y :
  In t all_types -> parse E t v = Some o -> json_data t o -> within (VObj c fv ex) o -> dump_with op (VObj c fv ex) = VDict d -> assoc key d = Some y ->
  In (key, y) ex \/ exists fi t' x, In (fi, t') (class_fields c) /\ assoc (f_name fi) fv = Some x /\ ~ omits op fi x /\ key = (if o_names op then f_name fi else f_alias fi) /\ y = dump_with op x.
Proof.
  intros Hi Ho Hj Hx Hd Ha. destruct (obj_in E t o c fv ex (linked_all _ Hi) (wf_all _ Hi) (parsed_json _ _ _ _ Hi Ho Hj) Hx) as (k & fs & Hl & Hw & Hc).
  rewrite (proj1 (linked_fields c k fs Hl)). cbn [canon] in Hc. destruct Hc as (fv' & ex' & He & Hfc & Hje & _). injection He as <- <-. assert (Hn := canon_fields_names _ _ _ _ Hfc).
  rewrite (dict_of op c k fs fv ex d Hl Hd) in Ha. apply assoc_In in Ha. apply dict_update_In in Ha as [Ha|Ha].
  - right. apply with_fields_in in Ha as (fi & t' & x & H1 & H2 & H3 & -> & ->); [|exact Hn]. exists fi, t', x. split; [exact H1|]. split; [apply In_assoc; [exact (fields_nodup _ _ _ _ Hw Hn)|exact H2]|].
    split; [|split; reflexivity]. intros Hom. apply (left_out_iff op c k fs fi t' x (linked_in_table _ _ _ Hl) H1) in Hom. congruence.
  - left. apply with_extras_in in Ha as (x & H1 & _ & ->). rewrite Forall_forall in Hje. rewrite (proj1 (json_writes op x (Hje _ H1))). exact H1.
Qed.
Theorem c109_extras op E t v o c fv ex d key x :
  In t all_types -> python_dicts v -> parse E t v = Some o -> json_data t o -> within (VObj c fv ex) o -> dump_with op (VObj c fv ex) = VDict d ->
  In (key, x) ex -> ~ (o_none op = true /\ x = VNone) -> assoc key d = Some x.
Proof.
  intros Hi Hp Ho Hj Hx Hd Ha Hz. assert (Hpd := parse_pd E t v o (wf_all _ Hi) Hp Ho). specialize (Hpd _ Hx). cbn [own_keys_distinct] in Hpd.
  destruct (obj_in E t o c fv ex (linked_all _ Hi) (wf_all _ Hi) (parsed_json _ _ _ _ Hi Ho Hj) Hx) as (k & fs & Hl & Hw & Hc). cbn [canon] in Hc. destruct Hc as (fv' & ex' & He & Hfc & Hje & _). injection He as <- <-.
  rewrite (dict_of op c k fs fv ex d Hl Hd). rewrite Forall_forall in Hje. rewrite <- (proj1 (json_writes op x (Hje _ Ha))). apply assoc_dict_update_in.
  - apply with_extras_nodup. tauto.
  - apply with_extras_has; [exact Ha|]. destruct (o_none op); [|reflexivity]. cbn [andb]. destruct (is_none x) eqn:En; [|reflexivity]. apply is_none_iff in En. destruct Hz. auto.
Qed.
(** Not in python mode, what is written is JSON. *)
Lemma with_model_json op E c k fs fv ex : linked (TModel c k fs) = true -> wf_ty (TModel c k fs) = true -> canon is_json E (TModel c k fs) (VObj c fv ex) ->
  (forall fi t x, In (fi, t) fs -> f_excl fi = false -> canon is_json E t x -> is_json (dump_with op x)) -> is_json (dump_with op (VObj c fv ex)).
Proof.
  intros Hl Hw Hc Hx. assert (Hc' := Hc). cbn [canon] in Hc'. destruct Hc' as (fv' & ex' & He & Hf & Hj & _). injection He as <- <-.
  assert (Hn := canon_fields_names _ _ _ _ Hf). rewrite dump_with_obj, (proj1 (linked_fields c k fs Hl)). apply json_of_dict. intros [a y] Hi. cbn [snd].
  apply dict_update_In in Hi as [Hi|Hi].
  - apply with_fields_in in Hi as (fi & t & x & H1 & H2 & H3 & -> & ->); [|exact Hn]. eapply Hx; [exact H1| |].
    + unfold left_out in H3. destruct (f_excl fi); [discriminate H3|reflexivity].
    + destruct (canon_field _ _ _ _ _ _ _ fi t Hc (names_NoDup _ _ _ Hw) H1) as [Hct _]. unfold attr in Hct.
      rewrite (In_assoc _ _ _ (fields_nodup _ _ _ _ Hw Hn) H2) in Hct. exact Hct.
  - apply with_extras_in in Hi as (x & H1 & _ & ->). rewrite Forall_forall in Hj. rewrite (proj1 (json_writes op x (Hj _ H1))). exact (Hj _ H1).
Qed.
Lemma with_json op E t : o_python op = false -> linked t = true -> wf_ty t = true -> rt_ty t = true -> forall v, canon is_json E t v -> is_json (dump_with op v).
Proof.
  intros Hop. induction t using ty_ind'; intros Hl Hw Hr v Hc; cbn [rt_ty] in Hr.
  - cbn [canon] in Hc. rewrite (proj1 (json_writes op v Hc)). exact Hc.
  - destruct Hc as (s & -> & _). apply atom_json. exact I.
  - destruct Hc as (s & -> & _). apply atom_json. exact I.
  - destruct Hc as (s & ->). apply atom_json. exact I.
  - destruct Hc as (s & ->). apply atom_json. exact I.
  - destruct Hc as (s & -> & _). cbn [dump_with]. rewrite Hop. apply atom_json. exact I.
  - destruct Hc as (s & -> & _). apply atom_json. exact I.
  - destruct Hc as (s & -> & _). apply atom_json. exact I.
  - destruct Hc as (l & -> & Hc). cbn [dump_with]. apply json_of_list, Forall_forall. intros y Hy. apply in_map_iff in Hy as (x & <- & Hx). rewrite Forall_forall in Hc. auto.
  - destruct Hc as (d & -> & Hc). cbn [dump_with]. apply json_of_dict. intros kv Hy. apply in_map_iff in Hy as ([k x] & <- & Hx). rewrite Forall_forall in Hc. exact (IHt Hl Hw Hr x (Hc _ Hx)).
  - destruct Hc as [->|Hc]; [apply atom_json; exact I|auto].
  - apply andb_prop in Hr as [_ Hr]. cbn [canon] in Hc. apply canon_union_each in Hc as (t & Ht & Hc). rewrite Forall_forall in H. rewrite forallb_forall in Hr.
    apply (H t Ht); [exact (linked_union _ _ Hl Ht)|exact (wf_union _ _ Hw Ht)|exact (Hr _ Ht)|exact Hc].
  - discriminate Hr.
  - apply andb_prop in Hr as [_ Hr]. assert (Hc' := Hc). cbn [canon] in Hc'. destruct Hc' as (fv & ex & -> & _). eapply with_model_json; [exact Hl|exact Hw|exact Hc|].
    intros fi t x Hi _ Hcx. rewrite Forall_forall in H. rewrite forallb_forall in Hr.
    apply (H (fi, t) Hi); [exact (linked_sub _ _ _ _ Hl Hi)|exact (wf_sub _ _ _ _ Hw Hi)|exact (Hr _ Hi)|exact Hcx].
  - destruct Hc as (d & -> & Hc & _). cbn [dump_with]. apply json_of_dict. intros kv Hy. apply in_map_iff in Hy as ([k x] & <- & Hx). rewrite Forall_forall in Hc. exact (IHt (linked_root_sub _ _ Hl) Hw Hr x (Hc _ Hx)).
Qed.
Theorem c109_json op E t v o : o_python op = false -> In t all_types -> parse E t v = Some o -> json_data t o -> is_json (dump_with op o).
Proof.
  intros Hop Hi Ho Hj. assert (Hc := parsed_json _ _ _ _ Hi Ho Hj). assert (Hl := linked_all _ Hi). assert (Hw := wf_all _ Hi).
  assert (Hd := proj1 (forallb_forall _ _) all_types_dec t Hi). cbv beta in Hd. clear Hi Ho Hj.
  destruct t as [| | | | | | | | | | | | |c k fs|c t]; try discriminate Hd; [|eapply with_json; eauto].
  destruct (String.eqb c "AsyncAPI3"); [|eapply with_json; eauto].
  assert (Hc' := Hc). cbn [canon] in Hc'. destruct Hc' as (fv & ex & -> & _). eapply with_model_json; [exact Hl|exact Hw|exact Hc|].
  intros fi t x Hi Hx Hcx. rewrite forallb_forall in Hd. specialize (Hd _ Hi). unfold doc_field_ok in Hd. cbn [fst snd] in Hd. rewrite Hx in Hd. destruct (mem_str _ _); [discriminate Hd|].
  apply andb_prop in Hd as [_ Hd]. eapply with_json; [exact Hop|exact (linked_sub _ _ _ _ Hl Hi)|exact (wf_sub _ _ _ _ Hw Hi)|exact Hd|exact Hcx].
Qed.
(** Nor does the order of keys matter, nor the text: any JSON text of any way of writing the document loads as the document. *)
Theorem c109_any_order E t v o w w' :
  url_idem E -> In t all_types -> python_dicts v -> parse E t v = Some o -> json_data t o -> no_shadowing o -> no_ambiguity o ->
  writes o w -> python_dicts w -> same_upto_order w w' -> exists o', parse E t w' = Some o' /\ same_upto_order (without_processors o) o'.
Proof.
  intros Hu Hi Hp Ho Hj Hs Ha Hw Hpw Hww. assert (G := c53_key_order E t w w' (or_introl Hi) Hpw Hww). rewrite (c109_reads E t v o w Hu Hi Hp Ho Hj Hs Ha Hw) in G.
  destruct (parse E t w') as [o'|]; [|destruct G]. exists o'. split; [reflexivity|exact G].
Qed.
Theorem c109_text E F n t v o w s :
  url_idem E -> In t all_types -> python_dicts v -> parse E t v = Some o -> json_data t o -> no_shadowing o -> no_ambiguity o ->
  writes o w -> json_text F n s w -> load_json E F n t s = Some (without_processors o).
Proof. intros Hu Hi Hp Ho Hj Hs Ha Hw Ht. apply read_iff in Ht. unfold load_json. rewrite Ht. exact (c109_reads E t v o w Hu Hi Hp Ho Hj Hs Ha Hw). Qed.
Print Assumptions c109_reads. Print Assumptions c109_same. Print Assumptions c109_injective. Print Assumptions c109_options. Print Assumptions c109_dump_reads. Print Assumptions c109_default. Print Assumptions c109_omitted. Print Assumptions c109_keys. Print Assumptions c109_extras. Print Assumptions c109_json. Print Assumptions c109_any_order. Print Assumptions c109_text.
