(** C102, C103: putting the target of a reference in place of the reference. *)
From Verif Require Import PyStr Value Types Rules Pydantic ClassTable Classes Canon Fix Linked SpecParse Sample ProofRules ProofParse
  State SpecState ProofState PropState Resolve SpecResolve ProofResolve PropResolve Unified SpecUnified ProofUnified ProofCheck PropUnified
  ProofDump Dump SpecDump PropDump SpecDeep PropDeep PropWithin PropValidators SpecDeref ProofDeref.
Local Open Scope string_scope.

(** ** Finding places *)
Section Fields.
  Context (go : ty -> pv -> list nat -> list (list lstep * list string * pv)).
  Fixpoint stand_field (fs : list (finfo * ty)) (fv : fields) (i : nat) (pos : list nat) : list (list lstep * list string * pv) :=
    match fs, fv, i with
    | (fi, t) :: _, (k, x) :: _, 0 =>
        if negb (f_excl fi) && str_eqb k (f_name fi) then map (fun a => match a with (p, D, r) => (LField (f_name fi) :: p, D, r) end) (go t x pos) else []
    | _ :: fs', _ :: fv', S j => stand_field fs' fv' j pos
    | _, _, _ => []
    end.
End Fields.
Fixpoint stand_at (t : ty) (v : pv) (pos : list nat) {struct t} : list (list lstep * list string * pv) :=
  match t with
  | TOpt t' => stand_at t' v pos
  | TList t' => match v, pos with VList l, i :: pos' => match nth_error l i with Some x => map (fun a => match a with (p, D, r) => (LIdx i :: p, D, r) end) (stand_at t' x pos') | None => [] end | _, _ => [] end
  | TDict t' => match v, pos with VDict d, i :: pos' => match nth_error d i with Some (k, x) => map (fun a => match a with (p, D, r) => (LKey k :: p, D, r) end) (stand_at t' x pos') | None => [] end | _, _ => [] end
  | TRoot c t' => match v, pos with VRoot c' d, i :: pos' => if String.eqb c c' then match nth_error d i with Some (k, x) => map (fun a => match a with (p, D, r) => (LMapKey k :: p, D, r) end) (stand_at t' x pos') | None => [] end else [] | _, _ => [] end
  | TUnion ts => ((match pos with [] => if existsb is_ref_ty ts then [([], model_names ts, v)] else [] | _ => [] end) ++ flat_map (fun t' => stand_at t' v pos) ts)%list
  | TModel c _ fs => match v, pos with VObj c' fv _, i :: pos' => if String.eqb c c' then stand_field stand_at fs fv i pos' else [] | _, _ => [] end
  | _ => []
  end.
Lemma stand_field_sound go : forall fs fv i pos p D r, In (p, D, r) (stand_field go fs fv i pos) ->
  exists fi t x q, nth_error fs i = Some (fi, t) /\ f_excl fi = false /\ nth_error fv i = Some (f_name fi, x) /\ p = LField (f_name fi) :: q /\ In (q, D, r) (go t x pos).
Proof.
  induction fs as [|[fi t] fs IH]; intros [|[k x] fv] [|i] pos p D r Hi; cbn [stand_field] in Hi; try destruct Hi.
  - destruct (negb (f_excl fi) && str_eqb k (f_name fi))%bool eqn:Hb; [|destruct Hi]. apply andb_prop in Hb as [Hx Hk]. apply negb_true_iff in Hx. apply str_eqb_eq in Hk. subst k.
    apply in_map_iff in Hi as ([[q D'] r'] & Heq & Hi). injection Heq as <- <- <-. exists fi, t, x, q. cbn [nth_error]. auto.
  - cbn [nth_error]. exact (IH _ _ _ _ _ _ Hi).
Qed.
Lemma stand_at_sound t : forall v pos p D r, In (p, D, r) (stand_at t v pos) -> stands t v pos p D r.
Proof.
  induction t using ty_ind'; intros v pos p D r Hi; cbn [stand_at] in Hi; try (destruct Hi; fail).
  - destruct v; try (destruct Hi; fail). destruct pos as [|i pos]; [destruct Hi|]. destruct (nth_error l i) as [x|] eqn:Hn; [|destruct Hi].
    apply in_map_iff in Hi as ([[q D'] r'] & Heq & Hi). injection Heq as <- <- <-. eapply sd_list; [exact Hn|exact (IHt _ _ _ _ _ Hi)].
  - destruct v; try (destruct Hi; fail). destruct pos as [|i pos]; [destruct Hi|]. destruct (nth_error d i) as [[k x]|] eqn:Hn; [|destruct Hi].
    apply in_map_iff in Hi as ([[q D'] r'] & Heq & Hi). injection Heq as <- <- <-. eapply sd_dict; [exact Hn|exact (IHt _ _ _ _ _ Hi)].
  - apply sd_opt. exact (IHt _ _ _ _ _ Hi).
  - apply in_app_or in Hi as [Hi|Hi].
    + destruct pos; [|destruct Hi]. destruct (existsb is_ref_ty ts) eqn:He; [|destruct Hi]. destruct Hi as [Heq|[]]. injection Heq as <- <- <-.
      apply existsb_exists in He as (t & Ht & Hr). destruct t; try discriminate Hr. apply String.eqb_eq in Hr. subst. eapply sd_here. exact Ht.
    + apply in_flat_map in Hi as (t & Ht & Hi). rewrite Forall_forall in H. eapply sd_member; [exact Ht|exact (H t Ht _ _ _ _ _ Hi)].
  - destruct v; try (destruct Hi; fail). destruct pos as [|i pos]; [destruct Hi|]. destruct (String.eqb_spec c c0) as [<-|]; [|destruct Hi].
    apply stand_field_sound in Hi as (fi & t & x & q & H1 & H2 & H3 & -> & H4). rewrite Forall_forall in H. eapply sd_field; [exact H1|exact H2|exact H3|].
    exact (H (fi, t) (nth_error_In _ _ H1) _ _ _ _ _ H4).
  - destruct v; try (destruct Hi; fail). destruct pos as [|i pos]; [destruct Hi|]. destruct (String.eqb_spec c c0) as [<-|]; [|destruct Hi].
    destruct (nth_error d i) as [[k x]|] eqn:Hn; [|destruct Hi].
    apply in_map_iff in Hi as ([[q D'] r'] & Heq & Hi). injection Heq as <- <- <-. eapply sd_root; [exact Hn|exact (IHt _ _ _ _ _ Hi)].
Qed.

(** ** C102 *)
Definition atoms : list string := ["NoneType"; "bool"; "int"; "float"; "str"; "AnyUrl"; "list"; "dict"; "type"; "object"].
Lemma names_apart : forallb (fun t => match t with TModel c _ _ => negb (existsb (String.eqb c) atoms) && match find_root c all_types with None => true | Some _ => false end | _ => true end) all_types = true.
Proof. vm_compute. reflexivity. Qed.
Lemma class_object E o c k fs : In (TModel c k fs) all_types -> type_name o = c -> match o with VRoot c' d => map_valid E c' d | _ => True end -> exists fv ex, o = VObj c fv ex.
Proof.
  intros Hi Hn Hv. assert (Hb := proj1 (forallb_forall _ _) names_apart _ Hi). cbn beta iota in Hb. apply andb_prop in Hb as [Ha Hr]. apply negb_true_iff in Ha.
  assert (Hat : forall a, In a atoms -> c <> a). { intros a Hin ->. assert (existsb (String.eqb a) atoms = true) by (apply existsb_exists; exists a; split; [exact Hin|apply String.eqb_refl]). congruence. }
  assert (Hroot : forall t, In (TRoot c t) all_types -> False).
  { intros t Ht. assert (Hl := linked_all _ Ht). apply linked_root in Hl. rewrite Hl in Hr. discriminate Hr. }
  destruct o; cbn [type_name] in Hn; try (exfalso; refine (Hat _ _ (eq_sym Hn)); cbn; tauto).
  - subst. eauto.
  - subst. exfalso. destruct Hv as (t & Ht & _). exact (Hroot t Ht).
Qed.
(** The object a reference leads to is one the place could hold itself... *)
Lemma target E doc s o l t v pos p D r : linked t = true -> wf_ty t = true -> linked T_AsyncAPI3 = true -> wf_ty T_AsyncAPI3 = true -> no_root_keyword doc ->
  canon is_json E T_AsyncAPI3 doc -> ends_at doc s o l -> stands t v pos p D r -> In (type_name o) D ->
  exists c k fs fv ex, o = VObj c fv ex /\ In c D /\ within o doc /\ linked (TModel c k fs) = true /\ wf_ty (TModel c k fs) = true /\ canon is_json E (TModel c k fs) o.
Proof.
  intros Hl Hw HlA HwA Hn Hc He Hs Hin. assert (Hwi : within o doc).
  { assert (Hr : resolve doc s = Resolved o (access_path l)) by (apply (c23_resolves_iff doc s o _ Hn); eauto). exact (proj1 (c60_within _ _ _ _ Hr)). }
  assert (Hnm : exists k fs, linked (TModel (type_name o) k fs) = true).
  { clear -Hs Hin Hl. revert Hl. induction Hs as [ts k0 fs0 r Hi|t v pos p D r Hs IH|t l i x pos p D r Hn Hs IH|t d i k0 x pos p D r Hn Hs IH|c0 t d i k0 x pos p D r Hn Hs IH|ts t v pos p D r Hi Hs IH|c0 k0 fs0 fv0 ex0 i fi t x pos p D r Hf He Hn Hs IH]; intros Hl.
    - apply model_names_In in Hin as (k & fs & Hx & _). exists k, fs. exact (linked_union _ _ Hl Hx).
    - exact (IH Hin Hl).
    - exact (IH Hin Hl).
    - exact (IH Hin Hl).
    - exact (IH Hin (linked_root_sub _ _ Hl)).
    - exact (IH Hin (linked_union _ _ Hl Hi)).
    - exact (IH Hin (linked_sub _ _ _ _ Hl (nth_error_In _ _ Hf))). }
  destruct Hnm as (k & fs & Hlo). assert (Hv := canon_deep E _ _ HlA HwA Hc o Hwi).
  destruct (class_object E o _ k fs (linked_in_table _ _ _ Hlo) eq_refl) as (fv & ex & Ho); [destruct o; auto|].
  revert Hin Hwi Hlo Hv. rewrite Ho. cbn [type_name]. intros Hin Hwi Hlo _. destruct (obj_in _ _ _ _ _ _ HlA HwA Hc Hwi) as (k' & fs' & Hl' & Hw' & Hc').
  exists (type_name o), k', fs', fv, ex. rewrite Ho. cbn [type_name]. repeat split; assumption.
Qed.
(** ... and putting it there gives a valid document: every object of it is valid, every field holds what it declares. *)
Theorem c102_inlined_partial E v doc pos p D r s : is_json v -> parse E T_AsyncAPI3 v = Some doc -> no_root_keyword doc -> unified E doc = None ->
  stands T_AsyncAPI3 doc pos p D r -> is_reference r s -> (forall k, In k (keys_of p) -> ordinary E k) -> ~ in_inline_trait p ->
  (exists n s', hops doc n s s' /\ external s')
  \/ exists o l, ends_at doc s o l /\ In (type_name o) D /\ well_typed E T_AsyncAPI3 (put pos o doc) /\ valid_throughout E (put pos o doc).
Proof.
  intros Hj Hp Hn Hu Hs Hr Hk Ht. assert (Hl := linked_all _ in_root). assert (Hw := wf_all _ in_root).
  assert (Hc : canon is_json E T_AsyncAPI3 doc) by exact (loaded_json E _ v doc in_root Hp Hj).
  assert (Hsr : solid r) by (destruct Hr as (? & ? & -> & _); exact I).
  destruct (c34_sound_partial E doc pos p D r s Hn Hu (stands_location _ _ _ _ _ _ Hs) Hk Ht (stands_reached _ _ _ _ _ _ Hs Hsr Hl Hw) Hr) as [Hx|(o & l & He & Ho)]; [left; exact Hx|right].
  exists o, l. split; [exact He|]. split; [exact Ho|].
  destruct (target E doc s o l _ _ _ _ _ _ Hl Hw Hl Hw Hn Hc He Hs Ho) as (c & k & fs & fv & ex & Heq & Hin & Hwi & Hlo & Hwo & Hco).
  assert (Hd := canon_put E o c k fs fv ex Heq Hlo Hco _ _ _ _ _ _ _ Hs Hr Hin Hl Hw Hc).
  split; [exact (canon_wt _ _ _ Hw _ Hd)|exact (canon_deep E _ _ Hl Hw Hd)].
Qed.
Definition doc_inline : pv :=
  spec [("components", obj [("messages", obj [("m", obj [("correlationId", ref "#/components/correlationIds/again")])]);
                            ("correlationIds", obj [("again", ref "#/components/correlationIds/c"); ("c", obj [("location", str "$message.header#/id"); ("x-unit", VInt 7)])])])].
Definition loc_inline : list lstep := [LField (u "components"); LField (u "messages"); LMapKey (u "m"); LField (u "correlation_id")].
Example c102_ex : exists r o, is_json doc_inline /\ parse E0 T_AsyncAPI3 doc_inline = Some (load_doc doc_inline) /\ no_root_keyword (load_doc doc_inline)
  /\ unified E0 (load_doc doc_inline) = None /\ stands T_AsyncAPI3 (load_doc doc_inline) [7; 4; 0; 2] loc_inline ["CorrelationID"] r
  /\ is_reference r (u "#/components/correlationIds/again") /\ (forall k, In k (keys_of loc_inline) -> ordinary E0 k) /\ ~ in_inline_trait loc_inline
  /\ (exists l, ends_at (load_doc doc_inline) (u "#/components/correlationIds/again") o l) /\ type_name o = "CorrelationID"
  /\ at_position (put [7; 4; 0; 2] o (load_doc doc_inline)) [7; 4; 0; 2; 1] = Some (flat_map step_text (loc_inline ++ [LField (u "location")]), str "$message.header#/id").
Proof.
  destruct (stand_at T_AsyncAPI3 (load_doc doc_inline) [7; 4; 0; 2]) as [|[[p D] r] [|]] eqn:Es; [vm_compute in Es; discriminate Es| |vm_compute in Es; discriminate Es].
  assert (Hx : p = loc_inline /\ D = ["CorrelationID"] /\ as_reference r = Some (u "#/components/correlationIds/again")).
  { vm_compute in Es. injection Es as <- <- <-. repeat split; vm_compute; reflexivity. }
  destruct Hx as (-> & -> & Hr). apply is_ref_dec in Hr.
  assert (Hs : stands T_AsyncAPI3 (load_doc doc_inline) [7; 4; 0; 2] loc_inline ["CorrelationID"] r) by (apply stand_at_sound; rewrite Es; left; reflexivity).
  assert (Hn : no_root_keyword (load_doc doc_inline)) by (apply no_root_dec; vm_compute; reflexivity).
  destruct (resolve (load_doc doc_inline) (u "#/components/correlationIds/again")) as [o p| |] eqn:Er; [|vm_compute in Er; discriminate Er|vm_compute in Er; discriminate Er].
  exists r, o. split; [apply json_dec; vm_compute; reflexivity|]. split; [apply load_doc_ok; vm_compute; reflexivity|]. split; [exact Hn|].
  split; [vm_compute; reflexivity|]. split; [exact Hs|]. split; [exact Hr|]. split; [apply (loc_ok_dec E0 loc_inline); vm_compute; reflexivity|].
  split; [intros Ht; apply inline_abs_iff in Ht; vm_compute in Ht; discriminate Ht|]. split; [|split].
  - apply (c23_resolves_iff _ _ _ _ Hn) in Er as (l & He & _). eauto.
  - vm_compute in Er. injection Er as <- _. reflexivity.
  - vm_compute in Er. injection Er as <- _. vm_compute. reflexivity.
Qed.
(** Refuted without the last condition: in a trait given in place the document may refer to the trait's own class (see C32, C34), and
    a trait is not a correlation id. *)
Theorem c102_inlined_refuted : ~ (forall E v doc pos p D r s, is_json v -> parse E T_AsyncAPI3 v = Some doc -> no_root_keyword doc -> unified E doc = None ->
  stands T_AsyncAPI3 doc pos p D r -> is_reference r s -> (forall k, In k (keys_of p) -> ordinary E k) ->
  (exists n s', hops doc n s s' /\ external s')
  \/ exists o l, ends_at doc s o l /\ In (type_name o) D /\ well_typed E T_AsyncAPI3 (put pos o doc) /\ valid_throughout E (put pos o doc)).
Proof.
  intros H. assert (Hp : parse E0 T_AsyncAPI3 doc_wrong = Some (load_doc doc_wrong)) by (apply load_doc_ok; vm_compute; reflexivity).
  assert (Hn : no_root_keyword (load_doc doc_wrong)) by (apply no_root_dec; vm_compute; reflexivity).
  assert (Hu : unified E0 (load_doc doc_wrong) = None) by (vm_compute; reflexivity).
  destruct (stand_at T_AsyncAPI3 (load_doc doc_wrong) [7; 4; 0; 12; 0; 1]) as [|[[p D] r] [|]] eqn:Es; [vm_compute in Es; discriminate Es| |vm_compute in Es; discriminate Es].
  assert (Hx : p = loc_trait /\ D = ["CorrelationID"] /\ as_reference r = Some (u "#/components/messageTraits/t")).
  { vm_compute in Es. injection Es as <- <- <-. repeat split; vm_compute; reflexivity. }
  destruct Hx as (-> & -> & Hr). apply is_ref_dec in Hr.
  assert (Hs : stands T_AsyncAPI3 (load_doc doc_wrong) [7; 4; 0; 12; 0; 1] loc_trait ["CorrelationID"] r) by (apply stand_at_sound; rewrite Es; left; reflexivity).
  destruct (H E0 doc_wrong _ _ _ _ _ _ (json_dec doc_wrong eq_refl) Hp Hn Hu Hs Hr (loc_ok_dec E0 loc_trait eq_refl)) as [Hx|(o & l & Hx & Ho & _)].
  - apply (c25_external_iff _ _ Hn) in Hx. vm_compute in Hx. discriminate Hx.
  - assert (Hy : resolve (load_doc doc_wrong) (u "#/components/messageTraits/t") = Resolved o (access_path l)) by (apply c23_resolves_iff; [exact Hn|eauto]).
    vm_compute in Hy. injection Hy as <- _. destruct Ho as [Ho|[]]. discriminate Ho.
Qed.
Print Assumptions c102_inlined_partial.
Print Assumptions c102_inlined_refuted.
