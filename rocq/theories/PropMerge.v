(** C107: two accepted documents combined are an accepted document. *)
From Verif Require Import PyStr Regex Value Types Rules Pydantic ClassTable Classes Canon Fix Linked SpecParse Sample ProofRules ProofParse
  State SpecState ProofState PropState SpecDump Dump ProofDump PropDump SpecDeep PropDeep Resolve SpecResolve ProofResolve PropResolve Unified SpecUnified ProofUnified ProofCheck ProofOrder PropUnified
  Validators SpecValidators ProofValidators PropValidators Pipeline SpecPipeline PropPipeline SpecRevalidate PropRevalidate SpecMerge.
Local Open Scope string_scope.
Local Open Scope list_scope.

Scheme combined_ind2 := Minimality for combined Sort Prop
  with combined_fields_ind2 := Minimality for combined_fields Sort Prop.
Combined Scheme combined_both from combined_ind2, combined_fields_ind2.

(** ** Unions *)
Lemma union_in d e kv : In kv (union d e) <-> In kv d \/ (In kv e /\ ~ In (fst kv) (map fst d)).
Proof.
  unfold union. rewrite in_app_iff, filter_In. rewrite negb_true_iff, mem_str_not_In. tauto.
Qed.
Lemma union_left d e k x : assoc k d = Some x -> assoc k (union d e) = Some x.
Proof. unfold union. rewrite assoc_app. intros ->. reflexivity. Qed.
Lemma assoc_filter_key (p : pystr -> bool) k (e : fields) : p k = true -> assoc k (filter (fun kv => p (fst kv)) e) = assoc k e.
Proof.
  intros Hp. induction e as [|[a x] e IH]; [reflexivity|]. cbn [filter fst assoc]. destruct (p a) eqn:Ea; cbn [assoc]; [rewrite IH; reflexivity|].
  destruct (str_eqb k a) eqn:Ek; [|exact IH]. apply str_eqb_eq in Ek. congruence.
Qed.
Lemma union_right d e k x : agree d e -> assoc k e = Some x -> assoc k (union d e) = Some x.
Proof.
  intros Ha He. unfold union. rewrite assoc_app. destruct (assoc k d) as [y|] eqn:Ed; [f_equal; exact (Ha k y x (assoc_In _ _ _ Ed) (assoc_In _ _ _ He))|].
  rewrite (assoc_filter_key (fun k0 => negb (mem_str k0 (map fst d)))); [exact He|]. apply negb_true_iff, mem_str_not_In, assoc_None. exact Ed.
Qed.
Lemma union_none d e k : assoc k d = None -> assoc k e = None -> assoc k (union d e) = None.
Proof.
  intros Hd He. apply assoc_None. intros H. apply in_map_iff in H as ([k' x] & <- & H). apply union_in in H as [H|[H _]]; [apply assoc_None in Hd; apply Hd|apply assoc_None in He; apply He]; exact (in_map fst _ _ H).
Qed.
Lemma nodup_join (a b : list pystr) : NoDup a -> NoDup b -> (forall x, In x a -> In x b -> False) -> NoDup (a ++ b).
Proof.
  induction 1 as [|x a Hn Ha IH]; intros Hb Hd; [exact Hb|]. cbn [app]. constructor; [|apply IH; [exact Hb|intros y Hy; apply Hd; right; exact Hy]].
  rewrite in_app_iff. intros [H|H]; [exact (Hn H)|exact (Hd x (or_introl eq_refl) H)].
Qed.
Lemma nodup_filter (p : pystr * pv -> bool) (e : fields) : NoDup (map fst e) -> NoDup (map fst (filter p e)).
Proof.
  induction e as [|kv e IH]; [constructor|]. cbn [filter map]. intros H. inversion H as [|? ? Hn He]; subst. destruct (p kv); cbn [map]; [|auto].
  constructor; [|auto]. intros Hi. apply Hn. apply in_map_iff in Hi as (kv' & <- & Hi). apply filter_In in Hi as [Hi _]. exact (in_map fst _ _ Hi).
Qed.
Lemma union_nodup d e : NoDup (map fst d) -> NoDup (map fst e) -> NoDup (map fst (union d e)).
Proof.
  intros Hd He. unfold union. rewrite map_app. apply nodup_join; [exact Hd|apply nodup_filter; exact He|].
  intros k H1 H2. apply in_map_iff in H2 as (kv & <- & H2). apply filter_In in H2 as [_ H2]. apply negb_true_iff, mem_str_not_In in H2. contradiction.
Qed.
Lemma agree_sym d e : agree d e -> agree e d.
Proof. intros H k x y Hx Hy. symmetry. exact (H k y x Hy Hx). Qed.
Lemma agree_extras_keys d e k : In k (map fst (union d e)) -> In k (map fst d) \/ In k (map fst e).
Proof. intros H. apply in_map_iff in H as ([k' x] & <- & H). apply union_in in H as [H|[H _]]; [left|right]; exact (in_map fst _ _ H). Qed.
Lemma union_in_right d e kv : agree d e -> In kv e -> In kv (union d e).
Proof.
  intros Ha Hi. destruct kv as [k y]. destruct (assoc k d) as [x|] eqn:Ed.
  - apply union_in. left. apply assoc_In in Ed. rewrite <- (Ha k x y Ed Hi). exact Ed.
  - apply union_in. right. split; [exact Hi|]. apply assoc_None. exact Ed.
Qed.

(** ** One side inside the combination *)
Inductive emb : pv -> pv -> Prop :=
| em_same v : emb v v
| em_map c d d' : (forall k x, assoc k d = Some x -> assoc k d' = Some x) -> emb (VRoot c d) (VRoot c d')
| em_object c fv fv' ex ex' : In c ["AsyncAPI3"; "Components"] -> emb_fields fv fv' -> assoc (u "root") ex = None -> assoc (u "root") ex' = None -> emb (VObj c fv ex) (VObj c fv' ex')
with emb_fields : fields -> fields -> Prop :=
| ef_end : emb_fields [] []
| ef_field k x z fv fv' : x = VNone \/ emb x z -> emb_fields fv fv' -> emb_fields ((k, x) :: fv) ((k, z) :: fv').
Lemma emb_assoc k fv fv' : emb_fields fv fv' -> opt_rel (fun x z => x = VNone \/ emb x z) (assoc k fv) (assoc k fv').
Proof. induction 1 as [|k0 x z fv fv' Hx H IH]; [exact I|]. cbn [assoc]. destruct (str_eqb k k0); [exact Hx|exact IH]. Qed.
Lemma two_not_ref c fv ex : In c ["AsyncAPI3"; "Components"] -> as_reference (VObj c fv ex) = None.
Proof. intros [<-|[<-|[]]]; reflexivity. Qed.
Lemma emb_ref v v' : emb v v' -> as_reference v = as_reference v'.
Proof. destruct 1 as [v|c d d' H|c fv fv' ex ex' Hc Hf H1 H2]; [reflexivity|reflexivity|]. rewrite !two_not_ref by exact Hc. reflexivity. Qed.
Lemma emb_name v v' : emb v v' -> type_name v = type_name v'.
Proof. destruct 1; reflexivity. Qed.
Lemma emb_part v v' k w : emb v v' -> resolve_part v k = Some w -> exists w', resolve_part v' k = Some w' /\ emb w w'.
Proof.
  destruct 1 as [v|c d d' H|c fv fv' ex ex' Hc Hf H1 H2].
  - intros H. exists w. split; [exact H|constructor].
  - cbn [resolve_part root_mapping]. intros Ha. exists w. split; [apply H; exact Ha|constructor].
  - unfold resolve_part. cbn [root_mapping]. rewrite H1, H2. generalize (find_field_name k (class_infos c)). intros [name|]; [|discriminate]. unfold attr.
    assert (Ha := emb_assoc name fv fv' Hf). destruct (assoc name fv) as [x|], (assoc name fv') as [z|]; cbn [opt_rel] in Ha; try contradiction; [|discriminate].
    intros Hw. assert (Hx : x = w /\ x <> VNone) by (destruct x; try discriminate Hw; injection Hw as <-; (split; [reflexivity|discriminate])). destruct Hx as [-> Hn].
    destruct Ha as [Ha|Ha]; [contradiction|]. exists z. split; [|exact Ha]. destruct Ha; [destruct v; try reflexivity; contradiction|reflexivity|reflexivity].
Qed.
Lemma emb_parts parts : forall v v' path w p, emb v v' -> resolve_parts v path parts = Some (w, p) -> exists w', resolve_parts v' path parts = Some (w', p) /\ emb w w'.
Proof.
  induction parts as [|q parts IH]; intros v v' path w p H Hr; cbn [resolve_parts] in *.
  - injection Hr as <- <-. exists v'. auto.
  - destruct q as [|c q]; [eapply IH; eauto|]. destruct (resolve_part v (c :: q)) as [y|] eqn:Ey; [|discriminate Hr].
    destruct (emb_part _ _ _ _ H Ey) as (y' & -> & Hy). eapply IH; eauto.
Qed.
Lemma emb_fuel doc doc' : emb doc doc' -> forall n visited s r, resolve_fuel n doc visited s = Some r -> (forall e, r <> Failed e) ->
  exists r', resolve_fuel n doc' visited s = Some r' /\ res_rel emb r r'.
Proof.
  intros H. induction n as [|n IH]; intros visited s r Hr Hne; [discriminate Hr|]. cbn [resolve_fuel] in *.
  destruct (mem_str s visited); [injection Hr as <-; exfalso; eapply Hne; reflexivity|]. destruct (is_external s); [injection Hr as <-; eexists; split; [reflexivity|constructor]|].
  destruct (parse_ref s) as [e|parts]; [injection Hr as <-; exfalso; eapply Hne; reflexivity|].
  destruct (resolve_parts doc (u "spec") parts) as [[v p]|] eqn:Ep; [|injection Hr as <-; exfalso; eapply Hne; reflexivity].
  destruct (emb_parts _ _ _ _ _ _ H Ep) as (v' & -> & Hv). rewrite <- (emb_ref _ _ Hv). destruct (as_reference v) as [next|]; [eapply IH; eauto|].
  injection Hr as <-. eexists. split; [reflexivity|]. constructor. exact Hv.
Qed.
Lemma emb_resolve doc doc' s : emb doc doc' -> (forall e, resolve doc s <> Failed e) -> res_rel emb (resolve doc s) (resolve doc' s).
Proof.
  intros H Hne. destruct (resolve_big doc doc' s) as (n & H1 & H2). destruct (emb_fuel _ _ H _ _ _ _ H1 Hne) as (r' & H3 & H4). rewrite H2 in H3. injection H3 as ->. exact H4.
Qed.
Lemma emb_check_reference E doc doc' path s : emb doc doc' -> check_reference E doc path s = None -> check_reference E doc' path s = None.
Proof.
  intros H. unfold check_reference. destruct (resolve doc s) as [o p| |e] eqn:Er; [| |discriminate].
  - intros Hc. assert (Hr := emb_resolve doc doc' s H). rewrite Er in Hr. specialize (Hr ltac:(discriminate)). inversion Hr as [? o' ? Ho| |]; subst. rewrite <- (emb_name _ _ Ho). exact Hc.
  - intros _. assert (Hr := emb_resolve doc doc' s H). rewrite Er in Hr. specialize (Hr ltac:(discriminate)). inversion Hr. reflexivity.
Qed.
Lemma emb_check E doc doc' v path : emb doc doc' -> check E doc v path = None -> check E doc' v path = None.
Proof. intros H Hc. apply check_none. intros pos rel r s Hr Hs. apply (emb_check_reference E doc doc' _ _ H). exact (proj1 (check_none E doc v path) Hc _ _ _ _ Hr Hs). Qed.

(** ** Combinations *)
(** No "root" among the extra data of the document and its components. *)
Definition plain_extras (v : pv) : Prop := forall c fv ex, within (VObj c fv ex) v -> In c ["AsyncAPI3"; "Components"] -> assoc (u "root") ex = None.
Lemma plain_field c fv ex k x : plain_extras (VObj c fv ex) -> In (k, x) fv -> plain_extras x.
Proof. intros H Hi c' fv' ex' Hw. apply (H c' fv' ex'). eapply w_field; eauto. Qed.
Definition plain_fields (fv : fields) : Prop := forall k x, In (k, x) fv -> plain_extras x.
Lemma combined_emb : (forall a b m, combined a b m -> plain_extras a -> plain_extras b -> (a = VNone \/ emb a m) /\ (b = VNone \/ emb b m))
  /\ (forall fv gv hv, combined_fields fv gv hv -> plain_fields fv -> plain_fields gv -> emb_fields fv hv /\ emb_fields gv hv).
Proof.
  apply combined_both.
  - intros v _ _. split; right; constructor.
  - intros v _ _. split; [right; constructor|left; reflexivity].
  - intros v _ _. split; [left; reflexivity|right; constructor].
  - intros c d e Ha _ _. split; right; constructor; intros k x; [apply union_left|apply union_right; exact Ha].
  - intros c fv gv hv ex ey Hc _ IH Ha P1 P2. destruct IH as [I1 I2]; [intros k x Hi; exact (plain_field _ _ _ _ _ P1 Hi)|intros k x Hi; exact (plain_field _ _ _ _ _ P2 Hi)|].
    assert (R1 := P1 _ _ _ (w_self _) Hc). assert (R2 := P2 _ _ _ (w_self _) Hc). assert (R3 := union_none _ _ _ R1 R2). split; right; constructor; assumption.
  - intros _ _. split; constructor.
  - intros k x y z fv gv hv _ IH _ IHf P1 P2. destruct IH as [I1 I2]; [apply (P1 k x); left; reflexivity|apply (P2 k y); left; reflexivity|].
    destruct IHf as [J1 J2]; [intros k' x' Hi; apply (P1 k' x'); right; exact Hi|intros k' x' Hi; apply (P2 k' x'); right; exact Hi|]. split; constructor; assumption.
Qed.
Lemma check_atom E doc path : check E doc VNone path = None.
Proof. reflexivity. Qed.
Lemma check_field E doc c fv ex k x path : In c ["AsyncAPI3"; "Components"] -> check E doc (VObj c fv ex) path = None -> In (k, x) fv -> excluded c k = false -> check E doc x (path ++ u "." ++ k) = None.
Proof.
  intros Hc H Hi He. destruct (is_none x) eqn:En; [destruct x; try discriminate En; apply check_atom|].
  apply (proj1 (check_parts E doc (VObj c fv ex) path (two_not_ref c fv ex Hc)) H). apply has_part_obj. exists k. auto.
Qed.
Lemma combined_check E A B M : emb A M -> emb B M ->
  (forall a b m, combined a b m -> forall path, check E A a path = None -> check E B b path = None -> check E M m path = None)
  /\ (forall fv gv hv, combined_fields fv gv hv -> forall (p : pystr -> bool) path,
        (forall k x, In (k, x) fv -> p k = true -> check E A x (path ++ u "." ++ k) = None) -> (forall k y, In (k, y) gv -> p k = true -> check E B y (path ++ u "." ++ k) = None) ->
        forall k z, In (k, z) hv -> p k = true -> check E M z (path ++ u "." ++ k) = None).
Proof.
  intros HA HB. apply combined_both.
  - intros v path H _. exact (emb_check E A M v path HA H).
  - intros v path H _. exact (emb_check E A M v path HA H).
  - intros v path _ H. exact (emb_check E B M v path HB H).
  - intros c d e Ha path H1 H2. apply check_parts; [reflexivity|]. intros t x Hx. apply has_part_root in Hx as (k & Hi & ->). apply union_in in Hi as [Hi|[Hi _]].
    + apply (emb_check E A M _ _ HA). apply (proj1 (check_parts E A (VRoot c d) path eq_refl) H1). apply has_part_root. eauto.
    + apply (emb_check E B M _ _ HB). apply (proj1 (check_parts E B (VRoot c e) path eq_refl) H2). apply has_part_root. eauto.
  - intros c fv gv hv ex ey Hc _ IH Ha path H1 H2. apply check_parts; [apply two_not_ref; exact Hc|]. intros t z Hz. apply has_part_obj in Hz as (k & Hi & _ & He & ->).
    apply (IH (fun k => negb (excluded c k)) path) with (k := k) (z := z); [| |exact Hi|rewrite He; reflexivity].
    + intros k' x Hx Hp. apply negb_true_iff in Hp. exact (check_field _ _ _ _ _ _ _ _ Hc H1 Hx Hp).
    + intros k' x Hx Hp. apply negb_true_iff in Hp. exact (check_field _ _ _ _ _ _ _ _ Hc H2 Hx Hp).
  - intros p path _ _ k z [].
  - intros k x y z fv gv hv _ IH _ IHf p path H1 H2 k' z' [Heq|Hi] Hp.
    + injection Heq as <- <-. apply IH; [apply H1|apply H2]; try exact Hp; left; reflexivity.
    + apply (IHf p path); [| |exact Hi|exact Hp]; intros k0 x0 Hx0; [apply H1|apply H2]; right; exact Hx0.
Qed.
(** ** Types *)
Definition two_names : list string := ["AsyncAPI3"; "Components"].
Definition open_class (c : string) : bool := existsb (String.eqb c) two_names.
(** annotations for which combining keeps the type *)
Fixpoint simple (t : ty) : bool :=
  match t with
  | TOpt t' => simple t'
  | TUnion _ => false
  | TModel c _ fs => negb (open_class c) || (fix go fs := match fs with [] => true | (fi, t') :: r => match f_val fi with FvNone => simple t' | _ => match t' with TStr _ => true | _ => false end end && go r end) fs
  | _ => true
  end.
Definition simple_field (ft : finfo * ty) : bool := match f_val (fst ft) with FvNone => simple (snd ft) | _ => match snd ft with TStr _ => true | _ => false end end.
Lemma simple_fields fs : (fix go fs := match fs with [] => true | (fi, t') :: r => match f_val fi with FvNone => simple t' | _ => match t' with TStr _ => true | _ => false end end && go r end) fs = forallb simple_field fs.
Proof. induction fs as [|[fi t] fs IH]; [reflexivity|]. cbn [forallb]. unfold simple_field at 1. cbn [fst snd]. rewrite <- IH. reflexivity. Qed.
Lemma open_in c : In c two_names <-> open_class c = true.
Proof. unfold open_class. rewrite existsb_exists. split; [intros H; exists c; split; [exact H|apply String.eqb_refl]|intros (x & H & He); apply String.eqb_eq in He; subst; exact H]. Qed.
Lemma combined_typed E : (forall a b m, combined a b m -> forall t, simple t = true -> well_typed E t a -> well_typed E t b -> well_typed E t m)
  /\ (forall fv gv hv, combined_fields fv gv hv -> forall fs, forallb simple_field fs = true -> wt_fields E (well_typed E) fs fv -> wt_fields E (well_typed E) fs gv -> wt_fields E (well_typed E) fs hv).
Proof.
  apply combined_both.
  - intros v t _ H _. exact H.
  - intros v t _ H _. exact H.
  - intros v t _ _ H. exact H.
  - intros c d e Ha t. induction t; intros Hs H1 H2; cbn [well_typed] in *; try solve [exact I | discriminate Hs | repeat match goal with H : exists _, _ |- _ => destruct H | H : _ /\ _ |- _ => destruct H end; discriminate].
    + destruct H1 as [H1|H1]; [discriminate H1|]. destruct H2 as [H2|H2]; [discriminate H2|]. right. apply IHt; assumption.
    + destruct H1 as (d1 & [= <- <-] & H1). destruct H2 as (d2 & [= <-] & H2). eexists. split; [reflexivity|]. rewrite Forall_forall in *. intros kv Hi. apply union_in in Hi as [Hi|[Hi _]]; auto.
  - intros c fv gv hv ex ey Hc Hf IH Ha t. induction t; intros Hs H1 H2; cbn [well_typed] in *; try solve [exact I | discriminate Hs | repeat match goal with H : exists _, _ |- _ => destruct H | H : _ /\ _ |- _ => destruct H end; discriminate].
    + destruct H1 as [H1|H1]; [discriminate H1|]. destruct H2 as [H2|H2]; [discriminate H2|]. right. apply IHt; assumption.
    + destruct H1 as (fv1 & ex1 & [= <- <- <-] & H1 & F1 & X1). destruct H2 as (fv2 & ex2 & [= <- <-] & H2 & F2 & X2). exists hv, (union ex ey). split; [reflexivity|]. cbn [simple] in Hs. rewrite simple_fields in Hs.
      apply (proj1 (open_in c)) in Hc. rewrite Hc in Hs. cbn [negb orb] in Hs. split; [apply IH; assumption|]. split.
      * intros Hk. rewrite (F1 Hk), (F2 Hk). reflexivity.
      * intros Hk fi t' Hi Hx. apply agree_extras_keys in Hx as [Hx|Hx]; [exact (X1 Hk fi t' Hi Hx)|exact (X2 Hk fi t' Hi Hx)].
  - intros fs _ H _. exact H.
  - intros k x y z fv gv hv Hc IH _ IHf [|[fi t] fs] Hs H1 H2; [destruct H1|]. cbn [wt_fields] in *. fold (wt_fields E (well_typed E)) in *. destruct H1 as (-> & W1 & R1 & H1). destruct H2 as (_ & W2 & R2 & H2).
    cbn [forallb] in Hs. apply andb_prop in Hs as [Hs Hss]. split; [reflexivity|]. unfold simple_field in Hs. cbn [fst snd] in Hs.
    assert (G : well_typed E t z /\ field_rule E (f_val fi) z).
    { destruct (f_val fi) eqn:Ef; [split; [apply IH; assumption|exact I]| | | | | | |]; (destruct t; try discriminate Hs; cbn [well_typed] in W1, W2; destruct W1 as (s1 & -> & W1); destruct W2 as (s2 & -> & W2);
        inversion Hc; subst; split; [cbn [well_typed]; eauto|assumption]). }
    destruct G as [G1 G2]. split; [exact G1|]. split; [exact G2|]. apply IHf; assumption.
Qed.
Lemma simple_doc : simple T_AsyncAPI3 = true.
Proof. vm_compute. reflexivity. Qed.
(** ** Validity *)
Fixpoint find_root (c : string) (l : list ty) : option ty :=
  match l with [] => None | TRoot c' t :: r => if String.eqb c c' then Some t else find_root c r | _ :: r => find_root c r end.
Lemma roots_unique : forallb (fun t => match t with TRoot c t' => match find_root c all_types with Some t'' => ty_eqb t' t'' | None => false end | _ => true end) all_types = true.
Proof. vm_compute. reflexivity. Qed.
Lemma root_type c t t' : In (TRoot c t) all_types -> In (TRoot c t') all_types -> t = t'.
Proof.
  intros H H'. assert (G := proj1 (forallb_forall _ _) roots_unique). apply G in H, H'. cbv beta iota in H, H'. revert H H'. generalize (find_root c all_types). intros [t0|] H H'; [|discriminate H].
  apply ty_eqb_eq in H, H'. congruence.
Qed.
Lemma model_type c k fs : In (TModel c k fs) all_types -> class_fields c = fs /\ class_kind c = k.
Proof. intros H. apply linked_fields. exact (linked_all _ H). Qed.
Lemma two_simple : forallb (fun c => forallb simple_field (class_fields c)) two_names = true.
Proof. vm_compute. reflexivity. Qed.
Lemma two_ext c : In c two_names -> class_kind c = KExt.
Proof. intros [<-|[<-|[]]]; vm_compute; reflexivity. Qed.
Lemma two_rules c fv : In c two_names -> cross_field_spec c fv.
Proof. intros [<-|[<-|[]]]; unfold cross_field_spec; repeat split; discriminate. Qed.
(** everything inside the combination is a combined map or object, or inside one of the two *)
Definition part3 (P : pv -> Prop) (a b m : pv) : Prop := forall x, within x m -> within x a \/ within x b \/ P x.
Lemma combined_within (P : pv -> Prop) :
  (forall a b m, combined a b m -> forall A B, within a A -> within b B ->
     (forall c d e, agree d e -> within (VRoot c d) A -> within (VRoot c e) B -> P (VRoot c (union d e))) ->
     (forall c fv gv hv ex ey, In c two_names -> combined_fields fv gv hv -> agree ex ey -> within (VObj c fv ex) A -> within (VObj c gv ey) B -> P (VObj c hv (union ex ey))) ->
     forall x, within x m -> within x A \/ within x B \/ P x)
  /\ (forall fv gv hv, combined_fields fv gv hv -> forall A B, (forall k x, In (k, x) fv -> within x A) -> (forall k x, In (k, x) gv -> within x B) ->
     (forall c d e, agree d e -> within (VRoot c d) A -> within (VRoot c e) B -> P (VRoot c (union d e))) ->
     (forall c fv gv hv ex ey, In c two_names -> combined_fields fv gv hv -> agree ex ey -> within (VObj c fv ex) A -> within (VObj c gv ey) B -> P (VObj c hv (union ex ey))) ->
     forall k z x, In (k, z) hv -> within x z -> within x A \/ within x B \/ P x).
Proof.
  apply combined_both.
  - intros v A B HA HB _ _ x Hx. left. eapply within_trans; eassumption.
  - intros v A B HA HB _ _ x Hx. left. eapply within_trans; eassumption.
  - intros v A B HA HB _ _ x Hx. right. left. eapply within_trans; eassumption.
  - intros c d e Ha A B HA HB HP _ x Hx. inversion Hx as [ | | | | |? ? k y Hi Hw]; subst; [right; right; exact (HP c d e Ha HA HB)|]. apply union_in in Hi as [Hi|[Hi _]].
    + left. apply (within_trans _ (VRoot c d)); [|exact HA]. eapply w_root; eauto.
    + right. left. apply (within_trans _ (VRoot c e)); [|exact HB]. eapply w_root; eauto.
  - intros c fv gv hv ex ey Hc Hf IH Ha A B HA HB HP HQ x Hx. inversion Hx as [ | | |? ? ? k y Hi Hw|? ? ? k y Hi Hw| ]; subst; [right; right; exact (HQ c fv gv hv ex ey Hc Hf Ha HA HB)| |].
    + apply (IH A B) with (k := k) (z := y); try assumption; intros k' x' Hx'; [apply (within_trans _ (VObj c fv ex)); [|exact HA]|apply (within_trans _ (VObj c gv ey)); [|exact HB]]; eapply w_field; try exact Hx'; constructor.
    + apply union_in in Hi as [Hi|[Hi _]].
      * left. apply (within_trans _ (VObj c fv ex)); [|exact HA]. eapply w_extra; eauto.
      * right. left. apply (within_trans _ (VObj c gv ey)); [|exact HB]. eapply w_extra; eauto.
  - intros A B _ _ _ _ k z x [].
  - intros k x y z fv gv hv _ IH _ IHf A B H1 H2 HP HQ k' z' w [Heq|Hi] Hw.
    + injection Heq as <- <-. apply (IH A B); try assumption; [apply (H1 k x)|apply (H2 k y)]; left; reflexivity.
    + apply (IHf A B) with (k := k') (z := z'); try assumption; intros k0 x0 Hx0; [apply (H1 k0 x0)|apply (H2 k0 x0)]; right; exact Hx0.
Qed.
Lemma combined_parts (P : pv -> Prop) A B M : combined A B M ->
  (forall c d e, agree d e -> within (VRoot c d) A -> within (VRoot c e) B -> P (VRoot c (union d e))) ->
  (forall c fv gv hv ex ey, In c two_names -> combined_fields fv gv hv -> agree ex ey -> within (VObj c fv ex) A -> within (VObj c gv ey) B -> P (VObj c hv (union ex ey))) ->
  forall x, within x M -> within x A \/ within x B \/ P x.
Proof. intros H HP HQ. exact (proj1 (combined_within P) A B M H A B (w_self A) (w_self B) HP HQ). Qed.
Lemma combined_valid E A B M : combined A B M -> valid_throughout E A -> valid_throughout E B -> valid_throughout E M.
Proof.
  intros H VA VB x Hx.
  destruct (combined_parts (fun x => match x with VObj c fv ex => object_valid E c fv ex | VRoot c d => map_valid E c d | _ => True end) A B M H) with (x := x) as [G|[G|G]]; [| |exact Hx|exact (VA x G)|exact (VB x G)|exact G].
  - intros c d e Ha H1 H2. destruct (VA _ H1) as (t & T1 & D1). destruct (VB _ H2) as (t' & T2 & D2). assert (t' = t) by (eapply root_type; eassumption). subst t'.
    exists t. split; [exact T1|]. intros k y Hi. apply union_in in Hi as [Hi|[Hi _]]; auto.
  - intros c fv gv hv ex ey Hc Hf Ha H1 H2. destruct (VA _ H1) as (k & fs & T1 & W1 & _ & X1). destruct (VB _ H2) as (k' & fs' & T2 & W2 & _ & X2).
    destruct (model_type _ _ _ T1) as [F1 K1]. destruct (model_type _ _ _ T2) as [F2 K2]. rewrite F1 in F2. rewrite K1 in K2. subst fs' k'.
    exists k, fs. split; [exact T1|]. split; [|split; [apply two_rules; exact Hc|]].
    + apply (proj2 (combined_typed E) fv gv hv Hf); [|exact W1|exact W2]. rewrite <- F1. exact (proj1 (forallb_forall _ _) two_simple c Hc).
    + rewrite (two_ext c Hc) in K1. subst k. cbn [extras_valid] in *. intros key Hk. apply agree_extras_keys in Hk as [Hk|Hk]; auto.
Qed.
Lemma combined_keys fv gv hv : combined_fields fv gv hv -> map fst hv = map fst fv.
Proof. induction 1 as [|k x y z fv gv hv Hc H IH]; [reflexivity|]. cbn [map fst]. rewrite IH. reflexivity. Qed.
Lemma combined_dicts A B M : combined A B M -> python_dicts A -> python_dicts B -> python_dicts M.
Proof.
  intros H VA VB x Hx. destruct (combined_parts own_keys_distinct A B M H) with (x := x) as [G|[G|G]]; [| |exact Hx|exact (VA x G)|exact (VB x G)|exact G].
  - intros c d e Ha H1 H2. apply union_nodup; [exact (VA _ H1)|exact (VB _ H2)].
  - intros c fv gv hv ex ey Hc Hf Ha H1 H2. destruct (VA _ H1) as [N1 N2]. destruct (VB _ H2) as [N3 N4]. split; [rewrite (combined_keys _ _ _ Hf); exact N1|apply union_nodup; assumption].
Qed.
Lemma combined_objects A B M : combined A B M -> forall c fv ex, within (VObj c fv ex) M -> ~ In c two_names -> within (VObj c fv ex) A \/ within (VObj c fv ex) B.
Proof.
  intros H c fv ex Hx Hn. destruct (combined_parts (fun x => match x with VObj c _ _ => In c two_names | VRoot _ _ => True | _ => False end) A B M H) with (x := VObj c fv ex) as [G|[G|G]]; auto.
  contradiction.
Qed.
Lemma combined_names A B M : combined A B M -> no_shadowing A -> no_shadowing B -> no_shadowing M.
Proof.
  intros H VA VB c fv ex k Hx Hk. destruct (combined_objects A B M H c fv ex Hx) as [G|G]; [|exact (VA c fv ex k G Hk)|exact (VB c fv ex k G Hk)].
  intros Hi. rewrite (two_ext c Hi) in Hk. discriminate Hk.
Qed.
Lemma combined_settled A B M : combined A B M -> settled A -> settled B -> settled M.
Proof.
  intros H VA VB fv ex d Hx. destruct (combined_objects A B M H _ fv ex Hx) as [G|G]; [|exact (VA fv ex d G)|exact (VB fv ex d G)].
  intros [Hi|[Hi|[]]]; discriminate Hi.
Qed.
Lemma valid_whole E v : valid_throughout E v -> whole v.
Proof.
  intros H fv ex Hw. destruct (H _ Hw) as (k & fs & T & W & _). destruct (model_type _ _ _ T) as [<- _]. clear -W.
  destruct fv as [|[k0 x] fv]; [vm_compute in W; destruct W|]. vm_compute in W. destruct W as (-> & (s & -> & _) & _). exists s. reflexivity.
Qed.
Lemma valid_plain E v : valid_throughout E v -> plain_extras v.
Proof.
  intros H c fv ex Hw Hc. destruct (H _ Hw) as (k & fs & T & _ & _ & X). destruct (model_type _ _ _ T) as [_ K]. rewrite (two_ext c Hc) in K. subst k. cbn [extras_valid] in X.
  apply assoc_None. intros Hi. destruct (X _ Hi) as [(w & (w' & -> & _) & [Hx|Hx]) _]; discriminate Hx.
Qed.
(** ** Tags and documentation *)
Lemma assoc_combined k fv gv hv : combined_fields fv gv hv ->
  match assoc k hv with Some z => exists x y, assoc k fv = Some x /\ assoc k gv = Some y /\ combined x y z | None => assoc k fv = None /\ assoc k gv = None end.
Proof. induction 1 as [|k0 x y z fv gv hv Hc H IH]; [split; reflexivity|]. cbn [assoc]. destruct (str_eqb k k0); [eauto|exact IH]. Qed.
Lemma assoc_union k d e : assoc k (union d e) = match assoc k d with Some x => Some x | None => assoc k e end.
Proof.
  unfold union. rewrite assoc_app. destruct (assoc k d) as [x|] eqn:Ed; [reflexivity|]. apply (assoc_filter_key (fun k0 => negb (mem_str k0 (map fst d)))).
  apply negb_true_iff, mem_str_not_In, assoc_None. exact Ed.
Qed.
Lemma combined_selects p : forall a b m r s, combined a b m -> selects m p r -> is_reference r s -> selects a p r \/ selects b p r.
Proof.
  induction p as [|st p IH]; intros a b m r s H Hs Hr.
  - inversion Hs; subst. destruct H as [v|v|v|c d e Ha|c fv gv hv ex ey Hc Hf Ha]; [left; constructor|left; constructor|right; constructor| |];
      exfalso; apply as_reference_iff in Hr; [discriminate Hr|rewrite two_not_ref in Hr by exact Hc; discriminate Hr].
  - destruct H as [v|v|v|c d e Ha|c fv gv hv ex ey Hc Hf Ha]; [left; exact Hs|left; exact Hs|right; exact Hs| |].
    + inversion Hs as [ | | | |? ? k x ? ? Hi Hx]; subst. apply union_in in Hi as [Hi|[Hi _]]; [left|right]; eapply se_entry; eauto.
    + inversion Hs as [ |? ? ? f x ? ? Hi Hx|? ? ? f x ? ? Hn Hi Hx| | ]; subst; assert (Hq := assoc_combined (u f) fv gv hv Hf).
      * rewrite Hi in Hq. destruct Hq as (x1 & x2 & Q1 & Q2 & Q). destruct (IH _ _ _ _ _ Q Hx Hr) as [G|G]; [left|right]; eapply se_field; eauto.
      * rewrite Hn in Hq. destruct Hq as [Q1 Q2]. rewrite assoc_union in Hi. destruct (assoc (u f) ex) as [y|] eqn:Ey; [injection Hi as ->; left|right]; eapply se_extra; eauto.
Qed.
Lemma combined_found ls A B M s : combined A B M -> found ls M s -> found ls A s \/ found ls B s.
Proof. intros H (p & r & Hp & Hs & Hr). destruct (combined_selects p A B M r s H Hs Hr) as [G|G]; [left|right]; exists p, r; auto. Qed.
Lemma emb_get v v' c fv ex n : v = VObj c fv ex -> emb v v' -> exists fv' ex', v' = VObj c fv' ex' /\ (get n fv = VNone \/ emb (get n fv) (get n fv')).
Proof.
  intros -> H. inversion H as [|?|? ? fv' ? ex' Hc Hf H1 H2]; subst; [exists fv, ex; split; [reflexivity|right; constructor]|].
  exists fv', ex'. split; [reflexivity|]. unfold get, attr. assert (Ha := emb_assoc (u n) fv fv' Hf). destruct (assoc (u n) fv) as [x|], (assoc (u n) fv') as [z|]; try contradiction; [exact Ha|left; reflexivity].
Qed.
Lemma emb_entry path : forall v v' k x, emb v v' -> entry_at v path k = Some x -> entry_at v' path k = Some x.
Proof.
  induction path as [|a path IH]; intros v v' k x H He; cbn [entry_at] in *.
  - destruct v; try discriminate He. inversion H; subst; auto.
  - destruct v as [ | | | | | | | |c fv ex| | | ]; try discriminate He. destruct (emb_get _ _ c fv ex a eq_refl H) as (fv' & ex' & -> & [Hn|Hx]); [rewrite Hn in He; destruct path; discriminate He|].
    exact (IH _ _ _ _ Hx He).
Qed.
Lemma emb_ok A M prefix f s : emb A M -> reference_ok A prefix f s -> reference_ok M prefix f s.
Proof. intros H [Ho|(Hp & key & v & He & Hv)]; [left; exact Ho|right; split; [exact Hp|]]. exists key, v. split; [exact He|]. exact (emb_entry _ _ _ _ _ H Hv). Qed.
(** ** C107 *)
Lemma sides E A B M : combined A B M -> well_typed E T_AsyncAPI3 A -> well_typed E T_AsyncAPI3 B -> valid_throughout E A -> valid_throughout E B -> emb A M /\ emb B M.
Proof.
  intros H WA WB VA VB. destruct (proj1 combined_emb A B M H (valid_plain E A VA) (valid_plain E B VB)) as [H1 H2].
  split; [destruct H1 as [->|H1]; [|exact H1]; destruct WA as (? & ? & WA & _)|destruct H2 as [->|H2]; [|exact H2]; destruct WB as (? & ? & WB & _)]; discriminate.
Qed.
(** The combination is a document with every field typed and every object and map valid. *)
Theorem c107_valid E A B M : combined A B M -> well_typed E T_AsyncAPI3 A -> well_typed E T_AsyncAPI3 B -> valid_throughout E A -> valid_throughout E B ->
  well_typed E T_AsyncAPI3 M /\ valid_throughout E M.
Proof. intros H WA WB VA VB. split; [exact (proj1 (combined_typed E) A B M H _ simple_doc WA WB)|exact (combined_valid E A B M H VA VB)]. Qed.
(** References of either document mean in the combination what they meant before: the same object (a map or the components object may have got entries). *)
Theorem c107_resolves E A B M s o p : combined A B M -> well_typed E T_AsyncAPI3 A -> well_typed E T_AsyncAPI3 B -> valid_throughout E A -> valid_throughout E B ->
  resolve A s = Resolved o p \/ resolve B s = Resolved o p ->
  exists o', resolve M s = Resolved o' p /\ type_name o' = type_name o /\ (o' = o \/ (exists c d d', o = VRoot c d /\ o' = VRoot c d') \/ exists c fv ex fv' ex', In c ["AsyncAPI3"; "Components"] /\ o = VObj c fv ex /\ o' = VObj c fv' ex').
Proof.
  intros H WA WB VA VB Hr. destruct (sides E A B M H WA WB VA VB) as [HA HB].
  assert (G : forall D, emb D M -> resolve D s = Resolved o p -> exists o', resolve M s = Resolved o' p /\ emb o o').
  { intros D HD HR. assert (Hq := emb_resolve D M s HD). rewrite HR in Hq. specialize (Hq ltac:(discriminate)). inversion Hq as [? o' ? Ho| |]; subst. eauto. }
  assert (G' : exists o', resolve M s = Resolved o' p /\ emb o o') by (destruct Hr as [Hr|Hr]; [exact (G A HA Hr)|exact (G B HB Hr)]).
  destruct G' as (o' & Ho & He). exists o'. split; [exact Ho|]. split; [symmetry; exact (emb_name _ _ He)|].
  destruct He as [v|c d d' _|c fv fv' ex ex' Hc _ _ _]; [left; reflexivity|right; left; eauto|right; right; exists c, fv, ex, fv', ex'; auto].
Qed.
(** Each validator of the library that accepts both accepts the combination. *)
Theorem c107_accepted E A B M n : combined A B M -> well_typed E T_AsyncAPI3 A -> well_typed E T_AsyncAPI3 B -> valid_throughout E A -> valid_throughout E B ->
  bundled E n A = Some true -> bundled E n B = Some true -> bundled E n M = Some true.
Proof.
  intros H WA WB VA VB. destruct (sides E A B M H WA WB VA VB) as [HA HB]. destruct (c107_valid E A B M H WA WB VA VB) as [WM VM].
  unfold bundled. destruct (str_eqb n (u "UnifiedReferencesValidator")); [|destruct (str_eqb n (u "TagsRefValidator")); [|destruct (str_eqb n (u "ExternalDocsRefValidator")); [|auto]]].
  - destruct (unified E A) eqn:EA; [discriminate|]. destruct (unified E B) eqn:EB; [discriminate|]. intros _ _. unfold unified in *. rewrite (proj1 (combined_check E A B M HA HB) A B M H _ EA EB). reflexivity.
  - destruct (snd (tags_validator A)) eqn:EA; [discriminate|]. destruct (snd (tags_validator B)) eqn:EB; [discriminate|]. intros _ _. assert (G : snd (tags_validator M) = None); [|rewrite G; reflexivity].
    apply (c35_accepts_iff E M WM). intros s Hs. destruct (combined_found _ A B M s H Hs) as [F|F]; [apply (emb_ok A M _ _ _ HA); exact (proj1 (c35_accepts_iff E A WA) EA s F)|apply (emb_ok B M _ _ _ HB); exact (proj1 (c35_accepts_iff E B WB) EB s F)].
  - destruct (snd (docs_validator A)) eqn:EA; [discriminate|]. destruct (snd (docs_validator B)) eqn:EB; [discriminate|]. intros _ _. assert (G : snd (docs_validator M) = None); [|rewrite G; reflexivity].
    apply (c37_accepts_iff E M WM (valid_whole E M VM)). intros s Hs.
    destruct (combined_found _ A B M s H Hs) as [F|F]; [apply (emb_ok A M _ _ _ HA); exact (proj1 (c37_accepts_iff E A WA (valid_whole E A VA)) EA s F)|apply (emb_ok B M _ _ _ HB); exact (proj1 (c37_accepts_iff E B WB (valid_whole E B VB)) EB s F)].
Qed.
(** So constructing the combination succeeds and returns it. *)
Theorem c107_document E acts A B M conv vals calls r : combined A B M -> standard E acts -> url_idem E ->
  well_typed E T_AsyncAPI3 A -> well_typed E T_AsyncAPI3 B -> valid_throughout E A -> valid_throughout E B -> python_dicts A -> python_dicts B ->
  no_shadowing A -> no_shadowing B -> settled A -> settled B ->
  listed M "extra_converters" conv -> listed M "extra_validators" vals -> all_bundled E conv -> all_bundled E vals ->
  (forall p, In p (conv ++ vals) -> accepts E A p /\ accepts E B p) -> construct acts E M calls r -> r = Some M.
Proof.
  intros H Hst Hu WA WB VA VB PA PB NA NB SA SB L1 L2 B1 B2 Hacc Hc. destruct (c107_valid E A B M H WA WB VA VB) as [WM VM].
  apply (c74_document E acts M conv vals calls r Hst Hu (combined_dicts A B M H PA PB) (combined_names A B M H NA NB) (combined_settled A B M H SA SB) WM VM L1 L2 B1 B2 Hc).
  intros p Hp. destruct (Hacc p Hp) as [(n & -> & A1) (n' & Heq & A2)]. injection Heq as <-. exists n. split; [reflexivity|]. exact (c107_accepted E A B M n H WA WB VA VB A1 A2).
Qed.
(** Two documents that meet the conditions: channels in both (one channel in common), operations only in the second, components in both. *)
Definition shared : string * pv := ("c0", obj [("address", str "a")]).
Definition one : pv := spec [("channels", obj [shared; ("c1", obj [("messages", obj [("m", ref "#/components/messages/m1")])])]);
  ("components", obj [("messages", obj [("m1", obj [("tags", VList [ref "#/components/tags/t1"])])]); ("tags", obj [("t1", obj [("name", str "t")])])])].
Definition two : pv := spec [("channels", obj [("c2", obj [("messages", obj [("m", obj [])])]); shared]);
  ("operations", obj [("o", obj [("action", str "send"); ("channel", ref "#/channels/c2"); ("messages", VList [ref "#/channels/c2/messages/m"])])]);
  ("components", obj [("tags", obj [("t2", obj [("name", str "t"); ("externalDocs", ref "#/components/externalDocs/d")])]); ("externalDocs", obj [("d", obj [("url", str "http://a/")])])])].
Definition one_doc : pv := Eval vm_compute in load_doc one.
Definition two_doc : pv := Eval vm_compute in load_doc two.
Ltac agrees := intros k x y Hx Hy; repeat (destruct Hx as [Hx|Hx]; [injection Hx as <- <-; repeat (destruct Hy as [Hy|Hy]; [first [discriminate Hy | injection Hy as <-; reflexivity]|]); destruct Hy|]); destruct Hx.
Ltac combines := first [apply co_same | apply co_left | apply co_right | apply co_map; agrees
  | apply co_object; [first [left; reflexivity | right; left; reflexivity]|repeat (apply cf_field; [combines|]); apply cf_end|agrees]].
Example c107_ex : parse E0 T_AsyncAPI3 one = Some one_doc /\ parse E0 T_AsyncAPI3 two = Some two_doc /\ is_json one /\ is_json two
  /\ (forall n, In n ["UnifiedReferencesValidator"; "TagsRefValidator"; "ExternalDocsRefValidator"] -> bundled E0 (u n) one_doc = Some true /\ bundled E0 (u n) two_doc = Some true)
  /\ exists M, combined one_doc two_doc M /\ exists x y z, entry_at M ["channels"] (u "c1") = Some x /\ entry_at M ["operations"] (u "o") = Some y /\ entry_at M ["components"; "tags"] (u "t2") = Some z.
Proof.
  split; [vm_compute; reflexivity|]. split; [vm_compute; reflexivity|]. split; [apply json_dec; vm_compute; reflexivity|]. split; [apply json_dec; vm_compute; reflexivity|]. split.
  - intros n [<-|[<-|[<-|[]]]]; split; vm_compute; reflexivity.
  - eexists. split; [unfold one_doc, two_doc; combines|]. do 3 eexists. split; [vm_compute; reflexivity|]. split; vm_compute; reflexivity.
Qed.
(** The loaded documents meet the conditions on validity. *)
Lemma c107_loaded E v doc : is_json v -> parse E T_AsyncAPI3 v = Some doc -> well_typed E T_AsyncAPI3 doc /\ valid_throughout E doc.
Proof.
  intros Hj Hp. assert (HinA : In T_AsyncAPI3 all_types) by (apply Linked.find_class_In; vm_compute; reflexivity). split; [exact (parse_wt _ _ _ _ (wf_all _ HinA) Hp)|exact (c52_parsed_valid _ _ _ _ HinA Hj Hp)].
Qed.
(** Needed: agreement on common keys.  Both documents have a channel c, the operation of the second refers into its own; the union with the first one's channel is rejected. *)
Definition three : pv := spec [("channels", obj [("c", obj [("address", str "a")])])].
Definition four : pv := spec [("channels", obj [("c", obj [("messages", obj [("n", obj [])])])]);
  ("operations", obj [("o", obj [("action", str "send"); ("channel", ref "#/channels/c"); ("messages", VList [ref "#/channels/c/messages/n"])])])].
Definition three_doc : pv := Eval vm_compute in load_doc three.
Definition four_doc : pv := Eval vm_compute in load_doc four.
Theorem c107_agreement_needed : exists A B a b c c' d e ops, parse E0 T_AsyncAPI3 three = Some A /\ parse E0 T_AsyncAPI3 four = Some B
  /\ A = VObj "AsyncAPI3" (a ++ (u "channels", VRoot "Channels" d) :: (u "operations", VNone) :: c) [] /\ B = VObj "AsyncAPI3" (b ++ (u "channels", VRoot "Channels" e) :: (u "operations", ops) :: c') [] /\ a = b /\ c = c'
  /\ unified E0 A = None /\ unified E0 B = None /\ unified E0 (VObj "AsyncAPI3" (a ++ (u "channels", VRoot "Channels" (union d e)) :: (u "operations", ops) :: c) []) <> None.
Proof.
  exists three_doc, four_doc. exists (firstn 5 (match three_doc with VObj _ fv _ => fv | _ => [] end)), (firstn 5 (match four_doc with VObj _ fv _ => fv | _ => [] end)).
  exists (skipn 7 (match three_doc with VObj _ fv _ => fv | _ => [] end)), (skipn 7 (match four_doc with VObj _ fv _ => fv | _ => [] end)). do 3 eexists.
  split; [vm_compute; reflexivity|]. split; [vm_compute; reflexivity|]. split; [vm_compute; reflexivity|]. split; [vm_compute; reflexivity|]. split; [vm_compute; reflexivity|]. split; [vm_compute; reflexivity|].
  split; [vm_compute; reflexivity|]. split; [vm_compute; reflexivity|]. vm_compute. discriminate.
Qed.
Print Assumptions c107_valid. Print Assumptions c107_resolves. Print Assumptions c107_accepted. Print Assumptions c107_document. Print Assumptions c107_agreement_needed.
