(** Putting the target of a reference in place of the reference (C102, C103). *)
From Verif Require Import PyStr Value Types Rules Pydantic ClassTable Classes SpecParse SpecState Resolve SpecResolve Unified SpecUnified.

(** The value [v] with the part at position [pos] (child numbers from the outside, as in [reached]) replaced by [x]. *)
Fixpoint upd {X} (i : nat) (f : X -> X) (l : list X) : list X :=
  match l, i with
  | [], _ => []
  | y :: r, 0 => f y :: r
  | y :: r, S j => y :: upd j f r
  end.
Fixpoint put (pos : list nat) (x v : pv) : pv :=
  match pos with
  | [] => x
  | i :: r =>
      match v with
      | VList l => VList (upd i (put r x) l)
      | VDict d => VDict (upd i (fun kv => (fst kv, put r x (snd kv))) d)
      | VRoot c d => VRoot c (upd i (fun kv => (fst kv, put r x (snd kv))) d)
      | VObj c fv ex => VObj c (upd i (fun kv => (fst kv, put r x (snd kv))) fv) ex
      | _ => v
      end
  end.

(** [stands t v pos p D r]: inside the value [v] of annotation [t], at position [pos] and location [p], stands [r], where the annotation
    allows a Reference or, in place, an object of one of the classes [D].  (The fields that hold only references, such as the channel of an
    operation, are not such places.) *)
Inductive stands : ty -> pv -> list nat -> list lstep -> list string -> pv -> Prop :=
| sd_here ts k fs r : In (TModel "Reference" k fs) ts -> stands (TUnion ts) r [] [] (model_names ts) r
| sd_opt t v pos p D r : stands t v pos p D r -> stands (TOpt t) v pos p D r
| sd_list t l i x pos p D r : nth_error l i = Some x -> stands t x pos p D r -> stands (TList t) (VList l) (i :: pos) (LIdx i :: p) D r
| sd_dict t d i k x pos p D r : nth_error d i = Some (k, x) -> stands t x pos p D r -> stands (TDict t) (VDict d) (i :: pos) (LKey k :: p) D r
| sd_root c t d i k x pos p D r : nth_error d i = Some (k, x) -> stands t x pos p D r ->
    stands (TRoot c t) (VRoot c d) (i :: pos) (LMapKey k :: p) D r
| sd_member ts t v pos p D r : In t ts -> stands t v pos p D r -> stands (TUnion ts) v pos p D r
| sd_field c k fs fv ex i fi t x pos p D r : nth_error fs i = Some (fi, t) -> f_excl fi = false -> nth_error fv i = Some (f_name fi, x) ->
    stands t x pos p D r -> stands (TModel c k fs) (VObj c fv ex) (i :: pos) (LField (f_name fi) :: p) D r.
