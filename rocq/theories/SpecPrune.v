(** Specification for C108: removing many entries of patterned maps at once. *)
From Verif Require Import PyStr Value Types Rules Pydantic ClassTable Classes SpecParse SpecState Resolve SpecResolve.

(** [v'] is [v] without some entries of some of its patterned maps, at any depth; [K] are the keys under which entries were removed. *)
Inductive pruned (K : pystr -> Prop) : pv -> pv -> Prop :=
| pr_same v : pruned K v v
| pr_list l l' : Forall2 (pruned K) l l' -> pruned K (VList l) (VList l')
| pr_dict d d' : Forall2 (fun a b => fst a = fst b /\ pruned K (snd a) (snd b)) d d' -> pruned K (VDict d) (VDict d')
| pr_map c d keep d' : (forall k, In k (map fst d) -> keep k = false -> K k) ->
    Forall2 (fun a b => fst a = fst b /\ pruned K (snd a) (snd b)) (filter (fun kv => keep (fst kv)) d) d' -> pruned K (VRoot c d) (VRoot c d')
| pr_object c fv fv' ex : Forall2 (fun a b => fst a = fst b /\ pruned K (snd a) (snd b)) fv fv' -> pruned K (VObj c fv ex) (VObj c fv' ex).
(** The reference string pointed at something in the document, and there is nothing left at that place. *)
Definition cut_off (doc doc' : pv) (s : pystr) : Prop := exists l o, designates doc s l o /\ ~ exists o', walks doc' l o'.
