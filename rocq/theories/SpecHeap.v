(** Specification vocabulary for object identity: what a value in memory reads as, which objects it contains, which of
    them it owns. *)
From Verif Require Import PyStr Value Types Rules State Heap.

Definition immutable (v : pv) : Prop :=
  match v with VList _ | VDict _ | VObj _ _ _ | VRoot _ _ => False | _ => True end.
(** [reads M h v]: the value [h] in memory [M] looks like the tree [v] (impossible for an object that contains itself). *)
Fixpoint reads (M : mem) (h : hv) (v : pv) {struct v} : Prop :=
  let entries := fix entries (d : hfields) (e : list (pystr * pv)) {struct e} : Prop :=
    match d, e with
    | [], [] => True
    | (k, x) :: d', (k', w) :: e' => k = k' /\ reads M x w /\ entries d' e'
    | _, _ => False
    end in
  match v with
  | VList vs => exists l xs, h = HL l /\ look M l = Some (CList xs)
      /\ (fix each (xs : list hv) (vs : list pv) {struct vs} : Prop :=
            match xs, vs with [], [] => True | x :: xs', w :: vs' => reads M x w /\ each xs' vs' | _, _ => False end) xs vs
  | VDict e => exists l d, h = HL l /\ look M l = Some (CDict d) /\ entries d e
  | VObj c fs ex => exists l d d', h = HL l /\ look M l = Some (CObj c d d') /\ entries d fs /\ entries d' ex
  | VRoot c e => exists l r d, h = HL l /\ look M l = Some (CRoot c r) /\ look M r = Some (CDict d) /\ entries d e
  | _ => h = HA v
  end.

(** The values an object holds. *)
Definition held (c : cell) : list hv :=
  match c with
  | CList l => l
  | CDict d => map snd d
  | CObj _ fs ex => map snd fs ++ map snd ex
  | CRoot _ r => [HL r]
  end.
(** [part M h x]: the value [x] is [h] or held somewhere inside [h]. *)
Inductive part (M : mem) : hv -> hv -> Prop :=
| pt_here h : part M h h
| pt_inside l c y x : look M l = Some c -> In y (held c) -> part M y x -> part M (HL l) x.
(** the mutable object at address [l] is [h] or inside [h] *)
Definition contains (M : mem) (h : hv) (l : nat) : Prop := part M h (HL l).
(** No dangling addresses. *)
Definition points (M : mem) (h : hv) : Prop := match h with HA _ => True | HL l => l < length M end.
Definition consistent (M : mem) : Prop := forall l c x, look M l = Some c -> In x (held c) -> points M x.

(** [owns M t h L F]: [h] is a value of type [t]; the mutable objects it is made of are those at the addresses [L], and its
    free-form data (extra entries and what is declared as Any) are the values [F]. *)
Fixpoint owns (M : mem) (t : ty) (h : hv) (P : list nat * list hv) {struct t} : Prop :=
  match t with
  | TAny => P = ([], [h])
  | TOpt t' => (h = HA VNone /\ P = ([], [])) \/ owns M t' h P
  | TUnion ts => (fix any (ts : list ty) : Prop := match ts with [] => False | t' :: r => owns M t' h P \/ any r end) ts
  | TList t' => exists l xs Ps, h = HL l /\ look M l = Some (CList xs) /\ Forall2 (owns M t') xs Ps
      /\ P = (l :: concat (map fst Ps), concat (map snd Ps))
  | TProcs => exists l xs, h = HL l /\ look M l = Some (CList xs) /\ (forall x, In x xs -> exists n, x = HA (VProc n)) /\ P = ([l], [])
  | TDict t' => exists l d Ps, h = HL l /\ look M l = Some (CDict d) /\ Forall2 (owns M t') (map snd d) Ps
      /\ P = (l :: concat (map fst Ps), concat (map snd Ps))
  | TModel c _ fs => exists l fv ex Ps, h = HL l /\ look M l = Some (CObj c fv ex)
      /\ (fix fields (fs : list (finfo * ty)) (fv : hfields) (Ps : list (list nat * list hv)) : Prop :=
            match fs, fv, Ps with
            | [], [], [] => True
            | (fi, t') :: fs', (n, x) :: fv', P' :: Ps' => n = f_name fi /\ owns M t' x P' /\ fields fs' fv' Ps'
            | _, _, _ => False
            end) fs fv Ps
      /\ P = (l :: concat (map fst Ps), concat (map snd Ps) ++ map snd ex)
  | TRoot c t' => exists l r d Ps, h = HL l /\ look M l = Some (CRoot c r) /\ look M r = Some (CDict d)
      /\ Forall2 (owns M t') (map snd d) Ps /\ P = (l :: r :: concat (map fst Ps), concat (map snd Ps))
  | _ => (exists v, h = HA v) /\ P = ([], [])
  end.

(** Attribute accesses, subscripts and indices, from a value to the value they lead to. *)
Fixpoint hpath (M : mem) (p : list pstep) (h : hv) : option hv :=
  match p with
  | [] => Some h
  | s :: p' =>
      match h with
      | HA _ => None
      | HL l =>
          match match s, look M l with
                | PField n, Some (CObj _ fv _) => assoc n fv
                | PExtra n, Some (CObj _ _ ex) => assoc n ex
                | PKey n, Some (CDict d) => assoc n d
                | PKey n, Some (CRoot _ r) => match look M r with Some (CDict d) => assoc n d | _ => None end
                | PIdx i, Some (CList xs) => nth_error xs i
                | _, _ => None
                end with
          | Some x => hpath M p' x
          | None => None
          end
      end
  end.
(** [made_of M d L F]: [d] is the root of a tree formed by the objects [L]; the values at its leaves are [F]. *)
Inductive made_of (M : mem) : hv -> list nat -> list hv -> Prop :=
| mo_leaf x : made_of M x [] [x]
| mo_node l c Ps : look M l = Some c -> Forall2 (fun y P => made_of M y (fst P) (snd P)) (held c) Ps ->
    made_of M (HL l) (l :: concat (map fst Ps)) (concat (map snd Ps)).

(** the processors only read the document: [verdict] says of a document in memory what [procs] says of its contents *)
Definition only_reads (verdict : mem -> nat -> bool) (procs : pv -> bool * pv) : Prop := forall M l o, reads M (HL l) o -> procs o = (verdict M l, o).
(** A history of assignments: [obj.path.name = value].  Exceptions are caught by the caller, who goes on (as [assign_run]). *)
Record hop := { ho_path : list pstep; ho_name : pystr; ho_value : hv }.
Definition hop_run (E : env) (verdict : mem -> nat -> bool) (d : hv) (M : mem) (a : hop) : mem :=
  match hpath M (ho_path a) d with Some (HL l) => fst (hassign E verdict M l (ho_name a) (ho_value a)) | _ => M end.
(** immutable, or one of the objects [old] *)
Definition among (old : nat -> Prop) (x : hv) : Prop := match x with HA _ => True | HL l => old l end.
(** no assignment of the history is to an object satisfying [old] *)
Fixpoint only_new (E : env) (verdict : mem -> nat -> bool) (d : hv) (old : nat -> Prop) (M : mem) (l : list hop) : Prop :=
  match l with
  | [] => True
  | a :: r => (forall l, hpath M (ho_path a) d = Some (HL l) -> ~ old l) /\ only_new E verdict d old (hop_run E verdict d M a) r
  end.
