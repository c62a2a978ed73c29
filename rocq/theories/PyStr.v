(** Python [str] as a list of code points, and the string primitives the repository
    calls.  Models CPython's documented behaviour of str.startswith, str.endswith,
    str.replace, str.split(sep), str.strip(ch), s[i:], `in`. *)
From Coq Require Export String Ascii DecimalPos.
From Coq Require Export List NArith ZArith Bool Arith Lia.
Export ListNotations.
Open Scope list_scope.

Definition pystr := list N.

(** Literals: [u "abc"] is the Python literal 'abc' (ASCII only). *)
Fixpoint u (s : string) : pystr :=
  match s with
  | EmptyString => []
  | String c s' => N_of_ascii c :: u s'
  end.

Fixpoint str_eqb (a b : pystr) : bool :=
  match a, b with
  | [], [] => true
  | x :: a', y :: b' => N.eqb x y && str_eqb a' b'
  | _, _ => false
  end.

Lemma str_eqb_eq a b : str_eqb a b = true <-> a = b.
Proof.
  revert b; induction a as [|x a IH]; intros [|y b]; simpl; split; try congruence; intros H.
  - apply andb_prop in H as [H1 H2]. apply N.eqb_eq in H1. apply IH in H2. congruence.
  - inversion H; subst. rewrite N.eqb_refl. simpl. apply IH. reflexivity.
Qed.
Lemma str_eqb_refl a : str_eqb a a = true.
Proof. apply str_eqb_eq; reflexivity. Qed.
Lemma str_eqb_neq a b : str_eqb a b = false <-> a <> b.
Proof.
  split.
  - intros H ->. rewrite str_eqb_refl in H. discriminate.
  - intros H. destruct (str_eqb a b) eqn:E; [|reflexivity]. apply str_eqb_eq in E. contradiction.
Qed.
Lemma str_eqb_sym a b : str_eqb a b = str_eqb b a.
Proof.
  destruct (str_eqb a b) eqn:E.
  - apply str_eqb_eq in E; subst; symmetry; apply str_eqb_refl.
  - symmetry; apply str_eqb_neq; apply str_eqb_neq in E; congruence.
Qed.
Lemma str_eq_dec (a b : pystr) : {a = b} + {a <> b}.
Proof. destruct (str_eqb a b) eqn:E; [left; apply str_eqb_eq|right; apply str_eqb_neq]; exact E. Qed.

Definition mem_str (s : pystr) (l : list pystr) : bool := existsb (str_eqb s) l.
Lemma mem_str_In s l : mem_str s l = true <-> In s l.
Proof.
  unfold mem_str. rewrite existsb_exists. split.
  - intros (x & Hin & E). apply str_eqb_eq in E. congruence.
  - intros H. exists s. split; [assumption|apply str_eqb_refl].
Qed.
Lemma mem_str_not_In s l : mem_str s l = false <-> ~ In s l.
Proof. rewrite <- mem_str_In. destruct (mem_str s l); split; congruence. Qed.

(** s.startswith(p) *)
Fixpoint starts_with (p s : pystr) : bool :=
  match p, s with
  | [], _ => true
  | x :: p', y :: s' => N.eqb x y && starts_with p' s'
  | _ :: _, [] => false
  end.
Lemma starts_with_iff p s : starts_with p s = true <-> exists t, s = p ++ t.
Proof.
  revert s; induction p as [|x p IH]; intros s; simpl.
  - split; [intros _; exists s; reflexivity|reflexivity].
  - destruct s as [|y s].
    + split; [discriminate|intros [t Ht]; discriminate].
    + rewrite andb_true_iff, N.eqb_eq, IH. split.
      * intros [-> [t ->]]. exists t. reflexivity.
      * intros [t Ht]. inversion Ht; subst. split; [reflexivity|exists t; reflexivity].
Qed.
Lemma starts_with_app p s : starts_with p (p ++ s) = true.
Proof. apply starts_with_iff. exists s. reflexivity. Qed.

(** s.endswith(p) *)
Definition ends_with (p s : pystr) : bool := starts_with (rev p) (rev s).
Lemma ends_with_iff p s : ends_with p s = true <-> exists t, s = t ++ p.
Proof.
  unfold ends_with. rewrite starts_with_iff. split.
  - intros [t Ht]. exists (rev t). rewrite <- (rev_involutive s), Ht, rev_app_distr, rev_involutive. reflexivity.
  - intros [t ->]. exists (rev t). apply rev_app_distr.
Qed.

(** `p in s` *)
Fixpoint contains (p s : pystr) : bool :=
  starts_with p s || match s with [] => false | _ :: s' => contains p s' end.
Lemma contains_iff p s : contains p s = true <-> exists a b, s = a ++ p ++ b.
Proof.
  induction s as [|y s IH]; cbn [contains]; rewrite orb_true_iff, starts_with_iff.
  - split.
    + intros [[t Ht]|H]; [|discriminate]. exists [], t. exact Ht.
    + intros (a & b & H). left. exists b. destruct a; [exact H|discriminate].
  - rewrite IH. split.
    + intros [[t Ht]|(a & b & ->)]; [exists [], t; exact Ht|exists (y :: a), b; reflexivity].
    + intros (a & b & H). destruct a as [|z a]; [left; exists b; exact H|].
      right. inversion H; subst. exists a, b. reflexivity.
Qed.

(** s.replace(old, new), [old] non-empty: leftmost, non-overlapping, one pass.
    [skip] counts the remaining characters of the occurrence being replaced. *)
Fixpoint replace_go (old new : pystr) (skip : nat) (s : pystr) : pystr :=
  match s with
  | [] => []
  | c :: s' =>
      match skip with
      | S k => replace_go old new k s'
      | O => if starts_with old s
             then new ++ replace_go old new (List.length old - 1) s'
             else c :: replace_go old new 0 s'
      end
  end.
Definition replace (old new s : pystr) : pystr := replace_go old new 0 s.

(** s.split(sep) for a one-character separator: always at least one piece. *)
Fixpoint split_go (sep : N) (cur : pystr) (s : pystr) : list pystr :=
  match s with
  | [] => [rev cur]
  | c :: s' => if N.eqb c sep then rev cur :: split_go sep [] s' else split_go sep (c :: cur) s'
  end.
Definition split (sep : N) (s : pystr) : list pystr := split_go sep [] s.

(** sep.join(parts) *)
Fixpoint join (sep : pystr) (l : list pystr) : pystr :=
  match l with
  | [] => []
  | [a] => a
  | a :: l' => a ++ sep ++ join sep l'
  end.

(** s.lstrip(ch), s.strip(ch) for one character *)
Fixpoint lstrip (c : N) (s : pystr) : pystr :=
  match s with
  | x :: s' => if N.eqb x c then lstrip c s' else s
  | [] => []
  end.
Definition strip (c : N) (s : pystr) : pystr := rev (lstrip c (rev (lstrip c s))).

(** str(n) for a natural number *)
Fixpoint uint_str (d : Decimal.uint) : pystr :=
  match d with
  | Decimal.Nil => []
  | Decimal.D0 d => 48%N :: uint_str d
  | Decimal.D1 d => 49%N :: uint_str d
  | Decimal.D2 d => 50%N :: uint_str d
  | Decimal.D3 d => 51%N :: uint_str d
  | Decimal.D4 d => 52%N :: uint_str d
  | Decimal.D5 d => 53%N :: uint_str d
  | Decimal.D6 d => 54%N :: uint_str d
  | Decimal.D7 d => 55%N :: uint_str d
  | Decimal.D8 d => 56%N :: uint_str d
  | Decimal.D9 d => 57%N :: uint_str d
  end.
Definition str_of_nat (n : nat) : pystr := uint_str (N.to_uint (N.of_nat n)).

Definition ascii_digit (c : N) : bool := (N.leb 48 c && N.leb c 57)%N.
Definition ascii_upper (c : N) : bool := (N.leb 65 c && N.leb c 90)%N.
Definition ascii_lower (c : N) : bool := (N.leb 97 c && N.leb c 122)%N.
Definition ascii_alpha (c : N) : bool := ascii_upper c || ascii_lower c.
Definition ascii_word (c : N) : bool := ascii_alpha c || ascii_digit c || N.eqb c 95.

Lemma uint_str_digits d : forallb ascii_digit (uint_str d) = true.
Proof. induction d; simpl; auto. Qed.
Lemma str_of_nat_digits n : forallb ascii_digit (str_of_nat n) = true.
Proof. apply uint_str_digits. Qed.
Lemma pos_to_uint_nonnil p : Pos.to_uint p <> Decimal.Nil.
Proof.
  intros H. assert (E := DecimalPos.Unsigned.of_to p). rewrite H in E. discriminate.
Qed.
Lemma str_of_nat_nonempty n : str_of_nat n <> [].
Proof.
  unfold str_of_nat. destruct (N.of_nat n) as [|p]; simpl; [discriminate|].
  assert (H := pos_to_uint_nonnil p). destruct (Pos.to_uint p); simpl; congruence.
Qed.

(** Association lists: Python dicts in insertion order (first match). *)
Section Assoc.
  Context {V : Type}.
  Fixpoint assoc (k : pystr) (d : list (pystr * V)) : option V :=
    match d with
    | [] => None
    | (k', v) :: d' => if str_eqb k k' then Some v else assoc k d'
    end.
  Definition has_key (k : pystr) (d : list (pystr * V)) : bool := mem_str k (map fst d).
  Lemma assoc_None k d : assoc k d = None <-> ~ In k (map fst d).
  Proof.
    induction d as [|[k' v] d IH]; simpl; [tauto|].
    destruct (str_eqb k k') eqn:E.
    - apply str_eqb_eq in E; subst. split; [discriminate|intros H; exfalso; apply H; left; reflexivity].
    - apply str_eqb_neq in E. rewrite IH. split; intros H; [intros [->|H']; auto|intros H'; apply H; right; exact H'].
  Qed.
  Lemma assoc_In k d v : assoc k d = Some v -> In (k, v) d.
  Proof.
    induction d as [|[k' v'] d IH]; simpl; [discriminate|].
    destruct (str_eqb k k') eqn:E; intros H.
    - apply str_eqb_eq in E; subst. inversion H; subst. left; reflexivity.
    - right; apply IH; exact H.
  Qed.
  Lemma assoc_Some_key k d v : assoc k d = Some v -> In k (map fst d).
  Proof. intros H. apply assoc_In in H. change k with (fst (k, v)). apply in_map. exact H. Qed.
  Lemma In_assoc k d v : NoDup (map fst d) -> In (k, v) d -> assoc k d = Some v.
  Proof.
    induction d as [|[k' v'] d IH]; simpl; [tauto|].
    intros Hnd [H|H].
    - inversion H; subst. rewrite str_eqb_refl. reflexivity.
    - inversion Hnd; subst. destruct (str_eqb k k') eqn:E.
      + apply str_eqb_eq in E; subst. exfalso. apply H2. change k' with (fst (k', v)). apply in_map. exact H.
      + apply IH; assumption.
  Qed.
  Lemma assoc_app k d e : assoc k (d ++ e) = match assoc k d with Some v => Some v | None => assoc k e end.
  Proof. induction d as [|[k' v'] d IH]; simpl; [reflexivity|]. destruct (str_eqb k k'); auto. Qed.
  Lemma has_key_iff k d : has_key k d = true <-> In k (map fst d).
  Proof. apply mem_str_In. Qed.
  Lemma key_assoc k d : In k (map fst d) -> exists v, assoc k d = Some v.
  Proof.
    intros H. destruct (assoc k d) as [v|] eqn:E; [exists v; reflexivity|].
    apply assoc_None in E. contradiction.
  Qed.
End Assoc.
