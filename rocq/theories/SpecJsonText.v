(** Specification of JSON text: the grammar of RFC 8259 as inductive relations between a text and the data it stands for
    (plus the three non-finite float literals), independent of any reader. *)
From Verif Require Import PyStr Value Types Rules Pydantic ClassTable Classes SpecParse SpecState SpecDump JsonText.

Definition blanks (w : pystr) : Prop := forall c, In c w -> c = 32%N \/ c = 9%N \/ c = 10%N \/ c = 13%N.
(** Unicode scalar values: code points that are not surrogates. *)
Definition is_scalar (c : N) : Prop := (c < 55296 \/ (57343 < c /\ c <= 1114111))%N.
Definition is_high (c : N) : Prop := (55296 <= c < 56320)%N.
Definition is_low (c : N) : Prop := (56320 <= c < 57344)%N.
(** A hexadecimal digit and its value. *)
Inductive hex_means : N -> N -> Prop :=
| hx_digit n : (n < 10)%N -> hex_means (48 + n) n
| hx_upper n : (10 <= n < 16)%N -> hex_means (55 + n) n
| hx_lower n : (10 <= n < 16)%N -> hex_means (87 + n) n.
Definition hex4_means (a b c d n : N) : Prop :=
  exists x y z t, hex_means a x /\ hex_means b y /\ hex_means c z /\ hex_means d t /\ n = (((x * 16 + y) * 16 + z) * 16 + t)%N.

(** The inside of a string literal, and the string. *)
Inductive chars_text : pystr -> pystr -> Prop :=
| ch_nil : chars_text [] []
| ch_plain c t s : (32 <= c)%N -> is_scalar c -> c <> 34%N -> c <> 92%N -> chars_text t s -> chars_text (c :: t) (c :: s)
| ch_escape e c t s : In (e, c) [(34, 34); (92, 92); (47, 47); (98, 8); (102, 12); (110, 10); (114, 13); (116, 9)]%N ->
    chars_text t s -> chars_text (92%N :: e :: t) (c :: s)
| ch_code a b c d n t s : hex4_means a b c d n -> is_scalar n -> chars_text t s ->
    chars_text (92%N :: 117%N :: a :: b :: c :: d :: t) (n :: s)
| ch_pair a b c d h a' b' c' d' l t s : hex4_means a b c d h -> is_high h -> hex4_means a' b' c' d' l -> is_low l -> chars_text t s ->
    chars_text (92%N :: 117%N :: a :: b :: c :: d :: 92%N :: 117%N :: a' :: b' :: c' :: d' :: t)
               ((65536 + (h - 55296) * 1024 + (l - 56320))%N :: s).
Inductive string_text : pystr -> pystr -> Prop := st t s : chars_text t s -> string_text (34%N :: t ++ [34%N]) s.

(** Decimal numerals.  [digits_of t n]: the digits t, read in base ten, are n. *)
Definition is_digit (c : N) : Prop := (48 <= c <= 57)%N.
Inductive digits_of : pystr -> N -> Prop :=
| dg_nil : digits_of [] 0
| dg_snoc t n c : digits_of t n -> is_digit c -> digits_of (t ++ [c]) (10 * n + (c - 48))%N.
(** no superfluous leading zero *)
Definition natural_text (t : pystr) (n : N) : Prop := digits_of t n /\ (t = [48%N] \/ exists c r, t = c :: r /\ c <> 48%N).
Inductive int_text : pystr -> Z -> Prop :=
| in_pos t n : natural_text t n -> (N.of_nat (List.length t) <= 4300)%N -> int_text t (Z.of_N n)
| in_neg t n : natural_text t n -> (N.of_nat (List.length t) <= 4300)%N -> int_text (45%N :: t) (- Z.of_N n).
Definition digits_text (t : pystr) : Prop := t <> [] /\ forall c, In c t -> is_digit c.
Inductive exponent_text : pystr -> Prop :=
| ex_plain e t : (e = 69%N \/ e = 101%N) -> digits_text t -> exponent_text (e :: t)
| ex_signed e c t : (e = 69%N \/ e = 101%N) -> (c = 43%N \/ c = 45%N) -> digits_text t -> exponent_text (e :: c :: t).
(** A numeral with a fraction, an exponent or both. *)
Definition float_numeral (s : pystr) : Prop :=
  exists m t n f e, (m = [] \/ m = [45%N]) /\ natural_text t n
    /\ (f = [] \/ exists ds, f = 46%N :: ds /\ digits_text ds) /\ (e = [] \/ exponent_text e) /\ (f <> [] \/ e <> [])
    /\ s = m ++ t ++ f ++ e.

(** A Python dict built by setting the keys one after the other: each key once, at its first place, with its last value. *)
Fixpoint first_keys (l : list pystr) : list pystr :=
  match l with [] => [] | k :: r => k :: filter (fun k' => negb (str_eqb k k')) (first_keys r) end.
Definition built_from (ms d : fields) : Prop := map fst d = first_keys (map fst ms) /\ forall k, assoc k d = assoc k (rev ms).

Section Grammar.
Context (F : floats).
(** [value_text n s v]: s is the text of v, nested at most n deep, without blanks around it. *)
Inductive value_text : nat -> pystr -> pv -> Prop :=
| v_null n : value_text n (u "null") VNone
| v_true n : value_text n (u "true") (VBool true)
| v_false n : value_text n (u "false") (VBool false)
| v_nan n : value_text n (u "NaN") (VFloat (u "nan"))
| v_inf n : value_text n (u "Infinity") (VFloat (u "inf"))
| v_neginf n : value_text n (u "-Infinity") (VFloat (u "-inf"))
| v_int n t z : int_text t z -> value_text n t (VInt z)
| v_float n t : float_numeral t -> value_text n t (VFloat (f_value F t))
| v_str n t s : string_text t s -> value_text n t (VStr s)
| v_nolist n w : blanks w -> value_text (S n) (91%N :: w ++ [93%N]) (VList [])
| v_list n w t l : blanks w -> items_text n t l -> value_text (S n) (91%N :: w ++ t ++ [93%N]) (VList l)
| v_nodict n w : blanks w -> value_text (S n) (123%N :: w ++ [125%N]) (VDict [])
| v_dict n w t ms d : blanks w -> members_text n t ms -> built_from ms d -> value_text (S n) (123%N :: w ++ t ++ [125%N]) (VDict d)
with items_text : nat -> pystr -> list pv -> Prop :=
| i_one n t v w : value_text n t v -> blanks w -> items_text n (t ++ w) [v]
| i_more n t v w w' t' l : value_text n t v -> blanks w -> blanks w' -> items_text n t' l -> items_text n (t ++ w ++ 44%N :: w' ++ t') (v :: l)
with members_text : nat -> pystr -> fields -> Prop :=
| m_one n tk k w1 w2 t v w : string_text tk k -> blanks w1 -> blanks w2 -> value_text n t v -> blanks w ->
    members_text n (tk ++ w1 ++ 58%N :: w2 ++ t ++ w) [(k, v)]
| m_more n tk k w1 w2 t v w w' t' d : string_text tk k -> blanks w1 -> blanks w2 -> value_text n t v -> blanks w -> blanks w' -> members_text n t' d ->
    members_text n (tk ++ w1 ++ 58%N :: w2 ++ t ++ w ++ 44%N :: w' ++ t') ((k, v) :: d).
(** A JSON text: a value between blanks. *)
Inductive json_text (n : nat) : pystr -> pv -> Prop :=
| j_text w t w' v : blanks w -> blanks w' -> value_text n t v -> json_text n (w ++ t ++ w') v.
End Grammar.

(** Printing a float and reading the numeral gives the float back (shortest round-trip printing). *)
Definition faithful (F : floats) : Prop := forall t s, f_text F t = Some s -> float_numeral s /\ f_value F s = t.
(** No NaN or infinity inside. *)
Definition finite (F : floats) (v : pv) : Prop := forall t, within (VFloat t) v -> f_text F t <> None.
(** How deep lists, mappings and objects are nested. *)
Fixpoint nesting (v : pv) : nat :=
  match v with
  | VList l => S (list_max (map nesting l))
  | VDict d => S (list_max (map (fun kv => match kv with (_, x) => nesting x end) d))
  | VRoot _ d => S (list_max (map (fun kv => match kv with (_, x) => nesting x end) d))
  | VObj _ fv ex => S (Nat.max (list_max (map (fun kv => match kv with (_, x) => nesting x end) fv))
                               (list_max (map (fun kv => match kv with (_, x) => nesting x end) ex)))
  | _ => 0
  end.
