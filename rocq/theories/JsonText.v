(** JSON text: the entry points README.md:256-257 (AsyncAPI3.model_validate_json(f.read())) and README.md:282
    (model_dump_json()).  The repository calls pydantic for both; this is the trusted reading of pydantic-core's JSON
    reader (RFC 8259, plus the literals NaN, Infinity and -Infinity; a key given twice keeps its first place and takes the
    last value, as a Python dict; integers of more than 4300 digits are refused; nesting deeper than [depth] is
    refused) and of its compact writer (no blanks; declared fields in class order, then the extra data; text that is not
    Unicode scalar values, and integers of more than 4300 digits, raise).  Floats are opaque: [f_value] is the
    value a float numeral denotes, [f_text] its numeral, absent for NaN and the infinities, which are written as null. *)
From Verif Require Import PyStr Value Types Rules Pydantic ClassTable Classes Dump.

Record floats := { f_value : pystr -> pystr; f_text : pystr -> option pystr }.

(** ** Characters *)
Definition blank (c : N) : bool := N.eqb c 32 || N.eqb c 9 || N.eqb c 10 || N.eqb c 13.
Fixpoint skip_blanks (s : pystr) : pystr := match s with c :: r => if blank c then skip_blanks r else s | [] => [] end.
Definition high_half (c : N) : bool := (N.leb 55296 c && N.leb c 56319)%N.
Definition low_half (c : N) : bool := (N.leb 56320 c && N.leb c 57343)%N.
Definition scalar (c : N) : bool := (N.leb c 1114111 && negb (high_half c) && negb (low_half c))%N.
Definition hex (c : N) : option N :=
  if ascii_digit c then Some (c - 48)%N
  else if (N.leb 65 c && N.leb c 70)%N then Some (c - 55)%N
  else if (N.leb 97 c && N.leb c 102)%N then Some (c - 87)%N else None.
Definition hex4 (a b c d : N) : option N :=
  match hex a, hex b, hex c, hex d with
  | Some a, Some b, Some c, Some d => Some (4096 * a + 256 * b + 16 * c + d)%N
  | _, _, _, _ => None
  end.
(** The two-character escapes: the letter after the backslash, and what it stands for. *)
Definition escapes : list (N * N) := [(34, 34); (92, 92); (47, 47); (98, 8); (102, 12); (110, 10); (114, 13); (116, 9)]%N.
Fixpoint unescape (e : N) (l : list (N * N)) : option N :=
  match l with [] => None | (a, c) :: r => if N.eqb e a then Some c else unescape e r end.

(** ** Reading *)
(** What follows an opening quote: the string, and the text after the closing quote. *)
Definition push (c : N) (r : option (pystr * pystr)) : option (pystr * pystr) :=
  match r with Some (s, rest) => Some (c :: s, rest) | None => None end.
Fixpoint read_chars (s : pystr) : option (pystr * pystr) :=
  match s with
  | [] => None
  | c :: r =>
      if N.eqb c 34 then Some ([], r)
      else if N.eqb c 92 then
        match r with
        | [] => None
        | e :: r1 =>
            if N.eqb e 117 then
              match r1 with
              | a :: b :: c :: d :: r2 =>
                  match hex4 a b c d with
                  | None => None
                  | Some h =>
                      if low_half h then None
                      else if high_half h then
                        match r2 with
                        | b1 :: u1 :: a' :: b' :: c' :: d' :: r3 =>
                            match hex4 a' b' c' d' with
                            | Some l => if N.eqb b1 92 && N.eqb u1 117 && low_half l
                                        then push (65536 + 1024 * (h - 55296) + (l - 56320))%N (read_chars r3) else None
                            | None => None
                            end
                        | _ => None
                        end
                      else push h (read_chars r2)
                  end
              | _ => None
              end
            else match unescape e escapes with Some c => push c (read_chars r1) | None => None end
        end
      else if (N.leb 32 c && scalar c)%N then push c (read_chars r) else None
  end.

(** A numeral: the longest run of characters a numeral can have. *)
Definition numchar (c : N) : bool :=
  ascii_digit c || N.eqb c 43 || N.eqb c 45 || N.eqb c 46 || N.eqb c 69 || N.eqb c 101.
Fixpoint span (p : N -> bool) (s : pystr) : pystr * pystr :=
  match s with
  | c :: r => if p c then (c :: fst (span p r), snd (span p r)) else ([], s)
  | [] => ([], [])
  end.
(** An optional minus sign. *)
Definition sign (s : pystr) : bool * pystr := match s with c :: r => if N.eqb c 45 then (true, r) else (false, s) | [] => (false, []) end.
(** 0, or digits not starting with 0 *)
Definition natural (ds : pystr) : bool :=
  match ds with [] => false | c :: r => negb (N.eqb c 48) || match r with [] => true | _ => false end end.
Definition digits_value (ds : pystr) : N := fold_left (fun a c => (10 * a + (c - 48))%N) ds 0%N.
Definition exponent (s : pystr) : bool :=
  match s with
  | [] => true
  | e :: r => (N.eqb e 69 || N.eqb e 101) &&
      let r := match r with c :: r' => if N.eqb c 43 || N.eqb c 45 then r' else r | [] => [] end in
      forallb ascii_digit r && negb (match r with [] => true | _ => false end)
  end.
Definition fraction (s : pystr) : bool :=
  match s with
  | c :: r => if N.eqb c 46 then negb (match fst (span ascii_digit r) with [] => true | _ => false end) && exponent (snd (span ascii_digit r))
              else exponent s
  | [] => false
  end.
Definition numeral (F : floats) (t : pystr) : option pv :=
  let (neg, r) := sign t in
  let (ds, rest) := span ascii_digit r in
  if negb (natural ds) then None
  else match rest with
       | [] => if N.leb (N.of_nat (List.length ds)) 4300
               then Some (VInt (if neg then - Z.of_N (digits_value ds) else Z.of_N (digits_value ds))) else None
       | _ => if fraction rest then Some (VFloat (f_value F t)) else None
       end.

Definition literals : list (pystr * pv) :=
  [(u "null", VNone); (u "true", VBool true); (u "false", VBool false);
   (u "NaN", VFloat (u "nan")); (u "Infinity", VFloat (u "inf")); (u "-Infinity", VFloat (u "-inf"))].
Fixpoint read_literal (l : list (pystr * pv)) (s : pystr) : option (pv * pystr) :=
  match l with
  | [] => None
  | (t, v) :: r => if starts_with t s then Some (v, skipn (List.length t) s) else read_literal r s
  end.

(** A value, and the text after it.  [fuel] bounds the number of steps (see [read]); [depth] is the nesting still allowed. *)
Fixpoint read_value (F : floats) (fuel depth : nat) (s : pystr) {struct fuel} : option (pv * pystr) :=
  match fuel with
  | O => None
  | S fuel =>
      match s with
      | [] => None
      | c :: r =>
          if N.eqb c 34 then match read_chars r with Some (x, r) => Some (VStr x, r) | None => None end
          else if N.eqb c 91 then
            match depth with
            | O => None
            | S depth =>
                match skip_blanks r with
                | c1 :: r1 => if N.eqb c1 93 then Some (VList [], r1)
                              else match read_items F fuel depth (skip_blanks r) with
                                   | Some (l, r2) => Some (VList l, r2) | None => None end
                | [] => None
                end
            end
          else if N.eqb c 123 then
            match depth with
            | O => None
            | S depth =>
                match skip_blanks r with
                | c1 :: r1 => if N.eqb c1 125 then Some (VDict [], r1)
                              else match read_members F fuel depth (skip_blanks r) with
                                   | Some (d, r2) => Some (VDict (dict_update [] d), r2) | None => None end
                | [] => None
                end
            end
          else match read_literal literals s with
               | Some x => Some x
               | None => if N.eqb c 45 || ascii_digit c
                         then match numeral F (fst (span numchar s)) with Some v => Some (v, snd (span numchar s)) | None => None end
                         else None
               end
      end
  end
with read_items (F : floats) (fuel depth : nat) (s : pystr) {struct fuel} : option (list pv * pystr) :=
  match fuel with
  | O => None
  | S fuel =>
      match read_value F fuel depth s with
      | None => None
      | Some (v, r) =>
          match skip_blanks r with
          | c :: r1 => if N.eqb c 93 then Some ([v], r1)
                       else if N.eqb c 44 then match read_items F fuel depth (skip_blanks r1) with
                                               | Some (l, r2) => Some (v :: l, r2) | None => None end
                       else None
          | [] => None
          end
      end
  end
with read_members (F : floats) (fuel depth : nat) (s : pystr) {struct fuel} : option (fields * pystr) :=
  match fuel with
  | O => None
  | S fuel =>
      match s with
      | q :: s1 =>
          if N.eqb q 34 then
            match read_chars s1 with
            | None => None
            | Some (k, r) =>
                match skip_blanks r with
                | c :: r0 =>
                    if N.eqb c 58 then
                      match read_value F fuel depth (skip_blanks r0) with
                      | None => None
                      | Some (v, r) =>
                          match skip_blanks r with
                          | c :: r1 => if N.eqb c 125 then Some ([(k, v)], r1)
                                       else if N.eqb c 44 then match read_members F fuel depth (skip_blanks r1) with
                                                               | Some (d, r2) => Some ((k, v) :: d, r2) | None => None end
                                       else None
                          | [] => None
                          end
                      end
                    else None
                | [] => None
                end
            end
          else None
      | [] => None
      end
  end.
(** The data a JSON text stands for (jiter via model_validate_json). *)
Definition read (F : floats) (depth : nat) (s : pystr) : option pv :=
  match read_value F (2 * List.length s + 2) depth (skip_blanks s) with
  | Some (v, r) => match skip_blanks r with [] => Some v | _ => None end
  | None => None
  end.

(** ** Writing *)
Definition hex_digit (n : N) : N := if N.ltb n 10 then (48 + n)%N else (87 + n)%N.
Definition write_char (c : N) : pystr :=
  if N.eqb c 34 then [92; 34]%N else if N.eqb c 92 then [92; 92]%N
  else if N.eqb c 8 then [92; 98]%N else if N.eqb c 9 then [92; 116]%N else if N.eqb c 10 then [92; 110]%N
  else if N.eqb c 12 then [92; 102]%N else if N.eqb c 13 then [92; 114]%N
  else if N.ltb c 32 then [92; 117; 48; 48; hex_digit (N.div c 16); hex_digit (N.modulo c 16)]%N
  else [c].
Definition write_string (s : pystr) : option pystr :=
  if forallb scalar s then Some (34%N :: flat_map write_char s ++ [34%N]) else None.
Definition write_nat (n : N) : option pystr :=
  let t := uint_str (N.to_uint n) in if N.leb (N.of_nat (List.length t)) 4300 then Some t else None.
Definition write_int (z : Z) : option pystr :=
  match write_nat (Z.abs_N z) with
  | Some t => Some (if Z.ltb z 0 then 45%N :: t else t)
  | None => None
  end.
(** All parts, joined by commas between brackets; None if one of them raised. *)
Fixpoint all_some (l : list (option pystr)) : option (list pystr) :=
  match l with
  | [] => Some []
  | Some x :: r => match all_some r with Some r => Some (x :: r) | None => None end
  | None :: _ => None
  end.
Definition bracket (o c : N) (l : list (option pystr)) : option pystr :=
  match all_some l with Some l => Some (o :: join [44%N] l ++ [c]) | None => None end.
Definition write_member (k : pystr) (x : option pystr) : option pystr :=
  match write_string k, x with Some k, Some x => Some (k ++ 58%N :: x) | _, _ => None end.
(** model_dump_json(): the text of a value or instance.  An instance is written field by field and then entry by entry of the extra
    data, so that an extra entry under the alias of a field is written a second time. *)
Fixpoint write (F : floats) (v : pv) {struct v} : option pystr :=
  match v with
  | VNone => Some (u "null")
  | VBool true => Some (u "true")
  | VBool false => Some (u "false")
  | VInt z => write_int z
  | VFloat t => match f_text F t with Some s => Some s | None => Some (u "null") end
  | VStr s => write_string s
  | VUrl s => write_string s
  | VList l => bracket 91 93 (map (write F) l)
  | VDict d => bracket 123 125 (map (fun kv => match kv with (k, x) => write_member k (write F x) end) d)
  | VRoot _ d => bracket 123 125 (map (fun kv => match kv with (k, x) => write_member k (write F x) end) d)
  | VObj c fv ex => bracket 123 125
      ((fix go (fv : fields) : list (option pystr) :=
         match fv with
         | [] => []
         | (k, x) :: r => match out_key (class_infos c) k x with Some a => write_member a (write F x) :: go r | None => go r end
         end) fv
       ++ map (fun kv => match kv with (k, x) => write_member k (write F x) end) ex)
  | VProc _ | VOpaque _ => None
  end.
(** AsyncAPI3.model_validate_json(text), and of every other class or annotation [t] (README.md:257): read the text, then validate
    as model_validate does. *)
Definition load_json (E : env) (F : floats) (depth : nat) (t : ty) (text : pystr) : option pv :=
  match read F depth text with Some v => parse E t v | None => None end.
