(** * Model of lib/utils.c and lib/location.c: definitions only. *)
From Verif Require Import Base.
Open Scope Z_scope.

(** ** Locations (lib/location.c).  [int] line and column are modelled by [Z]: texts are far
    shorter than 2^31 bytes (sr_file_to_string limits them to 20,000,000), so no overflow. *)

(* lib/location.c:106-118 sr_location_eat_char_ext *)
Definition loc_eat_char (lc : Z * Z) (c : ascii) : Z * Z :=
  if Ascii.eqb c nl then (fst lc + 1, 0) else (fst lc, snd lc + 1).

(* lib/location.c:82-95 sr_location_add_ext *)
Definition loc_add (lc add : Z * Z) : Z * Z :=
  if 1 <? fst add then (fst lc + (fst add - 1), snd add) else (fst lc, snd lc + snd add).

(* lib/location.c:33-50 sr_location_cmp with compare_messages = false.  The int differences
   cannot overflow for non-negative lines and columns. *)
Definition loc_cmp (a b : Z * Z) : Z :=
  if negb (fst a - fst b =? 0) then fst a - fst b
  else if negb (snd a - snd b =? 0) then snd a - snd b else 0.

(** ** Searching with positions *)

(* lib/utils.c:88-103 sr_strchr_location; the loop carries (line, column).  Result: None for
   NULL, otherwise the suffix at the match with line and column.  [c] is never NUL. *)
Fixpoint strchr_loc (s : str) (c : ascii) (lc : Z * Z) : option (str * (Z * Z)) :=
  match s with
  | [] => None
  | x :: r => if Ascii.eqb x c then Some (s, lc) else strchr_loc r c (loc_eat_char lc x)
  end.
Definition sr_strchr_location (s : str) (c : ascii) := strchr_loc s c (1, 0).

(* lib/utils.c:105-131 sr_strstr_location.  The loop runs at most once per byte of the
   haystack; [fuel] = length + 1 bounds it and running out is impossible (theorem
   [strstr_fuel_enough] in UtilsProofs.v). *)
Fixpoint strstr_loop (fuel : nat) (hay needle : str) (lc : Z * Z) : res (str * (Z * Z)) :=
  match fuel with
  | O => UB
  | S f =>
    match sr_strchr_location hay (cur needle) with
    | None => Fail                                        (* NULL *)
    | Some (h, clc) =>
      let lc1 := loc_add lc clc in
      if starts_with needle h then Ok (h, lc1)
      else match h with
           | [] => UB
           | x :: h' => strstr_loop f h' needle (loc_eat_char lc1 x)
           end
    end
  end.
Definition sr_strstr_location (hay needle : str) : res (str * (Z * Z)) :=
  match needle with
  | [] => Ok (hay, (1, 0))
  | _ => strstr_loop (S (length hay)) hay needle (1, 0)
  end.

(* lib/utils.c:133-150 sr_strspn_location: number of bytes and position *)
Fixpoint strspn_loc (s accept : str) (n : nat) (lc : Z * Z) : nat * (Z * Z) :=
  match s with
  | [] => (n, lc)
  | x :: r => if mem x accept then strspn_loc r accept (S n) (loc_eat_char lc x) else (n, lc)
  end.
Definition sr_strspn_location (s accept : str) := strspn_loc s accept 0 (1, 0).

(* lib/utils.c:303-314 sr_skip_char_span_location: (count, position, new input) *)
Definition sr_skip_char_span_location (s chars : str) : nat * (Z * Z) * str :=
  let '(n, lc) := sr_strspn_location s chars in (n, lc, skipn n s).

(** ** Cursor primitives.  Each returns its result and the new [*input]. *)

(* lib/utils.c:251-258 sr_skip_char; every caller passes a non-NUL character. *)
Definition sr_skip_char (c : ascii) (s : str) : bool * str :=
  match s with
  | x :: r => if Ascii.eqb x c then (true, r) else (false, s)
  | [] => (false, s)
  end.

(* lib/utils.c:260-267 sr_skip_char_limited.  strchr(allowed, '\0') finds the terminator of
   [allowed], so at the end of the input the test succeeds and the cursor moves past the
   terminating NUL: the [UB] outcome (the position produced is outside the string). *)
Definition sr_skip_char_limited (allowed s : str) : res (bool * str) :=
  match s with
  | [] => UB
  | x :: r => if mem x allowed then Ok (true, r) else Ok (false, s)
  end.

(* lib/utils.c:269-279 sr_parse_char_limited *)
Definition sr_parse_char_limited (allowed s : str) : option (ascii * str) :=
  match s with
  | [] => None
  | x :: r => if mem x allowed then Some (x, r) else None
  end.

(* lib/utils.c:281-291 sr_skip_char_sequence *)
Fixpoint sr_skip_char_sequence (c : ascii) (s : str) : nat * str :=
  match s with
  | x :: r => if Ascii.eqb x c
              then let '(n, r') := sr_skip_char_sequence c r in (S n, r')
              else (O, s)
  | [] => (O, s)
  end.

(* lib/utils.c:293-301 sr_skip_char_span *)
Definition sr_skip_char_span (chars s : str) : nat * str :=
  let '(a, b) := span (fun c => mem c chars) s in (length a, b).

(* lib/utils.c:316-325 sr_parse_char_span: None when nothing matched (returns 0) *)
Definition sr_parse_char_span (accept s : str) : option (str * str) :=
  let '(a, b) := span (fun c => mem c accept) s in
  match a with [] => None | _ => Some (a, b) end.

(* lib/utils.c:327-335 sr_skip_char_cspan *)
Definition sr_skip_char_cspan (reject s : str) : nat * str :=
  let '(a, b) := span (fun c => negb (mem c reject)) s in (length a, b).

(* lib/utils.c:337-346 sr_parse_char_cspan *)
Definition sr_parse_char_cspan (reject s : str) : option (str * str) :=
  let '(a, b) := span (fun c => negb (mem c reject)) s in
  match a with [] => None | _ => Some (a, b) end.

(* lib/utils.c:348-363 sr_skip_string: number of bytes skipped (0 on mismatch), new input *)
Fixpoint match_prefix (string input : str) : option str :=
  match string, input with
  | [], _ => Some input
  | a :: p, b :: r => if Ascii.eqb b a then match_prefix p r else None
  | _ :: _, [] => None
  end.
Definition sr_skip_string (string s : str) : nat * str :=
  match match_prefix string s with
  | Some r => ((length s - length r)%nat, r)
  | None => (O, s)
  end.

(* lib/utils.c:365-380 sr_parse_string *)
Definition sr_parse_string (string s : str) : option (str * str) :=
  match match_prefix string s with
  | Some r => Some (firstn (length s - length r) string, r)
  | None => None
  end.

(* lib/utils.c:342-390 sr_parse_digit; None stands for the '\0' result *)
Definition is_digit (c : ascii) : bool := (48 <=? code c)%N && (code c <=? 57)%N.
Definition sr_parse_digit (s : str) : option (ascii * str) :=
  match s with
  | x :: r => if is_digit x then Some (x, r) else None
  | [] => None
  end.

(** ** Integer parsing *)

Definition digits10 : str := L "0123456789".
Definition hexdigits : str := L "abcdefABCDEF0123456789".

(* lib/utils.c:392-396 sr_skip_uint *)
Definition sr_skip_uint (s : str) := sr_skip_char_span digits10 s.

(* Value of a digit character in any base up to 16, as strtoul uses it. *)
Definition digit_val (c : ascii) : N :=
  let n := code c in
  if (48 <=? n)%N && (n <=? 57)%N then (n - 48)%N
  else if (97 <=? n)%N && (n <=? 102)%N then (n - 87)%N
  else if (65 <=? n)%N && (n <=? 70)%N then (n - 55)%N
  else 0%N.

(* libc strtoul/strtoull on a string consisting of digits of the base only (unsigned long is
   64 bits): Horner evaluation; None when errno = ERANGE.  endptr is at the end. *)
Definition u64max : N := 18446744073709551615%N.
Definition u32max : N := 4294967295%N.
Definition strtou (base : N) (s : str) : option N :=
  let v := fold_left (fun acc c => (acc * base + digit_val c)%N) s 0%N in
  if (u64max <? v)%N then None else Some v.

(* lib/utils.c:398-423 sr_parse_uint32.  None: returns 0, input and result unchanged.
   Some (v, n, rest): result v, return value n, new input. *)
Definition sr_parse_uint32 (s : str) : option (N * nat * str) :=
  match sr_parse_char_span digits10 s with
  | None => None
  | Some (numstr, rest) =>
    match strtou 10 numstr with
    | None => None
    | Some r => if (u32max <? r)%N then None else Some (r, length numstr, rest)
    end
  end.

(* lib/utils.c:425-447 sr_parse_uint64 *)
Definition sr_parse_uint64 (s : str) : option (N * nat * str) :=
  match sr_parse_char_span digits10 s with
  | None => None
  | Some (numstr, rest) =>
    match strtou 10 numstr with
    | None => None
    | Some r => if (r =? u64max)%N then None else Some (r, length numstr, rest)
    end
  end.

(* lib/utils.c:449-453 sr_skip_hexadecimal_uint *)
Definition sr_skip_hexadecimal_uint (s : str) := sr_skip_char_span hexdigits s.

(* lib/utils.c:455-472 sr_skip_hexadecimal_0xuint *)
Definition sr_skip_hexadecimal_0xuint (s : str) : nat * str :=
  let '(b0, s1) := sr_skip_char "0" s in
  if negb b0 then (O, s) else
  let '(bx, s2) := sr_skip_char "x" s1 in
  if negb bx then (O, s) else
  let '(n, s3) := sr_skip_hexadecimal_uint s2 in
  if Nat.eqb (2 + n) 2 then (O, s) else ((2 + n)%nat, s3).

(* lib/utils.c:474-497 sr_parse_hexadecimal_uint64 *)
Definition sr_parse_hexadecimal_uint64 (s : str) : option (N * nat * str) :=
  match sr_parse_char_span hexdigits s with
  | None => None
  | Some (numstr, rest) =>
    match strtou 16 numstr with
    | None => None
    | Some r => Some (r, length numstr, rest)
    end
  end.

(* lib/utils.c:499-516 sr_parse_hexadecimal_0xuint64 *)
Definition sr_parse_hexadecimal_0xuint64 (s : str) : option (N * nat * str) :=
  let '(b0, s1) := sr_skip_char "0" s in
  if negb b0 then None else
  let '(bx, s2) := sr_skip_char "x" s1 in
  if negb bx then None else
  match sr_parse_hexadecimal_uint64 s2 with
  | None => None
  | Some (r, n, s3) => Some (r, (2 + n)%nat, s3)
  end.

(** ** Whitespace and lines *)

(* isspace in the "C" locale: space, \t \n \v \f \r *)
Definition is_space (c : ascii) : bool :=
  let n := code c in (n =? 32)%N || ((9 <=? n)%N && (n <=? 13)%N).

(* lib/utils.c:518-526 sr_skip_whitespace *)
Definition sr_skip_whitespace (s : str) : str := snd (span is_space s).

(* lib/utils.c:528-535 sr_skip_non_whitespace *)
Definition sr_skip_non_whitespace (s : str) : str := snd (span (fun c => negb (is_space c)) s).

(* lib/utils.c:537-551 sr_skip_to_next_line_location *)
Definition sr_skip_to_next_line_location (s : str) (lc : Z * Z) : bool * str * (Z * Z) :=
  let '(n, s1) := sr_skip_char_cspan [nl] s in
  let lc1 := (fst lc, snd lc + Z.of_nat n) in
  match s1 with
  | x :: r => if Ascii.eqb x nl then (true, r, (fst lc1 + 1, 0)) else (false, s1, lc1)
  | [] => (false, s1, lc1)
  end.

(** ** Arrays of strings, hex dump *)

(* lib/utils.c:64-80 sr_struniq.  [strings] is the array, restricted to its first [size]
   elements.  The loop goes from the last index down to 1; the inner loop (lines 74-75) shifts
   the tail left by one, i.e. deletes element [i]. *)
Definition delete_at {A} (i : nat) (l : list A) : list A := firstn i l ++ skipn (S i) l.
Fixpoint struniq_loop (loop : nat) (strings : list str) : list str :=
  match loop with
  | O => strings
  | S l' =>
    if str_eqb (nth loop strings []) (nth l' strings [])
    then struniq_loop l' (delete_at loop strings)
    else struniq_loop l' strings
  end.
Definition sr_struniq (strings : list str) : list str :=
  if (length strings <? 1)%nat then strings else struniq_loop (length strings - 1) strings.

(* lib/utils.c:46-47 hexdigits_locase, 553-566 sr_bin2hex (the bytes written) *)
Definition hexdigits_locase : str := L "0123456789abcdef".
Definition sr_bin2hex (bytes : str) : str :=
  concat (map (fun c => [nth (N.to_nat (N.shiftr (code c) 4)) hexdigits_locase nul;
                         nth (N.to_nat (N.land (code c) 15)) hexdigits_locase nul]) bytes).

(** ** Indentation *)

Definition spaces (n : nat) : str := repeat sp n.

(* lib/utils.c:585-611 sr_indent_except_first_line *)
Fixpoint sr_indent_except_first_line (input : str) (n : nat) : str :=
  match input with
  | [] => []
  | c :: r =>
    if Ascii.eqb c nl
    then nl :: (match r with [] => [] | _ => spaces n end) ++ sr_indent_except_first_line r n
    else c :: sr_indent_except_first_line r n
  end.

(* lib/utils.c:568-583 sr_indent *)
Definition sr_indent (input : str) (n : nat) : str :=
  (match input with [] => [] | _ => spaces n end) ++ sr_indent_except_first_line input n.

(* lib/utils.c:613-631 sr_build_path *)
Definition sr_build_path (first : str) (elements : list str) : str :=
  first ++ concat (map (fun e => "/"%char :: e) elements).

(** ** os-release *)

(* lib/utils.c:633-655 unescape_osinfo_value *)
Fixpoint unescape_osinfo_value (source : str) : str :=
  match source with
  | [] => []
  | c :: r =>
    if Ascii.eqb c "\" then
      match r with
      | [] => []
      | d :: r' => d :: unescape_osinfo_value r'
      end
    else if Ascii.eqb c "'" || Ascii.eqb c dquote then unescape_osinfo_value r
    else c :: unescape_osinfo_value r
  end.

(* glibc strchrnul: the text before the first [c] and the suffix at it (or at the end) *)
Definition strchrnul (s : str) (c : ascii) : str * str := span (fun x => negb (Ascii.eqb x c)) s.

(* lib/utils.c:657-710 sr_parse_os_release.  The callback is modelled by the list of
   (key, value) pairs it is called with.  Pointer comparisons between key_end and value_end
   compare lengths of the text before them.  The loop is fuelled by the text length. *)
Fixpoint os_release_loop (fuel : nat) (cursor : str) : res (list (str * str)) :=
  match cursor with
  | [] => Ok []
  | c0 :: _ =>
    match fuel with
    | O => UB
    | S f =>
      let skip_line :=
        let '(_, at_nl) := strchrnul cursor nl in
        os_release_loop f (match at_nl with [] => [] | _ :: r => r end) in
      if Ascii.eqb c0 "#" then skip_line
      else
        let '(key, key_end) := strchrnul cursor "=" in
        match key_end with
        | [] => Ok []                                          (* break *)
        | _ :: after_eq =>
          if Nat.eqb (length key) 0 then skip_line
          else
            let '(line, value_end) := strchrnul cursor nl in
            if (length line <? length key)%nat then skip_line
            else
              let value := firstn (length line - length key - 1) after_eq in
              match os_release_loop f (match value_end with [] => [] | _ :: r => r end) with
              | Ok rest => Ok ((key, unescape_osinfo_value value) :: rest)
              | e => e
              end
        end
    end
  end.
Definition sr_parse_os_release (input : str) : res (list (str * str)) :=
  os_release_loop (length input) input.

(** ** Path anonymisation *)

(* lib/utils.c:34 ANONYMIZED_PATH, 730-748 anonymize_path *)
Definition anonymized_path : str := L "/home/anonymized".
Definition anonymize_path (p : option str) : option str :=
  match p with
  | None => None
  | Some path =>
    if starts_with (L "/home/") path then
      match strchrnul (skipn (length (L "/home/")) path) "/" with
      | (_, []) => Some path
      | (_, rest) => Some (anonymized_path ++ rest)
      end
    else Some path
  end.
