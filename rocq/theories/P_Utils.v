(** * Properties C01, C02, C03, C05 (text part), C06, C07, C08: text utilities. *)
From Verif Require Import Base UtilsModel UtilsSpec UtilsProofs SkipProofs.
Open Scope Z_scope.

(** ** C01 positions *)

Theorem C01_strchr_location : forall s c,
  match sr_strchr_location s c with
  | Some (post, (line, col)) =>
      exists pre, first_split (fun t => exists r, t = c :: r) s pre post /\ pos_of pre line col
  | None => ~ In c s
  end.
Proof. exact strchr_location_correct. Qed.

Theorem C01_strstr_location : forall hay needle,
  match sr_strstr_location hay needle with
  | Ok (post, (line, col)) =>
      exists pre, first_split (fun t => exists r, t = needle ++ r) hay pre post /\ pos_of pre line col
  | Fail => forall p r, hay <> p ++ needle ++ r
  | UB => False
  end.
Proof. exact strstr_location_correct. Qed.

Theorem C01_skip_span_location : forall s chars n line col rest,
  sr_skip_char_span_location s chars = (n, (line, col), rest) ->
  exists run, max_run (fun c => In c chars) s run rest /\ n = length run /\ pos_of run line col.
Proof. exact skip_span_location_correct. Qed.

Theorem C01_next_line : forall s line col ok rest line' col' consumed,
  pos_of consumed line col ->
  sr_skip_to_next_line_location s (line, col) = (ok, rest, (line', col')) ->
  exists skipped, s = skipped ++ rest /\ pos_of (consumed ++ skipped) line' col' /\
    (if ok then exists l, skipped = l ++ [nl] /\ ~ In nl l else ~ In nl skipped /\ rest = []).
Proof. exact next_line_correct. Qed.

Theorem C01_location_add : forall a la ca b lb cb,
  pos_of a la ca -> pos_of b lb cb ->
  pos_of (a ++ b) (fst (loc_add (la, ca) (lb, cb))) (snd (loc_add (la, ca) (lb, cb))).
Proof. exact loc_add_pos. Qed.

Theorem C01_location_cmp : forall a b,
  (loc_cmp a b < 0 <-> fst a < fst b \/ fst a = fst b /\ snd a < snd b) /\ (loc_cmp a b = 0 <-> a = b).
Proof. exact loc_cmp_lex. Qed.

(** A text has exactly one position, so the statements above determine the result. *)
Theorem C01_position_unique : forall s l1 c1 l2 c2, pos_of s l1 c1 -> pos_of s l2 c2 -> l1 = l2 /\ c1 = c2.
Proof. exact pos_of_fun. Qed.

Definition two_lines : str := L "ab" ++ nl :: L "cde" ++ nl :: L "f in g".
Example C01_example : sr_strstr_location two_lines (L "in") = Ok (L "in g", (3, 2)).
Proof. reflexivity. Qed.
Example C01_example_pos : pos_of (L "ab" ++ nl :: L "cde") 2 3.
Proof.
  exists (L "ab" ++ [nl]), (L "cde"). repeat split; try (right; exists (L "ab")); try reflexivity.
  unfold L; simpl. intuition discriminate.
Qed.

(** ** C02 integers *)

Theorem C02_uint32 : parses_number decimal_digit 10 (fun v => v <= 4294967295)%N sr_parse_uint32.
Proof. exact parse_uint32_correct. Qed.
(** The code rejects 2^64-1 besides the values that do not fit. *)
Theorem C02_uint64 : parses_number decimal_digit 10 (fun v => v < 18446744073709551615)%N sr_parse_uint64.
Proof. exact parse_uint64_correct. Qed.
Theorem C02_hex : parses_number hexadecimal_digit 16 (fun v => v <= 18446744073709551615)%N sr_parse_hexadecimal_uint64.
Proof. exact parse_hex_correct. Qed.
Theorem C02_0xhex : forall s,
  match sr_parse_hexadecimal_0xuint64 s with
  | Some (v, n, rest) => exists run, s = L "0x" ++ run ++ rest /\
       max_run (is_numeral_char hexadecimal_digit) (run ++ rest) run rest /\
       numeral hexadecimal_digit 16 run v /\ n = (2 + length run)%nat /\ (v <= 18446744073709551615)%N
  | None => forall t run rest v, s = L "0x" ++ t -> max_run (is_numeral_char hexadecimal_digit) t run rest ->
       numeral hexadecimal_digit 16 run v -> ~ (v <= 18446744073709551615)%N
  end.
Proof. exact parse_0xhex_correct. Qed.

(** Skipping a number skips its digits, all of them and nothing else. *)
Theorem C02_skip_uint : forall s n r, sr_skip_uint s = (n, r) ->
  exists run, max_run (is_numeral_char decimal_digit) s run r /\ n = length run.
Proof. exact skip_uint_run. Qed.
Theorem C02_skip_hex : forall s n r, sr_skip_hexadecimal_uint s = (n, r) ->
  exists run, max_run (is_numeral_char hexadecimal_digit) s run r /\ n = length run.
Proof. exact skip_hex_run. Qed.
Theorem C02_skip_0xhex : forall s n r, sr_skip_hexadecimal_0xuint s = (n, r) ->
  (exists run, s = L "0x" ++ run ++ r /\ run <> [] /\ max_run (is_numeral_char hexadecimal_digit) (run ++ r) run r /\
     n = (2 + length run)%nat) \/
  (n = O /\ r = s /\ forall c t, s = L "0x" ++ c :: t -> hexadecimal_digit c = None).
Proof. exact skip_0xhex_run. Qed.
Example C02_skip_example : sr_skip_hexadecimal_0xuint (L "0x1fz") = (4%nat, L "z") /\ sr_skip_hexadecimal_0xuint (L "0xz") = (O, L "0xz") /\
  sr_skip_uint (L "42z") = (2%nat, L "z").
Proof. repeat split. Qed.

(** 2^64-1 is a numeral that fits 64 bits and is refused: the naive reading of the API fails. *)
Theorem C02_uint64_max_refuted : exists s run rest v,
  max_run (is_numeral_char decimal_digit) s run rest /\ numeral decimal_digit 10 run v /\
  (v <= 18446744073709551615)%N /\ sr_parse_uint64 s = None.
Proof. exact uint64_max_refused. Qed.

Example C02_example : sr_parse_uint32 (L "0042 x") = Some (42%N, 4%nat, L " x").
Proof. reflexivity. Qed.
Example C02_example_overflow : sr_parse_uint32 (L "4294967296") = None /\
  sr_parse_hexadecimal_0xuint64 (L "0xfFg") = Some (255%N, 4%nat, L "g").
Proof. split; reflexivity. Qed.

(** ** C03 cursor primitives *)

Theorem C03_skip_char : forall c s b r, sr_skip_char c s = (b, r) ->
  if b then s = c :: r else r = s /\ (s = [] \/ exists x t, s = x :: t /\ x <> c).
Proof. exact skip_char_contract. Qed.
Theorem C03_skip_char_sequence : forall c s n r, sr_skip_char_sequence c s = (n, r) ->
  max_run (fun x => x = c) s (repeat c n) r.
Proof. exact skip_sequence_contract. Qed.
Theorem C03_skip_char_span : forall chars s n r, sr_skip_char_span chars s = (n, r) ->
  exists run, max_run (fun c => In c chars) s run r /\ n = length run.
Proof. exact skip_span_contract. Qed.
Theorem C03_skip_char_cspan : forall reject s n r, sr_skip_char_cspan reject s = (n, r) ->
  exists run, max_run (fun c => ~ In c reject) s run r /\ n = length run.
Proof. exact skip_cspan_contract. Qed.
Theorem C03_parse_char_span : forall accept s,
  match sr_parse_char_span accept s with
  | Some (run, r) => max_run (fun c => In c accept) s run r /\ run <> []
  | None => max_run (fun c => In c accept) s [] s
  end.
Proof. exact parse_span_contract. Qed.
Theorem C03_parse_char_cspan : forall reject s,
  match sr_parse_char_cspan reject s with
  | Some (run, r) => max_run (fun c => ~ In c reject) s run r /\ run <> []
  | None => max_run (fun c => ~ In c reject) s [] s
  end.
Proof. exact parse_cspan_contract. Qed.
Theorem C03_skip_string : forall string s n r, sr_skip_string string s = (n, r) ->
  (s = string ++ r /\ n = length string) \/ (r = s /\ n = O /\ forall t, s <> string ++ t).
Proof. exact skip_string_contract. Qed.
Theorem C03_parse_string : forall string s,
  match sr_parse_string string s with
  | Some (v, r) => s = string ++ r /\ v = string
  | None => forall t, s <> string ++ t
  end.
Proof. exact parse_string_contract. Qed.
Theorem C03_parse_char_limited : forall allowed s,
  match sr_parse_char_limited allowed s with
  | Some (c, r) => s = c :: r /\ In c allowed
  | None => s = [] \/ exists c r, s = c :: r /\ ~ In c allowed
  end.
Proof. exact parse_char_limited_contract. Qed.
Theorem C03_parse_digit : forall s,
  match sr_parse_digit s with
  | Some (c, r) => s = c :: r /\ decimal_digit c <> None
  | None => s = [] \/ exists c r, s = c :: r /\ decimal_digit c = None
  end.
Proof. exact parse_digit_contract. Qed.
(** Blanks are the space and the characters 9 to 13, as in the C locale. *)
Theorem C03_skip_whitespace : forall s, exists run,
  max_run (fun c => In c [" "; "009"; "010"; "011"; "012"; "013"]%char) s run (sr_skip_whitespace s).
Proof. exact skip_white_run. Qed.
Theorem C03_skip_non_whitespace : forall s, exists run,
  max_run (fun c => ~ In c [" "; "009"; "010"; "011"; "012"; "013"]%char) s run (sr_skip_non_whitespace s).
Proof. exact skip_non_white_run. Qed.
Theorem C03_skip_char_limited : forall allowed c s, exists b : bool, sr_skip_char_limited allowed (c :: s) = Ok (b, if b then s else c :: s) /\
  (b = true <-> In c allowed).
Proof. exact skip_limited_contract. Qed.
(** At the end of the text, sr_skip_char_limited steps over the terminator whatever the set is. *)
Theorem C03_skip_char_limited_refuted : exists s, forall allowed, sr_skip_char_limited allowed s = UB.
Proof. exists []. reflexivity. Qed.

Example C03_example : sr_skip_char_cspan (L "`'") (L "foo`x") = (3%nat, L "`x") /\
  sr_skip_string (L "from ") (L "from /a") = (5%nat, L "/a").
Proof. split; reflexivity. Qed.

(** ** C05 indentation, as text *)

Theorem C05_indent_lines : forall n ls, ls <> [] -> Forall (fun l => ~ In nl l) ls ->
  sr_indent (join_lines ls) n = join_lines (pad_lines n ls).
Proof. exact indent_lines. Qed.
Theorem C05_indent_except_first_lines : forall n ls, ls <> [] -> Forall (fun l => ~ In nl l) ls ->
  sr_indent_except_first_line (join_lines ls) n =
  match ls with [] => [] | l :: ls' => join_lines (l :: pad_lines n ls') end.
Proof. exact indent_except_first_lines. Qed.
(** Every text is of that form, in one way only. *)
Theorem C05_every_text_has_lines : forall s, exists ls,
  ls <> [] /\ Forall (fun l => ~ In nl l) ls /\ s = join_lines ls.
Proof. exact join_lines_exists. Qed.

Example C05_example : sr_indent (L "{" ++ nl :: L "}" ++ [nl]) 2 = L "  {" ++ nl :: L "  }" ++ [nl].
Proof. reflexivity. Qed.

(** ** C06 anonymisation *)

Theorem C06_home_path : forall user rest, ~ In "/"%char user ->
  anonymize_path (Some (L "/home/" ++ user ++ "/"%char :: rest)) = Some (L "/home/anonymized/" ++ rest).
Proof. exact anonymize_home. Qed.
Theorem C06_other_path : forall path,
  (forall user rest, path <> L "/home/" ++ user ++ "/"%char :: rest) ->
  anonymize_path (Some path) = Some path.
Proof. exact anonymize_other. Qed.
Theorem C06_idempotent : forall p, anonymize_path (anonymize_path p) = anonymize_path p.
Proof. exact anonymize_idempotent. Qed.
Example C06_example : anonymize_path (Some (L "/home/alice/bin/x")) = Some (L "/home/anonymized/bin/x").
Proof. reflexivity. Qed.

(** ** C07 os-release *)

Theorem C07_os_release : forall input ls, lines_of input ls ->
  exists ps, sr_parse_os_release input = Ok ps /\ os_lines ls ps.
Proof. exact os_release_correct. Qed.
(** The specification determines the pairs, and every text has lines. *)
Theorem C07_spec_functional : forall ls p q, os_lines ls p -> os_lines ls q -> p = q.
Proof. exact os_lines_fun. Qed.
Theorem C07_lines_exist : forall s, exists ls, lines_of s ls.
Proof. exact lines_of_exists. Qed.
Theorem C07_quoting_roundtrip : forall v, unescape_osinfo_value (quoted v) = v.
Proof. intros v. exact (unquoted_fun _ _ _ (unquoted_unescape _) (unquote_quoted v)). Qed.
Example C07_example :
  sr_parse_os_release (L "# c" ++ nl :: L "noeq" ++ nl :: L "=x" ++ nl :: L "A=b=c" ++ nl :: L "B=""d\""e'f""") =
  Ok [(L "A", L "b=c"); (L "B", L "d""ef")].
Proof. reflexivity. Qed.

(** ** C08 struniq, bin2hex *)

Theorem C08_struniq : forall l, uniq_adjacent l (sr_struniq l).
Proof. exact struniq_correct. Qed.
Theorem C08_struniq_functional : forall (l l1 l2 : list str), uniq_adjacent l l1 -> uniq_adjacent l l2 -> l1 = l2.
Proof. exact uniq_adjacent_fun. Qed.
Theorem C08_struniq_same_elements : forall l x, In x l <-> In x (sr_struniq l).
Proof. intros l x. exact (uniq_adjacent_In l _ (struniq_correct l) x). Qed.
Theorem C08_bin2hex_recoverable : forall b, unhex (sr_bin2hex b) = b.
Proof. exact unhex_bin2hex. Qed.
Theorem C08_bin2hex_digits : forall b,
  length (sr_bin2hex b) = (2 * length b)%nat /\
  Forall (fun c => exists d, hexadecimal_digit c = Some d) (sr_bin2hex b).
Proof. intros b. exact (conj (bin2hex_length b) (bin2hex_digits b)). Qed.
Example C08_example : sr_struniq [L "a"; L "a"; L "b"; L "a"; L "a"] = [L "a"; L "b"; L "a"] /\
  sr_bin2hex (L "Az") = L "417a".
Proof. split; reflexivity. Qed.

Print Assumptions C01_strchr_location.
Print Assumptions C01_strstr_location.
Print Assumptions C01_skip_span_location.
Print Assumptions C01_next_line.
Print Assumptions C01_location_add.
Print Assumptions C01_location_cmp.
Print Assumptions C01_position_unique.
Print Assumptions C02_uint32.
Print Assumptions C02_uint64.
Print Assumptions C02_hex.
Print Assumptions C02_0xhex.
Print Assumptions C02_uint64_max_refuted.
Print Assumptions C03_skip_char.
Print Assumptions C03_skip_char_sequence.
Print Assumptions C03_skip_char_span.
Print Assumptions C03_skip_char_cspan.
Print Assumptions C03_parse_char_span.
Print Assumptions C03_parse_char_cspan.
Print Assumptions C03_skip_string.
Print Assumptions C03_parse_string.
Print Assumptions C03_parse_char_limited.
Print Assumptions C03_parse_digit.
Print Assumptions C03_skip_char_limited_refuted.
Print Assumptions C05_indent_lines.
Print Assumptions C05_indent_except_first_lines.
Print Assumptions C05_every_text_has_lines.
Print Assumptions C06_home_path.
Print Assumptions C06_other_path.
Print Assumptions C06_idempotent.
Print Assumptions C07_os_release.
Print Assumptions C07_spec_functional.
Print Assumptions C07_lines_exist.
Print Assumptions C07_quoting_roundtrip.
Print Assumptions C08_struniq.
Print Assumptions C08_struniq_functional.
Print Assumptions C08_struniq_same_elements.
Print Assumptions C08_bin2hex_recoverable.
Print Assumptions C08_bin2hex_digits.
Print Assumptions C02_skip_uint.
Print Assumptions C02_skip_hex.
Print Assumptions C02_skip_0xhex.
Print Assumptions C03_skip_whitespace.
Print Assumptions C03_skip_non_whitespace.
Print Assumptions C03_skip_char_limited.
