(** * Specification vocabulary for text utilities, independent of the model. *)
From Verif Require Import Base.
Open Scope Z_scope.

(** [pos_of text line col]: a reader that has consumed [text] stands on line [line] (from 1) in
    column [col] (from 0): lines are counted by newline characters, the column is the length of
    the unfinished last line. *)
Definition pos_of (text : str) (line col : Z) : Prop :=
  exists before last,
    text = before ++ last /\ ~ In nl last /\
    (before = [] \/ exists b, before = b ++ [nl]) /\
    line = 1 + Z.of_nat (count_occ ascii_dec text nl) /\
    col = Z.of_nat (length last).

(** [first_split P s pre post]: [s] splits as [pre ++ post] where [post] satisfies [P], and no
    shorter [pre] does. *)
Definition first_split (P : str -> Prop) (s pre post : str) : Prop :=
  s = pre ++ post /\ P post /\
  forall pre' post', s = pre' ++ post' -> P post' -> (length pre <= length pre')%nat.

(** [max_run P s run rest]: [run] is the longest prefix of [s] made of bytes satisfying [P]. *)
Definition max_run (P : ascii -> Prop) (s run rest : str) : Prop :=
  s = run ++ rest /\ Forall P run /\ match rest with [] => True | c :: _ => ~ P c end.

(** Positional value of a numeral, least significant digit last. *)
Definition decimal_digit (c : ascii) : option N :=
  match c with
  | "0"%char => Some 0 | "1"%char => Some 1 | "2"%char => Some 2 | "3"%char => Some 3
  | "4"%char => Some 4 | "5"%char => Some 5 | "6"%char => Some 6 | "7"%char => Some 7
  | "8"%char => Some 8 | "9"%char => Some 9
  | _ => None
  end%N.
Definition hexadecimal_digit (c : ascii) : option N :=
  match c with
  | "a"%char => Some 10 | "b"%char => Some 11 | "c"%char => Some 12
  | "d"%char => Some 13 | "e"%char => Some 14 | "f"%char => Some 15
  | "A"%char => Some 10 | "B"%char => Some 11 | "C"%char => Some 12
  | "D"%char => Some 13 | "E"%char => Some 14 | "F"%char => Some 15
  | _ => decimal_digit c
  end%N.

(** [numeral digit base s v]: [s] is a numeral in [base] with value [v]. *)
Inductive numeral (digit : ascii -> option N) (base : N) : str -> N -> Prop :=
| num_one c d : digit c = Some d -> numeral digit base [c] d
| num_more s v c d : numeral digit base s v -> digit c = Some d ->
    numeral digit base (s ++ [c]) (v * base + d)%N.

Definition is_numeral_char (digit : ascii -> option N) (c : ascii) : Prop := digit c <> None.

(** Result of removing every second and later copy of adjacent equal elements. *)
Inductive uniq_adjacent {A} : list A -> list A -> Prop :=
| ua_nil : uniq_adjacent [] []
| ua_one x : uniq_adjacent [x] [x]
| ua_dup x l l' : uniq_adjacent (x :: l) l' -> uniq_adjacent (x :: x :: l) l'
| ua_new x y l l' : x <> y -> uniq_adjacent (y :: l) l' -> uniq_adjacent (x :: y :: l) (x :: l').

(** Lines of a text: split at newline characters (a trailing newline does not open a line). *)
Inductive lines_of : str -> list str -> Prop :=
| lo_nil : lines_of [] []
| lo_last l : l <> [] -> ~ In nl l -> lines_of l [l]
| lo_line l rest ls : ~ In nl l -> lines_of rest ls -> lines_of (l ++ nl :: rest) (l :: ls).

(** What os-release(5) says about one line: comments and lines that are not KEY=VALUE carry
    nothing; otherwise the key is the text before the first '='. [unquoted raw v]: backslash
    takes the next byte literally, other quotes vanish. *)
Inductive unquoted : str -> str -> Prop :=
| uq_nil : unquoted [] []
| uq_lone_backslash : unquoted ["\"%char] []
| uq_escape c r v : unquoted r v -> unquoted ("\"%char :: c :: r) (c :: v)
| uq_quote q r v : q = "'"%char \/ q = dquote -> unquoted r v -> unquoted (q :: r) v
| uq_plain c r v : c <> "\"%char -> c <> "'"%char -> c <> dquote ->
    unquoted r v -> unquoted (c :: r) (c :: v).

Inductive os_line : str -> list (str * str) -> Prop :=
| ol_comment r : os_line ("#"%char :: r) []
| ol_no_eq l : ~ In "="%char l -> os_line l []
| ol_no_key r : os_line ("="%char :: r) []
| ol_pair k raw v : k <> [] -> ~ In "="%char k -> hd nul k <> "#"%char ->
    unquoted raw v -> os_line (k ++ "="%char :: raw) [(k, v)].

Inductive os_lines : list str -> list (str * str) -> Prop :=
| os_none : os_lines [] []
| os_cons l ls ps qs : os_line l ps -> os_lines ls qs -> os_lines (l :: ls) (ps ++ qs).

(** A shell-style quoting of a value. *)
Definition quote_char (c : ascii) : str :=
  if Ascii.eqb c "\" || Ascii.eqb c dquote || Ascii.eqb c "'" then ["\"%char; c] else [c].
Definition quoted (v : str) : str := dquote :: concat (map quote_char v) ++ [dquote].

(** Text made of lines separated by newlines; indentation of lines (the empty text after a
    final newline is not a line). *)
Fixpoint join_lines (ls : list str) : str :=
  match ls with
  | [] => []
  | [l] => l
  | l :: ls' => l ++ nl :: join_lines ls'
  end.
Fixpoint pad_lines (n : nat) (ls : list str) : list str :=
  match ls with
  | [] => []
  | [l] => [match l with [] => [] | _ => repeat sp n ++ l end]
  | l :: ls' => (repeat sp n ++ l) :: pad_lines n ls'
  end.
