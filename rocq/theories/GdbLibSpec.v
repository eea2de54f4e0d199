(** * What the list of shared libraries of a gdb stack trace looks like. *)
From Verif Require Import Base Types UtilsSpec RpmSpec LookupSpec ParseSpec KoopsSpec GdbParseSpec.
Open Scope nat_scope.

(** [r] follows the white space, if any, that [s] starts with. *)
Definition starts_white (s : str) : Prop := match s with [] => False | c :: _ => space_char c end.
Definition blanks (s r : str) : Prop := exists ws, s = ws ++ r /\ Forall space_char ws /\ ~ starts_white r.

(** "From   To   Syms Read   Shared Object Library" and the end of the line. *)
Definition title (s r : str) : Prop :=
  exists t1 t2 t3, s = L "From" ++ t1 /\ blanks t1 (L "To" ++ t2) /\ blanks t2 (L "Syms Read" ++ t3) /\ blanks t3 (L "Shared Object Library" ++ nl :: r).
Definition at_line_start (pre : str) : Prop := pre = [] \/ exists q, pre = q ++ [nl].
(** [r] follows the first line of [s] that is the title. *)
Definition section (s r : str) : Prop :=
  exists pre t, s = pre ++ t /\ at_line_start pre /\ title t r /\
    forall pre' t' r', s = pre' ++ t' -> at_line_start pre' -> title t' r' -> length pre <= length pre'.

(** A number as scanf reads it, with the white space before it; "0x" is not a zero in front of an "x". *)
Definition zero_x (number r : str) : Prop :=
  (number = L "0" \/ number = L "+0" \/ number = L "-0") /\ (begins (L "x") r \/ begins (L "X") r).
Definition scanned (s : str) (z : Z) (r : str) : Prop :=
  exists ws number, s = ws ++ number ++ r /\ Forall space_char ws /\ hex_number number z /\ ~ starts_with_hex r /\ ~ zero_x number r.
(** Two addresses, maybe followed by more of hexadecimal digits, "x" and white space; or white space instead. *)
Definition address_char (c : ascii) : Prop := hexadecimal_digit c <> None \/ space_char c \/ c = "x"%char.
Definition addresses (s : str) (from to : Z) (r : str) : Prop :=
  (starts_white s /\ blanks s r /\ from = no_address /\ to = no_address) \/
  (~ starts_white s /\ (exists t u, scanned s from t /\ scanned t to u) /\
   exists w, s = w ++ r /\ Forall address_char w /\ match r with [] => True | c :: _ => ~ address_char c end).
Definition symbols (s : str) (n : Z) (r : str) : Prop :=
  (s = L "Yes (*)" ++ r /\ n = 2%Z) \/ (s = L "Yes" ++ r /\ ~ begins (L " (*)") r /\ n = 0%Z) \/ (s = L "No" ++ r /\ n = 1%Z).
(** One library; [r] is the end of the line with its newline, or the end of the text. *)
Definition library (s : str) (l : gdb_sharedlib) (r : str) : Prop :=
  exists from to n name t u, addresses s from to t /\ symbols t n u /\ blanks u (name ++ r) /\ ~ In nl name /\ (r = [] \/ begins [nl] r) /\
    l = mk_gdb_sharedlib from to n (Some name).
Inductive libraries : str -> list gdb_sharedlib -> Prop :=
| l_end s : (forall l r, ~ library s l r) -> libraries s []
| l_more s l r ls : library s l (nl :: r) -> libraries r ls -> libraries s (l :: ls).
(** The text ends with the name of a library. *)
Inductive libraries_off : str -> Prop :=
| lo_here s l : library s l [] -> libraries_off s
| lo_more s l r : library s l (nl :: r) -> libraries_off r -> libraries_off s.
Definition libs_text (s : str) (ls : list gdb_sharedlib) : Prop :=
  (exists r, section s r /\ libraries r ls) \/ ((forall r, ~ section s r) /\ ls = []).
Definition libs_off (s : str) : Prop := exists r, section s r /\ libraries_off r.

(** ** Whole stack traces *)
Definition whole_trace (s : str) (t : gdb_stacktrace) (r : str) : Prop :=
  exists ls crash ts, libs_text s ls /\ trace_text s crash ts r /\ t = mk_gdb_stacktrace ts crash ls 4294967295.
Definition whole_off (s : str) : Prop := libs_off s \/ trace_off s.

(** ** Usual lists: "0x1f  0x2f  Yes (*)  /usr/lib/libc.so" *)
Definition status (n : Z) (word : str) : Prop := (n = 0%Z /\ word = L "Yes") \/ (n = 1%Z /\ word = L "No") \/ (n = 2%Z /\ word = L "Yes (*)").
Definition gap_of (ws : str) : Prop := ws <> [] /\ Forall (fun c => c = sp \/ c = tab) ws.
Definition library_line_of (line : str) (l : gdb_sharedlib) : Prop :=
  exists fs ts w1 w2 w3 word name from to n, line = L "0x" ++ fs ++ w1 ++ L "0x" ++ ts ++ w2 ++ word ++ w3 ++ name /\
    hexadecimal64 fs from /\ hexadecimal64 ts to /\ gap_of w1 /\ gap_of w2 /\ gap_of w3 /\ status n word /\
    ~ In nl name /\ name <> [] /\ ~ starts_white name /\ ~ (word = L "Yes" /\ begins (L "(*)") name) /\
    l = mk_gdb_sharedlib (Z.of_N from) (Z.of_N to) n (Some name).
Definition title_words : str := L "From                To                  Syms Read   Shared Object Library".
(** What follows the list: nothing, or a line that starts with something else. *)
Definition other_line (s : str) : Prop := match s with [] => True | c :: _ => ~ space_char c /\ hexadecimal_digit c = None /\ ~ In c (L "+-") end.
