(** * Where and why a Java text is refused (the location in lib/java_frame.c, lib/java_thread.c,
      lib/java_stacktrace.c).

      The parsers of JavaParseModel.v, with the location they leave out.  Simplifications as in LocParseModel.v. *)
From Verif Require Import Base Types UtilsModel ParseModel JavaParseModel LocParseModel.
Open Scope nat_scope.

(** sr_location_add(location, 0, n) *)
Definition columns (l : location) (n : nat) : location := sr_location_add l 0 (Z.of_nat n).
(** sr_skip_to_next_line_location(&cursor, &location->line, &location->column) *)
Definition to_next_line (s : str) (l : location) : str * location :=
  let '(_, s, (ln, col)) := sr_skip_to_next_line_location s (line l, column l) in (s, mk_location ln col (message l)).
(** cursor = sr_skip_whitespace(mark); sr_location_add(location, 0, cursor - mark) *)
Definition white (s : str) (l : location) : str * location :=
  let s' := sr_skip_whitespace s in (s', columns l (length s - length s')).
(** sr_location_add(location, 0, sr_skip_char_cspan(&cursor, chars)) *)
Definition until (chars s : str) (l : location) : str * location :=
  let '(n, s) := sr_skip_char_cspan chars s in (s, columns l n).
(** ++cursor; sr_location_add(location, 0, 1) *)
Definition past {B} (s : str) (l : location) (f : str -> location -> outcome B) : outcome B :=
  look s <- advance s; f s (columns l 1).

(* lib/java_frame.c:416-480 sr_java_frame_parse_frame_url *)
Definition java_url_loc (mark : str) (l : location) : outcome (option str * str) :=
  let '(cursor, l) := until (L "[" ++ [nl]) mark l in
  if negb (Ascii.eqb (cur cursor) "[") then Took (None, cursor) l else
  past cursor l (fun cursor l =>
  let mark := cursor in
  let '(cursor, l) := until (L ":" ++ [nl]) cursor l in
  and_then (if Ascii.eqb (cur cursor) ":" then
              and_then (if starts_with (L "jar:") mark then
                          past cursor l (fun cursor l =>
                          let mark := cursor in
                          let '(cursor, l) := until (L ":" ++ [nl]) cursor l in
                          if negb (Ascii.eqb (cur cursor) ":") then Took (inl cursor) l else Took (inr (mark, cursor, L "!" ++ [nl])) l)
                        else Took (inr (mark, cursor, L "]" ++ [nl])) l) (fun r l =>
              match r with
              | inl cursor => Took (inl cursor) l
              | inr (mark, cursor, path_stop) =>
                and_then (if negb (starts_with (L "file:") mark) then Took (mark, mark) (sr_location_add l 0 (- Z.of_nat (length mark - length cursor)))
                          else past cursor l (fun cursor l => Took (cursor, cursor) l)) (fun '(mark, cursor) l =>
                let '(cursor, l) := until path_stop cursor l in
                Took (inr (if length mark =? length cursor then None else anonymize_path (Some (between mark cursor)), cursor)) l)
              end)
            else Took (inr (None, cursor)) l) (fun r l =>
  match r with
  | inl cursor => Took (None, cursor) l
  | inr (class_path, cursor) =>
    if negb (Ascii.eqb (cur cursor) "]") && negb (Ascii.eqb (cur cursor) nl)
    then let '(cursor, l) := until (L "]" ++ [nl]) cursor l in Took (class_path, cursor) l
    else Took (class_path, cursor) l
  end)).
(* lib/java_frame.c:482-563 sr_java_frame_parse *)
Definition java_frame_loc (input : str) (l : location) : outcome (java_frame * str) :=
  match sr_strstr_location input (L "at") with
  | Fail => Refused (says l (L "Frame expected"))
  | UB => Broken
  | Ok (cursor, (lines, cols)) =>
    look cursor <- advance_by 2 cursor;
    let l := sr_location_add l lines (cols + 2) in
    let '(cursor, l) := white cursor l in
    let mark := cursor in
    let '(cursor, l) := until (L "(" ++ [nl]) cursor l in
    let name := if length cursor =? length mark then None else Some (between mark cursor) in
    and_then
      (if Ascii.eqb (cur cursor) "(" then
         past cursor l (fun cursor l =>
         let mark := cursor in
         let '(cursor, l) := until (L ":)" ++ [nl]) cursor l in
         let '(is_native, file_name) :=
           if length mark =? length cursor then (false, None)
           else if is_native_method mark then (true, None)
           else if negb (is_unknown_source mark) then (false, anonymize_path (Some (between mark cursor)))
           else (false, None) in
         if Ascii.eqb (cur cursor) ":" then
           past cursor l (fun cursor l =>
           match sr_parse_uint32 cursor with
           | Some (file_line, _, after) => Took (is_native, file_name, Z.of_N file_line, after) (columns l (length cursor - length after))
           | None => Took (is_native, file_name, 0%Z, cursor) (columns l 0)
           end)
         else Took (is_native, file_name, 0%Z, cursor) l)
       else Took (false, None, 0%Z, cursor) l) (fun '(is_native, file_name, file_line, cursor) l =>
    and_then (java_url_loc cursor l) (fun '(class_path, mark) l =>
    let '(_, cursor) := strchrnul mark nl in
    let frame := mk_java_frame name file_name file_line class_path is_native false None in
    if Ascii.eqb (cur cursor) nl then look rest <- advance cursor; Took (frame, rest) (sr_location_add l 2 0)
    else Took (frame, cursor) (sr_location_add l 0 (Z.of_nat (length mark - length cursor) - 1))))
  end.
(* lib/java_frame.c:329-370 the lines of an exception *)
Fixpoint java_lines_loc (fuel : nat) (s : str) (l : location) : outcome (list java_frame * java_end * str) :=
  match fuel with
  | O => Broken
  | S fuel =>
    if at_end s then Took ([], end_of_text, s) l else
    let '(s, l) := white s l in
    if starts_with (L "... ") s then Took ([], current_exception_done, s) l
    else if starts_with (L "Suppressed: ") s then Took ([], current_exception_done, s) l
    else if starts_with (L "Caused by: ") s then Took ([], parse_inner_exception, s) l
    else
      and_then (java_frame_loc s l) (fun '(parsed, s) l =>
      and_then (java_lines_loc fuel s l) (fun '(frames, how, s) l => Took (parsed :: frames, how, s) l))
  end.
(* lib/java_frame.c:387-388 *)
Fixpoint skip_indented_loc (fuel : nat) (s : str) (l : location) : outcome str :=
  match fuel with
  | O => Broken
  | S fuel => if is_space (cur s) then let '(s, l) := to_next_line s l in skip_indented_loc fuel s l else Took s l
  end.
(** cursor += strlen("Caused by: "); sr_location_add(location, 0, strlen("Caused by: ")) *)
Definition past_caused_by (s : str) (l : location) : outcome (option str * str) :=
  look s <- advance_by 11 s; Took (Some s, s) (columns l 11).
(* lib/java_frame.c:372-396 *)
Definition after_exception_loc (s : str) (l : location) : outcome (option str * str) :=
  let '(s, l) := to_next_line s l in
  let '(s, l) := white s l in
  and_then (if starts_with (L "Suppressed: ") s then let '(s, l) := to_next_line s l in skip_indented_loc (S (length s)) s l else Took s l) (fun s l =>
  if starts_with (L "Caused by: ") s then past_caused_by s l else Took (None, s) l).
(* lib/java_frame.c:279-325 the first line of an exception: name, message, and what is below it *)
Definition java_head_loc (input : str) (l : location) : outcome (str * option str * str) :=
  let '(mark, l) := white input l in
  let '(cursor, l) := until (L ": " ++ [tab; nl]) mark l in
  if length mark =? length cursor then Refused (says l (L "Expected exception name")) else
  let name := between mark cursor in
  and_then
    (if Ascii.eqb (cur cursor) ":" then
       past cursor l (fun cursor l =>
       let '(mark, l) := white cursor l in
       let '(cursor, l) := until [nl] mark l in
       Took (if length mark =? length cursor then None else Some (between mark cursor), cursor) l)
     else let '(cursor, l) := until [nl] cursor l in Took (None, cursor) l) (fun '(message, cursor) l =>
  if Ascii.eqb (cur cursor) nl then look cursor <- advance cursor; Took (name, message, cursor) (sr_location_add l 2 0) else Took (name, message, cursor) l).
(* lib/java_frame.c:275-413 sr_java_frame_parse_exception *)
Fixpoint java_exception_loc (fuel : nat) (input : str) (l : location) : outcome (list java_frame * str) :=
  match fuel with
  | O => Broken
  | S fuel =>
    and_then (java_head_loc input l) (fun '(name, message, cursor) l =>
    let exception := mk_java_frame (Some name) None 0 None false true message in
    and_then (java_lines_loc (S (length cursor)) cursor l) (fun '(frames, how, cursor) l =>
    and_then (match how with
              | end_of_text => Took (None, cursor) l
              | current_exception_done => after_exception_loc cursor l
              | parse_inner_exception => past_caused_by cursor l
              end) (fun '(inner, cursor) l =>
    match inner with
    | None => Took (exception :: frames, cursor) l
    | Some s => and_then (java_exception_loc fuel s l) (fun '(inner, s) l => Took (inner ++ exception :: frames, s) l)
    end)))
  end.
(* lib/java_thread.c:304-343 sr_java_thread_parse; line 331 counts the character behind the quotation mark, NUL at the end *)
Definition java_thread_loc (input : str) (l : location) : outcome (java_thread * str) :=
  let '(chars, cursor) := sr_skip_string (L "Exception in thread """) input in
  let l := columns l chars in
  and_then
    (match chars with
     | O => Took (None, cursor) l
     | _ =>
       let mark := cursor in
       let '(cursor, l) := until [dquote; nl] cursor l in
       if negb (Ascii.eqb (cur cursor) dquote) then Refused (says l (L """Thread"" name end expected")) else
       look after <- advance cursor;
       Took (Some (between mark cursor), after) (sr_location_eat_char l (cur after))
     end) (fun '(name, cursor) l =>
  and_then (java_exception_loc (S (length cursor)) cursor l) (fun '(frames, cursor) l =>
  Took (mk_java_thread name frames, cursor) l)).
(* lib/java_stacktrace.c:148-159 sr_java_stacktrace_parse *)
Definition java_stacktrace_loc (input : str) (l : location) : outcome (java_stacktrace * str) :=
  and_then (java_thread_loc input l) (fun '(thread, rest) l => Took (mk_java_stacktrace [thread], rest) l).
