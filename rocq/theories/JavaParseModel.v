(** * The Java exception parser (lib/java_frame.c, lib/java_thread.c, lib/java_stacktrace.c).
      [Ok (x, rest)]: x is returned and the input cursor is at [rest]; [Fail]: NULL, the cursor is where
      it was.  The location (line and column for messages) is left out.  The depth of the C stack is not
      limited.  isspace is called with a char; the model takes its result on bytes above 127 to be false. *)
From Verif Require Import Base Types UtilsModel ParseModel.
Open Scope nat_scope.

(** [++cursor] *)
Definition advance (s : str) : res str := match s with [] => UB | _ :: r => Ok r end.
(** [cursor += n] *)
Definition advance_by (n : nat) (s : str) : res str := if length s <? n then UB else Ok (skipn n s).
(** [g_strndup(mark, cursor - mark)] *)
Definition between (mark cursor : str) : str := firstn (length mark - length cursor) mark.
Definition at_end (s : str) : bool := match s with [] => true | _ => false end.

(* lib/java_frame.c:261-266 sr_java_frame_parse_is_native_method *)
Definition is_native_method (mark : str) : bool := starts_with (L "Native Method") mark.
(* lib/java_frame.c:268-273 sr_java_frame_parse_is_unknown_source *)
Definition is_unknown_source (mark : str) : bool := starts_with (L "Unknown Source") mark.
(* lib/java_frame.c:416-480 sr_java_frame_parse_frame_url: the class path and the cursor that is returned *)
Definition sr_java_frame_parse_frame_url (mark : str) : res (option str * str) :=
  let '(_, cursor) := sr_skip_char_cspan (L "[" ++ [nl]) mark in
  if negb (Ascii.eqb (cur cursor) "[") then Ok (None, cursor) else
  do cursor <- advance cursor;
  let mark := cursor in
  let '(_, cursor) := sr_skip_char_cspan (L ":" ++ [nl]) cursor in
  do r <- (if Ascii.eqb (cur cursor) ":" then
             do r <- (if starts_with (L "jar:") mark then
                        do cursor <- advance cursor;
                        let mark := cursor in
                        let '(_, cursor) := sr_skip_char_cspan (L ":" ++ [nl]) cursor in
                        if negb (Ascii.eqb (cur cursor) ":") then Ok (inl cursor) else Ok (inr (mark, cursor, L "!" ++ [nl]))
                      else Ok (inr (mark, cursor, L "]" ++ [nl])));
             match r with
             | inl cursor => Ok (inl cursor)
             | inr (mark, cursor, path_stop) =>
               do (mark, cursor) <- (if negb (starts_with (L "file:") mark) then Ok (mark, mark)
                                     else do cursor <- advance cursor; Ok (cursor, cursor));
               let '(_, cursor) := sr_skip_char_cspan path_stop cursor in
               Ok (inr (if length mark =? length cursor then None else anonymize_path (Some (between mark cursor)), cursor))
             end
           else Ok (inr (None, cursor)));
  match r with
  | inl cursor => Ok (None, cursor)
  | inr (class_path, cursor) =>
    if negb (Ascii.eqb (cur cursor) "]") && negb (Ascii.eqb (cur cursor) nl)
    then Ok (class_path, snd (sr_skip_char_cspan (L "]" ++ [nl]) cursor))
    else Ok (class_path, cursor)
  end.
(* lib/java_frame.c:482-563 sr_java_frame_parse *)
Definition sr_java_frame_parse (input : str) : res (java_frame * str) :=
  do (cursor, _) <- sr_strstr_location input (L "at");
  do cursor <- advance_by 2 cursor;
  let cursor := sr_skip_whitespace cursor in
  let mark := cursor in
  let '(_, cursor) := sr_skip_char_cspan (L "(" ++ [nl]) cursor in
  let name := if length cursor =? length mark then None else Some (between mark cursor) in
  do (is_native, file_name, file_line, cursor) <-
    (if Ascii.eqb (cur cursor) "(" then
       do cursor <- advance cursor;
       let mark := cursor in
       let '(_, cursor) := sr_skip_char_cspan (L ":)" ++ [nl]) cursor in
       let '(is_native, file_name) :=
         if length mark =? length cursor then (false, None)
         else if is_native_method mark then (true, None)
         else if negb (is_unknown_source mark) then (false, anonymize_path (Some (between mark cursor)))
         else (false, None) in
       if Ascii.eqb (cur cursor) ":" then
         do cursor <- advance cursor;
         match sr_parse_uint32 cursor with
         | Some (file_line, _, cursor) => Ok (is_native, file_name, Z.of_N file_line, cursor)
         | None => Ok (is_native, file_name, 0%Z, cursor)
         end
       else Ok (is_native, file_name, 0%Z, cursor)
     else Ok (false, None, 0%Z, cursor));
  do (class_path, mark) <- sr_java_frame_parse_frame_url cursor;
  let '(_, cursor) := strchrnul mark nl in
  do rest <- (if Ascii.eqb (cur cursor) nl then advance cursor else Ok cursor);
  Ok (mk_java_frame name file_name file_line class_path is_native false None, rest).

(** Where the loop over the lines of an exception ends. *)
Inductive java_end := end_of_text | current_exception_done | parse_inner_exception.
(* lib/java_frame.c:329-370 the lines of an exception.  [fuel] bounds the iterations. *)
Fixpoint java_lines_loop (fuel : nat) (s : str) : res (list java_frame * java_end * str) :=
  match fuel with
  | O => UB
  | S fuel =>
    if at_end s then Ok ([], end_of_text, s) else
    let s := sr_skip_whitespace s in
    if starts_with (L "... ") s then Ok ([], current_exception_done, s)
    else if starts_with (L "Suppressed: ") s then Ok ([], current_exception_done, s)
    else if starts_with (L "Caused by: ") s then Ok ([], parse_inner_exception, s)
    else
      do (parsed, s) <- sr_java_frame_parse s;
      do (frames, how, s) <- java_lines_loop fuel s;
      Ok (parsed :: frames, how, s)
  end.
Definition next_line (s : str) : str := let '(_, s, _) := sr_skip_to_next_line_location s (1, 0)%Z in s.
(* lib/java_frame.c:387-388 *)
Fixpoint skip_indented_lines (fuel : nat) (s : str) : res str :=
  match fuel with
  | O => UB
  | S fuel => if is_space (cur s) then skip_indented_lines fuel (next_line s) else Ok s
  end.
(* lib/java_frame.c:372-396: [Some s]: an inner exception starts at s; the cursor is given in both cases *)
Definition after_exception (s : str) : res (option str * str) :=
  let s := sr_skip_whitespace (next_line s) in
  do s <- (if starts_with (L "Suppressed: ") s then let s := next_line s in skip_indented_lines (S (length s)) s else Ok s);
  if starts_with (L "Caused by: ") s then do s <- advance_by 11 s; Ok (Some s, s) else Ok (None, s).
(* lib/java_frame.c:275-413 sr_java_frame_parse_exception; [fuel] bounds the depth of the recursion *)
Fixpoint sr_java_frame_parse_exception (fuel : nat) (input : str) : res (list java_frame * str) :=
  match fuel with
  | O => UB
  | S fuel =>
    let cursor := sr_skip_whitespace input in
    let mark := cursor in
    let '(_, cursor) := sr_skip_char_cspan (L ": " ++ [tab; nl]) cursor in
    if length mark =? length cursor then Fail else
    let name := between mark cursor in
    do (message, cursor) <-
      (if Ascii.eqb (cur cursor) ":" then
         do cursor <- advance cursor;
         let mark := sr_skip_whitespace cursor in
         let '(_, cursor) := sr_skip_char_cspan [nl] mark in
         Ok (if length mark =? length cursor then None else Some (between mark cursor), cursor)
       else Ok (None, snd (sr_skip_char_cspan [nl] cursor)));
    do cursor <- (if Ascii.eqb (cur cursor) nl then advance cursor else Ok cursor);
    let exception := mk_java_frame (Some name) None 0 None false true message in
    do (frames, how, cursor) <- java_lines_loop (S (length cursor)) cursor;
    do (inner, cursor) <- match how with
                          | end_of_text => Ok (None, cursor)
                          | current_exception_done => after_exception cursor
                          | parse_inner_exception => do cursor <- advance_by 11 cursor; Ok (Some cursor, cursor)
                          end;
    match inner with
    | None => Ok (exception :: frames, cursor)
    | Some s => do (inner, s) <- sr_java_frame_parse_exception fuel s; Ok (inner ++ exception :: frames, s)
    end
  end.
(* lib/java_thread.c:304-343 sr_java_thread_parse *)
Definition sr_java_thread_parse (input : str) : res (java_thread * str) :=
  let '(chars, cursor) := sr_skip_string (L "Exception in thread """) input in
  do (name, cursor) <-
    (match chars with
     | O => Ok (None, cursor)
     | _ =>
       let mark := cursor in
       let '(_, cursor) := sr_skip_char_cspan [dquote; nl] cursor in
       if negb (Ascii.eqb (cur cursor) dquote) then Fail else
       do after <- advance cursor;
       Ok (Some (between mark cursor), after)
     end);
  do (frames, cursor) <- sr_java_frame_parse_exception (S (length cursor)) cursor;
  Ok (mk_java_thread name frames, cursor).
(* lib/java_stacktrace.c:148-159 sr_java_stacktrace_parse *)
Definition sr_java_stacktrace_parse (input : str) : res (java_stacktrace * str) :=
  do (thread, rest) <- sr_java_thread_parse input;
  Ok (mk_java_stacktrace [thread], rest).
