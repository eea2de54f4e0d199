(** * The V8 (JavaScript) backtrace parser (lib/js_frame.c, lib/js_stacktrace.c).
      [Ok (x, rest)]: x is returned and the input cursor is at [rest]; [Fail]: NULL, the cursor is where
      it was.  Pointers into the text are indices.  The location (line and column for messages) is left
      out here (see LocParseModel.v).  isdigit is called with a char; the model takes its result on bytes above 127 to be false. *)
From Verif Require Import Base Types UtilsModel ParseModel.
Open Scope nat_scope.

(** The text at index [i]. *)
Definition text_at (buf : str) (i : nat) : res str := if length buf <? i then UB else Ok (skipn i buf).
Definition prev (i : nat) : res nat := match i with O => UB | S i => Ok i end.

(* lib/js_frame.c:223-224: while (cursor > local_input and *cursor is a space) --cursor *)
Fixpoint back_spaces (buf : str) (lo cursor : nat) : res nat :=
  if lo <? cursor then
    do c <- byte_at buf cursor;
    if Ascii.eqb c sp then match cursor with O => UB | S p => back_spaces buf lo p end else Ok cursor
  else Ok cursor.
(* lib/js_frame.c:277-286, lib/js_frame.c:309-318: back over digits to a colon *)
Fixpoint back_digits (buf : str) (lo token : nat) : res nat :=
  if lo <? token then
    do c <- byte_at buf token;
    if Ascii.eqb c ":" then Ok token
    else if negb (is_digit c) then Fail
    else match token with O => UB | S p => back_digits buf lo p end
  else Ok token.
(* lib/js_frame.c:276-343: FILE:LINE:COLUMN between local_input and cursor *)
Definition js_where (buf : str) (local_input cursor : nat) : res (option str * N * N) :=
  do token <- back_digits buf local_input cursor;
  if token =? local_input then Fail else
  do text <- text_at buf (token + 1);
  match sr_parse_uint32 text with
  | None => Fail
  | Some (line_column, _, _) =>
    do token <- prev token;
    do token <- back_digits buf local_input token;
    if token =? local_input then Fail else
    do text <- text_at buf (token + 1);
    match sr_parse_uint32 text with
    | None => Fail
    | Some (file_line, _, _) =>
      Ok (anonymize_path (Some (firstn (token - local_input) (skipn local_input buf))), file_line, line_column)
    end
  end.
(* lib/js_frame.c:232-268: the function name before the parenthesis; [s] is the text at local_input *)
Definition js_function (s : str) : res (str * str) :=
  match sr_skip_char_cspan [sp; nl] s with
  | (columns, s1) =>
    if (columns =? 0) || negb (Ascii.eqb (cur s1) sp) then Fail else
    let function_name := firstn columns s in
    let '(columns, s2) := sr_skip_char_cspan ["("%char; nl] s1 in
    if (columns =? 0) || negb (Ascii.eqb (cur s2) "(") then Fail else
    do s3 <- text_at s2 1;
    Ok (function_name, s3)
  end.
(* lib/js_frame.c:186-355 sr_js_frame_parse_v8 *)
Definition sr_js_frame_parse_v8 (input : str) : res (js_frame * str) :=
  let index s := length input - length s in
  let '(_, s) := sr_skip_char_span [sp] input in
  match sr_skip_string (L "at ") s with
  | (O, _) => Fail
  | (_, s) =>
    let '(_, s) := sr_skip_char_span [sp] s in
    do cursor <- prev (index (snd (strchrnul s nl)));
    do cursor <- back_spaces input (index s) cursor;
    do c <- byte_at input cursor;
    do (function_name, s, cursor) <- (if Ascii.eqb c ")" then
                                        do (name, s) <- js_function s;
                                        do cursor <- prev cursor;
                                        Ok (Some name, s, cursor)
                                      else Ok (None, s, cursor));
    do (file_name, file_line, line_column) <- js_where input (index s) cursor;
    let '(_, rest) := sr_skip_char_cspan [nl] s in
    Ok (mk_js_frame file_name (Z.of_N file_line) (Z.of_N line_column) function_name, rest)
  end.
(* lib/js_frame.c:357-370 sr_js_frame_parse; lib/js_frame.c:39-44: the only dialect is V8 *)
Definition sr_js_frame_parse (input : str) : res (js_frame * str) := sr_js_frame_parse_v8 input.

(* lib/js_stacktrace.c:179-206 the frames.  [fuel] bounds the iterations. *)
Fixpoint js_frames_loop (fuel : nat) (s : str) : res (list js_frame * str) :=
  match fuel with
  | O => UB
  | S fuel =>
    match s with
    | [] => Ok ([], s)
    | _ =>
      do (frame, s) <- sr_js_frame_parse_v8 s;
      let '(skipped, s) := sr_skip_char nl s in
      if negb skipped && negb (match s with [] => true | _ => false end) then Fail
      else do (frames, s) <- js_frames_loop fuel s; Ok (frame :: frames, s)
    end
  end.
(* lib/js_stacktrace.c:132-214 sr_js_stacktrace_parse_v8, lib/js_stacktrace.c:216-238 sr_js_stacktrace_parse
   (platform: runtime 0, engine V8 = 1, include/js/platform.h:91-97).  When the name is empty,
   sr_parse_char_cspan leaves the cursor where it is. *)
Definition sr_js_stacktrace_parse (input : str) : res (js_stacktrace * str) :=
  let '(exception_name, s) := match sr_parse_char_cspan [":"%char; nl] input with Some (name, s) => (Some name, s) | None => (None, input) end in
  if negb (Ascii.eqb (cur s) ":") then Fail else
  match exception_name with
  | None => Fail
  | Some name =>
    match sr_skip_string (L ": ") s with
    | (O, _) => Fail
    | (_, s) =>
      let '(ok, s, _) := sr_skip_to_next_line_location s (1, 0)%Z in
      if negb ok then Fail else
      do (frames, s) <- js_frames_loop (S (length s)) s;
      Ok (mk_js_stacktrace (Some name) frames 1, s)
    end
  end.
