(** * Where and why a text is refused (lib/location.c, and the location in lib/js_frame.c, lib/js_stacktrace.c,
      lib/ruby_frame.c, lib/ruby_stacktrace.c, lib/generic_stacktrace.c).

      The parsers of JsParseModel.v and RubyParseModel.v, with the location they leave out: a line, a column and a
      message.  A location starts at line 1, column 0, without a message.  Simplifications: int arithmetic does not
      overflow (UtilsModel.v); whether a message is a literal or allocated is not told apart; memory is not
      modelled. *)
From Verif Require Import Base Types UtilsModel ParseModel JsParseModel RubyParseModel JsonModel.
Open Scope nat_scope.

Record location := mk_location { line : Z; column : Z; message : option str }.
(* lib/location.c:25-31 sr_location_init *)
Definition sr_location_init : location := mk_location 1 0 None.
(* lib/location.c:71-80 sr_location_add *)
Definition sr_location_add (l : location) (add_line add_column : Z) : location :=
  let '(ln, col) := loc_add (line l, column l) (add_line, add_column) in mk_location ln col (message l).
(* lib/location.c:97-104 sr_location_eat_char *)
Definition sr_location_eat_char (l : location) (c : ascii) : location :=
  let '(ln, col) := loc_eat_char (line l, column l) c in mk_location ln col (message l).
(* lib/location.c:52-68 sr_location_to_string *)
Definition sr_location_to_string (l : location) : str :=
  L "Line " ++ print_Z (line l) ++ L ", column " ++ print_Z (column l) ++
  match message l with Some m => L ": " ++ m | None => [] end.
(* location->column += n; location->message = m; location->column = 0, location->line++ *)
Definition right (l : location) (n : Z) : location := mk_location (line l) (column l + n) (message l).
Definition says (l : location) (m : str) : location := mk_location (line l) (column l) (Some m).
Definition next_line (l : location) : location := mk_location (line l + 1) 0 (message l).

(** The outcome of a parser: the result, or NULL, with the location; or undefined behaviour. *)
Inductive outcome (A : Type) := Took (x : A) (l : location) | Refused (l : location) | Broken.
Arguments Took {A}. Arguments Refused {A}. Arguments Broken {A}.
Definition and_then {A B} (o : outcome A) (f : A -> location -> outcome B) : outcome B :=
  match o with Took x l => f x l | Refused l => Refused l | Broken => Broken end.
(** A step that does not refuse. *)
Definition see {A B} (e : res A) (f : A -> outcome B) : outcome B :=
  match e with Ok x => f x | _ => Broken end.
Notation "'look' x <- e ; f" := (see e (fun x => f)) (at level 200, x pattern, e at level 100, f at level 200, right associativity).

(** ** JavaScript *)
(* lib/js_frame.c:277-286, lib/js_frame.c:309-318: back over digits to a colon; the token, and whether no other
   character was in the way *)
Fixpoint digits_back (buf : str) (lo token : nat) : res (bool * nat) :=
  if lo <? token then
    do c <- byte_at buf token;
    if Ascii.eqb c ":" then Ok (true, token)
    else if negb (is_digit c) then Ok (false, token)
    else match token with O => UB | S p => digits_back buf lo p end
  else Ok (true, token).
Definition gap (a b : nat) : Z := (Z.of_nat a - Z.of_nat b)%Z.
(* lib/js_frame.c:276-346: FILE:LINE:COLUMN between local_input and cursor *)
Definition js_where_loc (buf : str) (local_input cursor : nat) (l : location) : outcome (option str * N * N) :=
  look (ok, token) <- digits_back buf local_input cursor;
  if negb ok then Refused (says (sr_location_add l 0 (gap token local_input + 1)) (L "Line column contains ilegal symbol.")) else
  if token =? local_input then Refused (says l (L "Unable to locate line column.")) else
  look text <- text_at buf (token + 1);
  match sr_parse_uint32 text with
  | None => Refused (says (sr_location_add l 0 (gap (token + 1) local_input)) (L "Failed to parse line column."))
  | Some (line_column, _, _) =>
    look token <- prev token;
    look (ok, token) <- digits_back buf local_input token;
    if negb ok then Refused (says (sr_location_add l 0 (gap token local_input + 1)) (L "File line contains ilegal symbol.")) else
    if token =? local_input then Refused (says l (L "Unable to locate file line.")) else
    look text <- text_at buf (token + 1);
    match sr_parse_uint32 text with
    | None => Refused (says (sr_location_add l 0 (gap (token + 1) local_input)) (L "Failed to parse file line."))
    | Some (file_line, _, _) =>
      Took (anonymize_path (Some (firstn (token - local_input) (skipn local_input buf))), file_line, line_column) l
    end
  end.
(* lib/js_frame.c:234-263: the function name before the parenthesis *)
Definition js_function_loc (s : str) (l : location) : outcome (str * str) :=
  match sr_skip_char_cspan [sp; nl] s with
  | (columns, s1) =>
    if (columns =? 0) || negb (Ascii.eqb (cur s1) sp) then Refused (says l (L "White space right behind function name not found.")) else
    let function_name := firstn columns s in
    let l := sr_location_add l 0 (Z.of_nat columns) in
    let '(columns, s2) := sr_skip_char_cspan ["("%char; nl] s1 in
    if (columns =? 0) || negb (Ascii.eqb (cur s2) "(") then Refused (says l (L "Opening brace following function name not found.")) else
    let l := sr_location_add l 0 (Z.of_nat columns + 1) in
    look s3 <- text_at s2 1;
    Took (function_name, s3) l
  end.
(* lib/js_frame.c:185-356 sr_js_frame_parse_v8 *)
Definition js_frame_v8_loc (input : str) (l : location) : outcome (js_frame * str) :=
  let index s := length input - length s in
  let '(columns, s) := sr_skip_char_span [sp] input in
  let l := sr_location_add l 0 (Z.of_nat columns) in
  match sr_skip_string (L "at ") s with
  | (O, _) => Refused (says l (L "Expected frame beginning."))
  | (n, s) =>
    let '(columns, s) := sr_skip_char_span [sp] s in
    let l := sr_location_add l 0 (Z.of_nat (n + columns)) in
    look cursor <- prev (index (snd (strchrnul s nl)));
    look cursor <- back_spaces input (index s) cursor;
    look c <- byte_at input cursor;
    and_then (if Ascii.eqb c ")" then
                and_then (js_function_loc s l) (fun '(name, s) l => look cursor <- prev cursor; Took (Some name, s, cursor) l)
              else Took (None, s, cursor) l) (fun '(function_name, s, cursor) l =>
    and_then (js_where_loc input (index s) cursor l) (fun '(file_name, file_line, line_column) l =>
    let '(columns, rest) := sr_skip_char_cspan [nl] s in
    Took (mk_js_frame file_name (Z.of_N file_line) (Z.of_N line_column) function_name, rest) (right l (Z.of_nat columns))))
  end.
(* lib/js_frame.c:358-371 sr_js_frame_parse *)
Definition js_frame_loc (input : str) (l : location) : outcome (js_frame * str) :=
  match js_frame_v8_loc input l with
  | Refused l => Refused (says l (L "The frame does not match any JavaScript dialect"))
  | o => o
  end.
(* lib/js_stacktrace.c:179-206 the frames *)
Fixpoint js_frames_loc (fuel : nat) (s : str) (l : location) : outcome (list js_frame * str) :=
  match fuel with
  | O => Broken
  | S fuel =>
    match s with
    | [] => Took ([], s) l
    | _ =>
      and_then (js_frame_v8_loc s l) (fun '(frame, s) l =>
      let '(skipped, s) := sr_skip_char nl s in
      if negb skipped && negb (match s with [] => true | _ => false end) then Refused (says l (L "Expected newline after stacktrace frame."))
      else and_then (js_frames_loc fuel s (next_line l)) (fun '(frames, s) l => Took (frame :: frames, s) l))
    end
  end.
(* lib/js_stacktrace.c:133-214 sr_js_stacktrace_parse_v8 *)
Definition js_stacktrace_v8_loc (input : str) (l : location) : outcome (option str * list js_frame * str) :=
  let '(columns, exception_name, s) := match sr_parse_char_cspan [":"%char; nl] input with Some (name, s) => (length name, Some name, s) | None => (0, None, input) end in
  if negb (Ascii.eqb (cur s) ":") then Refused (says l (L "Unable to find the colon right behind exception type.")) else
  if columns =? 0 then Refused (says l (L "Zero length exception type.")) else
  let l := sr_location_add l 0 (Z.of_nat columns) in
  match sr_skip_string (L ": ") s with
  | (O, _) => Refused (says l (L "Exception type not followed by white space."))
  | (_, s) =>
    let '(ok, s, (ln, col)) := sr_skip_to_next_line_location s (line l, column l) in
    let l := mk_location ln col (message l) in
    if negb ok then Refused (says l (L "Stack trace does not include any frames.")) else
    and_then (js_frames_loc (S (length s)) s l) (fun '(frames, s) l => Took (exception_name, frames, s) l)
  end.
(* lib/js_stacktrace.c:216-238 sr_js_stacktrace_parse *)
Definition js_stacktrace_loc (input : str) (l : location) : outcome (js_stacktrace * str) :=
  match js_stacktrace_v8_loc input l with
  | Took (name, frames, s) l => Took (mk_js_stacktrace name frames 1, s) l
  | Refused l => Refused (says l (L "The stacktrace does not match any JavaScript dialect"))
  | Broken => Broken
  end.

(** ** Ruby *)
(* lib/ruby_frame.c:277-281 *)
Fixpoint rescues_loc (fuel : nat) (s : str) (level : Z) (l : location) : outcome (Z * str) :=
  match fuel with
  | O => Broken
  | S fuel =>
    match sr_skip_string (L "rescue in ") s with
    | (O, s) => Took (level, s) l
    | (_, s) => rescues_loc fuel s ((level + 1) mod two32)%Z (right l (Z.of_nat (length (L "rescue in "))))
    end
  end.
(* lib/ruby_frame.c:283-299: strlen("block in") is one less than what was skipped *)
Definition blocks_loc (s : str) (l : location) : outcome (Z * str) :=
  match sr_skip_string (L "block in ") s with
  | (O, s) =>
    match sr_skip_string (L "block (") s with
    | (O, s) => Took (0%Z, s) l
    | (_, s) =>
      let l := right l (Z.of_nat (length (L "block ("))) in
      match sr_parse_uint32 s with
      | None => Refused (says l (L "Unable to parse block depth."))
      | Some (level, len, s) =>
        match sr_skip_string (L " levels) in ") s with
        | (O, _) => Refused (says l (L "Unable to parse block depth."))
        | (_, s) => Took (Z.of_N level, s) (right l (Z.of_nat len + Z.of_nat (length (L " levels) in "))))
        end
      end
    end
  | (_, s) => Took (1%Z, s) (right l (Z.of_nat (length (L "block in"))))
  end.
Definition no_backtick : str := L "Unable to find the '`' character identifying the beginning of function name.".
Definition no_quote : str := L "Unable to find the ""'"" character delimiting the function name.".
(* lib/ruby_frame.c:190-341 sr_ruby_frame_parse *)
Definition ruby_frame_loc (input : str) (l : location) : outcome (ruby_frame * str) :=
  match sr_parse_char_cspan (L "`") input with
  | None => Refused (says l no_backtick)
  | Some (buf, s) =>
    let l := right l (Z.of_nat (length buf)) in
    let no_in := Refused (says (right l (- Z.of_nat (length (L ":in ")))) (L "Unable to find ':in ' preceding the backtick character.")) in
    if length buf <? length (L ":in ") then no_in else
    let p := length buf - length (L ":in ") in
    if negb (str_eqb (skipn p buf) (L ":in ")) then no_in else
    let buf := firstn p buf in
    look p <- back_while is_digit buf p;
    match sr_parse_uint32 (skipn p buf) with
    | None => Refused (says l (L "Unable to find line number before ':in '"))
    | Some (file_line, lineno_len, _) =>
      let no_colon := Refused (says (right l (- Z.of_nat lineno_len)) (L "Unable to fin the ':' character preceding the line number")) in
      match p with
      | O => no_colon
      | S p =>
        look c <- byte_at buf p;
        if negb (Ascii.eqb c ":") then no_colon else
        let file_name := anonymize_path (Some (firstn p buf)) in
        match sr_skip_char "`" s with
        | (false, _) => Refused (says l no_backtick)
        | (true, s) =>
          let l := right l 1 in
          and_then (rescues_loc (S (length s)) s 0 l) (fun '(rescue_level, s) l =>
          and_then (blocks_loc s l) (fun '(block_level, s) l =>
          let '(special_function, s) := sr_skip_char "<" s in
          let l := if special_function then right l 1 else l in
          match sr_parse_char_cspan (L "'>") s with
          | None => Refused (says l no_quote)
          | Some (function_name, s) =>
            let l := right l (Z.of_nat (length function_name)) in
            match (if special_function then sr_skip_char ">" s else (true, s)) with
            | (false, _) => Refused (says l (L "Unable to find the "">"" character delimiting the function name."))
            | (true, s) =>
              let l := if special_function then right l 1 else l in
              match sr_skip_char "'" s with
              | (false, _) => Refused (says l no_quote)
              | (true, s) => Took (mk_ruby_frame file_name (Z.of_N file_line) special_function (Some function_name) block_level rescue_level, s) (right l 1)
              end
            end
          end))
        end
      end
    end
  end.
(* lib/ruby_stacktrace.c:231-260 the frames after the first *)
Fixpoint ruby_frames_loc (fuel : nat) (s : str) (l : location) : outcome (list ruby_frame * str) :=
  match fuel with
  | O => Broken
  | S fuel =>
    match s with
    | [] => Took ([], s) l
    | _ =>
      match sr_skip_string (tab :: L "from ") s with
      | (O, _) => Refused (says l (L "Frame header not found."))
      | (skipped, s) =>
        and_then (ruby_frame_loc s (right l (Z.of_nat skipped))) (fun '(frame, s) l =>
        let '(skipped, s) := sr_skip_char nl s in
        if negb skipped && negb (match s with [] => true | _ => false end) then Refused (says l (L "Expected newline after stacktrace frame."))
        else and_then (ruby_frames_loc fuel s (next_line l)) (fun '(frames, s) l => Took (frame :: frames, s) l))
      end
    end
  end.
Definition no_class : str := L "Unable to find the '(' character identifying the beginning of the exception class".
(* lib/ruby_stacktrace.c:128-270 sr_ruby_stacktrace_parse *)
Definition ruby_stacktrace_loc (input : str) (l : location) : outcome (ruby_stacktrace * str) :=
  match ruby_frame_loc input l with
  | Broken => Broken
  | Refused l =>
    Refused (says l (L "Topmost stacktrace frame not found: " ++ match message l with Some m => m | None => L "(unknown reason)" end))
  | Took (frame, s) l =>
    match sr_skip_string (L ": ") s with
    | (O, _) => Refused (says l (L "Unable to find the colon after first function name."))
    | (_, s) =>
      let l := right l (Z.of_nat (length (L ": "))) in
      match sr_parse_char_cspan [tab] s with
      | None => Refused (says l (L "Unable to find the exception type and message."))
      | Some (buf, s) =>
        let l := right l (Z.of_nat (length buf)) in
        let no_newline := Refused (says (right l (-1)) (L "Unable to find the new line character after the end of exception class")) in
        let no_bracket := Refused (says (right l (-2)) (L "Unable to find the ')' character identifying the end of exception class")) in
        match length buf with
        | O => no_newline
        | S p =>
          look c <- byte_at buf p;
          if negb (Ascii.eqb c nl) then no_newline else
          match p with
          | O => no_bracket
          | S p =>
            look c <- byte_at buf p;
            if negb (Ascii.eqb c ")") then no_bracket else
            let buf := firstn p buf in
            look p <- back_while (fun c => negb (Ascii.eqb c "(")) buf p;
            let exception_name := skipn p buf in
            match exception_name with
            | [] => Refused (says l no_class)
            | _ =>
              match p with
              | O => Refused (says l no_class)
              | S p =>
                look c <- byte_at buf p;
                if negb (Ascii.eqb c "(") then Refused (says l no_class) else
                and_then (ruby_frames_loc (S (length s)) s (next_line l)) (fun '(frames, s) l =>
                Took (mk_ruby_stacktrace (Some exception_name) (frame :: frames), s) l)
              end
            end
          end
        end
      end
    end
  end.

(* lib/generic_stacktrace.c:77-93 stacktrace_parse_wrapper: the stack trace or the error message *)
Definition parse_wrapper {A} (parser : str -> location -> outcome (A * str)) (input : str) : res (A + str) :=
  match parser input sr_location_init with
  | Took (x, _) _ => Ok (inl x)
  | Refused l => Ok (inr (sr_location_to_string l))
  | Broken => UB
  end.
