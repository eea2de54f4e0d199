(** * The Python traceback parser (lib/python_frame.c, lib/python_stacktrace.c).
      The location (line and column for messages) is left out. *)
From Verif Require Import Base Types UtilsModel ParseModel.
Open Scope nat_scope.

(* lib/python_frame.c:222-233: the line has only spaces, carets and tildes *)
Fixpoint is_error_location_line (s : str) : bool :=
  match s with
  | [] => true
  | c :: r => if Ascii.eqb c nl then true else if negb (Ascii.eqb c sp) && negb (Ascii.eqb c "^") && negb (Ascii.eqb c "~") then false else is_error_location_line r
  end.
(* lib/python_frame.c:264-274, lib/python_frame.c:323-333: a name in angle brackets loses them and is special *)
Definition strip_brackets (name : str) : bool * str :=
  if (0 <? length name) && Ascii.eqb (nth 0 name nul) "<" && Ascii.eqb (nth (length name - 1) name nul) ">"
  then (true, skipn 1 (firstn (length name - 1) name))
  else (false, name).
(* lib/python_frame.c:205-353 sr_python_frame_parse.  [Ok (x, s)]: x is returned and the input cursor is
   at s, also when x is NULL (line 240 moves it before the frame is known to be there).  Line 239 steps over
   the newline, or over the terminator, and line 243 reads there. *)
Definition sr_python_frame_parse (input : str) : res (option python_frame * str) :=
  do input <- (if is_error_location_line input then
                 match sr_skip_char_cspan [nl] input with
                 | (_, []) => UB
                 | (_, _ :: s) => Ok s
                 end
               else Ok input);
  match sr_skip_string (L "  File """) input with
  | (O, _) => Ok (None, input)
  | (_, s) =>
    match sr_parse_char_cspan [dquote] s with
    | None => Ok (None, input)
    | Some (file_name, s) =>
      let '(special_file, file_name) := strip_brackets file_name in
      let file_name := anonymize_path (Some file_name) in
      match sr_skip_string (L """, line ") s with
      | (O, _) => Ok (None, input)
      | (_, s) =>
        match sr_parse_uint32 s with
        | None => Ok (None, input)
        | Some (file_line, _, s) =>
          match (match sr_skip_string (L ", in ") s with
                 | (O, s) => if negb (Ascii.eqb (cur s) nl) then None else Some (true, L "syntax", s)
                 | (_, s) =>
                   match sr_parse_char_cspan [nl] s with
                   | None => None
                   | Some (function_name, s) => let '(special, function_name) := strip_brackets function_name in Some (special, function_name, s)
                   end
                 end) with
          | None => Ok (None, input)
          | Some (special_function, function_name, s) =>
            let '(_, s) := sr_skip_char nl s in
            let '(line_contents, s) := match sr_skip_string (L "    ") s with
                                       | (4, s) =>
                                         match sr_parse_char_cspan [nl] s with
                                         | Some (contents, s) => (Some contents, snd (sr_skip_char nl s))
                                         | None => (None, s)
                                         end
                                       | (_, s) => (None, s)
                                       end in
            Ok (Some (mk_python_frame special_file file_name (Z.of_N file_line) special_function (Some function_name) line_contents), s)
          end
        end
      end
    end
  end.

(* lib/python_stacktrace.c:188-201 the frames, prepended to the list.  [fuel] bounds the iterations. *)
Fixpoint python_frames_loop (fuel : nat) (s : str) (frames : list python_frame) : res (list python_frame * str) :=
  match fuel with
  | O => UB
  | S fuel =>
    do (frame, s) <- sr_python_frame_parse s;
    match frame with
    | None => Ok (frames, s)
    | Some f => python_frames_loop fuel s (f :: frames)
    end
  end.
(* lib/python_stacktrace.c:129-225 sr_python_stacktrace_parse.  [Fail]: NULL, the cursor is where it was. *)
Definition sr_python_stacktrace_parse (input : str) : res (python_stacktrace * str) :=
  let '(_, s) := sr_skip_char nl input in
  let header := L "Traceback (most recent call last):" ++ [nl] in
  do s <- match sr_strstr_location s header with
          | Ok (s, _) => Ok (skipn (length header) s)
          | UB => UB
          | Fail =>
            do (s, _) <- sr_strstr_location input (L "invalid syntax (");
            do (s, _) <- sr_strstr_location s (L "  File """);
            Ok s
          end;
  do (frames, s) <- python_frames_loop (S (length s)) s [];
  match frames with
  | [] => Fail
  | _ =>
    match sr_parse_char_cspan [":"%char; nl] s with
    | None => Fail
    | Some (exception_name, s) => Ok (mk_python_stacktrace (Some exception_name) frames, s)
    end
  end.
