(** * Where and why a Python text is refused (the location in lib/python_frame.c, lib/python_stacktrace.c).

      The parsers of PyParseModel.v, with the location they leave out.  Simplifications as in LocParseModel.v. *)
From Verif Require Import Base Types UtilsModel ParseModel PyParseModel LocParseModel.
Open Scope nat_scope.

(* lib/utils.c:105-131 sr_strstr_location: the line and column it leaves, also when it finds nothing *)
Fixpoint strstr_place (fuel : nat) (hay needle : str) (lc : Z * Z) : Z * Z :=
  match fuel with
  | O => lc
  | S f =>
    match sr_strchr_location hay (cur needle) with
    | None => lc
    | Some (h, clc) =>
      let lc := loc_add lc clc in
      if starts_with needle h then lc else match h with [] => lc | x :: h => strstr_place f h needle (loc_eat_char lc x) end
    end
  end.
(** sr_strstr_location(hay, needle, &location->line, &location->column) *)
Definition find {B} (hay needle : str) (l : location) (found : str -> location -> outcome B) (missing : location -> outcome B) : outcome B :=
  let '(ln, col) := strstr_place (S (length hay)) hay needle (1, 0)%Z in
  let l := mk_location ln col (message l) in
  match sr_strstr_location hay needle with Ok (s, _) => found s l | Fail => missing l | UB => Broken end.

(* lib/python_frame.c:205-353 sr_python_frame_parse; the first component is the frame or NULL *)
Definition python_frame_loc (input : str) (l : location) : outcome (option python_frame * str) :=
  look input <- (if is_error_location_line input then
                   match sr_skip_char_cspan [nl] input with
                   | (_, []) => UB
                   | (_, _ :: s) => Ok s
                   end
                 else Ok input);
  match sr_skip_string (L "  File """) input with
  | (O, _) => Took (None, input) (says l (L "Frame header not found."))
  | (_, s) =>
    let l := right l 8 in
    match sr_parse_char_cspan [dquote] s with
    | None => Took (None, input) (says l (L "Unable to find the '""' character identifying the beginning of file name."))
    | Some (file_name, s) =>
      let '(special_file, file_name) := strip_brackets file_name in
      match anonymize_path (Some file_name) with
      | None => Broken
      | Some file_name =>
        let l := right l (Z.of_nat (length file_name)) in
        match sr_skip_string (L """, line ") s with
        | (O, _) => Took (None, input) (says l (L "Line separator not found."))
        | (_, s) =>
          let l := right l 8 in
          match sr_parse_uint32 s with
          | None => Took (None, input) (says l (L "Line number not found."))
          | Some (file_line, n, s) =>
            let l := right l (Z.of_nat n) in
            match (match sr_skip_string (L ", in ") s with
                   | (O, s) => if negb (Ascii.eqb (cur s) nl) then inr (says l (L "Function name separator not found.")) else inl (true, L "syntax", s, l)
                   | (_, s) =>
                     let l := right l 5 in
                     match sr_parse_char_cspan [nl] s with
                     | None => inr (says l (L "Unable to find the newline character identifying the end of function name."))
                     | Some (function_name, s) =>
                       let l := right l (Z.of_nat (length function_name)) in
                       let '(special, function_name) := strip_brackets function_name in inl (special, function_name, s, l)
                     end
                   end) with
            | inr l => Took (None, input) l
            | inl (special_function, function_name, s, l) =>
              let '(newline, s) := sr_skip_char nl s in
              let l := if newline then sr_location_add l 1 0 else l in
              let '(line_contents, s, l) := match sr_skip_string (L "    ") s with
                                         | (4, s) =>
                                           match sr_parse_char_cspan [nl] s with
                                           | Some (contents, s) => let '(newline, s) := sr_skip_char nl s in (Some contents, s, if newline then sr_location_add l 1 0 else l)
                                           | None => (None, s, l)
                                           end
                                         | (_, s) => (None, s, l)
                                         end in
              Took (Some (mk_python_frame special_file (Some file_name) (Z.of_N file_line) special_function (Some function_name) line_contents), s) l
            end
          end
        end
      end
    end
  end.
(* lib/python_stacktrace.c:192-209 the frames, with frame_location, which is not reset between them *)
Fixpoint python_frames_loc (fuel : nat) (s : str) (frames : list python_frame) (frame_location l : location) : outcome (list python_frame * str * location) :=
  match fuel with
  | O => Broken
  | S fuel =>
    and_then (python_frame_loc s frame_location) (fun '(frame, s) frame_location =>
    match frame with
    | None => Took (frames, s, frame_location) l
    | Some f => python_frames_loc fuel s (f :: frames) frame_location (sr_location_add l (line frame_location) (column frame_location))
    end)
  end.
(* lib/python_stacktrace.c:129-230 sr_python_stacktrace_parse *)
Definition python_stacktrace_loc (input : str) (l : location) : outcome (python_stacktrace * str) :=
  let '(newline, s) := sr_skip_char nl input in
  let l := if newline then right l 1 else l in
  let header := L "Traceback (most recent call last):" ++ [nl] in
  and_then
    (find s header l
      (fun s l => Took (skipn (length header) s) (mk_location (line l + 2) 0 (message l)))
      (fun l => find input (L "invalid syntax (") l
        (fun s l => find s (L "  File """) l (fun s l => Took s l) (fun l => Refused (says l (L "Frame with invalid line not found."))))
        (fun l => Refused (says l (L "Traceback header not found."))))) (fun s l =>
  and_then (python_frames_loc (S (length s)) s [] sr_location_init l) (fun '(frames, s, frame_location) l =>
  match frames with
  | [] => Refused (mk_location (line l) (column l) (message frame_location))
  | _ =>
    match sr_parse_char_cspan [":"%char; nl] s with
    | None => Refused (says l (L "Unable to find the ':\n' characters identifying the end of exception name."))
    | Some (exception_name, s) => Took (mk_python_stacktrace (Some exception_name) frames, s) l
    end
  end)).
