(** * The Ruby backtrace parser (lib/ruby_frame.c, lib/ruby_stacktrace.c).
      [Ok (x, rest)]: x is returned and the input cursor is at [rest]; [Fail]: NULL, the cursor is where
      it was.  The location (line and column for messages) is left out here (see LocParseModel.v). *)
From Verif Require Import Base Types UtilsModel ParseModel.
Open Scope nat_scope.

(* lib/ruby_frame.c:277-281: the rescue_level is an uint32_t.  [fuel] bounds the iterations. *)
Fixpoint skip_rescues (fuel : nat) (s : str) (level : Z) : res (Z * str) :=
  match fuel with
  | O => UB
  | S fuel =>
    match sr_skip_string (L "rescue in ") s with
    | (O, s) => Ok (level, s)
    | (_, s) => skip_rescues fuel s ((level + 1) mod two32)%Z
    end
  end.
(* lib/ruby_frame.c:283-300 the block level *)
Definition skip_blocks (s : str) : res (Z * str) :=
  match sr_skip_string (L "block in ") s with
  | (O, s) =>
    match sr_skip_string (L "block (") s with
    | (O, s) => Ok (0%Z, s)
    | (_, s) =>
      match sr_parse_uint32 s with
      | None => Fail
      | Some (level, _, s) =>
        match sr_skip_string (L " levels) in ") s with
        | (O, _) => Fail
        | (_, s) => Ok (Z.of_N level, s)
        end
      end
    end
  | (_, s) => Ok (1%Z, s)
  end.
(* lib/ruby_frame.c:191-341 sr_ruby_frame_parse *)
Definition sr_ruby_frame_parse (input : str) : res (ruby_frame * str) :=
  match sr_parse_char_cspan (L "`") input with
  | None => Fail
  | Some (buf, s) =>
    if length buf <? length (L ":in ") then Fail else
    let p := length buf - length (L ":in ") in
    if negb (str_eqb (skipn p buf) (L ":in ")) then Fail else
    let buf := firstn p buf in
    do p <- back_while is_digit buf p;
    match sr_parse_uint32 (skipn p buf) with
    | None => Fail
    | Some (file_line, _, _) =>
      match p with
      | O => Fail
      | S p =>
        do c <- byte_at buf p;
        if negb (Ascii.eqb c ":") then Fail else
        let file_name := anonymize_path (Some (firstn p buf)) in
        match sr_skip_char "`" s with
        | (false, _) => Fail
        | (true, s) =>
          do (rescue_level, s) <- skip_rescues (S (length s)) s 0;
          do (block_level, s) <- skip_blocks s;
          let '(special_function, s) := sr_skip_char "<" s in
          match sr_parse_char_cspan (L "'>") s with
          | None => Fail
          | Some (function_name, s) =>
            match (if special_function then sr_skip_char ">" s else (true, s)) with
            | (false, _) => Fail
            | (true, s) =>
              match sr_skip_char "'" s with
              | (false, _) => Fail
              | (true, s) => Ok (mk_ruby_frame file_name (Z.of_N file_line) special_function (Some function_name) block_level rescue_level, s)
              end
            end
          end
        end
      end
    end
  end.

(* lib/ruby_stacktrace.c:231-260 the frames after the first *)
Fixpoint ruby_frames_loop (fuel : nat) (s : str) : res (list ruby_frame * str) :=
  match fuel with
  | O => UB
  | S fuel =>
    match s with
    | [] => Ok ([], s)
    | _ =>
      match sr_skip_string (tab :: L "from ") s with
      | (O, _) => Fail
      | (_, s) =>
        do (frame, s) <- sr_ruby_frame_parse s;
        let '(skipped, s) := sr_skip_char nl s in
        if negb skipped && negb (match s with [] => true | _ => false end) then Fail
        else do (frames, s) <- ruby_frames_loop fuel s; Ok (frame :: frames, s)
      end
    end
  end.
(* lib/ruby_stacktrace.c:128-270 sr_ruby_stacktrace_parse *)
Definition sr_ruby_stacktrace_parse (input : str) : res (ruby_stacktrace * str) :=
  do (frame, s) <- sr_ruby_frame_parse input;
  match sr_skip_string (L ": ") s with
  | (O, _) => Fail
  | (_, s) =>
    match sr_parse_char_cspan [tab] s with
    | None => Fail
    | Some (buf, s) =>
      match length buf with
      | O => Fail
      | S p =>
        do c <- byte_at buf p;
        if negb (Ascii.eqb c nl) then Fail else
        match p with
        | O => Fail
        | S p =>
          do c <- byte_at buf p;
          if negb (Ascii.eqb c ")") then Fail else
          let buf := firstn p buf in
          do p <- back_while (fun c => negb (Ascii.eqb c "(")) buf p;
          let exception_name := skipn p buf in
          match exception_name with
          | [] => Fail
          | _ =>
            match p with
            | O => Fail
            | S p =>
              do c <- byte_at buf p;
              if negb (Ascii.eqb c "(") then Fail else
              do (frames, s) <- ruby_frames_loop (S (length s)) s;
              Ok (mk_ruby_stacktrace (Some exception_name) (frame :: frames), s)
            end
          end
        end
      end
    end
  end.
