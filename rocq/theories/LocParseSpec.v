(** * Where a text goes wrong, and why: what the parsers of stack traces may say about a text they refuse. *)
From Verif Require Import Base Types UtilsSpec ParseSpec JsParseSpec RubyParseSpec.
Open Scope nat_scope.

Definition all_digits (s : str) : Prop := Forall (fun c => decimal_digit c <> None) s.
Definition no_number (s : str) : Prop := forall v, ~ number32 s v.
Definition ends (p s : str) : Prop := exists r, s = r ++ p.

(** ** JavaScript *)
(** [opened] is what comes before FILE:LINE:COLUMN in a frame, and [close] what must follow it. *)
Definition js_opened (opened close : str) : Prop :=
  exists lead gap, spaces lead /\ spaces gap /\
    ((opened = lead ++ L "at " ++ gap /\ close = []) \/
     (exists name ignored, opened = lead ++ L "at " ++ gap ++ name ++ L " " ++ ignored ++ L "(" /\ close = L ")" /\
        name <> [] /\ without [sp; nl] name /\ without (L "(" ++ [nl]) ignored)).
(** The rest of the line, and what is after it. *)
Definition js_closed (close after : str) : Prop := exists trail rest, after = close ++ trail ++ rest /\ spaces trail /\ stops_at [nl] rest.
(** [w = u ++ v] is not FILE:LINE:COLUMN, it goes wrong behind [u], and [why] is the reason. *)
Inductive js_where_wrong : str -> str -> str -> Prop :=
| jww_column_symbol a c ds : a <> [] -> decimal_digit c = None -> c <> ":"%char -> all_digits ds -> js_where_wrong (L "Line column contains ilegal symbol.") (a ++ [c]) ds
| jww_no_column c ds : all_digits ds -> js_where_wrong (L "Unable to locate line column.") [] (c :: ds)
| jww_column a ds : a <> [] -> all_digits ds -> no_number ds -> js_where_wrong (L "Failed to parse line column.") (a ++ L ":") ds
| jww_empty : js_where_wrong (L "Failed to parse line column.") [] []
| jww_line_symbol a c ds es v : a <> [] -> decimal_digit c = None -> c <> ":"%char -> all_digits ds -> number32 es v ->
    js_where_wrong (L "File line contains ilegal symbol.") (a ++ [c]) (ds ++ L ":" ++ es)
| jww_no_line c ds es v : all_digits ds -> number32 es v -> js_where_wrong (L "Unable to locate file line.") [] (c :: ds ++ L ":" ++ es)
| jww_line a ds es v : a <> [] -> all_digits ds -> no_number ds -> number32 es v -> js_where_wrong (L "Failed to parse file line.") (a ++ L ":") (ds ++ L ":" ++ es).
(** The frame text [pre ++ suf] goes wrong behind [pre], and [why] is the reason. *)
Inductive js_frame_wrong : str -> str -> str -> Prop :=
| jfw_at pre suf : spaces pre -> ~ begins (L " ") suf -> ~ begins (L "at ") suf -> js_frame_wrong (L "Expected frame beginning.") pre suf
| jfw_space opened body rest : js_opened opened [] -> ends (L ")") body -> without [sp; nl] body -> stops_at [nl] rest ->
    js_frame_wrong (L "White space right behind function name not found.") opened (body ++ rest)
| jfw_brace opened name body trail rest : js_opened opened [] -> name <> [] -> without [sp; nl] name -> without (L "(" ++ [nl]) body ->
    spaces trail -> ends (L ")" ++ trail) (name ++ L " " ++ body) -> stops_at [nl] rest ->
    js_frame_wrong (L "Opening brace following function name not found.") (opened ++ name) (L " " ++ body ++ rest)
| jfw_where why opened close u v after : js_opened opened close -> js_closed close after -> without [nl] (u ++ v) -> js_where_wrong why u v ->
    (close = [] -> ~ ends (L ")") (u ++ v) /\ ~ ends (L " ") (u ++ v) /\ ~ begins (L " ") (u ++ v)) ->
    js_frame_wrong why (opened ++ u) (v ++ after).
(** Frames, each on its line. *)
Inductive js_lines : str -> list js_frame -> Prop :=
| jl_nil : js_lines [] []
| jl_cons ln f rest fs : (forall after, js_frame_text (ln ++ nl :: after) f (nl :: after)) -> js_lines rest fs -> js_lines (ln ++ nl :: rest) (f :: fs).
(** The stack trace [pre ++ suf] goes wrong behind [pre]; the location is [short] columns to the left of it. *)
Inductive js_wrong : str -> str -> str -> Z -> Prop :=
| jw_colon name rest : without [":"%char; nl] name -> stops_at [nl] rest -> js_wrong (L "Unable to find the colon right behind exception type.") [] (name ++ rest) 0
| jw_class rest : js_wrong (L "Zero length exception type.") [] (L ":" ++ rest) 0
| jw_white class rest : class <> [] -> without [":"%char; nl] class -> ~ begins (L " ") rest -> js_wrong (L "Exception type not followed by white space.") class (L ":" ++ rest) 0
| jw_no_frames class message : class <> [] -> without [":"%char; nl] class -> without [nl] message ->
    js_wrong (L "Stack trace does not include any frames.") (class ++ L ": " ++ message) [] 2
| jw_frame why class message lines fs u suf : class <> [] -> without [":"%char; nl] class -> without [nl] message ->
    js_lines lines fs -> js_frame_wrong why u suf -> js_wrong why (class ++ L ": " ++ message ++ nl :: lines ++ u) suf 0.

(** ** Ruby *)
(** FILE:LINE:in and its parts. *)
Definition ruby_where (head : str) : Prop := exists path ds v, head = path ++ L ":" ++ ds ++ L ":in " /\ number32 ds v /\ without (L "`") head.
(** The levels of rescue and block, before the name; [lost] is how many of their characters the location does not
    count. *)
Definition ruby_level_text (levels text : str) (lost : Z) : Prop :=
  exists n, (levels = concat (repeat (L "rescue in ") n) /\ ~ begins (L "rescue in ") text /\ ~ begins (L "block in ") text /\ ~ begins (L "block (") text /\ lost = 0%Z) \/
            (levels = concat (repeat (L "rescue in ") n) ++ L "block in " /\ lost = 1%Z) \/
            (exists ds v, levels = concat (repeat (L "rescue in ") n) ++ L "block (" ++ ds ++ L " levels) in " /\ number32 ds v /\ lost = 0%Z).
Definition ruby_no_backtick : str := L "Unable to find the '`' character identifying the beginning of function name.".
Definition ruby_no_quote : str := L "Unable to find the ""'"" character delimiting the function name.".
(** The frame [pre ++ suf] goes wrong behind [pre]; the location is [short] columns to the left of it. *)
Inductive ruby_frame_wrong : str -> str -> str -> Z -> Prop :=
| rfw_start suf : stops_at (L "`") suf -> ruby_frame_wrong ruby_no_backtick [] suf 0
| rfw_in pre suf : pre <> [] -> without (L "`") pre -> stops_at (L "`") suf -> ~ ends (L ":in ") pre ->
    ruby_frame_wrong (L "Unable to find ':in ' preceding the backtick character.") pre suf 4
| rfw_number a ds suf : without (L "`") a -> all_digits ds -> (forall b c, a = b ++ [c] -> decimal_digit c = None) -> no_number ds -> stops_at (L "`") suf ->
    ruby_frame_wrong (L "Unable to find line number before ':in '") (a ++ ds ++ L ":in ") suf 0
| rfw_colon a ds v suf : without (L "`") a -> number32 ds v -> (forall b c, a = b ++ [c] -> decimal_digit c = None /\ c <> ":"%char) -> stops_at (L "`") suf ->
    ruby_frame_wrong (L "Unable to fin the ':' character preceding the line number") (a ++ ds ++ L ":in ") suf (Z.of_nat (length ds))
| rfw_backtick head : ruby_where head -> ruby_frame_wrong ruby_no_backtick head [] 0
| rfw_depth head n suf : ruby_where head -> (forall ds v rest, number32 ds v -> suf <> ds ++ L " levels) in " ++ rest) ->
    ruby_frame_wrong (L "Unable to parse block depth.") (head ++ L "`" ++ concat (repeat (L "rescue in ") n) ++ L "block (") suf 0
| rfw_name head levels lost open suf : ruby_where head -> ruby_level_text levels (open ++ suf) lost -> (open = [] \/ open = L "<") -> stops_at (L "'>") suf ->
    ruby_frame_wrong ruby_no_quote (head ++ L "`" ++ levels ++ open) suf lost
| rfw_bracket head levels lost name suf : ruby_where head -> ruby_level_text levels (L "<" ++ name ++ suf) lost -> name <> [] -> without (L "'>") name -> stops_at (L "'") suf ->
    ruby_frame_wrong (L "Unable to find the "">"" character delimiting the function name.") (head ++ L "`" ++ levels ++ L "<" ++ name) suf lost
| rfw_quote head levels lost name suf : ruby_where head -> ruby_level_text levels (name ++ suf) lost -> name <> [] -> without (L "'>") name -> ~ begins (L "<") name -> stops_at (L ">") suf ->
    ruby_frame_wrong ruby_no_quote (head ++ L "`" ++ levels ++ name) suf lost
| rfw_quote_special head levels lost name suf : ruby_where head -> ruby_level_text levels (L "<" ++ name ++ L ">" ++ suf) lost -> name <> [] -> without (L "'>") name -> ~ begins (L "'") suf ->
    ruby_frame_wrong ruby_no_quote (head ++ L "`" ++ levels ++ L "<" ++ name ++ L ">") suf lost.
(** A whole frame [text], before [rest]. *)
Definition ruby_frame_read (text rest : str) (lost : Z) : Prop :=
  exists head levels after name special, text ++ rest = head ++ L "`" ++ levels ++ after /\ ruby_where head /\ ruby_level_text levels after lost /\ ruby_name after name special rest.
(** Frames after the first, each on its line, before [rest]. *)
Inductive ruby_lines : str -> list ruby_frame -> str -> Prop :=
| rl_nil rest : ruby_lines [] [] rest
| rl_cons text f lines fs rest : ruby_frame_text (text ++ nl :: lines ++ rest) f (nl :: lines ++ rest) -> ruby_lines lines fs rest ->
    ruby_lines (tab :: L "from " ++ text ++ nl :: lines) (f :: fs) rest.
(** Message and class. *)
Definition ruby_message (m class : str) : Prop := exists message, m = message ++ L "(" ++ class ++ L ")" ++ [nl] /\ class <> [] /\ ~ In "("%char class.
(** The stack trace [start ++ cur ++ suf] goes wrong behind [cur].  The location is on line [n], [short] columns left of
    the end of [cur]. *)
Inductive ruby_wrong : str -> str -> str -> str -> Z -> Z -> Prop :=
| rw_top why pre suf short : ruby_frame_wrong why pre suf short -> ruby_wrong (L "Topmost stacktrace frame not found: " ++ why) [] pre suf 1 short
| rw_colon top lost suf : ruby_frame_read top suf lost -> ~ begins (L ": ") suf -> ruby_wrong (L "Unable to find the colon after first function name.") [] top suf 1 lost
| rw_message top lost suf : ruby_frame_read top (L ": " ++ suf) lost -> stops_at [tab] suf -> ruby_wrong (L "Unable to find the exception type and message.") [] (top ++ L ": ") suf 1 lost
| rw_newline top lost m suf : ruby_frame_read top (L ": " ++ m ++ suf) lost -> m <> [] -> without [tab] m -> stops_at [tab] suf -> ~ ends [nl] m ->
    ruby_wrong (L "Unable to find the new line character after the end of exception class") [] (top ++ L ": " ++ m) suf 1 (lost + 1)
| rw_paren top lost m suf : ruby_frame_read top (L ": " ++ m ++ suf) lost -> without [tab] m -> stops_at [tab] suf -> ends [nl] m -> ~ ends (L ")" ++ [nl]) m ->
    ruby_wrong (L "Unable to find the ')' character identifying the end of exception class") [] (top ++ L ": " ++ m) suf 1 (lost + 2)
| rw_class top lost m suf : ruby_frame_read top (L ": " ++ m ++ suf) lost -> without [tab] m -> stops_at [tab] suf -> ends (L ")" ++ [nl]) m -> (forall class, ~ ruby_message m class) ->
    ruby_wrong (L "Unable to find the '(' character identifying the beginning of the exception class") [] (top ++ L ": " ++ m) suf 1 lost
| rw_header top lost m class lines fs suf : ruby_frame_read top (L ": " ++ m ++ lines ++ suf) lost -> without [tab] m -> ruby_message m class -> ruby_lines lines fs suf ->
    suf <> [] -> ~ begins (tab :: L "from ") suf ->
    ruby_wrong (L "Frame header not found.") (top ++ L ": " ++ m ++ lines) [] suf (2 + Z.of_nat (length fs)) 0
| rw_frame why top lost m class lines fs pre suf short : ruby_frame_read top (L ": " ++ m ++ lines ++ tab :: L "from " ++ pre ++ suf) lost -> without [tab] m -> ruby_message m class ->
    ruby_lines lines fs (tab :: L "from " ++ pre ++ suf) -> ruby_frame_wrong why pre suf short ->
    ruby_wrong why (top ++ L ": " ++ m ++ lines) (tab :: L "from " ++ pre) suf (2 + Z.of_nat (length fs)) short
| rw_end top lost m class lines fs text last suf : ruby_frame_read top (L ": " ++ m ++ lines ++ tab :: L "from " ++ text ++ suf) lost -> without [tab] m -> ruby_message m class ->
    ruby_lines lines fs (tab :: L "from " ++ text ++ suf) -> ruby_frame_read text suf last -> suf <> [] -> ~ begins [nl] suf ->
    ruby_wrong (L "Expected newline after stacktrace frame.") (top ++ L ": " ++ m ++ lines) (tab :: L "from " ++ text) suf (2 + Z.of_nat (length fs)) last.
