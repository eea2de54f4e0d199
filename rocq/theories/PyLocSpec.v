(** * Where a Python text goes wrong, and why. *)
From Verif Require Import Base Types UtilsSpec ParseSpec PyParseSpec.
Open Scope nat_scope.

(** ** Frames *)
(** A text that starts like a frame, but is none. *)
Definition py_path (s path q : str) : Prop := s = L "  File """ ++ path ++ q /\ without [dquote] path /\ stops_at [dquote] q.
Definition py_numbered (s path ds after : str) : Prop :=
  exists n, py_path s path (L """, line " ++ ds ++ after) /\ path <> [] /\ number32 ds n /\ ~ starts_with_digit after.
Inductive py_frame_wrong : str -> str -> Prop :=
| fw_header s : ~ begins (L "  File """) s -> py_frame_wrong (L "Frame header not found.") s
| fw_name s q : py_path s [] q -> py_frame_wrong (L "Unable to find the '""' character identifying the beginning of file name.") s
| fw_line s path q : py_path s path q -> path <> [] -> ~ begins (L """, line ") q -> py_frame_wrong (L "Line separator not found.") s
| fw_number s path q : py_path s path (L """, line " ++ q) -> path <> [] -> (forall ds r n, q = ds ++ r -> number32 ds n -> starts_with_digit r) -> py_frame_wrong (L "Line number not found.") s
| fw_in s path ds after : py_numbered s path ds after -> ~ begins (L ", in ") after -> ~ begins [nl] after -> py_frame_wrong (L "Function name separator not found.") s
| fw_function s path ds after : py_numbered s path ds (L ", in " ++ after) -> stops_at [nl] after ->
  py_frame_wrong (L "Unable to find the newline character identifying the end of function name.") s.
(** What a frame counts for: the length of its first line, with the file name as it is stored, and nothing after the line
    number of a syntax error. *)
Definition py_width (s : str) (w : nat) : Prop :=
  exists path inner special shown ds after fw, py_numbered s path ds after /\ bracketed path inner special /\ anonymized inner shown /\
    ((exists text rest, after = L ", in " ++ text ++ rest /\ text <> [] /\ without [nl] text /\ stops_at [nl] rest /\ fw = 5 + length text) \/ (begins [nl] after /\ fw = 0)) /\
    w = 16 + length shown + length ds + fw.
(** Frames, and what each counts for. *)
Inductive py_run : str -> list nat -> str -> Prop :=
| run_end s r : py_passed s r -> (forall f q, ~ py_frame_text r f q) -> py_run s [] r
| run_cons s r f q w ws rest : py_passed s r -> py_frame_text r f q -> py_width r w -> py_run q ws rest -> py_run s (w :: ws) rest.
(** Each frame counts again for every frame below it. *)
Fixpoint stairs (so_far : nat) (ws : list nat) : nat :=
  match ws with [] => 0 | w :: ws => so_far + w + stairs (so_far + w) ws end.

(** ** The whole *)
(** [pre] is [s] up to and with the last [c]; nothing if there is none. *)
Definition behind_last (c : ascii) (s pre : str) : Prop := (~ In c s /\ pre = []) \/ exists a r, s = a ++ c :: r /\ ~ In c r /\ pre = a ++ [c].
Definition py_below (text s1 : str) : Prop := text = nl :: s1 \/ (s1 = text /\ ~ begins [nl] text).
(** The line and column the frames are told to start at. *)
Inductive py_place (text r : str) : Z -> Z -> Prop :=
| pp_header s1 a ln col : py_below text s1 -> s1 = a ++ header ++ r -> first_at header s1 (header ++ r) -> pos_of a ln col -> py_place text r (ln + 2) 0
| pp_syntax s1 q a ln col : py_below text s1 -> (forall x, ~ first_at header s1 x) -> first_at (L "invalid syntax (") text q -> q = a ++ r -> first_at (L "  File """) q r ->
  pos_of a ln col -> py_place text r ln col.
(** The text goes wrong for the reason [why], and the line and column told are [ln] and [col]. *)
Inductive py_wrong (text : str) : str -> Z -> Z -> Prop :=
| pw_header s1 pre ln col : py_below text s1 -> (forall x, ~ first_at header s1 x) -> (forall x, ~ first_at (L "invalid syntax (") text x) ->
  behind_last "i" text pre -> pos_of pre ln col -> py_wrong text (L "Traceback header not found.") ln col
| pw_syntax s1 q pre ln col : py_below text s1 -> (forall x, ~ first_at header s1 x) -> first_at (L "invalid syntax (") text q -> (forall x, ~ first_at (L "  File """) q x) ->
  behind_last " " q pre -> pos_of pre ln col -> py_wrong text (L "Frame with invalid line not found.") ln col
| pw_frame why r s ln col : py_place text r ln col -> py_passed r s -> py_frame_wrong why s -> py_wrong text why ln col
| pw_name r ws after ln col : py_place text r ln col -> py_run r ws after -> ws <> [] -> stops_at [":"%char; nl] after ->
  py_wrong text (L "Unable to find the ':\n' characters identifying the end of exception name.") ln (col + Z.of_nat (stairs 0 ws)).
