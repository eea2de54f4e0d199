(** * What a Ruby backtrace looks like. *)
From Verif Require Import Base Types UtilsSpec ParseSpec.
Open Scope nat_scope.

(** After the backtick: levels of rescue and block, then the name, perhaps in angle brackets, and the
    closing quote. *)
Definition ruby_levels (q : str) (rescue block : Z) (name_text : str) : Prop :=
  exists n after, q = concat (repeat (L "rescue in ") n) ++ after /\ ~ begins (L "rescue in ") after /\
    rescue = (Z.of_nat n mod 2 ^ 32)%Z /\
    ((after = L "block in " ++ name_text /\ block = 1%Z) \/
     (exists ds v, after = L "block (" ++ ds ++ L " levels) in " ++ name_text /\ number32 ds v /\ block = Z.of_N v) \/
     (after = name_text /\ ~ begins (L "block in ") after /\ ~ begins (L "block (") after /\ block = 0%Z)).
Definition ruby_name (text name : str) (special : bool) (rest : str) : Prop :=
  name <> [] /\ without (L "'>") name /\
  (if special then text = L "<" ++ name ++ L ">'" ++ rest else text = name ++ L "'" ++ rest /\ ~ begins (L "<") name).
(** One frame: FILE:LINE:in `NAME' *)
Definition ruby_frame_text (s : str) (f : ruby_frame) (rest : str) : Prop :=
  exists path shown ds line q name_text name,
    s = path ++ L ":" ++ ds ++ L ":in `" ++ q /\ without (L "`") path /\ number32 ds line /\ anonymized path shown /\
    ruby_levels q (rf_rescue_level f) (rf_block_level f) name_text /\ ruby_name name_text name (rf_special_function f) rest /\
    rf_file_name f = Some shown /\ rf_file_line f = Z.of_N line /\ rf_function_name f = Some name.
Inductive ruby_frames_text : str -> list ruby_frame -> Prop :=
| rft_nil : ruby_frames_text [] []
| rft_last s f : ruby_frame_text s f [] -> ruby_frames_text (tab :: L "from " ++ s) [f]
| rft_cons s f rest fs : ruby_frame_text s f (nl :: rest) -> ruby_frames_text rest fs -> ruby_frames_text (tab :: L "from " ++ s) (f :: fs).
(** The whole: the topmost frame, the message, the class in parentheses, the other frames. *)
Definition ruby_text (s : str) (t : ruby_stacktrace) : Prop :=
  exists f after message class rest fs,
    ruby_frame_text s f after /\ after = L ": " ++ message ++ L "(" ++ class ++ L ")" ++ nl :: rest /\
    without [tab] message /\ without [tab] class /\ stops_at [tab] rest /\ class <> [] /\ ~ In "("%char class /\
    ruby_frames_text rest fs /\ t = mk_ruby_stacktrace (Some class) (f :: fs).

(** How Ruby prints a trace; [decimal] prints a number. *)
Definition ruby_show_frame (decimal : N -> str) (f : ruby_frame) (file name : str) : str :=
  file ++ L ":" ++ decimal (Z.to_N (rf_file_line f)) ++ L ":in `" ++
  concat (repeat (L "rescue in ") (Z.to_nat (rf_rescue_level f))) ++
  (if (rf_block_level f =? 0)%Z then [] else if (rf_block_level f =? 1)%Z then L "block in " else L "block (" ++ decimal (Z.to_N (rf_block_level f)) ++ L " levels) in ") ++
  (if rf_special_function f then L "<" ++ name ++ L ">" else name) ++ L "'".
(** Frames that survive: numbers of 32 bits; no backtick in the file name; a function name without quotes
    and angle brackets that does not look like a level; no home directory in the path. *)
Definition ruby_showable (f : ruby_frame) (file name : str) : Prop :=
  rf_file_name f = Some file /\ rf_function_name f = Some name /\
  (0 <= rf_file_line f < 2 ^ 32)%Z /\ (0 <= rf_block_level f < 2 ^ 32)%Z /\ (0 <= rf_rescue_level f < 2 ^ 32)%Z /\
  without (L "`") file /\ ~ begins (L "/home/") file /\ name <> [] /\ without (L "'<>") name /\
  ~ begins (L "rescue in ") name /\ ~ begins (L "block ") name.
Inductive ruby_shows (decimal : N -> str) : ruby_frame -> str -> Prop :=
| ruby_shown f file name : ruby_showable f file name -> ruby_shows decimal f (ruby_show_frame decimal f file name).
Definition ruby_show_trace (message class : str) (first : str) (others : list str) : str :=
  first ++ L ": " ++ message ++ L " (" ++ class ++ L ")" ++ [nl] ++ concat (map (fun t => tab :: L "from " ++ t ++ [nl]) others).
