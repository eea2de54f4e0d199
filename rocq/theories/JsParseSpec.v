(** * What a V8 stack trace looks like. *)
From Verif Require Import Base Types UtilsSpec ParseSpec.
Open Scope nat_scope.

Definition spaces (s : str) : Prop := Forall (fun c => c = sp) s.
(** FILE:LINE:COLUMN *)
Definition js_where_text (w path : str) (line column : N) : Prop :=
  exists ds es, w = path ++ L ":" ++ ds ++ L ":" ++ es /\ path <> [] /\ number32 ds line /\ number32 es column.
(** One frame: spaces, "at ", then FUNCTION (WHERE) or WHERE, to the end of the line.  The function is the
    text to the first space; what follows up to the parenthesis is ignored. *)
Definition js_frame_text (s : str) (f : js_frame) (rest : str) : Prop :=
  exists lead gap body trail w path shown line column,
    s = lead ++ L "at " ++ gap ++ body ++ trail ++ rest /\ spaces lead /\ spaces gap /\ spaces trail /\ without [nl] body /\ stops_at [nl] rest /\
    js_where_text w path line column /\ anonymized path shown /\
    jf_file_name f = Some shown /\ jf_file_line f = Z.of_N line /\ jf_line_column f = Z.of_N column /\
    match jf_function_name f with
    | Some name => exists ignored, body = name ++ L " " ++ ignored ++ L "(" ++ w ++ L ")" /\ name <> [] /\ without [sp] name /\ without (L "(") ignored
    | None => body = w /\ ~ begins (L " ") w
    end.
Inductive js_frames_text : str -> list js_frame -> Prop :=
| jft_nil : js_frames_text [] []
| jft_last s f : js_frame_text s f [] -> js_frames_text s [f]
| jft_cons s f rest fs : js_frame_text s f (nl :: rest) -> js_frames_text rest fs -> js_frames_text s (f :: fs).
(** The whole: CLASS: message, then a frame on each line. *)
Definition js_text (s : str) (t : js_stacktrace) : Prop :=
  exists class message rest fs, s = class ++ L ": " ++ message ++ nl :: rest /\ class <> [] /\ without [":"%char; nl] class /\ without [nl] message /\
    js_frames_text rest fs /\ t = mk_js_stacktrace (Some class) fs 1.

(** Frames that survive being written and read: 32-bit numbers, a file name without newline that is not
    below /home, a function name without space and newline.  Without a function the file name must not
    begin with a space. *)
Definition js_showable (f : js_frame) : Prop :=
  (0 <= jf_file_line f < 2 ^ 32)%Z /\ (0 <= jf_line_column f < 2 ^ 32)%Z /\
  (exists file, jf_file_name f = Some file /\ file <> [] /\ ~ In nl file /\ ~ begins (L "/home/") file /\ (jf_function_name f = None -> ~ begins (L " ") file)) /\
  (forall name, jf_function_name f = Some name -> name <> [] /\ ~ In nl name /\ ~ In sp name).
