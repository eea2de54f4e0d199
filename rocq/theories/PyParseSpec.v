(** * What a Python traceback looks like. *)
From Verif Require Import Base Types UtilsSpec ParseSpec.
Open Scope nat_scope.

(** A name, perhaps in angle brackets, which are not part of the name. *)
Definition bracketed (text name : str) (special : bool) : Prop :=
  if special then text = L "<" ++ name ++ L ">" else name = text /\ forall inner, text <> L "<" ++ inner ++ L ">".
(** The end of the header line, after the line number: ", in NAME", or nothing for a syntax error. *)
Definition py_function_text (s name : str) (special : bool) (rest : str) : Prop :=
  (exists text, s = L ", in " ++ text ++ rest /\ text <> [] /\ without [nl] text /\ stops_at [nl] rest /\ bracketed text name special) \/
  (begins [nl] s /\ rest = s /\ name = L "syntax" /\ special = true).
(** The source line below it, indented by four spaces. *)
Definition py_source_text (s : str) (contents : option str) (rest : str) : Prop :=
  match contents with
  | Some line => line <> [] /\ without [nl] line /\ (s = L "    " ++ line ++ nl :: rest \/ (s = L "    " ++ line /\ rest = []))
  | None => (s = L "    " ++ rest /\ stops_at [nl] rest) \/ (rest = s /\ ~ begins (L "    ") s)
  end.
Definition py_frame_text (s : str) (f : python_frame) (rest : str) : Prop :=
  exists path inner shown ds line name after below,
    s = L "  File """ ++ path ++ L """, line " ++ ds ++ after /\ path <> [] /\ without [dquote] path /\ number32 ds line /\
    bracketed path inner (pf_special_file f) /\ anonymized inner shown /\ pf_file_name f = Some shown /\ pf_file_line f = Z.of_N line /\
    (exists r, py_function_text after name (pf_special_function f) r /\ (r = nl :: below \/ (r = [] /\ below = []))) /\
    pf_function_name f = Some name /\ py_source_text below (pf_line_contents f) rest.
(** Lines of spaces, carets and tildes. *)
Definition pointers (p : str) : Prop := Forall (fun c => In c (L " ^~")) p.
(** Before a frame one line of pointers is passed over. *)
Definition py_passed (s r : str) : Prop :=
  (exists p, s = p ++ nl :: r /\ pointers p) \/ (r = s /\ ~ pointers s /\ forall p q, s = p ++ nl :: q -> ~ pointers p).
(** The frames, to the first text that is no frame. *)
Inductive py_frames_text : str -> list python_frame -> str -> Prop :=
| pft_end s r : py_passed s r -> (forall f q, ~ py_frame_text r f q) -> py_frames_text s [] r
| pft_cons s r f q fs rest : py_passed s r -> py_frame_text r f q -> py_frames_text q fs rest -> py_frames_text s (f :: fs) rest.
(** The text ends where a frame could start. *)
Inductive py_runs_out : str -> Prop :=
| pro_now p : pointers p -> py_runs_out p
| pro_later s r f q : py_passed s r -> py_frame_text r f q -> py_runs_out q -> py_runs_out s.
(** [r] is [s] from the first [needle] on. *)
Definition first_at (needle s r : str) : Prop := exists a, s = a ++ r /\ begins needle r /\ forall a' r', s = a' ++ r' -> begins needle r' -> length a <= length a'.
Definition header : str := L "Traceback (most recent call last):" ++ [nl].
(** Where the frames start: after the header, or at the frame of a syntax error. *)
Definition py_start (s r : str) : Prop :=
  exists s1, (s = nl :: s1 \/ (s1 = s /\ ~ begins [nl] s)) /\
    (first_at header s1 (header ++ r) \/
     ((forall q, ~ first_at header s1 q) /\ exists q, first_at (L "invalid syntax (") s q /\ first_at (L "  File """) q r)).
(** The whole; the innermost frame is written last and comes first in the result. *)
Definition py_text (s : str) (t : python_stacktrace) (rest : str) : Prop :=
  exists r fs class after, py_start s r /\ py_frames_text r fs after /\ fs <> [] /\
    after = class ++ rest /\ class <> [] /\ without [":"%char; nl] class /\ stops_at [":"%char; nl] rest /\
    t = mk_python_stacktrace (Some class) (rev fs).

(** How Python prints a frame; [decimal] prints a number. *)
Definition py_bracket (special : bool) (name : str) : str := if special then L "<" ++ name ++ L ">" else name.
Definition py_show_frame (decimal : N -> str) (f : python_frame) (file name : str) : str :=
  L "  File """ ++ py_bracket (pf_special_file f) file ++ L """, line " ++ decimal (Z.to_N (pf_file_line f)) ++
  L ", in " ++ py_bracket (pf_special_function f) name ++ [nl] ++
  match pf_line_contents f with Some line => L "    " ++ line ++ [nl] | None => [] end.
(** A name that is not special is not empty and not in angle brackets. *)
Definition py_plain (special : bool) (name : str) : Prop := special = false -> name <> [] /\ forall inner, name <> L "<" ++ inner ++ L ">".
Definition py_showable (f : python_frame) (file name : str) : Prop :=
  pf_file_name f = Some file /\ pf_function_name f = Some name /\ (0 <= pf_file_line f < 2 ^ 32)%Z /\
  ~ In dquote file /\ ~ begins (L "/home/") file /\ py_plain (pf_special_file f) file /\
  ~ In nl name /\ py_plain (pf_special_function f) name /\
  (forall line, pf_line_contents f = Some line -> line <> [] /\ ~ In nl line).
(** Below the source line there may be a line that marks the failing part (PEP 657). *)
Inductive py_shows (decimal : N -> str) : python_frame -> str -> Prop :=
| py_shown f file name : py_showable f file name -> py_shows decimal f (py_show_frame decimal f file name)
| py_marked f file name line p : py_showable f file name -> pf_line_contents f = Some line -> pointers p ->
  py_shows decimal f (py_show_frame decimal f file name ++ p ++ [nl]).
