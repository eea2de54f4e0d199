(** * Where a Java text goes wrong, and why. *)
From Verif Require Import Base Types UtilsSpec RpmSpec ParseSpec PyParseSpec JavaParseSpec LocParseSpec.
Open Scope nat_scope.

(** ** Reasons *)
(** Frames, before [q]. *)
Inductive java_run : str -> list java_frame -> str -> Prop :=
| jr_nil s : java_run s [] s
| jr_cons s r f q fs rest : s <> [] -> past_blanks s r -> ~ begins (L "... ") r -> ~ begins (L "Suppressed: ") r -> ~ begins (L "Caused by: ") r ->
  java_frame_text r f q -> java_run q fs rest -> java_run s (f :: fs) rest.
(** The exception [s] goes wrong where [suf] is left of it. *)
Inductive java_exception_wrong : str -> str -> str -> Prop :=
| jx_name s suf : past_blanks s suf -> (suf = [] \/ begins (L ":") suf) -> java_exception_wrong (L "Expected exception name") s suf
| jx_frame s name message body fs q suf : java_head s name message body -> java_run body fs q -> q <> [] -> past_blanks q suf ->
  ~ begins (L "... ") suf -> ~ begins (L "Suppressed: ") suf -> ~ begins (L "Caused by: ") suf -> (forall r, ~ first_at (L "at") suf r) ->
  java_exception_wrong (L "Frame expected") s suf
| jx_elided why s name message body fs r q suf : java_head s name message body -> java_lines body fs (elided r) -> java_after r (L "Caused by: " ++ q) ->
  java_exception_wrong why q suf -> java_exception_wrong why s suf
| jx_cause why s name message body fs r suf : java_head s name message body -> java_lines body fs (cause r) ->
  java_exception_wrong why r suf -> java_exception_wrong why s suf.
Inductive java_wrong : str -> str -> str -> Prop :=
| jt_thread name suf : without [dquote; nl] name -> stops_at [nl] suf -> java_wrong (L """Thread"" name end expected") (thread_mark ++ name ++ suf) suf
| jt_named why name s suf : without [dquote; nl] name -> java_exception_wrong why s suf -> java_wrong why (thread_mark ++ name ++ dquote :: s) suf
| jt_bare why s suf : ~ begins thread_mark s -> java_exception_wrong why s suf -> java_wrong why s suf.

(** ** Places *)
(** Blanks are passed over at the start, behind "at", a colon, a quotation mark or another blank. *)
Definition before_blanks (p : str) : Prop :=
  p = [] \/ ends (L "at") p \/ ends (L ":") p \/ ends [dquote] p \/ exists c, space_char c /\ ends [c] p.
(** The line and column the parser has counted when it has read [p] of the text.  Each character counts as it should, but a
    newline among blanks is taken for a column, and a quotation mark before a newline for a newline. *)
Inductive counted (text : str) : str -> Z -> Z -> Prop :=
| ct_start : counted text [] 1 0
| ct_char p c ln col : counted text p ln col -> c <> nl -> counted text (p ++ [c]) ln (col + 1)
| ct_newline p ln col : counted text p ln col -> counted text (p ++ [nl]) (ln + 1) 0
| ct_blank p ln col : counted text p ln col -> before_blanks p -> counted text (p ++ [nl]) ln (col + 1)
| ct_quote p rest ln col : counted text p ln col -> text = p ++ dquote :: nl :: rest -> counted text (p ++ [dquote]) (ln + 1) 0.
(** Texts without such newlines. *)
Definition plain_lines (text : str) : Prop := forall p rest, text = p ++ nl :: rest -> ~ before_blanks p.
