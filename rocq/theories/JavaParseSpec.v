(** * What a Java exception text looks like. *)
From Verif Require Import Base Types UtilsSpec RpmSpec ParseSpec PyParseSpec.
Open Scope nat_scope.

Definition blank (s : str) : Prop := Forall space_char s.
Definition not_blank_first (s : str) : Prop := match s with [] => True | c :: _ => ~ space_char c end.
(** [r] follows the blanks that [s] starts with. *)
Definition past_blanks (s r : str) : Prop := exists ws, s = ws ++ r /\ blank ws /\ not_blank_first r.
(** A string that is missing when it is empty. *)
Definition optional (text : str) (o : option str) : Prop := match text with [] => o = None | _ => o = Some text end.

(** ** A frame: "at NAME(FILE:LINE) [URL]". *)

(** The path of a URL, up to the stop; the scheme "file" is left out. *)
Definition java_path (stop : ascii) (scheme s : str) (path : option str) : Prop :=
  exists text r, ((scheme = L "file" /\ s = text ++ r) \/ (scheme <> L "file" /\ scheme ++ ":"%char :: s = text ++ r)) /\ ~ In stop text /\ stops_at [stop] r /\
    match text with [] => path = None | _ => exists shown, anonymized text shown /\ path = Some shown end.
Definition java_jar (s : str) (path : option str) : Prop :=
  (~ In ":"%char s /\ path = None) \/ exists scheme r, s = scheme ++ ":"%char :: r /\ ~ In ":"%char scheme /\ java_path "!" scheme r path.
Definition java_place (s : str) (path : option str) : Prop :=
  (~ In ":"%char s /\ path = None) \/
  exists scheme r, s = scheme ++ ":"%char :: r /\ ~ In ":"%char scheme /\
    ((scheme = L "jar" /\ java_jar r path) \/ (scheme <> L "jar" /\ java_path "]" scheme r path)).
Definition java_url (line : str) (path : option str) : Prop :=
  (~ In "["%char line /\ path = None) \/ exists a b, line = a ++ "["%char :: b /\ ~ In "["%char a /\ java_place b path.
(** The line number after a colon; text that is no number counts as 0. *)
Definition java_number (s : str) (number : Z) (after : str) : Prop :=
  (~ begins (L ":") s /\ after = s /\ number = 0%Z) \/
  (exists ds n, s = L ":" ++ ds ++ after /\ number32 ds n /\ number = Z.of_N n /\ ~ starts_with_digit after) \/
  (s = L ":" ++ after /\ number = 0%Z /\ forall ds r n, after = ds ++ r -> number32 ds n -> starts_with_digit r).
Definition java_source (line : str) (native : bool) (file : option str) (number : Z) (after : str) : Prop :=
  (~ begins (L "(") line /\ after = line /\ native = false /\ file = None /\ number = 0%Z) \/
  exists src q, line = L "(" ++ src ++ q /\ without (L ":)") src /\ stops_at (L ":)") q /\
    (native = true <-> begins (L "Native Method") src) /\
    ((file = None /\ (src = [] \/ begins (L "Native Method") src \/ begins (L "Unknown Source") src)) \/
     (src <> [] /\ ~ begins (L "Native Method") src /\ ~ begins (L "Unknown Source") src /\ exists shown, anonymized src shown /\ file = Some shown)) /\
    java_number q number after.
Definition java_line (line : str) (f : java_frame) : Prop :=
  exists name q after, line = name ++ q /\ without (L "(") name /\ stops_at (L "(") q /\ optional name (vf_name f) /\
    java_source q (vf_is_native f) (vf_file_name f) (vf_file_line f) after /\ java_url after (vf_class_path f) /\
    vf_is_exception f = false /\ vf_message f = None.
(** [s] is a line and what follows it. *)
Definition line_and_rest (s line rest : str) : Prop := ~ In nl line /\ (s = line ++ nl :: rest \/ (s = line /\ rest = [])).
(** The frame starts at the first "at", wherever that is. *)
Definition java_frame_text (s : str) (f : java_frame) (rest : str) : Prop :=
  exists r q line, first_at (L "at") s (L "at" ++ r) /\ past_blanks r q /\ line_and_rest q line rest /\ java_line line f.

(** ** An exception: "NAME: MESSAGE", its frames, and its cause. *)

Definition java_head (s name : str) (message : option str) (body : str) : Prop :=
  exists r after, past_blanks s r /\ r = name ++ after /\ name <> [] /\ without (L ": " ++ [tab; nl]) name /\ stops_at (L ": " ++ [tab; nl]) after /\
    ((exists q q' text, after = ":"%char :: q /\ past_blanks q q' /\ line_and_rest q' text body /\ optional text message) \/
     (~ begins (L ":") after /\ exists junk, line_and_rest after junk body /\ message = None)).
(** What comes after the frames: nothing, a line "... " or "Suppressed: ", or a cause. *)
Inductive java_next := no_more | elided (r : str) | cause (r : str).
Inductive java_lines : str -> list java_frame -> java_next -> Prop :=
| jl_end : java_lines [] [] no_more
| jl_frame s r f q fs next : s <> [] -> past_blanks s r -> ~ begins (L "... ") r -> ~ begins (L "Suppressed: ") r -> ~ begins (L "Caused by: ") r ->
  java_frame_text r f q -> java_lines q fs next -> java_lines s (f :: fs) next
| jl_elided s r : s <> [] -> past_blanks s r -> begins (L "... ") r \/ begins (L "Suppressed: ") r -> java_lines s [] (elided r)
| jl_cause s r : s <> [] -> past_blanks s (L "Caused by: " ++ r) -> java_lines s [] (cause r).
Definition next_line_is (s r : str) : Prop := exists line, line_and_rest s line r.
Inductive past_indented : str -> str -> Prop :=
| pi_stop s : not_blank_first s -> past_indented s s
| pi_line c s r q : space_char c -> next_line_is (c :: s) r -> past_indented r q -> past_indented (c :: s) q.
(** The line "... " or "Suppressed: " is left out, then blanks, then one suppressed exception. *)
Definition java_after (s r : str) : Prop :=
  exists l q, next_line_is s l /\ past_blanks l q /\
    ((~ begins (L "Suppressed: ") q /\ r = q) \/ (begins (L "Suppressed: ") q /\ exists l2, next_line_is q l2 /\ past_indented l2 r)).
Definition java_exception_frame (name : str) (message : option str) : java_frame := mk_java_frame (Some name) None 0 None false true message.
(** The frames of a cause come first. *)
Inductive java_exception : str -> list java_frame -> str -> Prop :=
| je_last s name message body fs : java_head s name message body -> java_lines body fs no_more ->
  java_exception s (java_exception_frame name message :: fs) []
| je_elided s name message body fs r q : java_head s name message body -> java_lines body fs (elided r) -> java_after r q -> ~ begins (L "Caused by: ") q ->
  java_exception s (java_exception_frame name message :: fs) q
| je_elided_cause s name message body fs r q inner rest : java_head s name message body -> java_lines body fs (elided r) -> java_after r (L "Caused by: " ++ q) ->
  java_exception q inner rest -> java_exception s (inner ++ java_exception_frame name message :: fs) rest
| je_cause s name message body fs r inner rest : java_head s name message body -> java_lines body fs (cause r) ->
  java_exception r inner rest -> java_exception s (inner ++ java_exception_frame name message :: fs) rest.
(** The whole, perhaps with the name of the thread. *)
Definition thread_mark : str := L "Exception in thread """.
Definition java_thread_text (s : str) (t : java_thread) (rest : str) : Prop :=
  (exists name r fs, s = thread_mark ++ name ++ [dquote] ++ r /\ without [dquote; nl] name /\ java_exception r fs rest /\ t = mk_java_thread (Some name) fs) \/
  (~ begins thread_mark s /\ exists fs, java_exception s fs rest /\ t = mk_java_thread None fs).

(** ** How an exception is printed; [decimal] prints a number. *)

Definition java_path_ok (p : str) : Prop :=
  without (L "]" ++ [nl]) p /\ ~ begins (L "/home/") p /\
  ((exists a b, p = a ++ "/"%char :: b /\ ~ In ":"%char a /\ ~ In "/"%char a) \/
   (exists scheme r, p = scheme ++ ":"%char :: r /\ ~ In ":"%char scheme /\ ~ In "/"%char scheme /\ scheme <> L "jar" /\ scheme <> L "file")).
Definition java_showable (f : java_frame) : Prop :=
  vf_is_exception f = false /\ vf_message f = None /\ (0 <= vf_file_line f < 2 ^ 32)%Z /\
  (forall n, vf_name f = Some n -> n <> [] /\ not_blank_first n /\ ~ In "("%char n /\ ~ In nl n) /\
  (vf_is_native f = true -> vf_file_name f = None) /\
  (forall n, vf_file_name f = Some n -> n <> [] /\ without (L ":)" ++ [nl]) n /\ ~ begins (L "Native Method") n /\ ~ begins (L "Unknown Source") n /\ ~ begins (L "/home/") n) /\
  (forall p, vf_class_path f = Some p -> java_path_ok p).
(** As Java prints it, without a class path. *)
Definition java_show (decimal : N -> str) (f : java_frame) : str :=
  [tab] ++ L "at " ++ match vf_name f with Some n => n | None => [] end ++ L "(" ++
  (if vf_is_native f then L "Native Method" else match vf_file_name f with Some n => n | None => L "Unknown Source" end) ++
  (if (vf_file_line f =? 0)%Z then [] else L ":" ++ decimal (Z.to_N (vf_file_line f))) ++ L ")".
(** After the frames of an exception that is a cause: "... 5 more", and the exceptions suppressed by it,
    in lines that start with a blank. *)
Definition indented (l : str) : Prop := ~ In nl l /\ exists c r, l = c :: r /\ space_char c.
Inductive java_elision : str -> Prop :=
| el_none : java_elision []
| el_more n : ~ In nl n -> java_elision ([tab] ++ L "... " ++ n ++ [nl])
| el_suppressed n s ls : ~ In nl n -> ~ In nl s -> Forall indented ls ->
  java_elision ([tab] ++ L "... " ++ n ++ [nl] ++ [tab] ++ L "Suppressed: " ++ s ++ [nl] ++ concat (map (fun l => l ++ [nl]) ls)).
(** An exception of the chain: its name and message, its frames, their texts, and what is left out. *)
Record java_link := mk_java_link {
  jk_name : str;
  jk_message : option str;
  jk_frames : list java_frame;
  jk_texts : list str;
  jk_elision : str }.
Definition link_ok (shows : java_frame -> str -> Prop) (k : java_link) : Prop :=
  jk_name k <> [] /\ without (L ": " ++ [tab; nl]) (jk_name k) /\ not_blank_first (jk_name k) /\
  (forall m, jk_message k = Some m -> m <> [] /\ ~ In nl m /\ not_blank_first m) /\
  Forall2 shows (jk_frames k) (jk_texts k) /\ java_elision (jk_elision k).
Definition link_text (k : java_link) : str :=
  jk_name k ++ match jk_message k with Some m => L ": " ++ m | None => [] end ++ [nl] ++ concat (map (fun t => t ++ [nl]) (jk_texts k)) ++ jk_elision k.
Definition link_frames (k : java_link) : list java_frame := java_exception_frame (jk_name k) (jk_message k) :: jk_frames k.
(** The outermost exception, then its causes. *)
Fixpoint causes_text (ks : list java_link) : str := match ks with [] => [] | k :: ks => L "Caused by: " ++ link_text k ++ causes_text ks end.
Definition chain_text (k : java_link) (ks : list java_link) : str := link_text k ++ causes_text ks.
