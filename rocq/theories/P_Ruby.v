(** * C40: the Ruby backtrace parser. *)
From Verif Require Import Base Types UtilsSpec UtilsModel JsonModel ParseSpec ParseModel RubyParseModel RubyParseSpec RubyParseProofs.

(** The parser accepts exactly the texts that are a Ruby backtrace, with exactly that backtrace as result. *)
Theorem C40_accepts_exactly s t : sr_ruby_stacktrace_parse s = Ok (t, []) <-> ruby_text s t.
Proof. exact (ruby_iff s t). Qed.
(** On success the whole text is consumed. *)
Theorem C40_consumes_all s t rest : sr_ruby_stacktrace_parse s = Ok (t, rest) -> rest = [].
Proof. exact (ruby_end s t rest). Qed.
(** It never reads outside the text. *)
Theorem C40_safe s : sr_ruby_stacktrace_parse s <> UB.
Proof. exact (ruby_not_UB s). Qed.
(** The same for one frame, which leaves the cursor behind it. *)
Theorem C40_frame_exact s f rest : sr_ruby_frame_parse s = Ok (f, rest) <-> ruby_frame_text s f rest.
Proof. exact (frame_iff s f rest). Qed.
Theorem C40_frame_safe s : sr_ruby_frame_parse s <> UB.
Proof. exact (frame_not_UB s). Qed.
(** A formatted trace is read back. *)
Theorem C40_roundtrip f text fs texts message class :
  ruby_shows print_N f text -> Forall2 (ruby_shows print_N) fs texts ->
  without [tab] message -> without [tab] class -> class <> [] -> ~ In "("%char class ->
  sr_ruby_stacktrace_parse (ruby_show_trace message class text texts) = Ok (mk_ruby_stacktrace (Some class) (f :: fs), []).
Proof. exact (ruby_roundtrip f text fs texts message class). Qed.

Definition frame_a := mk_ruby_frame (Some (L "/usr/share/a.rb")) 12 false (Some (L "read")) 2 1.
Definition frame_b := mk_ruby_frame (Some (L "/usr/bin/b:c")) 7 true (Some (L "main")) 0 0.
Definition text_a := L "/usr/share/a.rb:12:in `rescue in block (2 levels) in read'".
Definition text_b := L "/usr/bin/b:c:7:in `<main>'".
Ltac chars := repeat constructor; intros H; repeat (destruct H as [H|H]; [discriminate H|]); contradiction H.
Example shows_a : ruby_shows print_N frame_a text_a.
Proof.
  apply (ruby_shown print_N frame_a (L "/usr/share/a.rb") (L "read")). unfold ruby_showable. cbn [rf_file_name rf_function_name rf_file_line rf_block_level rf_rescue_level frame_a].
  repeat (split; [first [reflexivity | lia | discriminate | chars | intros [r E]; discriminate E]|]). intros [r E]; discriminate E.
Qed.
Example shows_b : ruby_shows print_N frame_b text_b.
Proof.
  apply (ruby_shown print_N frame_b (L "/usr/bin/b:c") (L "main")). unfold ruby_showable. cbn [rf_file_name rf_function_name rf_file_line rf_block_level rf_rescue_level frame_b].
  repeat (split; [first [reflexivity | lia | discriminate | chars | intros [r E]; discriminate E]|]). intros [r E]; discriminate E.
Qed.
Example whole : sr_ruby_stacktrace_parse (text_a ++ L ": no (more) data (EOFError)" ++ [nl] ++ tab :: L "from " ++ text_b ++ [nl]) =
  Ok (mk_ruby_stacktrace (Some (L "EOFError")) [frame_a; frame_b], []).
Proof.
  apply (C40_roundtrip frame_a text_a [frame_b] [text_b] (L "no (more) data") (L "EOFError") shows_a);
    [repeat constructor; exact shows_b|chars|chars|discriminate|]. intros H; repeat (destruct H as [H|H]; [discriminate H|]); contradiction H.
Qed.
Example whole_text : exists s t, ruby_text s t /\ length (rs_frames t) = 2.
Proof. eexists. eexists. split; [apply C40_accepts_exactly; exact whole|reflexivity]. Qed.
(** A path below /home is anonymized; rejected texts. *)
Example home : sr_ruby_frame_parse (L "/home/joe/x.rb:1:in `f': m") = Ok (mk_ruby_frame (Some (L "/home/anonymized/x.rb")) 1 false (Some (L "f")) 0 0, L ": m").
Proof. reflexivity. Qed.
Example rejected : sr_ruby_frame_parse (L "x.rb:in `f'") = Fail /\ sr_ruby_frame_parse (L "x.rb:4294967296:in `f'") = Fail /\ sr_ruby_frame_parse (L "1:in `f'") = Fail.
Proof. repeat split. Qed.

Print Assumptions C40_accepts_exactly.
Print Assumptions C40_consumes_all.
Print Assumptions C40_safe.
Print Assumptions C40_frame_exact.
Print Assumptions C40_frame_safe.
Print Assumptions C40_roundtrip.
