(** * C82: where and why a text is refused *)
From Verif Require Import Base Types UtilsSpec UtilsModel JsonModel ParseSpec JsParseSpec RubyParseSpec LocParseModel LocParseSpec LocParseProofs2 LocParseProofs3 LocParseProofs4 LocParseProofs5.
Open Scope nat_scope.

(** A JavaScript text gives a stack trace exactly when it is one, and otherwise an error; never neither. *)
Theorem C82_js_either text : (exists t, parse_wrapper js_stacktrace_loc text = Ok (inl t) /\ js_text text t) \/ ((exists m, parse_wrapper js_stacktrace_loc text = Ok (inr m)) /\ forall t, ~ js_text text t).
Proof. exact (js_total text). Qed.
(** The error names a line and a column.  The text is sound up to that place, and there it goes wrong for one of
    thirteen reasons; only where there are no frames the column is two short.  The reason is not in the error. *)
Theorem C82_js_error text m : parse_wrapper js_stacktrace_loc text = Ok (inr m) ->
  exists why pre suf short ln col, text = pre ++ suf /\ js_wrong why pre suf short /\ pos_of pre ln (col + short) /\
    m = L "Line " ++ print_Z ln ++ L ", column " ++ print_Z col ++ L ": The stacktrace does not match any JavaScript dialect".
Proof. exact (js_told text m). Qed.
(** The V8 parser gives the reason. *)
Theorem C82_js_reason text : match js_stacktrace_v8_loc text sr_location_init with
  | Took _ _ => True
  | Refused l => exists why pre suf short, text = pre ++ suf /\ js_wrong why pre suf short /\ pos_of pre (line l) (column l + short) /\ message l = Some why
  | Broken => False
  end.
Proof. exact (js_v8_loc text). Qed.
(** A frame: the location is at the end of it, or where it goes wrong, on the same line. *)
Theorem C82_js_frame s l : match js_frame_v8_loc s l with
  | Took (_, rest) l' => exists ln, s = ln ++ rest /\ ~ In nl ln /\ line l' = line l /\ column l' = (column l + Z.of_nat (length ln))%Z
  | Refused l' => exists why u v, s = u ++ v /\ ~ In nl u /\ js_frame_wrong why u v /\ l' = mk_location (line l) (column l + Z.of_nat (length u)) (Some why)
  | Broken => False
  end.
Proof. exact (frame_loc s l). Qed.
(** sr_js_frame_parse: the same place, without the reason. *)
Theorem C82_js_any_frame s l : match js_frame_loc s l with
  | Took (_, rest) l' => exists ln, s = ln ++ rest /\ ~ In nl ln /\ line l' = line l /\ column l' = (column l + Z.of_nat (length ln))%Z
  | Refused l' => exists why u v, s = u ++ v /\ ~ In nl u /\ js_frame_wrong why u v /\ l' = mk_location (line l) (column l + Z.of_nat (length u)) (Some (L "The frame does not match any JavaScript dialect"))
  | Broken => False
  end.
Proof. exact (any_frame_loc s l). Qed.
(** Ruby likewise. *)
Theorem C82_ruby_either text : (exists t, parse_wrapper ruby_stacktrace_loc text = Ok (inl t) /\ ruby_text text t) \/ ((exists m, parse_wrapper ruby_stacktrace_loc text = Ok (inr m)) /\ forall t, ~ ruby_text text t).
Proof. exact (ruby_total text). Qed.
(** The error names a line, a column and the reason. *)
Theorem C82_ruby_error text m : parse_wrapper ruby_stacktrace_loc text = Ok (inr m) ->
  exists why start cur suf n short, text = start ++ cur ++ suf /\ ruby_wrong why start cur suf n short /\
    m = L "Line " ++ print_Z n ++ L ", column " ++ print_Z (Z.of_nat (length cur) - short) ++ L ": " ++ why.
Proof. exact (ruby_told text m). Qed.
(** The line is the true one when every frame, and the message, is on one line. *)
Theorem C82_ruby_position why start cur suf n short : ruby_wrong why start cur suf n short -> (1 + Z.of_nat (count_occ ascii_dec start nl) = n)%Z -> ~ In nl cur ->
  pos_of (start ++ cur) n (Z.of_nat (length cur)).
Proof. exact (ruby_position why start cur suf n short). Qed.
(** A Ruby frame. *)
Theorem C82_ruby_frame s l : match ruby_frame_loc s l with
  | Took (f, rest) l' => exists text lost, s = text ++ rest /\ ruby_frame_text (text ++ rest) f rest /\ ruby_frame_read text rest lost /\
      (line l' = line l /\ column l' = (column l + Z.of_nat (length text) - lost)%Z) /\ text <> []
  | Refused l' => exists why pre suf short, s = pre ++ suf /\ ruby_frame_wrong why pre suf short /\ l' = mk_location (line l) (column l + Z.of_nat (length pre) - short) (Some why)
  | Broken => False
  end.
Proof. exact (ruby_frame_step s l). Qed.

(** Where the code falls short.  A trace without frames: the column is two short. *)
Theorem C82_js_short_refuted : exists text, parse_wrapper js_stacktrace_loc text = Ok (inr (L "Line 1, column 6: The stacktrace does not match any JavaScript dialect")) /\ js_wrong (L "Stack trace does not include any frames.") text [] 2 /\ length text = 8.
Proof.
  exists (L "Error: x"). split; [vm_compute; reflexivity|]. split; [|reflexivity]. apply (jw_no_frames (L "Error") (L "x")); [discriminate| |]; repeat constructor; cbn; intuition discriminate.
Qed.
(** Two texts wrong for different reasons, the same error. *)
Theorem C82_js_reason_lost_refuted : exists a b m, parse_wrapper js_stacktrace_loc a = Ok (inr m) /\ parse_wrapper js_stacktrace_loc b = Ok (inr m) /\
  (exists l l', js_stacktrace_v8_loc a sr_location_init = Refused l /\ js_stacktrace_v8_loc b sr_location_init = Refused l' /\ message l <> message l').
Proof.
  exists (L "Error"), (L ": x"), (L "Line 1, column 0: The stacktrace does not match any JavaScript dialect"). split; [vm_compute; reflexivity|]. split; [vm_compute; reflexivity|].
  eexists _, _. split; [vm_compute; reflexivity|]. split; [vm_compute; reflexivity|]. discriminate.
Qed.
(** A negative column. *)
Theorem C82_ruby_negative_refuted : exists text, parse_wrapper ruby_stacktrace_loc text = Ok (inr (L "Line 1, column -2: Topmost stacktrace frame not found: Unable to find ':in ' preceding the backtick character.")).
Proof. exists (L "ab`"). vm_compute. reflexivity. Qed.
(** "block in " is counted one short: what is missing at the end of the text is told one column before it. *)
Theorem C82_ruby_block_refuted : exists text, parse_wrapper ruby_stacktrace_loc text = Ok (inr (L "Line 1, column 21: Unable to find the colon after first function name.")) /\ length text = 22 /\
  exists t, parse_wrapper ruby_stacktrace_loc (text ++ L ": x (E)" ++ [nl]) = Ok (inl t).
Proof. exists (L "a.rb:1:in `block in f'"). split; [vm_compute; reflexivity|]. split; [reflexivity|]. eexists. vm_compute. reflexivity. Qed.
(** A message of two lines: what is wrong on the third line is told of the second. *)
Theorem C82_ruby_line_refuted : exists start bad good, parse_wrapper ruby_stacktrace_loc (start ++ bad) = Ok (inr (L "Line 2, column 0: Frame header not found.")) /\ pos_of start 3 0 /\
  exists t, parse_wrapper ruby_stacktrace_loc (start ++ good) = Ok (inl t).
Proof.
  exists (L "a.rb:1:in `f': one" ++ [nl] ++ L "two (E)" ++ [nl]), (tab :: L "bad"), (tab :: L "from a.rb:1:in `g'"). split; [vm_compute; reflexivity|]. split; [|eexists; vm_compute; reflexivity].
  exists (L "a.rb:1:in `f': one" ++ [nl] ++ L "two (E)" ++ [nl]), []. split; [rewrite app_nil_r; reflexivity|]. split; [intros []|]. split; [right; eexists; rewrite !app_assoc; reflexivity|]. vm_compute. auto.
Qed.

(** ** The hypotheses are met *)
Example C82_js_bad_column : parse_wrapper js_stacktrace_loc (L "Error: x" ++ [nl] ++ L "  at a.js:1:2" ++ [nl] ++ L "  at f (b.js:3:4x)") = Ok (inr (L "Line 3, column 17: The stacktrace does not match any JavaScript dialect")).
Proof. vm_compute. reflexivity. Qed.
Example C82_js_bad_column_reason : exists l, js_stacktrace_v8_loc (L "Error: x" ++ [nl] ++ L "  at a.js:1:2" ++ [nl] ++ L "  at f (b.js:3:4x)") sr_location_init = Refused l /\ message l = Some (L "Line column contains ilegal symbol.").
Proof. eexists. split; [vm_compute; reflexivity|reflexivity]. Qed.
Example C82_js_overflow : exists l, js_frame_v8_loc (L "at a.js:4294967296:1") sr_location_init = Refused l /\ message l = Some (L "Failed to parse file line.") /\ column l = 8%Z.
Proof. eexists. split; [vm_compute; reflexivity|]. split; reflexivity. Qed.
Example C82_js_taken : exists x, js_frame_v8_loc (L " at a.js:3:1" ++ [nl] ++ L "q") sr_location_init = Took x (mk_location 1 12 None).
Proof. eexists. vm_compute. reflexivity. Qed.
Example C82_js_good : exists t, parse_wrapper js_stacktrace_loc (L "Error: x" ++ [nl] ++ L "  at a.js:1:2") = Ok (inl t).
Proof. eexists. vm_compute. reflexivity. Qed.
Example C82_ruby_bad_frame : parse_wrapper ruby_stacktrace_loc (L "a.rb:1:in `f': x (E)" ++ [nl; tab] ++ L "from b.rb:2:in `g'" ++ [nl; tab] ++ L "from b.rb:2:in `<g'") = Ok (inr (L "Line 3, column 19: Unable to find the "">"" character delimiting the function name.")).
Proof. vm_compute. reflexivity. Qed.
Example C82_ruby_bad_top : parse_wrapper ruby_stacktrace_loc (L "a.rb:x:in `f'") = Ok (inr (L "Line 1, column 10: Topmost stacktrace frame not found: Unable to find line number before ':in '")).
Proof. vm_compute. reflexivity. Qed.
Example C82_ruby_depth : exists l, ruby_frame_loc (L "a:1:in `rescue in block (x levels) in f'") sr_location_init = Refused l /\ message l = Some (L "Unable to parse block depth.") /\ column l = 25%Z.
Proof. eexists. split; [vm_compute; reflexivity|]. split; reflexivity. Qed.
Example C82_ruby_one_line : ruby_wrong (L "Frame header not found.") (L "a:1:in `f': x (E)" ++ [nl]) [] (tab :: L "bad") 2 0.
Proof.
  assert (N : number32 (L "1") 1%N) by (split; [constructor; reflexivity|discriminate]).
  apply (rw_header (L "a:1:in `f'") 0 (L "x (E)" ++ [nl]) (L "E") [] [] (tab :: L "bad")).
  - exists (L "a:1:in "), [], (L "f': x (E)" ++ [nl] ++ tab :: L "bad"), (L "f"), false. split; [reflexivity|].
    split; [exists (L "a"), (L "1"), 1%N; split; [reflexivity|]; split; [exact N|repeat constructor; cbn; intuition discriminate]|].
    split; [exists 0; left; repeat split; intros [z Ez]; discriminate Ez|]. split; [discriminate|]. split; [repeat constructor; cbn; intuition discriminate|]. split; [reflexivity|intros [z Ez]; discriminate Ez].
  - repeat constructor; cbn; intuition discriminate.
  - exists (L "x "). split; [reflexivity|]. split; [discriminate|]. cbn. intuition discriminate.
  - constructor.
  - discriminate.
  - intros [z Ez]. discriminate Ez.
Qed.
Print Assumptions C82_js_either.
Print Assumptions C82_js_error.
Print Assumptions C82_js_reason.
Print Assumptions C82_js_frame.
Print Assumptions C82_ruby_either.
Print Assumptions C82_ruby_error.
Print Assumptions C82_ruby_position.
Print Assumptions C82_ruby_frame.
Print Assumptions C82_js_short_refuted.
Print Assumptions C82_js_reason_lost_refuted.
Print Assumptions C82_ruby_negative_refuted.
Print Assumptions C82_ruby_block_refuted.
Print Assumptions C82_ruby_line_refuted.
Print Assumptions C82_js_any_frame.
