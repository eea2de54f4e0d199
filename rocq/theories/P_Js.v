(** * C41: the V8 backtrace parser. *)
From Verif Require Import Base Types UtilsSpec UtilsModel JsonModel TextModel ParseSpec ParseModel JsParseModel JsParseSpec JsParseProofs.
Open Scope nat_scope.

(** The parser accepts exactly the texts that are a V8 stack trace, with exactly that trace as result. *)
Theorem C41_accepts_exactly s t : sr_js_stacktrace_parse s = Ok (t, []) <-> js_text s t.
Proof. exact (js_iff s t). Qed.
Theorem C41_consumes_all s t rest : sr_js_stacktrace_parse s = Ok (t, rest) -> rest = [].
Proof. exact (js_end s t rest). Qed.
(** It never reads outside the text. *)
Theorem C41_safe s : sr_js_stacktrace_parse s <> UB.
Proof. exact (js_not_UB s). Qed.
Theorem C41_frame_exact s f rest : sr_js_frame_parse s = Ok (f, rest) <-> js_frame_text s f rest.
Proof. exact (js_frame_iff s f rest). Qed.
Theorem C41_frame_safe s : sr_js_frame_parse s <> UB.
Proof. exact (js_frame_not_UB s). Qed.
(** A frame written by satyr is read back, whatever follows on the next lines. *)
Theorem C41_frame_roundtrip f text rest : js_showable f -> sr_js_frame_append_to_str f = Ok text -> stops_at [nl] rest ->
  sr_js_frame_parse (text ++ rest) = Ok (f, rest).
Proof. exact (js_frame_roundtrip f text rest). Qed.
(** A whole trace of such frames is read back. *)
Theorem C41_roundtrip class message fs texts : class <> [] -> without [":"%char; nl] class -> without [nl] message ->
  Forall js_showable fs -> Forall2 (fun f t => sr_js_frame_append_to_str f = Ok t) fs texts ->
  sr_js_stacktrace_parse (class ++ L ": " ++ message ++ [nl] ++ concat (map (fun t => L "    " ++ t ++ [nl]) texts)) = Ok (mk_js_stacktrace (Some class) fs 1, []).
Proof. exact (js_roundtrip class message fs texts). Qed.

Ltac chars := repeat constructor; intros H; repeat (destruct H as [H|H]; [discriminate H|]); contradiction H.
Ltac notin := intros H; repeat (destruct H as [H|H]; [discriminate H|]); contradiction H.
Definition js_a := mk_js_frame (Some (L "C:\x y(1).js")) 6 22 (Some (L "Object.<anonymous>")).
Definition js_b := mk_js_frame (Some (L "boot:node.js")) 357 29 None.
Example showable_a : js_showable js_a.
Proof.
  split; [cbn; lia|]. split; [cbn; lia|]. split.
  - eexists. split; [reflexivity|]. split; [discriminate|]. split; [notin|]. split; [intros [r E]; discriminate E|]. discriminate.
  - intros name E. apply (f_equal (fun x => match x with Some y => y | None => [] end)) in E. cbn [js_a jf_function_name] in E. subst name. split; [discriminate|]. split; notin.
Qed.
Example showable_b : js_showable js_b.
Proof.
  split; [cbn; lia|]. split; [cbn; lia|]. split.
  - eexists. split; [reflexivity|]. split; [discriminate|]. split; [notin|]. split; [intros [r E]; discriminate E|]. intros _ [r E]. discriminate E.
  - intros name E. discriminate E.
Qed.
Example whole : sr_js_stacktrace_parse (L "ReferenceError: x is not defined" ++ [nl] ++ L "    at Object.<anonymous> (C:\x y(1).js:6:22)" ++ [nl] ++ L "    at boot:node.js:357:29" ++ [nl]) =
  Ok (mk_js_stacktrace (Some (L "ReferenceError")) [js_a; js_b] 1, []).
Proof.
  apply (C41_roundtrip (L "ReferenceError") (L "x is not defined") [js_a; js_b] [L "at Object.<anonymous> (C:\x y(1).js:6:22)"; L "at boot:node.js:357:29"]);
    [discriminate|chars|chars|apply Forall_cons; [exact showable_a|apply Forall_cons; [exact showable_b|constructor]]|repeat constructor].
Qed.
Example whole_text : exists s t, js_text s t /\ length (js_frames t) = 2.
Proof. eexists. eexists. split; [apply C41_accepts_exactly; exact whole|reflexivity]. Qed.
(** A function name with a space - V8 writes "new Foo" and "async f" - is cut at the space, so such a frame
    does not survive. *)
Theorem C41_function_with_space_refuted : exists f text, sr_js_frame_append_to_str f = Ok text /\
  exists g, sr_js_frame_parse text = Ok (g, []) /\ jf_function_name f = Some (L "new Foo") /\ jf_function_name g = Some (L "new").
Proof. exists (mk_js_frame (Some (L "a.js")) 1 2 (Some (L "new Foo"))). eexists. split; [reflexivity|]. eexists. split; [reflexivity|]. auto. Qed.
Example rejected : sr_js_frame_parse (L "at ") = Fail /\ sr_js_frame_parse (L "at )") = Fail /\ sr_js_frame_parse (L "at f ()") = Fail /\ sr_js_frame_parse (L "at :1:2") = Fail /\
  sr_js_frame_parse (L "at a:1:4294967296") = Fail /\ sr_js_stacktrace_parse (L "Error: no frames") = Fail.
Proof. repeat split. Qed.

Print Assumptions C41_accepts_exactly.
Print Assumptions C41_consumes_all.
Print Assumptions C41_safe.
Print Assumptions C41_frame_exact.
Print Assumptions C41_frame_safe.
Print Assumptions C41_frame_roundtrip.
Print Assumptions C41_roundtrip.
Print Assumptions C41_function_with_space_refuted.
