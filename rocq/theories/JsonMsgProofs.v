(** * Reading JSON with messages: stack traces. *)
From Verif Require Import Base Types UtilsModel JsonSpec JsonModel JsonTypesModel SystemModel TextModel ReportModel JsonMsgModel JsonMsgSpec.
Open Scope nat_scope.

(** A reader with messages, what there is to complain about and the reader without messages: they agree, but for what
    breaks. *)
Definition agree (B : Prop) {A} (x : told A) (c : option str) (r : res A) : Prop :=
  (B /\ x = Breaks /\ r = UB) \/ match c with None => exists a, x = Gives a [] /\ r = Ok a | Some m => x = Refuses [m] /\ r = Fail end.

Lemma agree_give B {A} (a : A) : agree B (give a) None (Ok a).
Proof. right. exists a. split; reflexivity. Qed.
Lemma agree_refuse B {A} m : agree B (@Refuses A [m]) (Some m) Fail.
Proof. right. split; reflexivity. Qed.
Lemma after_nil {A} (x : told A) : after [] x = x.
Proof. destruct x; reflexivity. Qed.
Lemma agree_then B {A C} (x : told A) c r (f : A -> told C) g d : agree B x c r -> (forall a, r = Ok a -> agree B (f a) d (g a)) -> agree B (then_ x f) (or_else c d) (bind r g).
Proof.
  intros [(H & -> & ->)|X] F; [left; repeat split; exact H|]. destruct c as [m|]; cbn [or_else].
  - destruct X as (-> & ->). right. split; reflexivity.
  - destruct X as (a & -> & ->). cbn [then_ bind]. rewrite after_nil. exact (F a eq_refl).
Qed.
(** The value is only put into place. *)
Lemma or_none {A} (c : option A) : or_else c None = c.
Proof. destruct c; reflexivity. Qed.
Lemma agree_last B {A C} (x : told A) c r (f : A -> told C) g : agree B x c r -> (forall a, r = Ok a -> agree B (f a) None (g a)) -> agree B (then_ x f) c (bind r g).
Proof. intros X F. rewrite <- (or_none c). apply (agree_then B x c r); assumption. Qed.
Lemma agree_map B {A C} (x : told A) c r (h : A -> C) : agree B x c r -> agree B (ask a <- x; give (h a)) c (do a <- r; Ok (h a)).
Proof. intros X. rewrite <- (or_none c). apply (agree_then B x c r); [exact X|]. intros a _. apply agree_give. Qed.
Lemma agree_weaken (B C : Prop) {A} (x : told A) c r : (B -> C) -> agree B x c r -> agree C x c r.
Proof. intros H [(HB & X)|X]; [left; split; [exact (H HB)|exact X]|right; exact X]. Qed.

(** ** Members *)
Definition found (o : list (str * json)) (key : str) (f : json -> option str) : option str := match jget key o with Some x => f x | None => None end.
Lemma agree_uint64 B o key d : agree B (read_uint64 o key d) (found o key (complaint key Whole)) (json_read_uint64 o key d).
Proof. unfold read_uint64, read, json_read_uint64, json_read, found. destruct (jget key o) as [[]|]; try apply agree_give; apply agree_refuse. Qed.
Lemma agree_uint32 B o key d : agree B (read_uint32 o key d) (found o key (complaint key Whole)) (json_read_uint32 o key d).
Proof. unfold read_uint32, read, json_read_uint32, json_read, found. destruct (jget key o) as [[]|]; try apply agree_give; apply agree_refuse. Qed.
Lemma agree_uint16 B o key d : agree B (read_uint16 o key d) (found o key (complaint key Whole)) (json_read_uint16 o key d).
Proof. unfold read_uint16, read, json_read_uint16, json_read, found. destruct (jget key o) as [[]|]; try apply agree_give; apply agree_refuse. Qed.
Lemma agree_string B o key d : agree B (read_string o key d) (found o key (complaint key Text)) (json_read_string o key d).
Proof. unfold read_string, read, json_read_string, json_read, found. destruct (jget key o) as [[]|]; try apply agree_give; apply agree_refuse. Qed.
Lemma agree_bool B o key d : agree B (read_bool o key d) (found o key (complaint key Bool_)) (json_read_bool o key d).
Proof. unfold read_bool, read, json_read_bool, json_read, found. destruct (jget key o) as [[]|]; try apply agree_give; apply agree_refuse. Qed.
Lemma agree_name B o key : agree B (when o key None (fun j => ask s <- string_of key j; give (Some s))) (found o key (complaint key Text)) (json_read_string o key None).
Proof. unfold when, json_read_string, json_read, found. destruct (jget key o) as [[]|]; try apply agree_give; apply agree_refuse. Qed.
Definition lacking (o : list (str * json)) (key : str) (c : option str) : option str := match jget key o with None => c | Some _ => None end.
Lemma agree_special B o key other : agree B (special o key other) (or_else (found o key (complaint key Text)) (lacking o key (found o other (complaint other Text)))) (read_special o key other).
Proof.
  unfold special, read_special, get_string_member, when, found, lacking. destruct (jget key o) as [[]|]; try apply agree_give; try apply agree_refuse.
  destruct (jget other o) as [[]|]; try apply agree_give; apply agree_refuse.
Qed.
Lemma agree_each B {A} (f : json -> told A) g name w l : (forall x, agree B (f x) (complaint name w x) (g x)) ->
  agree B (each f l) (fold_right (fun x r => or_else (complaint name w x) r) None l) (map_res g l).
Proof.
  intros F. induction l as [|x l IH]; [apply agree_give|]. cbn [each map_res fold_right]. apply agree_then; [apply F|]. intros a _. apply agree_last; [exact IH|]. intros r _. apply agree_give.
Qed.
Lemma agree_array B {A} (f : json -> told A) g name w o key : (forall x, agree B (f x) (complaint name w x) (g x)) ->
  agree B (array_of o key f) (found o key (complaint key (List_ name w))) (read_array o key g).
Proof.
  intros F. unfold array_of, when, read_array, found. destruct (jget key o) as [[]|]; try apply agree_give; try apply agree_refuse.
  unfold elements, json_check_type. cbn. rewrite after_nil. apply agree_each. exact F.
Qed.
(** ** Tables of members *)
Definition seen (o : list (str * json)) (e : condition * str * str * wanted) : option str :=
  let '(c, key, shown, w) := e in if due c o then found o key (complaint shown w) else None.
Lemma object_complaint name ms o : complaint name (Object_ ms) (JObj o) = fold_right (fun e r => or_else (seen o e) r) None ms.
Proof. cbn [complaint]. induction ms as [|[[[c key] shown] w] ms IH]; [reflexivity|]. cbn [fold_right]. rewrite <- IH. unfold seen, found. reflexivity. Qed.
Lemma or_assoc {A} (a b c : option A) : or_else (or_else a b) c = or_else a (or_else b c).
Proof. destruct a; reflexivity. Qed.
Lemma seen_always o key shown w : seen o (Always, key, shown, w) = found o key (complaint shown w).
Proof. reflexivity. Qed.
Lemma seen_field o key w : seen o (field key w) = found o key (complaint key w).
Proof. reflexivity. Qed.
Lemma seen_unless o other key shown w : seen o (Unless other, key, shown, w) = lacking o other (found o key (complaint shown w)).
Proof. unfold seen, due, lacking. destruct (jget other o); reflexivity. Qed.

Ltac chain := rewrite object_complaint; unfold name_or; cbn [app fold_right]; rewrite ?seen_field, ?seen_unless;
  repeat (first [apply agree_then; [first [apply agree_uint64|apply agree_uint32|apply agree_uint16|apply agree_string|apply agree_bool|apply agree_name]|intros ? _] | apply agree_give]).
Ltac object j := destruct j as [| | | | |o]; try apply agree_refuse; unfold members, json_check_type; cbn [json_object_is_type then_ give]; rewrite after_nil.

Lemma core_frame_ok B j : agree B (core_frame j) (complaint (L "frame") core_frame_table j) (core_frame_from_json j).
Proof. unfold core_frame, core_frame_from_json, core_frame_table. object j. chain. Qed.
Lemma core_thread_ok B j : agree B (core_thread j) (complaint (L "thread") (Object_ [field (L "frames") (List_ (L "frame") core_frame_table)]) j) (core_thread_from_json j).
Proof.
  unfold core_thread, core_thread_from_json. object j. rewrite object_complaint. cbn [fold_right]. rewrite seen_field. apply agree_then; [|intros; apply agree_give].
  apply agree_array. intros x. apply core_frame_ok.
Qed.
Definition core_thread_table := Object_ [field (L "frames") (List_ (L "frame") core_frame_table); field (L "crash_thread") Bool_].
Lemma core_threads_ok B l : forall i crash, agree B (core_threads l i crash) (fold_right (fun x r => or_else (complaint (L "thread") core_thread_table x) r) None l) (core_read_threads l i crash).
Proof.
  induction l as [|j l IH]; intros i crash; [apply agree_give|]. cbn [core_threads core_read_threads fold_right].
  assert (S1 : complaint (L "thread") core_thread_table j = or_else (complaint (L "thread") (Object_ [field (L "frames") (List_ (L "frame") core_frame_table)]) j)
    (match j with JObj o => found o (L "crash_thread") (complaint (L "crash_thread") Bool_) | _ => None end)).
  { destruct j as [| | | | |o]; try reflexivity. unfold core_thread_table. rewrite !object_complaint. cbn [fold_right]. rewrite !seen_field, or_assoc, or_none. reflexivity. }
  rewrite S1, or_assoc. apply agree_then; [apply core_thread_ok|]. intros t _. apply agree_then.
  - destruct j as [| | | | |o]; try apply agree_give. unfold when, found. destruct (jget (L "crash_thread") o) as [[|[]| | | |]|]; try apply agree_give; apply agree_refuse.
  - intros crash' _. apply agree_last; [apply IH|]. intros [ts c] _. apply agree_give.
Qed.
Lemma core_ok B j : agree B (core_stacktrace j) (complaint (L "stacktrace") core_table j) (core_stacktrace_from_json j).
Proof.
  unfold core_stacktrace, core_stacktrace_from_json, core_table. object j. chain. apply agree_then; [|intros [ts c] _; apply agree_give].
  unfold when, found. destruct (jget (L "stacktrace") o) as [[| | | |l|]|]; try apply agree_give; try apply agree_refuse.
  unfold elements, json_check_type. cbn [json_object_is_type then_ give]. rewrite after_nil. exact (core_threads_ok B l 0 None).
Qed.
Lemma python_frame_ok B j : agree B (python_frame j) (complaint (L "frame") (Object_ (name_or (L "file_name") (L "special_file") ++ name_or (L "function_name") (L "special_function") ++
             [field (L "line_contents") Text; field (L "file_line") Whole])) j) (python_frame_from_json j).
Proof.
  unfold python_frame, python_frame_from_json. object j. rewrite object_complaint. unfold name_or. cbn [app fold_right]. rewrite !seen_field, !seen_unless. rewrite <- or_assoc.
  apply agree_then; [apply agree_special|]. intros [a b] _. rewrite <- or_assoc. apply agree_then; [apply agree_special|]. intros [c d] _. cbn [fst snd].
  apply agree_then; [apply agree_string|intros ? _]. apply agree_then; [apply agree_uint32|intros ? _]. apply agree_give.
Qed.
Lemma python_ok B j : agree B (python_stacktrace j) (complaint (L "stacktrace") python_table j) (python_stacktrace_from_json j).
Proof.
  unfold python_stacktrace, python_stacktrace_from_json, python_table. object j. rewrite object_complaint. cbn [fold_right]. rewrite !seen_field. apply agree_then; [apply agree_string|intros ? _].
  apply agree_then; [apply agree_array; intros x; apply python_frame_ok|intros ? _]. apply agree_give.
Qed.
Lemma ruby_frame_ok B j : agree B (ruby_frame j) (complaint (L "frame") (Object_ (field (L "file_name") Text :: name_or (L "function_name") (L "special_function") ++
             [field (L "file_line") Whole; field (L "block_level") Whole; field (L "rescue_level") Whole])) j) (ruby_frame_from_json j).
Proof.
  unfold ruby_frame, ruby_frame_from_json. object j. rewrite object_complaint. unfold name_or. cbn [app fold_right]. rewrite !seen_field, !seen_unless.
  apply agree_then; [apply agree_name|intros ? _]. rewrite <- or_assoc. apply agree_then; [apply agree_special|]. intros [q b] _. cbn [fst snd].
  do 3 (apply agree_then; [apply agree_uint32|intros ? _]). apply agree_give.
Qed.
Lemma ruby_ok B j : agree B (ruby_stacktrace j) (complaint (L "stacktrace") ruby_table j) (ruby_stacktrace_from_json j).
Proof.
  unfold ruby_stacktrace, ruby_stacktrace_from_json, ruby_table. object j. rewrite object_complaint. cbn [fold_right]. rewrite !seen_field. apply agree_then; [apply agree_string|intros ? _].
  apply agree_then; [apply agree_array; intros x; apply ruby_frame_ok|intros ? _]. apply agree_give.
Qed.
Lemma js_frame_ok B j : agree B (js_frame j) (complaint (L "frame") (Object_ [field (L "file_name") Text; field (L "function_name") Text; field (L "file_line") Whole; field (L "line_column") Whole]) j) (js_frame_from_json j).
Proof. unfold js_frame, js_frame_from_json. object j. chain. Qed.
Lemma platform_ok B j : agree B (js_platform j) (platform_complains j) (js_platform_from_json j).
Proof.
  unfold js_platform, js_platform_from_json, platform_complains. set (o := match j with JObj o => o | _ => [] end). clearbody o. unfold named at 1. unfold read_string at 1, read, json_read_string at 1, json_read.
  destruct (jget (L "engine") o) as [[| | |es| |]|]; try apply agree_refuse. unfold json_check_type at 1. cbn [json_object_is_type then_ give after as_string bind app].
  unfold js_engine_from_string. destruct (str_eqb es (L "V8")) eqn:E1; destruct (str_eqb es (L "<unknown>")) eqn:E2; cbn [negb andb orb Z.eqb]; try apply agree_refuse; cbn [or_else].
  1,2,3: unfold named, read_string, read, json_read_string, json_read;
    (destruct (jget (L "runtime") o) as [[| | |rs| |]|]; try apply agree_refuse); unfold json_check_type; cbn [json_object_is_type then_ give after as_string bind app];
    unfold js_runtime_from_string; destruct (str_eqb rs (L "Node.js")) eqn:E3; destruct (str_eqb rs (L "<unknown>")) eqn:E4; cbn [negb andb orb Z.eqb]; try apply agree_refuse; apply agree_give.
Qed.
Lemma js_ok B j : agree B (js_stacktrace j) (complaint (L "stacktrace") js_table j) (js_stacktrace_from_json j).
Proof.
  unfold js_stacktrace, js_stacktrace_from_json, js_table. object j. rewrite object_complaint. cbn [fold_right]. rewrite !seen_field. apply agree_then; [apply agree_string|intros ? _].
  apply agree_then; [apply agree_array; intros x; apply js_frame_ok|intros ? _]. apply agree_then; [|intros ? _; apply agree_give].
  unfold when, found. destruct (jget (L "platform") o); [apply platform_ok|apply agree_give].
Qed.
Lemma java_frame_ok B j : agree B (java_frame j) (complaint (L "frame") (Object_ [field (L "name") Text; field (L "file_name") Text; field (L "file_line") Whole; field (L "class_path") Text;
               field (L "is_native") Bool_; field (L "is_exception") Bool_; field (L "message") Text]) j) (java_frame_from_json j).
Proof. unfold java_frame, java_frame_from_json. object j. chain. Qed.
Lemma java_thread_ok B j : agree B (java_thread j) (complaint (L "thread") (Object_ [field (L "name") Text;
             field (L "frames") (List_ (L "frame") (Object_ [field (L "name") Text; field (L "file_name") Text; field (L "file_line") Whole; field (L "class_path") Text;
               field (L "is_native") Bool_; field (L "is_exception") Bool_; field (L "message") Text]))]) j) (java_thread_from_json j).
Proof.
  unfold java_thread, java_thread_from_json. object j. rewrite object_complaint. cbn [fold_right]. rewrite !seen_field. apply agree_then; [apply agree_string|intros ? _].
  apply agree_then; [apply agree_array; intros x; apply java_frame_ok|intros ? _]. apply agree_give.
Qed.
Lemma java_ok B j : agree B (java_stacktrace j) (complaint (L "stacktrace") java_table j) (java_stacktrace_from_json j).
Proof.
  unfold java_stacktrace, java_stacktrace_from_json, java_table. object j. rewrite object_complaint. cbn [fold_right]. rewrite !seen_field.
  apply agree_then; [apply agree_array; intros x; apply java_thread_ok|intros ? _]. apply agree_give.
Qed.
Lemma koops_frame_ok B j : agree B (koops_frame j) (complaint (L "frame") (Object_ [field (L "address") Whole; field (L "reliable") Bool_; field (L "function_name") Text; field (L "function_offset") Whole;
             field (L "function_length") Whole; field (L "module_name") Text; field (L "from_address") Whole; field (L "from_function_name") Text; field (L "from_function_offset") Whole;
             field (L "from_function_length") Whole; field (L "from_module_name") Text; field (L "special_stack") Text]) j) (koops_frame_from_json j).
Proof. unfold koops_frame, koops_frame_from_json. object j. chain. Qed.
Lemma taint_ok B l : forall vals, agree B (koops_taint l vals) (fold_right (fun x r => or_else (complaint (L "taint flag") Text x) r) None l) (koops_read_taint l vals).
Proof.
  induction l as [|j l IH]; intros vals; [apply agree_give|]. cbn [koops_taint koops_read_taint fold_right]. destruct j; try apply agree_refuse.
  unfold string_of, json_check_type. cbn [json_object_is_type then_ give app after complaint or_else]. rewrite after_nil. apply IH.
Qed.
Lemma modules_ok (B : Prop) l : forall i, (127 < i + length l -> B) -> (forall x, In x l -> (forall s, x <> JStr s) -> B) ->
  agree B (koops_modules l i) (fold_right (fun x r => or_else (complaint (L "module") Text x) r) None l) (koops_read_modules l i).
Proof.
  induction l as [|j l IH]; intros i HL HS; [apply agree_give|]. cbn [koops_modules koops_read_modules fold_right].
  destruct j as [| | |s| |]; try (left; split; [apply (HS _ (or_introl eq_refl)); discriminate|split; reflexivity]).
  unfold string_of, json_check_type. cbn [json_object_is_type then_ give app after complaint or_else]. destruct (127 <=? i) eqn:E.
  - apply Nat.leb_le in E. left. split; [apply HL; cbn; lia|split; reflexivity].
  - apply agree_last; [|intros ? _; apply agree_give]. apply IH; [intros H; apply HL; cbn; lia|]. intros x X. apply HS. right. exact X.
Qed.
Lemma koops_ok j : agree (~ modules_survive j) (koops_stacktrace j) (complaint (L "stacktrace") koops_table j) (koops_stacktrace_from_json j).
Proof.
  remember (~ modules_survive j) as B eqn:EB. unfold koops_stacktrace, koops_stacktrace_from_json, koops_table. object j. chain.
  apply agree_then; [|intros ? _; apply agree_then; [|intros ? _; apply agree_then; [apply agree_array; intros x; apply koops_frame_ok|intros ? _; apply agree_give]]].
  - unfold when, found. destruct (jget (L "taint_flags") o) as [[| | | |l|]|]; try apply agree_give; try apply agree_refuse.
    unfold elements, json_check_type. cbn [json_object_is_type then_ give]. rewrite after_nil. apply taint_ok.
  - unfold when, found. destruct (jget (L "modules") o) as [[| | | |l|]|] eqn:M; try apply agree_give; try apply agree_refuse.
    unfold elements, json_check_type. cbn [json_object_is_type then_ give]. rewrite after_nil. apply agree_map. apply modules_ok.
    + intros H. subst B. intros S1. destruct (S1 o l eq_refl M) as (LE & _). cbn in H. lia.
    + intros x X N. subst B. intros S1. destruct (S1 o l eq_refl M) as (_ & A). destruct (A x X) as (s & ->). exact (N s eq_refl).
Qed.
