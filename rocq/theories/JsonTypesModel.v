(** * Model of the to_json / from_json functions of the stack trace types. *)
From Verif Require Import Base UtilsModel JsonSpec JsonModel Types.
Open Scope Z_scope.

(** ** Shared shapes of the printers *)

(** [",   \"key\": value\n"] *)
Definition fld (key value : str) : str := L ",   """ ++ key ++ L """: " ++ value ++ [nl].
(** if (x) { append ",   \"key\": "; sr_json_append_escaped(x); append "\n"; } *)
Definition fld_str (key : str) (o : option str) : str :=
  match o with Some s => fld key (json_quoted s) | None => [] end.
(** if (x) printf ",   \"key\": %u\n" *)
Definition fld_nz (key : str) (z : Z) : str := if z =? 0 then [] else fld key (print_Z z).
Definition json_bool (b : bool) : str := if b then L "true" else L "false".

(** if (len > 0) str[0] = '{'; else append '{'; append '}' *)
Definition close_object (s : str) : str :=
  match s with
  | [] => L "{}"
  | _ :: r => "{"%char :: r ++ L "}"
  end.
(** str[0] = '{'; append '}'  without the length check: on an empty buffer the brace replaces
    the terminator and is then overwritten by '}'. *)
Definition close_object_unchecked (s : str) : str :=
  match s with
  | [] => L "}"
  | _ :: r => "{"%char :: r ++ L "}"
  end.

(** while (x) { append first ? "      [ " : "      , "; append item; x = next; if (x) append "\n" } *)
Fixpoint array_items (first : bool) (items : list str) : str :=
  match items with
  | [] => []
  | x :: r => (if first then L "      [ " else L "      , ") ++ x ++
              (match r with [] => [] | _ => [nl] end) ++ array_items false r
  end.
Definition array_loop (items : list str) : str := array_items true items ++ L " ]" ++ [nl].

(** for (i = 0; i < len; i++) { x = from_json(a[i]); if (!x) goto fail; append } *)
Fixpoint map_res {A B} (f : A -> res B) (l : list A) : res (list B) :=
  match l with
  | [] => Ok []
  | x :: r => do y <- f x; do ys <- map_res f r; Ok (y :: ys)
  end.

(** if (get_ex(root, key, &x)) { check type array; read each } *)
Definition read_array {B} (o : list (str * json)) (key : str) (f : json -> res B) : res (list B) :=
  match jget key o with
  | None => Ok []
  | Some (JArr l) => map_res f l
  | Some _ => Fail
  end.

(** if (get_ex(root, key, &val)) { check type string; dest = ...} *)
Definition get_string_member (o : list (str * json)) (key : str) : option (res str) :=
  match jget key o with
  | None => None
  | Some (JStr s) => Some (Ok s)
  | Some _ => Some Fail
  end.

(** Two keys for one member, the second one marking it "special". *)
Definition read_special (o : list (str * json)) (key special_key : str) : res (option str * bool) :=
  match get_string_member o key with
  | Some r => do s <- r; Ok (Some s, false)
  | None =>
    match get_string_member o special_key with
    | Some r => do s <- r; Ok (Some s, true)
    | None => Ok (None, false)
    end
  end.

(** ** Core *)

(* lib/core_frame.c:271-328 sr_core_frame_to_json *)
Definition core_frame_to_json (f : core_frame) : str :=
  close_object (
    (if cf_address f =? ulong_max then [] else fld (L "address") (print_Z (cf_address f))) ++
    fld_str (L "build_id") (cf_build_id f) ++
    (if cf_build_id_offset f =? ulong_max then []
     else fld (L "build_id_offset") (print_Z (cf_build_id_offset f))) ++
    fld_str (L "function_name") (cf_function_name f) ++
    fld_str (L "file_name") (cf_file_name f) ++
    (match cf_fingerprint f with
     | Some s => fld (L "fingerprint") (json_quoted s) ++
                 (if cf_fingerprint_hashed f then [] else fld (L "fingerprint_hashed") (L "false"))
     | None => []
     end)).

(* lib/core_frame.c:242-269 sr_core_frame_from_json *)
Definition core_frame_from_json (root : json) : res core_frame :=
  match root with
  | JObj o =>
    do address <- json_read_uint64 o (L "address") ulong_max;
    do build_id <- json_read_string o (L "build_id") None;
    do build_id_offset <- json_read_uint64 o (L "build_id_offset") ulong_max;
    do function_name <- json_read_string o (L "function_name") None;
    do file_name <- json_read_string o (L "file_name") None;
    do fingerprint <- json_read_string o (L "fingerprint") None;
    do hashed <- json_read_bool o (L "fingerprint_hashed") true;
    Ok (mk_core_frame address build_id build_id_offset function_name file_name fingerprint hashed)
  | _ => Fail
  end.

(* lib/core_thread.c:221-260 sr_core_thread_to_json *)
Definition core_thread_to_json (t : core_thread) (is_crash_thread : bool) : str :=
  match ct_frames t with
  | [] => L "{}"
  | frames =>
    (if is_crash_thread then L "{   ""crash_thread"": true" ++ nl :: L "," else L "{") ++
    L "   ""frames"":" ++ nl ::
    array_loop (map (fun f => sr_indent_except_first_line (core_frame_to_json f) 8) frames) ++
    L "}"
  end.

(* lib/core_thread.c:182-219 sr_core_thread_from_json *)
Definition core_thread_from_json (root : json) : res core_thread :=
  match root with
  | JObj o => do frames <- read_array o (L "frames") core_frame_from_json; Ok (mk_core_thread frames)
  | _ => Fail
  end.

(* lib/core_stacktrace.c:253-300 sr_core_stacktrace_to_json; [i] is the index of the thread *)
Definition core_crash_flag (s : core_stacktrace) (i : nat) : bool :=
  match cs_crash_thread s with
  | Some j => Nat.eqb i j
  | None => Nat.eqb i 0
  end.
Fixpoint core_threads_json (s : core_stacktrace) (i : nat) (l : list core_thread) : list str :=
  match l with
  | [] => []
  | t :: r => sr_indent_except_first_line (core_thread_to_json t (core_crash_flag s i)) 8
              :: core_threads_json s (S i) r
  end.
Definition core_stacktrace_to_json (s : core_stacktrace) : str :=
  L "{   ""signal"": " ++ print_Z (cs_signal s) ++ nl ::
  fld_str (L "executable") (cs_executable s) ++
  (if cs_only_crash_thread s then fld (L "only_crash_thread") (L "true") else []) ++
  L ",   ""stacktrace"":" ++ nl ::
  array_loop (core_threads_json s 0 (cs_threads s)) ++
  L "}".

(* lib/core_stacktrace.c:164-224 sr_core_stacktrace_from_json: the loop keeps the index of the
   last thread flagged as crash thread *)
Fixpoint core_read_threads (l : list json) (i : nat) (crash : option nat)
  : res (list core_thread * option nat) :=
  match l with
  | [] => Ok ([], crash)
  | j :: r =>
    do t <- core_thread_from_json j;
    do crash' <- match j with
                 | JObj o => match jget (L "crash_thread") o with
                             | None => Ok crash
                             | Some (JBool true) => Ok (Some i)
                             | Some (JBool false) => Ok crash
                             | Some _ => Fail
                             end
                 | _ => Ok crash
                 end;
    do rest <- core_read_threads r (S i) crash';
    Ok (t :: fst rest, snd rest)
  end.
Definition core_stacktrace_from_json (root : json) : res core_stacktrace :=
  match root with
  | JObj o =>
    do signal <- json_read_uint16 o (L "signal") 0;
    do executable <- json_read_string o (L "executable") None;
    do only <- json_read_bool o (L "only_crash_thread") false;
    do tc <- match jget (L "stacktrace") o with
             | None => Ok ([], None)
             | Some (JArr l) => core_read_threads l 0 None
             | Some _ => Fail
             end;
    Ok (mk_core_stacktrace signal executable (snd tc) (fst tc) only)
  | _ => Fail
  end.

(** ** Python *)

(* lib/python_frame.c:355-403 sr_python_frame_to_json *)
Definition python_frame_to_json (f : python_frame) : str :=
  close_object_unchecked (
    fld_str (if pf_special_file f then L "special_file" else L "file_name") (pf_file_name f) ++
    fld_nz (L "file_line") (pf_file_line f) ++
    fld_str (if pf_special_function f then L "special_function" else L "function_name") (pf_function_name f) ++
    fld_str (L "line_contents") (pf_line_contents f)).

(* lib/python_frame.c:405-473 sr_python_frame_from_json *)
Definition python_frame_from_json (root : json) : res python_frame :=
  match root with
  | JObj o =>
    do file <- read_special o (L "file_name") (L "special_file");
    do function <- read_special o (L "function_name") (L "special_function");
    do line_contents <- json_read_string o (L "line_contents") None;
    do file_line <- json_read_uint32 o (L "file_line") 0;
    Ok (mk_python_frame (snd file) (fst file) file_line (snd function) (fst function) line_contents)
  | _ => Fail
  end.

(* lib/python_stacktrace.c:233-278 sr_python_stacktrace_to_json *)
Definition python_stacktrace_to_json (s : python_stacktrace) : str :=
  close_object (
    fld_str (L "exception_name") (ps_exception_name s) ++
    match ps_frames s with
    | [] => []
    | frames => L ",   ""stacktrace"":" ++ nl ::
        array_loop (map (fun f => sr_indent_except_first_line (python_frame_to_json f) 8) frames)
    end).

(* lib/python_stacktrace.c:280-325 sr_python_stacktrace_from_json *)
Definition python_stacktrace_from_json (root : json) : res python_stacktrace :=
  match root with
  | JObj o =>
    do exception_name <- json_read_string o (L "exception_name") None;
    do frames <- read_array o (L "stacktrace") python_frame_from_json;
    Ok (mk_python_stacktrace exception_name frames)
  | _ => Fail
  end.

(** ** Ruby *)

(* lib/ruby_frame.c:343-396 sr_ruby_frame_to_json *)
Definition ruby_frame_to_json (f : ruby_frame) : str :=
  close_object_unchecked (
    fld_str (L "file_name") (rf_file_name f) ++
    fld_nz (L "file_line") (rf_file_line f) ++
    fld_str (if rf_special_function f then L "special_function" else L "function_name") (rf_function_name f) ++
    fld_nz (L "block_level") (rf_block_level f) ++
    fld_nz (L "rescue_level") (rf_rescue_level f)).

(* lib/ruby_frame.c:398-457 sr_ruby_frame_from_json *)
Definition ruby_frame_from_json (root : json) : res ruby_frame :=
  match root with
  | JObj o =>
    do file_name <- json_read_string o (L "file_name") None;
    do function <- read_special o (L "function_name") (L "special_function");
    do file_line <- json_read_uint32 o (L "file_line") 0;
    do block_level <- json_read_uint32 o (L "block_level") 0;
    do rescue_level <- json_read_uint32 o (L "rescue_level") 0;
    Ok (mk_ruby_frame file_name file_line (snd function) (fst function) block_level rescue_level)
  | _ => Fail
  end.

(* lib/ruby_stacktrace.c:272-317 sr_ruby_stacktrace_to_json *)
Definition ruby_stacktrace_to_json (s : ruby_stacktrace) : str :=
  close_object (
    fld_str (L "exception_name") (rs_exception_name s) ++
    match rs_frames s with
    | [] => []
    | frames => L ",   ""stacktrace"":" ++ nl ::
        array_loop (map (fun f => sr_indent_except_first_line (ruby_frame_to_json f) 8) frames)
    end).

(* lib/ruby_stacktrace.c:319-364 sr_ruby_stacktrace_from_json *)
Definition ruby_stacktrace_from_json (root : json) : res ruby_stacktrace :=
  match root with
  | JObj o =>
    do exception_name <- json_read_string o (L "exception_name") None;
    do frames <- read_array o (L "stacktrace") ruby_frame_from_json;
    Ok (mk_ruby_stacktrace exception_name frames)
  | _ => Fail
  end.

(** ** JavaScript *)

(* include/js/platform.h:91-105 assemble, engine, runtime *)
Definition js_assemble (runtime engine : Z) : Z := Z.lor (Z.shiftl runtime 4 mod two32) engine.
Definition js_platform_engine (p : Z) : Z := Z.land p 15.
Definition js_platform_runtime (p : Z) : Z := Z.shiftr p 4.
(* lib/js_platform.c:122-161: the only engine is V8 = 1, the only runtime Node.js = 1 *)
Definition js_engine_to_string (e : Z) : option str := if e =? 1 then Some (L "V8") else None.
Definition js_runtime_to_string (r : Z) : option str := if r =? 1 then Some (L "Node.js") else None.
Definition js_engine_from_string (s : str) : Z := if str_eqb s (L "V8") then 1 else 0.
Definition js_runtime_from_string (s : str) : Z := if str_eqb s (L "Node.js") then 1 else 0.
Definition or_unknown (o : option str) : str := match o with Some s => s | None => L "<unknown>" end.

(* lib/js_platform.c:172-189 sr_js_platform_to_json *)
Definition js_platform_to_json (p : Z) : str :=
  L "{    ""engine"": """ ++ or_unknown (js_engine_to_string (js_platform_engine p)) ++ L """" ++ nl ::
  L ",    ""runtime"": """ ++ or_unknown (js_runtime_to_string (js_platform_runtime p)) ++ L """" ++ nl ::
  L "}" ++ [nl].

(* lib/js_platform.c:191-240 sr_js_platform_from_json.  Fail is "error message set".  The last
   statement passes (engine, runtime) to a macro whose parameters are (runtime, engine). *)
Definition js_platform_from_json (root : json) : res Z :=
  let o := match root with JObj o => o | _ => [] end in
  do engine_str <- json_read_string o (L "engine") None;
  match engine_str with
  | None => Fail
  | Some es =>
    let engine := js_engine_from_string es in
    if negb (str_eqb es (L "<unknown>")) && (engine =? 0) then Fail
    else
      do runtime_str <- json_read_string o (L "runtime") None;
      match runtime_str with
      | None => Fail
      | Some rs =>
        let runtime := js_runtime_from_string rs in
        if negb (str_eqb rs (L "<unknown>")) && (runtime =? 0) then Fail
        else Ok (js_assemble engine runtime)
      end
  end.

(* lib/js_frame.c:422-463 sr_js_frame_to_json *)
Definition js_frame_to_json (f : js_frame) : str :=
  close_object_unchecked (
    fld_str (L "file_name") (jf_file_name f) ++
    fld_nz (L "file_line") (jf_file_line f) ++
    fld_nz (L "line_column") (jf_line_column f) ++
    fld_str (L "function_name") (jf_function_name f)).

(* lib/js_frame.c:373-420 sr_js_frame_from_json *)
Definition js_frame_from_json (root : json) : res js_frame :=
  match root with
  | JObj o =>
    do file_name <- json_read_string o (L "file_name") None;
    do function_name <- json_read_string o (L "function_name") None;
    do file_line <- json_read_uint32 o (L "file_line") 0;
    do line_column <- json_read_uint32 o (L "line_column") 0;
    Ok (mk_js_frame file_name file_line line_column function_name)
  | _ => Fail
  end.

(* lib/js_stacktrace.c:239-295 sr_js_stacktrace_to_json *)
Definition js_stacktrace_to_json (s : js_stacktrace) : str :=
  close_object (
    fld_str (L "exception_name") (js_exception_name s) ++
    match js_frames s with
    | [] => []
    | frames => L ",   ""stacktrace"":" ++ nl ::
        array_loop (map (fun f => sr_indent_except_first_line (js_frame_to_json f) 8) frames)
    end ++
    (if js_platform s =? 0 then []
     else L ",   ""platform"":" ++ nl :: L "        " ++
          sr_indent_except_first_line (js_platform_to_json (js_platform s)) 8)).

(* lib/js_stacktrace.c:297-352 sr_js_stacktrace_from_json (the caller's error message starts
   out NULL) *)
Definition js_stacktrace_from_json (root : json) : res js_stacktrace :=
  match root with
  | JObj o =>
    do exception_name <- json_read_string o (L "exception_name") None;
    do frames <- read_array o (L "stacktrace") js_frame_from_json;
    do platform <- match jget (L "platform") o with
                   | None => Ok 0
                   | Some j => js_platform_from_json j
                   end;
    Ok (mk_js_stacktrace exception_name frames platform)
  | _ => Fail
  end.

(** ** Java *)

(* lib/java_frame.c:565-620 sr_java_frame_to_json *)
Definition java_frame_to_json (f : java_frame) : str :=
  close_object_unchecked (
    fld_str (L "name") (vf_name f) ++
    (match vf_file_name f with
     | Some s => fld (L "file_name") (json_quoted s) ++ fld (L "file_line") (print_Z (vf_file_line f))
     | None => []
     end) ++
    fld_str (L "class_path") (vf_class_path f) ++
    fld (L "is_native") (json_bool (vf_is_native f)) ++
    fld (L "is_exception") (json_bool (vf_is_exception f)) ++
    fld_str (L "message") (vf_message f)).

(* lib/java_frame.c:622-648 sr_java_frame_from_json *)
Definition java_frame_from_json (root : json) : res java_frame :=
  match root with
  | JObj o =>
    do name <- json_read_string o (L "name") None;
    do file_name <- json_read_string o (L "file_name") None;
    do file_line <- json_read_uint32 o (L "file_line") 0;
    do class_path <- json_read_string o (L "class_path") None;
    do is_native <- json_read_bool o (L "is_native") false;
    do is_exception <- json_read_bool o (L "is_exception") false;
    do message <- json_read_string o (L "message") None;
    Ok (mk_java_frame name file_name file_line class_path is_native is_exception message)
  | _ => Fail
  end.

(* lib/java_thread.c:365-408 sr_java_thread_to_json *)
Definition java_thread_to_json (t : java_thread) : str :=
  close_object (
    fld_str (L "name") (vt_name t) ++
    match vt_frames t with
    | [] => []
    | frames => L ",   ""frames"":" ++ nl ::
        array_loop (map (fun f => sr_indent_except_first_line (java_frame_to_json f) 8) frames)
    end).

(* lib/java_thread.c:410-454 sr_java_thread_from_json *)
Definition java_thread_from_json (root : json) : res java_thread :=
  match root with
  | JObj o =>
    do name <- json_read_string o (L "name") None;
    do frames <- read_array o (L "frames") java_frame_from_json;
    Ok (mk_java_thread name frames)
  | _ => Fail
  end.

(* lib/java_stacktrace.c:161-193 sr_java_stacktrace_to_json *)
Definition java_stacktrace_to_json (s : java_stacktrace) : str :=
  L "{   ""threads"":" ++
  (match vs_threads s with [] => L " [" | _ => [nl] end) ++
  array_loop (map (fun t => sr_indent_except_first_line (java_thread_to_json t) 8) (vs_threads s)) ++
  L "}".

(* lib/java_stacktrace.c:195-235 sr_java_stacktrace_from_json *)
Definition java_stacktrace_from_json (root : json) : res java_stacktrace :=
  match root with
  | JObj o => do threads <- read_array o (L "threads") java_thread_from_json; Ok (mk_java_stacktrace threads)
  | _ => Fail
  end.

(** ** Kernel oops *)

(* lib/koops_frame.c:592-669 sr_koops_frame_to_json *)
Definition koops_frame_to_json (f : koops_frame) : str :=
  (if kf_address f =? 0 then [] else L "{   ""address"": " ++ print_Z (kf_address f) ++ [nl]) ++
  (if kf_address f =? 0 then L "{" else L ",") ++ L "   ""reliable"": " ++ json_bool (kf_reliable f) ++ nl ::
  fld_str (L "function_name") (kf_function_name f) ++
  fld (L "function_offset") (print_Z (kf_function_offset f)) ++
  fld (L "function_length") (print_Z (kf_function_length f)) ++
  fld_str (L "module_name") (kf_module_name f) ++
  fld_nz (L "from_address") (kf_from_address f) ++
  fld_str (L "from_function_name") (kf_from_function_name f) ++
  fld (L "from_function_offset") (print_Z (kf_from_function_offset f)) ++
  fld (L "from_function_length") (print_Z (kf_from_function_length f)) ++
  fld_str (L "from_module_name") (kf_from_module_name f) ++
  fld_str (L "special_stack") (kf_special_stack f) ++
  L "}".

(* lib/koops_frame.c:671-702 sr_koops_frame_from_json *)
Definition koops_frame_from_json (root : json) : res koops_frame :=
  match root with
  | JObj o =>
    do address <- json_read_uint64 o (L "address") 0;
    do reliable <- json_read_bool o (L "reliable") false;
    do function_name <- json_read_string o (L "function_name") None;
    do function_offset <- json_read_uint64 o (L "function_offset") 0;
    do function_length <- json_read_uint64 o (L "function_length") 0;
    do module_name <- json_read_string o (L "module_name") None;
    do from_address <- json_read_uint64 o (L "from_address") 0;
    do from_function_name <- json_read_string o (L "from_function_name") None;
    do from_function_offset <- json_read_uint64 o (L "from_function_offset") 0;
    do from_function_length <- json_read_uint64 o (L "from_function_length") 0;
    do from_module_name <- json_read_string o (L "from_module_name") None;
    do special_stack <- json_read_string o (L "special_stack") None;
    Ok (mk_koops_frame address reliable function_name function_offset function_length module_name
          from_address from_function_name from_function_offset from_function_length
          from_module_name special_stack)
  | _ => Fail
  end.

(* lib/koops_stacktrace.c:521-547 taint_flags_to_json.  ", \"name\"\n" per flag, then the first
   byte becomes '[' and the last newline a blank. *)
Fixpoint taint_names (flags : list (ascii * str)) (vals : list bool) : list str :=
  match flags, vals with
  | (_, name) :: fs, v :: vs => if v then name :: taint_names fs vs else taint_names fs vs
  | _, _ => []
  end.
Definition taint_flags_to_json (vals : list bool) : str :=
  match concat (map (fun n => L ", """ ++ n ++ L """" ++ [nl]) (taint_names taint_flags vals)) with
  | [] => L "[]"
  | _ :: r => "["%char :: removelast r ++ L " ]"
  end.

(* lib/koops_stacktrace.c:549-630 sr_koops_stacktrace_to_json.  The module loop writes the
   opening bracket before the loop, so an empty array is "[  ]". *)
Fixpoint koops_module_items (first : bool) (l : list str) : str :=
  match l with
  | [] => []
  | m :: r => (if first then [] else L "      , ") ++ json_quoted m ++
              (match r with [] => [] | _ => [nl] end) ++ koops_module_items false r
  end.
Definition koops_stacktrace_to_json (s : koops_stacktrace) : str :=
  close_object (
    fld_str (L "raw_oops") (ks_raw_oops s) ++
    fld_str (L "version") (ks_version s) ++
    fld (L "taint_flags") (sr_indent_except_first_line (taint_flags_to_json (ks_taint s))
                             (length (L ",   ""taint_flags"": "))) ++
    (match ks_modules s with
     | None => []
     | Some ms => L ",   ""modules"":" ++ nl :: L "      [ " ++ koops_module_items true ms ++ L " ]" ++ [nl]
     end) ++
    (match ks_frames s with
     | [] => []
     | frames => L ",   ""frames"":" ++ nl ::
         array_loop (map (fun f => sr_indent_except_first_line (koops_frame_to_json f) 8) frames)
     end)).

(* lib/koops_stacktrace.c:651-684: set the flag with that name, ignore unknown names *)
Fixpoint set_flag (flags : list (ascii * str)) (vals : list bool) (name : str) : list bool :=
  match flags, vals with
  | (_, n) :: fs, v :: vs => if str_eqb n name then true :: vs else v :: set_flag fs vs name
  | _, _ => vals
  end.
Fixpoint koops_read_taint (l : list json) (vals : list bool) : res (list bool) :=
  match l with
  | [] => Ok vals
  | JStr flag :: r => koops_read_taint r (set_flag taint_flags vals flag)
  | _ :: _ => Fail
  end.
(* lib/koops_stacktrace.c:686-727: the array is grown by g_realloc(modules, 256), which is a
   size in bytes, so that writing element 127 leaves the block; an element that is not a string
   leaves through the failure path, which walks the not yet terminated array. *)
Fixpoint koops_read_modules (l : list json) (i : nat) : res (list str) :=
  match l with
  | [] => Ok []
  | JStr m :: r =>
    if (127 <=? i)%nat then UB
    else do ms <- koops_read_modules r (S i); Ok (m :: ms)
  | _ :: _ => UB
  end.
(* lib/koops_stacktrace.c:632-762 sr_koops_stacktrace_from_json *)
Definition koops_stacktrace_from_json (root : json) : res koops_stacktrace :=
  match root with
  | JObj o =>
    do version <- json_read_string o (L "version") None;
    do raw_oops <- json_read_string o (L "raw_oops") None;
    do taint <- match jget (L "taint_flags") o with
                | None => Ok no_taint
                | Some (JArr l) => koops_read_taint l no_taint
                | Some _ => Fail
                end;
    do modules <- match jget (L "modules") o with
                  | None => Ok None
                  | Some (JArr l) => do ms <- koops_read_modules l 0; Ok (Some ms)
                  | Some _ => Fail
                  end;
    do frames <- read_array o (L "frames") koops_frame_from_json;
    Ok (mk_koops_stacktrace version taint modules raw_oops frames None)
  | _ => Fail
  end.
