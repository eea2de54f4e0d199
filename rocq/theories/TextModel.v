(** * Texts made from stacktraces: hash texts and short texts (lib/generic_thread.c,
    lib/generic_stacktrace.c and the text functions of the seven types).

    Unsigned members are non-negative integers; the cast done by printf is the identity on their
    range.  SHA-1 (glib's checksum) is a parameter of the two hash functions. *)
From Verif Require Import Base Types UtilsModel JsonModel NormModel CrashModel.
Open Scope Z_scope.

(** ** printf conversions *)
Definition hex_char (d : N) : ascii := if (d <? 10)%N then ascii_of_N (48 + d) else ascii_of_N (87 + d).
Fixpoint hex_digits (fuel : nat) (n : N) : str :=
  match fuel with
  | O => []
  | S f =>
    let d := hex_char (N.modulo n 16) in
    if (n <? 16)%N then [d] else hex_digits f (N.div n 16) ++ [d]
  end.
(* %x of an unsigned number *)
Definition hex (z : Z) : str := let n := Z.to_N z in hex_digits (S (N.to_nat (N.log2 n))) n.
(* %u *)
Definition dec (z : Z) : str := print_N (Z.to_N z).
(* %d of a bool *)
Definition bit (b : bool) : str := if b then L "1" else L "0".
(* lib/internal_utils.h:59 OR_UNKNOWN *)
Definition or_unknown (s : option str) : str := match s with Some x => x | None => L "<unknown>" end.

(** ** Threads and stacktraces of any type *)
Inductive thread :=
| TCore (t : core_thread) | TPython (t : python_stacktrace) | TKoops (t : koops_stacktrace) | TJava (t : java_thread)
| TGdb (t : gdb_thread) | TRuby (t : ruby_stacktrace) | TJs (t : js_stacktrace).
Inductive stacktrace :=
| SCore (s : core_stacktrace) | SPython (s : python_stacktrace) | SKoops (s : koops_stacktrace) | SJava (s : java_stacktrace)
| SGdb (s : gdb_stacktrace) | SRuby (s : ruby_stacktrace) | SJs (s : js_stacktrace).
(* lib/generic_thread.c:136-140 sr_thread_frames *)
Definition sr_thread_frames (t : thread) : list frame :=
  match t with
  | TCore t => map FCore (ct_frames t) | TPython t => map FPython (ps_frames t) | TKoops t => map FKoops (ks_frames t)
  | TJava t => map FJava (vt_frames t) | TGdb t => map FGdb (gt_frames t) | TRuby t => map FRuby (rs_frames t)
  | TJs t => map FJs (js_frames t)
  end.
(* lib/generic_stacktrace.c:159-163 sr_stacktrace_threads, and 46-49 stacktrace_one_thread_only for
   the types that are their own only thread *)
Definition sr_stacktrace_threads (s : stacktrace) : list thread :=
  match s with
  | SCore s => map TCore (cs_threads s) | SJava s => map TJava (vs_threads s) | SGdb s => map TGdb (gs_threads s)
  | SPython s => [TPython s] | SKoops s => [TKoops s] | SRuby s => [TRuby s] | SJs s => [TJs s]
  end.
(* lib/generic_stacktrace.c:153-157 sr_stacktrace_find_crash_thread *)
Definition sr_stacktrace_find_crash_thread (s : stacktrace) : option thread :=
  match s with
  | SCore s => match sr_core_stacktrace_find_crash_thread s with
               | None => None | Some i => option_map TCore (nth_error (cs_threads s) i) end
  | SJava s => match sr_java_find_crash_thread s with
               | None => None | Some i => option_map TJava (nth_error (vs_threads s) i) end
  | SGdb s => match sr_gdb_stacktrace_find_crash_thread s with
              | None => None | Some i => option_map TGdb (nth_error (gs_threads s) i) end
  | SPython s => Some (TPython s) | SKoops s => Some (TKoops s) | SRuby s => Some (TRuby s) | SJs s => Some (TJs s)
  end.
(* lib/generic_thread.c:214-218 sr_thread_normalize; the dispatch tables in lib/core_thread.c:53,
   lib/gdb_thread.c:60, lib/koops_stacktrace.c:83; thread_no_normalization for the other four *)
Definition sr_thread_normalize (t : thread) : res thread :=
  match t with
  | TCore t => Ok (TCore (sr_normalize_core_thread t))
  | TGdb t => Ok (TGdb (sr_normalize_gdb_thread t))
  | TKoops t =>
    do l <- sr_normalize_koops_frames (ks_frames t);
    Ok (TKoops (mk_koops_stacktrace (ks_version t) (ks_taint t) (ks_modules t) (ks_raw_oops t) l (ks_reason t)))
  | _ => Ok t
  end.

(** ** Duplicate hash *)
(* include/thread.h:61-76 enum sr_duphash_flags; include/stacktrace.h:58-65 enum sr_bthash_flags *)
Definition flag_nohash (flags : N) : bool := N.testbit flags 1.
Definition flag_nonormalize (flags : N) : bool := N.testbit flags 2.
Definition flag_koops_compat (flags : N) : bool := N.testbit flags 3.

(* lib/core_frame.c:365-388 core_append_duphash_text *)
Definition core_duphash_text (f : core_frame) : str :=
  match cf_build_id f with
  | Some b => b ++ L "+0x" ++ hex (cf_build_id_offset f) ++ [nl]
  | None =>
    match cf_function_name f with
    | Some n => L "  " ++ n ++ [nl]
    | None =>
      match cf_fingerprint f with
      | Some p => p ++ L "+0x" ++ hex (cf_build_id_offset f) ++ [nl]
      | None => L "0x" ++ hex (cf_address f) ++ [nl]
      end
    end
  end.
(* lib/gdb_frame.c:1195-1212 gdb_append_duphash_text *)
Definition gdb_duphash_text (f : gdb_frame) : str :=
  L " " ++ match gf_function_type f with Some t => L " " ++ t | None => [] end
        ++ match gf_function_name f with Some n => L " " ++ n | None => [] end
        ++ (if gf_signal_handler_called f then L " <signal handler called>" else []) ++ [nl].
(* lib/java_frame.c:663-674 java_append_duphash_text *)
Definition java_duphash_text (f : java_frame) : str :=
  match vf_name f with
  | Some n => n ++ [nl]
  | None => or_unknown (vf_class_path f) ++ L "/" ++ or_unknown (vf_file_name f) ++ L ":" ++ dec (vf_file_line f) ++ [nl]
  end.
(* lib/js_frame.c:492-500 js_append_duphash_text, lib/python_frame.c:519-527 python_append_duphash_text,
   lib/ruby_frame.c:509-517 ruby_append_duphash_text *)
Definition file_line_text (file : option str) (line : Z) : str := or_unknown file ++ L ":" ++ dec line ++ [nl].
(* lib/koops_frame.c:737-749 koops_append_duphash_text *)
Definition koops_duphash_text (flags : N) (f : koops_frame) : str :=
  if flag_koops_compat flags && negb (kf_reliable f) then []
  else match kf_function_name f with
       | Some n => n ++ [nl]
       | None => L "0x" ++ hex (kf_address f) ++ [nl]
       end.
(* lib/generic_frame.c:86-92 frame_append_duphash_text: the text appended *)
Definition frame_duphash_text (flags : N) (f : frame) : str :=
  match f with
  | FCore f => core_duphash_text f
  | FGdb f => gdb_duphash_text f
  | FJava f => java_duphash_text f
  | FKoops f => koops_duphash_text flags f
  | FPython f => file_line_text (pf_file_name f) (pf_file_line f)
  | FRuby f => file_line_text (rf_file_name f) (rf_file_line f)
  | FJs f => file_line_text (jf_file_name f) (jf_file_line f)
  end.
Definition int_max : Z := 2147483647.
(* lib/generic_thread.c:250-262: [buf] is the buffer so far *)
Fixpoint duphash_loop (flags : N) (frames : list frame) (nframes : Z) (buf : str) : str :=
  match frames with
  | [] => buf
  | f :: r =>
    if 0 <? nframes then
      let buf' := buf ++ frame_duphash_text flags f in
      duphash_loop flags r (if Nat.ltb (length buf) (length buf') then nframes - 1 else nframes) buf'
    else buf
  end.
(* lib/generic_thread.c:220-282 sr_thread_get_duphash; Ok None is the NULL return.  The copy made at
   line 228 is the subject of P_Heap.v; here the argument is a value and cannot change. *)
Definition sr_thread_get_duphash (sha1 : str -> str) (t : thread) (nframes : Z) (prefix : option str) (flags : N) : res (option str) :=
  do t <- (if flag_nonormalize flags then Ok t else sr_thread_normalize t);
  let buf := match prefix with Some p => p | None => [] end in
  let buf := if flag_koops_compat flags then buf else buf ++ L "Thread" ++ [nl] in
  let nframes := if nframes =? 0 then int_max else nframes in
  let buf := duphash_loop flags (sr_thread_frames t) nframes buf in
  Ok (if flag_koops_compat flags && Nat.eqb (length buf) 0 then None
      else if flag_nohash flags then Some buf
      else Some (sha1 buf)).

(** ** Backtrace hash *)
Definition comma : str := L ", ".
(* lib/core_frame.c:349-363 core_append_bthash_text *)
Definition core_bthash_text (f : core_frame) : str :=
  (if cf_address f =? 0 then L "<unknown>, " else L "0x" ++ hex (cf_address f) ++ comma)
  ++ or_unknown (cf_build_id f) ++ L "+0x" ++ hex (cf_build_id_offset f) ++ comma
  ++ or_unknown (cf_file_name f) ++ comma ++ or_unknown (cf_fingerprint f) ++ [nl].
(* lib/gdb_frame.c:1179-1193 gdb_append_bthash_text *)
Definition gdb_bthash_text (f : gdb_frame) : str :=
  or_unknown (gf_function_name f) ++ comma ++ or_unknown (gf_function_type f) ++ comma ++ dec (gf_number f) ++ comma
  ++ or_unknown (gf_source_file f) ++ comma ++ dec (gf_source_line f) ++ comma ++ bit (gf_signal_handler_called f) ++ comma
  ++ L "0x" ++ hex (gf_address f) ++ comma ++ or_unknown (gf_library_name f) ++ [nl].
(* lib/java_frame.c:648-661 java_append_bthash_text *)
Definition java_bthash_text (f : java_frame) : str :=
  or_unknown (vf_name f) ++ comma ++ or_unknown (vf_file_name f) ++ comma ++ dec (vf_file_line f) ++ comma
  ++ or_unknown (vf_class_path f) ++ comma ++ bit (vf_is_native f) ++ comma ++ bit (vf_is_exception f) ++ comma
  ++ or_unknown (vf_message f) ++ [nl].
(* lib/js_frame.c:481-490 js_append_bthash_text *)
Definition js_bthash_text (f : js_frame) : str :=
  or_unknown (jf_file_name f) ++ comma ++ dec (jf_file_line f) ++ comma ++ or_unknown (jf_function_name f) ++ [nl].
(* lib/koops_frame.c:717-735 koops_append_bthash_text *)
Definition koops_bthash_text (f : koops_frame) : str :=
  L "0x" ++ hex (kf_address f) ++ comma ++ bit (kf_reliable f) ++ comma ++ or_unknown (kf_function_name f) ++ comma
  ++ L "0x" ++ hex (kf_function_offset f) ++ comma ++ L "0x" ++ hex (kf_function_length f) ++ comma
  ++ or_unknown (kf_module_name f) ++ comma ++ L "0x" ++ hex (kf_from_address f) ++ comma
  ++ or_unknown (kf_from_function_name f) ++ comma ++ L "0x" ++ hex (kf_from_function_offset f) ++ comma
  ++ L "0x" ++ hex (kf_from_function_length f) ++ comma ++ or_unknown (kf_from_module_name f) ++ [nl].
(* lib/python_frame.c:505-517 python_append_bthash_text *)
Definition python_bthash_text (f : python_frame) : str :=
  or_unknown (pf_file_name f) ++ comma ++ bit (pf_special_file f) ++ comma ++ dec (pf_file_line f) ++ comma
  ++ or_unknown (pf_function_name f) ++ comma ++ bit (pf_special_function f) ++ comma
  ++ or_unknown (pf_line_contents f) ++ [nl].
(* lib/ruby_frame.c:495-507 ruby_append_bthash_text *)
Definition ruby_bthash_text (f : ruby_frame) : str :=
  or_unknown (rf_file_name f) ++ comma ++ dec (rf_file_line f) ++ comma ++ or_unknown (rf_function_name f) ++ comma
  ++ bit (rf_special_function f) ++ comma ++ dec (rf_block_level f) ++ comma ++ dec (rf_rescue_level f) ++ [nl].
(* lib/generic_frame.c:78-84 frame_append_bthash_text *)
Definition frame_bthash_text (f : frame) : str :=
  match f with
  | FCore f => core_bthash_text f | FPython f => python_bthash_text f | FKoops f => koops_bthash_text f
  | FJava f => java_bthash_text f | FGdb f => gdb_bthash_text f | FRuby f => ruby_bthash_text f | FJs f => js_bthash_text f
  end.
(* lib/gdb_thread.c:583-588 gdb_append_bthash_text, lib/java_thread.c:454-459 java_append_bthash_text;
   thread_no_bthash_text for the others *)
Definition thread_bthash_text (t : thread) : str :=
  match t with
  | TGdb t => L "Thread " ++ dec (gt_number t) ++ [nl]
  | TJava t => L "Thread " ++ or_unknown (vt_name t) ++ [nl]
  | _ => []
  end.
(* lib/koops_stacktrace.c:806-813: the module names, ", " between them *)
Fixpoint join_modules (l : list str) : str :=
  match l with
  | [] => []
  | [m] => m
  | m :: r => m ++ comma ++ join_modules r
  end.
(* lib/koops_stacktrace.c:793-817 koops_append_bthash_text; the loop over the taint flags prints nothing *)
Definition koops_stacktrace_bthash_text (s : koops_stacktrace) : str :=
  L "Version: " ++ or_unknown (ks_version s) ++ [nl] ++ L "Flags: " ++ [nl]
  ++ L "Modules: " ++ match ks_modules s with None => [] | Some l => join_modules l end ++ [nl] ++ [nl].
(* lib/gdb_stacktrace.c:595-608 gdb_append_bthash_text *)
Definition gdb_lib_bthash_text (l : gdb_sharedlib) : str :=
  hex (gl_from l) ++ L "-" ++ hex (gl_to l) ++ comma ++ or_unknown (gl_soname l) ++ [nl].
(* lib/core_stacktrace.c:389-396, lib/python_stacktrace.c:348-354, lib/ruby_stacktrace.c:385-391,
   lib/js_stacktrace.c:373-379, lib/java_stacktrace.c:34-39 *)
Definition stacktrace_bthash_text (s : stacktrace) : str :=
  match s with
  | SCore s => L "Executable: " ++ or_unknown (cs_executable s) ++ [nl] ++ L "Signal: " ++ dec (cs_signal s) ++ [nl] ++ [nl]
  | SPython s => L "Exception: " ++ or_unknown (ps_exception_name s) ++ [nl] ++ [nl]
  | SRuby s => L "Exception: " ++ or_unknown (rs_exception_name s) ++ [nl] ++ [nl]
  | SJs s => L "Error: " ++ or_unknown (js_exception_name s) ++ [nl] ++ [nl]
  | SJava s => []
  | SKoops s => koops_stacktrace_bthash_text s
  | SGdb s => concat (map gdb_lib_bthash_text (gs_libs s)) ++ [nl]
  end.
(* lib/generic_stacktrace.c:191-208 *)
Fixpoint bthash_threads (l : list thread) : str :=
  match l with
  | [] => []
  | t :: r =>
    thread_bthash_text t ++ concat (map frame_bthash_text (sr_thread_frames t))
    ++ match r with [] => [] | _ => [nl] end ++ bthash_threads r
  end.
(* lib/generic_stacktrace.c:181-220 sr_stacktrace_get_bthash *)
Definition sr_stacktrace_get_bthash (sha1 : str -> str) (s : stacktrace) (flags : N) : str :=
  let buf := stacktrace_bthash_text s ++ bthash_threads (sr_stacktrace_threads s) in
  if flag_nohash flags then buf else sha1 buf.

(** ** Short texts.  A NULL string given to %s is undefined behaviour. *)
Definition percent_s (s : option str) : res str := match s with Some x => Ok x | None => UB end.
(* lib/core_frame.c:328-347 sr_core_frame_append_to_str *)
Definition sr_core_frame_append_to_str (f : core_frame) : res str :=
  let a := match cf_file_name f with Some n => L "[" ++ after_last_slash n ++ L "]" | None => [] end in
  match cf_function_name f with
  | Some n => Ok (a ++ L " " ++ n)
  | None => do b <- percent_s (cf_build_id f); Ok (a ++ L " " ++ b ++ L "+" ++ dec (cf_build_id_offset f))
  end.
(* lib/gdb_frame.c:264-290 sr_gdb_frame_append_to_str *)
Definition sr_gdb_frame_append_to_str (verbose : bool) (f : gdb_frame) : str :=
  (if verbose then L " #" ++ dec (gf_number f) else L " ")
  ++ match gf_function_type f with Some t => L " " ++ t | None => [] end
  ++ match gf_function_name f with Some n => L " " ++ n | None => [] end
  ++ (if verbose then
        match gf_source_file f with
        | None => []
        | Some file =>
          match gf_function_name f with Some _ => L " at" | None => [] end ++ L " " ++ file
          ++ (if gf_source_line f =? uint32_max then [] else L ":" ++ dec (gf_source_line f))
        end
      else [])
  ++ (if gf_signal_handler_called f then L " <signal handler called>" else []).
(* lib/java_frame.c:212-254 sr_java_frame_append_to_str; strchrnul(':') > strchrnul('/') compares positions *)
Fixpoint position (c : ascii) (s : str) : nat :=
  match s with [] => 0 | x :: r => if Ascii.eqb x c then 0 else S (position c r) end.
Definition sr_java_frame_append_to_str (f : java_frame) : str :=
  if vf_is_exception f then
    match vf_name f with Some n => n | None => [] end ++ match vf_message f with Some m => L ": " ++ m | None => [] end
  else
    [tab] ++ L "at " ++ match vf_name f with Some n => n | None => [] end ++ L "("
    ++ (if vf_is_native f then L "Native Method"
        else match vf_file_name f with None => L "Unknown Source" | Some n => n end)
    ++ (if vf_file_line f =? 0 then [] else L ":" ++ dec (vf_file_line f)) ++ L ")"
    ++ match vf_class_path f with
       | None => L " [unknown]"
       | Some p => L " [" ++ (if Nat.ltb (position "/" p) (position ":" p) then L "file:" else []) ++ p ++ L "]"
       end.
(* lib/js_frame.c:464-479 sr_js_frame_append_to_str *)
Definition sr_js_frame_append_to_str (f : js_frame) : res str :=
  do file <- percent_s (jf_file_name f);
  Ok (L "at " ++ match jf_function_name f with Some n => n ++ L " (" | None => [] end
      ++ file ++ L ":" ++ dec (jf_file_line f) ++ L ":" ++ dec (jf_line_column f)
      ++ match jf_function_name f with Some _ => L ")" | None => [] end).
(* lib/koops_frame.c:702-715 sr_koops_frame_append_to_str *)
Definition sr_koops_frame_append_to_str (f : koops_frame) : str :=
  match kf_special_stack f with Some s => L "[" ++ s ++ L "] " | None => [] end
  ++ (if kf_reliable f then [] else L "? ") ++ match kf_function_name f with Some n => n | None => L "??" end
  ++ match kf_module_name f with Some m => L " in " ++ m | None => [] end.
Definition bracket (special : bool) (s : str) : str := if special then L "<" ++ s ++ L ">" else s.
(* lib/python_frame.c:480-503 sr_python_frame_append_to_str *)
Definition sr_python_frame_append_to_str (f : python_frame) : str :=
  match pf_file_name f with
  | Some n => L "[" ++ bracket (pf_special_file f) n ++ (if pf_file_line f =? 0 then [] else L ":" ++ dec (pf_file_line f)) ++ L "]"
  | None => []
  end ++ L " " ++ bracket (pf_special_function f) match pf_function_name f with Some n => n | None => L "??" end.
(* lib/ruby_frame.c:461-493 sr_ruby_frame_append_to_str *)
Definition sr_ruby_frame_append_to_str (f : ruby_frame) : str :=
  concat (repeat (L "rescue in ") (Z.to_nat (rf_rescue_level f)))
  ++ (if rf_block_level f =? 1 then L "block in "
      else if 1 <? rf_block_level f then L "block (" ++ dec (rf_block_level f) ++ L " levels) in " else [])
  ++ bracket (rf_special_function f) match rf_function_name f with Some n => n | None => L "??" end
  ++ match rf_file_name f with
     | Some n => L " in " ++ n ++ (if rf_file_line f =? 0 then [] else L ":" ++ dec (rf_file_line f))
     | None => []
     end.
(* lib/generic_frame.c:41-45 sr_frame_append_to_str; lib/gdb_frame.c:53 puts a function of three
   arguments in the table, which is called with two: undefined behaviour.  The library itself never
   makes this call for gdb frames. *)
Definition sr_frame_append_to_str (f : frame) : res str :=
  match f with
  | FCore f => sr_core_frame_append_to_str f
  | FJs f => sr_js_frame_append_to_str f
  | FPython f => Ok (sr_python_frame_append_to_str f)
  | FKoops f => Ok (sr_koops_frame_append_to_str f)
  | FJava f => Ok (sr_java_frame_append_to_str f)
  | FRuby f => Ok (sr_ruby_frame_append_to_str f)
  | FGdb _ => UB
  end.
(* lib/generic_stacktrace.c:60-72: [i] frames are listed already (an int: no list in memory has more
   than INT_MAX frames) *)
Fixpoint short_text_loop (frames : list frame) (i max_frames : Z) : res str :=
  match frames with
  | [] => Ok []
  | f :: r =>
    let i := i + 1 in
    do t <- sr_frame_append_to_str f;
    let line := L "#" ++ dec i ++ L " " ++ t ++ [nl] in
    if negb (max_frames =? 0) && (max_frames <=? i) then Ok line
    else do rest <- short_text_loop r i max_frames; Ok (line ++ rest)
  end.
(* lib/generic_stacktrace.c:52-75 stacktrace_to_short_text *)
Definition stacktrace_to_short_text (s : stacktrace) (max_frames : Z) : res (option str) :=
  match sr_stacktrace_find_crash_thread s with
  | None => Ok None
  | Some t => do text <- short_text_loop (sr_thread_frames t) 0 max_frames; Ok (Some text)
  end.
(* lib/gdb_thread.c:283-305 sr_gdb_thread_append_to_str *)
Definition sr_gdb_thread_append_to_str (verbose : bool) (t : gdb_thread) : str :=
  (if verbose then L "Thread no. " ++ dec (gt_number t) ++ L " (" ++ dec (Z.of_nat (length (gt_frames t))) ++ L " frames)" ++ [nl]
   else L "Thread" ++ [nl])
  ++ concat (map (fun f => sr_gdb_frame_append_to_str verbose f ++ [nl]) (gt_frames t)).
(* lib/gdb_stacktrace.c:574-593 sr_gdb_stacktrace_to_short_text *)
Definition sr_gdb_stacktrace_to_short_text (s : gdb_stacktrace) (max_frames : Z) : res (option str) :=
  match sr_gdb_stacktrace_find_crash_thread s with
  | None => Ok None
  | Some i =>
    match nth_error (gs_threads s) i with
    | None => UB
    | Some t =>
      do o <- sr_gdb_thread_get_optimized t (gs_libs s) max_frames;
      Ok (Some (sr_gdb_thread_append_to_str true o))
    end
  end.
(* lib/generic_stacktrace.c:135-139 sr_stacktrace_to_short_text *)
Definition sr_stacktrace_to_short_text (s : stacktrace) (max_frames : Z) : res (option str) :=
  match s with
  | SGdb s => sr_gdb_stacktrace_to_short_text s max_frames
  | _ => stacktrace_to_short_text s max_frames
  end.
(* lib/gdb_stacktrace.c:386-411 sr_gdb_stacktrace_to_text *)
Definition sr_gdb_stacktrace_to_text (s : gdb_stacktrace) (verbose : bool) : str :=
  (if verbose then L "Thread count: " ++ dec (Z.of_nat (length (gs_threads s))) ++ [nl] else [])
  ++ match gs_crash s with
     | Some c => if verbose then L "Crash frame: " ++ sr_gdb_frame_append_to_str verbose c ++ [nl] else []
     | None => []
     end
  ++ concat (map (sr_gdb_thread_append_to_str verbose) (gs_threads s)).
(* lib/java_thread.c:271-302 sr_java_thread_append_to_str, into an empty buffer: [out] is what was
   prepended so far, [exc] the exception being collected *)
Fixpoint java_text_loop (l : list java_frame) (exc out : str) : str * str :=
  match l with
  | [] => (exc, out)
  | f :: r =>
    let '(exc, out) :=
      if vf_is_exception f && Nat.ltb 0 (length exc) then ([], L "Caused by: " ++ exc ++ [tab] ++ L "..." ++ [nl] ++ out)
      else (exc, out) in
    java_text_loop r (exc ++ sr_java_frame_append_to_str f ++ [nl]) out
  end.
Definition sr_java_thread_append_to_str (t : java_thread) : str :=
  let '(exc, out) := java_text_loop (vt_frames t) [] [] in
  L "Exception in thread " ++ [dquote] ++ match vt_name t with Some n => n | None => [] end ++ [dquote] ++ L " " ++ exc ++ out.
