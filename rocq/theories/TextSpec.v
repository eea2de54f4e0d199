(** * What the hash texts and short texts should be. *)
From Verif Require Import Base Types JsonSpec TextModel.
Open Scope Z_scope.

(** ** Numerals: no leading zeros, lower-case *)
Inductive hexnum : Z -> str -> Prop :=
| hx_one d : 0 <= d < 16 -> hexnum d [nth (Z.to_nat d) (L "0123456789abcdef") nul]
| hx_more n s d : 0 < n -> hexnum n s -> 0 <= d < 16 ->
                  hexnum (n * 16 + d) (s ++ [nth (Z.to_nat d) (L "0123456789abcdef") nul]).
Definition decnum : Z -> str -> Prop := jnat.
(* a string, or the placeholder for a missing one *)
Definition shown (s : option str) : str := match s with Some x => x | None => L "<unknown>" end.

(** ** Duplicate hash: what a frame contributes *)
Inductive key :=
| KBuild (id : str) (offset : Z)                         (* build id (or fingerprint) and offset *)
| KName (name : str)
| KCoreName (name : str)
| KAddress (a : Z)
| KGdb (type name : option str) (handler : bool)
| KPlace (class file : option str) (line : Z)
| KFile (file : option str) (line : Z).
(* None: nothing *)
Definition frame_key (compat : bool) (f : frame) : option key :=
  match f with
  | FCore f =>
    Some match cf_build_id f, cf_function_name f, cf_fingerprint f with
         | Some b, _, _ => KBuild b (cf_build_id_offset f)
         | None, Some n, _ => KCoreName n
         | None, None, Some p => KBuild p (cf_build_id_offset f)
         | None, None, None => KAddress (cf_address f)
         end
  | FGdb f => Some (KGdb (gf_function_type f) (gf_function_name f) (gf_signal_handler_called f))
  | FJava f => Some match vf_name f with Some n => KName n | None => KPlace (vf_class_path f) (vf_file_name f) (vf_file_line f) end
  | FPython f => Some (KFile (pf_file_name f) (pf_file_line f))
  | FRuby f => Some (KFile (rf_file_name f) (rf_file_line f))
  | FJs f => Some (KFile (jf_file_name f) (jf_file_line f))
  | FKoops f =>
    match compat, kf_reliable f with
    | true, false => None
    | _, _ => Some match kf_function_name f with Some n => KName n | None => KAddress (kf_address f) end
    end
  end.
Definition words (l : list (option str)) : str :=
  concat (map (fun w => match w with Some w => L " " ++ w | None => [] end) l).
(* the line without its newline *)
Inductive key_line : key -> str -> Prop :=
| kl_build b o h : hexnum o h -> key_line (KBuild b o) (b ++ L "+0x" ++ h)
| kl_name n : key_line (KName n) n
| kl_core_name n : key_line (KCoreName n) (L "  " ++ n)
| kl_address a h : hexnum a h -> key_line (KAddress a) (L "0x" ++ h)
| kl_gdb t n h : key_line (KGdb t n h) (L " " ++ words [t; n; if h then Some (L "<signal handler called>") else None])
| kl_place c f n d : decnum n d -> key_line (KPlace c f n) (shown c ++ L "/" ++ shown f ++ L ":" ++ d)
| kl_file f n d : decnum n d -> key_line (KFile f n) (shown f ++ L ":" ++ d).
Fixpoint keys (compat : bool) (l : list frame) : list key :=
  match l with
  | [] => []
  | f :: r => match frame_key compat f with Some k => k :: keys compat r | None => keys compat r end
  end.
(* the first n; all when n is 0 *)
Definition first {A} (n : Z) (l : list A) : list A := if n =? 0 then l else firstn (Z.to_nat n) l.
Definition unlines (l : list str) : str := concat (map (fun x => x ++ [nl]) l).
Definition no_newline (s : str) : Prop := ~ In nl s.
(* numbers are unsigned *)
Definition key_ok (k : key) : Prop :=
  match k with KBuild _ n | KAddress n | KPlace _ _ n | KFile _ n => 0 <= n | _ => True end.
Definition frame_unsigned (f : frame) : Prop :=
  match f with
  | FCore f => 0 <= cf_address f /\ 0 <= cf_build_id_offset f
  | FPython f => 0 <= pf_file_line f
  | FKoops f => 0 <= kf_address f /\ 0 <= kf_function_offset f /\ 0 <= kf_function_length f /\
                0 <= kf_from_address f /\ 0 <= kf_from_function_offset f /\ 0 <= kf_from_function_length f
  | FJava f => 0 <= vf_file_line f
  | FGdb f => 0 <= gf_number f /\ 0 <= gf_source_line f /\ 0 <= gf_address f
  | FRuby f => 0 <= rf_file_line f /\ 0 <= rf_block_level f /\ 0 <= rf_rescue_level f
  | FJs f => 0 <= jf_file_line f /\ 0 <= jf_line_column f
  end.
Definition thread_unsigned (t : thread) : Prop :=
  Forall frame_unsigned (sr_thread_frames t) /\ match t with TGdb t => 0 <= gt_number t | _ => True end.
(** The flags: bit 1 asks for the plain text, bit 2 for no normalization, bit 3 for the texts of old kernel oops hashes. *)
Definition plain_text (flags : N) : bool := N.testbit flags 1.
Definition unnormalized (flags : N) : bool := N.testbit flags 2.
Definition old_koops (flags : N) : bool := N.testbit flags 3.
(* the frames the hash is computed from *)
Definition considered (t : thread) (flags : N) (l : list frame) : Prop :=
  if unnormalized flags then l = sr_thread_frames t
  else exists t', sr_thread_normalize t = Ok t' /\ l = sr_thread_frames t'.
Definition header (prefix : option str) (flags : N) : str :=
  match prefix with Some p => p | None => [] end ++ if old_koops flags then [] else L "Thread" ++ [nl].

(** ** Backtrace hash: the members that make up the identity of a stacktrace *)
Definition hashed_core_frame (f : core_frame) := (cf_address f, cf_build_id f, cf_build_id_offset f, cf_file_name f, cf_fingerprint f).
Definition hashed_koops_frame (f : koops_frame) :=
  ((kf_address f, kf_reliable f, kf_function_name f, kf_function_offset f, kf_function_length f, kf_module_name f),
   (kf_from_address f, kf_from_function_name f, kf_from_function_offset f, kf_from_function_length f, kf_from_module_name f)).
Definition hashed_js_frame (f : js_frame) := (jf_file_name f, jf_file_line f, jf_function_name f).
Definition hashed_lib (l : gdb_sharedlib) := (gl_from l, gl_to l, gl_soname l).
Inductive identity :=
| ICore (executable : option str) (signal : Z) (threads : list (list (Z * option str * Z * option str * option str)))
| IPython (exception : option str) (frames : list python_frame)
| IKoops (version : option str) (modules : list str)
         (frames : list ((Z * bool * option str * Z * Z * option str) * (Z * option str * Z * Z * option str)))
| IJava (threads : list (option str * list java_frame))
| IGdb (libs : list (Z * Z * option str)) (threads : list (Z * list gdb_frame))
| IRuby (exception : option str) (frames : list ruby_frame)
| IJs (exception : option str) (frames : list (option str * Z * option str)).
Definition identity_of (s : stacktrace) : identity :=
  match s with
  | SCore s => ICore (cs_executable s) (cs_signal s) (map (fun t => map hashed_core_frame (ct_frames t)) (cs_threads s))
  | SPython s => IPython (ps_exception_name s) (ps_frames s)
  | SKoops s => IKoops (ks_version s) match ks_modules s with Some l => l | None => [] end (map hashed_koops_frame (ks_frames s))
  | SJava s => IJava (map (fun t => (vt_name t, vt_frames t)) (vs_threads s))
  | SGdb s => IGdb (map hashed_lib (gs_libs s)) (map (fun t => (gt_number t, gt_frames t)) (gs_threads s))
  | SRuby s => IRuby (rs_exception_name s) (rs_frames s)
  | SJs s => IJs (js_exception_name s) (map hashed_js_frame (js_frames s))
  end.
(* a whole line or the end of one: no newline, and not the placeholder *)
Definition whole (s : option str) : Prop := match s with Some x => no_newline x /\ x <> L "<unknown>" | None => True end.
(* a field followed by another: also no comma *)
Definition field (s : option str) : Prop := whole s /\ match s with Some x => ~ In ","%char x | None => True end.
Definition frame_plain (f : frame) : Prop :=
  frame_unsigned f /\
  match f with
  | FCore f => field (cf_build_id f) /\ field (cf_file_name f) /\ whole (cf_fingerprint f)
  | FPython f => field (pf_file_name f) /\ field (pf_function_name f) /\ whole (pf_line_contents f)
  | FKoops f => field (kf_function_name f) /\ field (kf_module_name f) /\ field (kf_from_function_name f) /\ whole (kf_from_module_name f)
  | FJava f => field (vf_name f) /\ field (vf_file_name f) /\ field (vf_class_path f) /\ whole (vf_message f)
  | FGdb f => field (gf_function_name f) /\ field (gf_function_type f) /\ field (gf_source_file f) /\ whole (gf_library_name f)
  | FRuby f => field (rf_file_name f) /\ field (rf_function_name f)
  | FJs f => field (jf_file_name f) /\ whole (jf_function_name f)
  end.
Definition plain (s : stacktrace) : Prop :=
  Forall (fun t => Forall frame_plain (sr_thread_frames t)) (sr_stacktrace_threads s) /\
  match s with
  | SCore s => whole (cs_executable s) /\ 0 <= cs_signal s /\ cs_threads s <> []
  | SPython s => whole (ps_exception_name s)
  | SKoops s => whole (ks_version s) /\
                Forall (fun m => no_newline m /\ ~ In ","%char m /\ m <> []) match ks_modules s with Some l => l | None => [] end
  | SJava s => Forall (fun t => whole (vt_name t)) (vs_threads s)
  | SGdb s => Forall (fun l => 0 <= gl_from l /\ 0 <= gl_to l /\ whole (gl_soname l)) (gs_libs s) /\
              Forall (fun t => 0 <= gt_number t) (gs_threads s)
  | SRuby s => whole (rs_exception_name s)
  | SJs s => whole (js_exception_name s)
  end.
(* one Python and one Ruby stacktrace *)
Definition mixed (s t : stacktrace) : Prop :=
  match s, t with SPython _, SRuby _ | SRuby _, SPython _ => True | _, _ => False end.

(** ** Short texts *)
(* the frames that are listed; a negative limit lists one *)
Definition displayed {A} (n : Z) (l : list A) : list A := if n =? 0 then l else firstn (Z.to_nat (Z.max 1 n)) l.
Inductive numbered : Z -> list str -> str -> Prop :=
| nb_nil i : numbered i [] []
| nb_cons i d x l t : decnum i d -> numbered (i + 1) l t -> numbered i (x :: l) (L "#" ++ d ++ L " " ++ x ++ [nl] ++ t).
Definition count (c : ascii) (s : str) : nat := length (filter (Ascii.eqb c) s).
(* what a frame's line must show: the function (or what stands for it) and the place in the source *)
Definition frame_shows (f : frame) : list str :=
  let some x := match x with Some x => [x] | None => [] end in
  match f with
  | FCore f => match cf_function_name f with Some n => [n] | None => some (cf_build_id f) end
  | FPython f => some (pf_function_name f) ++ some (pf_file_name f)
  | FKoops f => some (kf_function_name f) ++ some (kf_module_name f)
  | FJava f => some (vf_name f) ++ (if vf_is_exception f then some (vf_message f)
                                    else some (vf_class_path f) ++ if vf_is_native f then [] else some (vf_file_name f))
  | FGdb f => some (gf_function_name f) ++ some (gf_source_file f)
  | FRuby f => some (rf_function_name f) ++ some (rf_file_name f)
  | FJs f => some (jf_function_name f) ++ some (jf_file_name f)
  end.
(* the library passes no NULL to printf *)
Definition printable (f : frame) : Prop :=
  match f with
  | FCore f => cf_function_name f <> None \/ cf_build_id f <> None
  | FJs f => jf_file_name f <> None
  | FGdb _ => False
  | _ => True
  end.
(* members printed in short texts have no newline *)
Definition one_line (s : option str) : Prop := match s with Some x => no_newline x | None => True end.
Definition frame_one_line (f : frame) : Prop :=
  match f with
  | FCore f => one_line (cf_function_name f) /\ one_line (cf_file_name f) /\ one_line (cf_build_id f)
  | FPython f => one_line (pf_function_name f) /\ one_line (pf_file_name f)
  | FKoops f => one_line (kf_function_name f) /\ one_line (kf_module_name f) /\ one_line (kf_special_stack f)
  | FJava f => one_line (vf_name f) /\ one_line (vf_file_name f) /\ one_line (vf_class_path f) /\ one_line (vf_message f)
  | FGdb f => one_line (gf_function_name f) /\ one_line (gf_function_type f) /\ one_line (gf_source_file f)
  | FRuby f => one_line (rf_function_name f) /\ one_line (rf_file_name f)
  | FJs f => one_line (jf_function_name f) /\ one_line (jf_file_name f)
  end.
