(** * What str() of the Python objects shows. *)
From Verif Require Import Base Types UtilsSpec JsonSpec TextModel HeapModel HeapSpec PyModel PySpec PyAttrModel PyAttrSpec PyBaseModel PyBaseSpec.
Open Scope Z_scope.

(** A text in pieces: fixed text, a number in decimal, in hexadecimal, in sixteen hexadecimal digits. *)
Inductive piece := T (s : str) | D (z : Z) | X (z : Z) | X16 (z : Z).
Definition lower_hex (s : str) (z : Z) : Prop := 0 <= z /\ numeral hexadecimal_digit 16 s (Z.to_N z) /\ Forall (fun c => In c (L "0123456789abcdef")) s.
Definition writes (p : piece) (s : str) : Prop :=
  match p with
  | T t => s = t
  | D z => jint z s
  | X z => lower_hex s z /\ (hd nul s = "0"%char -> s = L "0")
  | X16 z => lower_hex s z /\ length s = 16%nat
  end.
Definition says (ps : list piece) (s : str) : Prop := exists parts, Forall2 writes ps parts /\ s = concat parts.

Definition if_some (o : option str) (f : str -> list piece) : list piece := match o with Some x => f x | None => [] end.
Definition if_nonzero (z : Z) (ps : list piece) : list piece := if z =? 0 then [] else ps.
(** A 32-bit number printed as an int. *)
Definition as_int (z : Z) : Z := (z + 2 ^ 31) mod 2 ^ 32 - 2 ^ 31.
Definition angled (special : bool) (s : str) : str := if special then L "<" ++ s ++ L ">" else s.

(** function+0xoffset/0xlength [module] *)
Definition kernel_function (f m : option str) (offset length : Z) : list piece :=
  if_some f (fun x => [T x]) ++ if_nonzero offset [T (L "+0x"); X offset] ++ if_nonzero length [T (L "/0x"); X length] ++
  if_some m (fun x => [T (L " ["); T x; T (L "]")]).
Definition frame_pieces (f : frame) : list piece :=
  match f with
  | FCore f =>
    if_nonzero (cf_address f) [T (L "[0x"); X16 (cf_address f); T (L "] ")] ++
    if_some (cf_function_name f) (fun x => [T x; T (L " ")]) ++
    if_some (cf_build_id f) (fun x => [T x; T (L "+0x"); X (cf_build_id_offset f); T (L " ")]) ++
    if_some (cf_file_name f) (fun x => [T (L "["); T x; T (L "] ")]) ++
    if_some (cf_fingerprint f) (fun x => [T (L "fingerprint: "); T x; T (if cf_fingerprint_hashed f then L " (hashed)" else L " (not hashed)")])
  | FGdb f =>
    [T (L "Frame #"); D (gf_number f); T (L ": ")] ++
    match gf_function_name f with
    | None => [T (L "signal handler")]
    | Some n => if list_eq_dec ascii_dec (firstn 2 n) (L "??") then [T (L "unknown function")] else [T (L "function "); T n]
    end ++
    (if gf_address f =? 2 ^ 64 - 1 then [] else [T (L " @ 0x"); X16 (gf_address f)]) ++
    if_some (gf_library_name f) (fun x => [T (L " ("); T x; T (L ")")])
  | FJava f =>
    if vf_is_exception f then if_some (vf_name f) (fun x => [T x]) ++ if_some (vf_message f) (fun x => [T (L ": "); T x])
    else
      [T [tab]] ++ if_some (vf_name f) (fun x => [T (L "at "); T x]) ++ if_some (vf_file_name f) (fun x => [T (L "("); T x]) ++
      if_nonzero (vf_file_line f) [T (L ":"); D (as_int (vf_file_line f))] ++ (if vf_is_native f then [T (L "(Native Method")] else []) ++ [T (L ")")]
  | FJs f =>
    [T (L "at ")] ++ if_some (jf_function_name f) (fun x => [T x; T (L " (")]) ++
    [T (match jf_file_name f with Some x => x | None => L "<unknown>" end); T (L ":"); D (as_int (jf_file_line f)); T (L ":"); D (as_int (jf_line_column f))] ++
    if_some (jf_function_name f) (fun _ => [T (L ")")])
  | FKoops f =>
    if_some (kf_special_stack f) (fun x => [T (L "["); T x; T (L "] ")]) ++
    if_nonzero (kf_address f) [T (L "[0x"); X16 (kf_address f); T (L "] ")] ++
    (if kf_reliable f then [] else [T (L "? ")]) ++
    kernel_function (kf_function_name f) (kf_module_name f) (kf_function_offset f) (kf_function_length f) ++
    match kf_from_function_name f with Some _ => [T (L " from ")] | None => if_nonzero (kf_from_address f) [T (L " from ")] end ++
    if_nonzero (kf_from_address f) [T (L "[0x"); X16 (kf_from_address f); T (L "] ")] ++
    kernel_function (kf_from_function_name f) (kf_from_module_name f) (kf_from_function_offset f) (kf_from_function_length f)
  | FPython f =>
    if_some (pf_file_name f) (fun x => [T (L "File "); T [dquote]; T (angled (pf_special_file f) x); T [dquote]]) ++
    if_nonzero (pf_file_line f) [T (L ", "); D (as_int (pf_file_line f))] ++
    if_some (pf_function_name f) (fun x => [T (L ", in "); T (angled (pf_special_function f) x)]) ++
    if_some (pf_line_contents f) (fun x => [T [nl]; T (L "    "); T x])
  | FRuby f =>
    if_some (rf_file_name f) (fun x => [T x]) ++ if_nonzero (rf_file_line f) [T (L ":"); D (as_int (rf_file_line f))] ++
    if_some (rf_function_name f) (fun x =>
      [T (L ":in `")] ++ repeat (T (L "rescue in ")) (Z.to_nat (rf_rescue_level f)) ++
      (if rf_block_level f =? 0 then [] else if rf_block_level f =? 1 then [T (L "block in ")]
       else [T (L "block ("); D (as_int (rf_block_level f)); T (L " levels) in ")]) ++
      [T (angled (rf_special_function f) x); T (L "'")])
  end.
(** The numbers of a structure fit the types of C. *)
Definition u32 (z : Z) : Prop := 0 <= z < 2 ^ 32.
Definition u64 (z : Z) : Prop := 0 <= z < 2 ^ 64.
Definition c_numbers (f : frame) : Prop :=
  match f with
  | FCore f => u64 (cf_address f) /\ u64 (cf_build_id_offset f)
  | FGdb f => u32 (gf_number f) /\ u32 (gf_source_line f) /\ u64 (gf_address f)
  | FJava f => u32 (vf_file_line f)
  | FJs f => u32 (jf_file_line f) /\ u32 (jf_line_column f)
  | FKoops f => u64 (kf_address f) /\ u64 (kf_function_offset f) /\ u64 (kf_function_length f) /\ u64 (kf_from_address f) /\
      u64 (kf_from_function_offset f) /\ u64 (kf_from_function_length f)
  | FPython f => u32 (pf_file_line f)
  | FRuby f => u32 (rf_file_line f) /\ u32 (rf_block_level f) /\ u32 (rf_rescue_level f)
  end.
(** Threads and stack traces: what they are, and how many of what they hold. *)
Definition thread_pieces (t : thread) : list piece :=
  match t with
  | TCore _ => [T (L "Thread")]
  | TGdb t => [T (L "Thread #"); D (gt_number t)]
  | TJava t => T (L "Thread") :: if_some (vt_name t) (fun x => [T (L " "); T x])
  | TPython _ => [T (L "Python stacktrace")]
  | TRuby _ => [T (L "Ruby stacktrace")]
  | TJs _ => [T (L "JavaScript stacktrace")]
  | TKoops _ => [T (L "Kerneloops")]
  end.
Definition thread_numbers (t : thread) : Prop := match t with TGdb t => u32 (gt_number t) | _ => True end.
Definition counted (n : nat) (what : str) : list piece := [T (L " with "); D (Z.of_nat n); T what].
Definition thread_count (s : stacktrace) : nat :=
  match s with SCore s => length (cs_threads s) | SJava s => length (vs_threads s) | SGdb s => length (gs_threads s) | _ => 0%nat end.
Definition stack_name (k : kind) : str :=
  match k with KCoreStack => L "Core stacktrace" | KJavaStack => L "Java stacktrace" | KGdbStack => L "Stacktrace" | _ => [] end.

(** Packages and operating systems. *)
Definition rpm_pieces (name : option str) (epoch : Z) (version release architecture : option str) : list piece :=
  match name with
  | None => [T (L "(unknown)")]
  | Some n =>
    T n ::
    if_some version (fun v =>
      T (L "-") :: if_nonzero epoch [D epoch; T (L ":")] ++ T v ::
      if_some release (fun r => T (L "-") :: T r :: if_some architecture (fun a => [T (L "."); T a])))
  end.
Definition os_pieces (name version architecture cpe : option str) : list piece :=
  T (match name with Some n => n | None => L "(unknown)" end) :: if_some version (fun v => [T (L " "); T v]) ++
  if_some architecture (fun a => [T (L " ("); T a; T (L ")")]) ++ if_some cpe (fun c => [T (L ", CPE: "); T c]).
