(** * The kernel oops parser (lib/koops_frame.c, lib/koops_stacktrace.c).
      [Some (x, rest)]: x is returned and the input cursor is at [rest]; [None]: NULL or false, the cursor
      is where it was.  Memory of abandoned frames and names is left out. *)
From Verif Require Import Base Types UtilsModel JavaParseModel.
Open Scope nat_scope.

Definition blanks : str := [sp; tab].
(** [sr_skip_char_span(&local_input, " \t")] with the count thrown away *)
Definition skip_blanks (s : str) : str := snd (sr_skip_char_span blanks s).

(* lib/koops_frame.c:443-468 sr_koops_skip_timestamp; SR_space is include/utils.h:44 *)
Definition sr_koops_skip_timestamp (input : str) : option str :=
  let '(b, s) := sr_skip_char "[" input in
  if negb b then None else
  let '(_, s) := sr_skip_char_span (sp :: tab :: ascii_of_nat 13 :: nl :: ascii_of_nat 11 :: ascii_of_nat 12 :: []) s in
  let '(num, s) := sr_skip_uint s in
  if num =? 0 then None else
  let '(b, s) := sr_skip_char "." s in
  if negb b then None else
  let '(num, s) := sr_skip_uint s in
  if num =? 0 then None else
  let '(b, s) := sr_skip_char "]" s in
  if negb b then None else Some s.

(* lib/koops_frame.c:470-492 sr_koops_parse_address.  The first part is what is stored in *address, even
   when the parsing fails later. *)
Definition sr_koops_parse_address (input : str) : option N * option str :=
  let '(b, s) := sr_skip_char "[" input in
  if negb b then (None, None) else
  let '(angle, s) := sr_skip_char "<" s in
  match sr_parse_hexadecimal_uint64 s with
  | None => (None, None)
  | Some (v, _, s) =>
    let '(b, s) := if angle then sr_skip_char ">" s else (true, s) in
    if negb b then (Some v, None) else
    let '(b, s) := sr_skip_char "]" s in
    if negb b then (Some v, None) else (Some v, Some s)
  end.
Definition stored (old : Z) (v : option N) : Z := match v with Some n => Z.of_N n | None => old end.

(* lib/koops_frame.c:494-518 sr_koops_parse_module_name *)
Definition sr_koops_parse_module_name (input : str) : option (str * str) :=
  let '(b, s) := sr_skip_char "[" input in
  if negb b then None else
  match sr_parse_char_cspan (sp :: tab :: nl :: L "]") s with
  | None => None
  | Some (module_name, s) =>
    let '(b, s) := sr_skip_char "]" s in
    if negb b then None else Some (module_name, s)
  end.

(** sr_parse_hexadecimal_0xuint64 into a zero *)
Definition hex_or_zero (s : str) : Z * str :=
  match sr_parse_hexadecimal_0xuint64 s with Some (v, _, r) => (Z.of_N v, r) | None => (0%Z, s) end.
(** what sr_koops_parse_function stores: name, offset, length, module *)
Definition func := (option str * Z * Z * option str)%type.
(* lib/koops_frame.c:520-590 sr_koops_parse_function, for a frame whose four fields are still zero; what
   it leaves in them when it returns false is freed by all callers *)
Definition sr_koops_parse_function (input : str) : option (func * str) :=
  let '(parenthesis, s) := sr_skip_char "(" input in
  match sr_parse_hexadecimal_0xuint64 s with
  | Some (_, _, s) =>
    let '(b, s) := if parenthesis then sr_skip_char ")" s else (true, s) in
    if negb b then None else Some ((None, 0%Z, 0%Z, None), s)
  | None =>
    match sr_parse_char_cspan (sp :: tab :: nl :: L ")+<") s with
    | None => None
    | Some (name, s) =>
      let '(b, s) := sr_skip_char "+" s in
      if negb b then None else
      let '(offset, s) := hex_or_zero s in
      let '(b, s) := sr_skip_char "/" s in
      if negb b then None else
      let '(len, s) := hex_or_zero s in
      let s := skip_blanks s in
      let '(module, s) := match sr_koops_parse_module_name s with Some (m, s) => (Some m, s) | None => (None, s) end in
      let s := skip_blanks s in
      let '(b, s) := if parenthesis then sr_skip_char ")" s else (true, s) in
      if negb b then None else Some ((Some name, offset, len, module), s)
    end
  end.
Definition no_func : func := (None, 0%Z, 0%Z, None).
Definition koops_frame_of (address : Z) (reliable : bool) (f : func) (from_address : Z) (g : func) : koops_frame :=
  let '(name, offset, len, module) := f in
  let '(name', offset', len', module') := g in
  mk_koops_frame address reliable name offset len module from_address name' offset' len' module' None.
(** [*local_input != '\0' && !sr_skip_char(&local_input, '\n')] is the failure *)
Definition end_of_line (s : str) : option str :=
  match s with [] => Some [] | _ => let '(b, s) := sr_skip_char nl s in if b then Some s else None end.

(* lib/koops_frame.c:241-286 koops_frame_parse_ppc *)
Definition koops_frame_parse_ppc (input : str) : option (koops_frame * str) :=
  let s := skip_blanks input in
  match sr_koops_parse_address s with
  | (_, None) => None
  | (_, Some s) =>
    let s := skip_blanks s in
    match sr_koops_parse_address s with
    | (_, None) => None
    | (address, Some s) =>
      let s := skip_blanks s in
      let '(_, s) := sr_skip_char "." s in
      match sr_koops_parse_function s with
      | None => None
      | Some (f, s) =>
        let s := skip_blanks s in
        let '(n, s) := sr_skip_string (L "(unreliable)") s in
        let s := skip_blanks s in
        match end_of_line s with
        | None => None
        | Some s => Some (koops_frame_of (stored 0 address) (n =? 0) f 0 no_func, s)
        end
      end
    end
  end.
(* lib/koops_frame.c:288-340 koops_frame_parse_arm_reduced *)
Definition koops_frame_parse_arm_reduced (input : str) : option (koops_frame * str) :=
  let s := skip_blanks input in
  match sr_koops_parse_address s with
  | (_, None) => None
  | (address, Some s) =>
    let s := skip_blanks s in
    let '(question, s) := sr_skip_char "?" s in
    let s := skip_blanks s in
    let '(b, s) := sr_skip_char "(" s in
    if negb b then None else
    match sr_parse_char_cspan (sp :: tab :: nl :: L ")+<") s with
    | None => None
    | Some (name, s) =>
      let '(b, s) := sr_skip_char ")" s in
      if negb b then None else
      let s := skip_blanks s in
      let '(n, s) := sr_skip_string (L "from") s in
      if n =? 0 then None else
      let s := skip_blanks s in
      match sr_koops_parse_address s with
      | (_, None) => None
      | (from_address, Some s) =>
        let s := skip_blanks s in
        match sr_koops_parse_function s with
        | None => None
        | Some (g, s) => Some (koops_frame_of (stored 0 address) (negb question) (Some name, 0%Z, 0%Z, None) (stored 0 from_address) g, s)
        end
      end
    end
  end.
(* lib/koops_frame.c:389-411 the part "from [<addr>] function" of sr_koops_frame_parse *)
Definition koops_from (s : str) : option (Z * func * str) :=
  let '(n, s) := sr_skip_string (L "from") s in
  if n =? 0 then Some (0%Z, no_func, s) else
  let s := skip_blanks s in
  match sr_koops_parse_address s with
  | (_, None) => None
  | (from_address, Some s) =>
    let s := skip_blanks s in
    match sr_koops_parse_function s with
    | None => None
    | Some (g, s) => Some (stored 0 from_address, g, skip_blanks s)
    end
  end.
(* lib/koops_frame.c:342-440 sr_koops_frame_parse after the address *)
Definition koops_rest (parenthesis : bool) (address : Z) (s : str) : option (koops_frame * str) :=
  let s := skip_blanks s in
  let '(question, s) := sr_skip_char "?" s in
  let s := skip_blanks s in
  match sr_koops_parse_function s with
  | None => None
  | Some (name, offset, len, module, s) =>
    let s := skip_blanks s in
    match koops_from s with
    | None => None
    | Some (from_address, g, s) =>
      let '(module, s) := match module with
                          | Some m => (Some m, s)
                          | None => match sr_koops_parse_module_name s with
                                    | Some (m, s) => (Some m, skip_blanks s)
                                    | None => (None, s)
                                    end
                          end in
      let '(b, s) := if parenthesis then sr_skip_char ")" s else (true, s) in
      if negb b then None else
      let s := if parenthesis then skip_blanks s else s in
      match end_of_line s with
      | None => None
      | Some s => Some (koops_frame_of address (negb question) (name, offset, len, module) from_address g, s)
      end
    end
  end.
(* lib/koops_frame.c:342-440 sr_koops_frame_parse *)
Definition sr_koops_frame_parse (input : str) : option (koops_frame * str) :=
  match koops_frame_parse_ppc input with
  | Some x => Some x
  | None =>
    match koops_frame_parse_arm_reduced input with
    | Some x => Some x
    | None =>
      let s := skip_blanks input in
      let '(parenthesis, s) := sr_skip_char "(" s in
      match sr_koops_parse_address s with
      | (address, Some s) => koops_rest parenthesis (stored 0 address) s
      | (address, None) =>
        match sr_parse_hexadecimal_0xuint64 s with
        | Some (v, _, s) =>
          match end_of_line s with
          | None => None
          | Some s => Some (koops_frame_of (Z.of_N v) false no_func 0 no_func, s)
          end
        | None => koops_rest parenthesis (stored 0 address) s
        end
      end
    end
  end.

(* lib/koops_stacktrace.c:206-228 the loop of parse_taint_flags; the members are the list of booleans *)
Definition set_flag (c : ascii) (flags : list bool) : list bool :=
  let fix go (table : list (ascii * str)) (flags : list bool) :=
    match table, flags with
    | (letter, _) :: table, b :: flags => if Ascii.eqb c letter then true :: flags else b :: go table flags
    | _, _ => flags
    end in
  go taint_flags flags.
Fixpoint taint_loop (s : str) (flags : list bool) : list bool :=
  if (code "A" <=? code (cur s))%N && (code (cur s) <=? code "Z")%N
  then match s with [] => flags | c :: r => taint_loop r (set_flag c flags) end
  else if negb (Ascii.eqb (cur s) sp) then flags
  else match s with [] => flags | _ :: r => taint_loop r flags end.
(** strstr of the C library *)
Fixpoint strstr (needle s : str) : option str :=
  if starts_with needle s then Some s else match s with [] => None | _ :: r => strstr needle r end.
(* lib/koops_stacktrace.c:194-231 parse_taint_flags: whether there are flags, and the members *)
Definition parse_taint_flags (input : str) (flags : list bool) : bool * list bool :=
  match strstr (L "Tainted: ") input with
  | None => (false, flags)
  | Some tainted => (true, taint_loop (skipn 9 tainted) flags)
  end.

(* lib/koops_stacktrace.c:234-293 parse_IP *)
Definition parse_IP (input : str) : option (koops_frame * str) :=
  let s := skip_blanks input in
  let '(n, r) := sr_skip_string (L "RIP:") s in
  if negb (n =? 0) then
    let '(n, s) := sr_skip_char_span blanks r in
    if n =? 0 then None else
    let '(n, s) := sr_skip_char_cspan blanks s in
    if n =? 0 then None else
    let '(n, s) := sr_skip_char_span blanks s in
    if n =? 0 then None else
    match sr_koops_frame_parse s with
    | None => None
    | Some (frame, s) => Some (frame, snd (sr_skip_char_cspan [nl] s))
    end
  else
  let '(n, r) := sr_skip_string (L "EIP:") s in
  if negb (n =? 0) then
    let '(n, s) := sr_skip_char_span blanks r in
    if n =? 0 then None else
    match sr_koops_parse_address s with
    | (_, None) => None
    | (address, Some s) =>
      let s := skip_blanks s in
      let '(question, s) := sr_skip_char "?" s in
      let s := skip_blanks s in
      match sr_koops_parse_function s with
      | None => None
      | Some (f, s) => Some (koops_frame_of (stored 0 address) (negb question) f 0 no_func, snd (sr_skip_char_cspan [nl] s))
      end
    end
  else None.
(* lib/koops_stacktrace.c:295-310 parse_alt_stack_end *)
Definition parse_alt_stack_end (input : str) : option str :=
  let s := skip_blanks input in
  let '(n, s) := sr_skip_char_span (L "<") s in
  if n =? 0 then None else
  let '(n, s) := sr_skip_string (L "EO") s in
  if n =? 0 then None else
  let '(n, s) := sr_skip_char_span (L "IE") s in
  if n =? 0 then None else
  let '(n, s) := sr_skip_char_span (L ">") s in
  if n =? 0 then None else Some s.
(* lib/koops_stacktrace.c:312-329 parse_alt_stack_start *)
Definition parse_alt_stack_start (input : str) : option (str * str) :=
  let s := skip_blanks input in
  let '(b, s) := sr_skip_char "<" s in
  if negb b then None else
  match sr_parse_char_cspan (L "> " ++ [tab; nl]) s with
  | None => None
  | Some (label, s) =>
    let '(b, s) := sr_skip_char ">" s in
    if negb b then None else Some (label, s)
  end.

(* lib/koops_stacktrace.c:418-452 module_list_continues; a keyword that is not followed by a number has
   been stepped over when the next one is looked for *)
Definition keyword_number (keyword s : str) : bool * str :=
  let '(n, s) := sr_skip_string keyword s in
  if n =? 0 then (false, s) else
  let '(n, s) := sr_skip_char_span (L " :") s in
  if n =? 0 then (false, s) else
  let '(n, s) := sr_skip_char_span digits10 s in
  (negb (n =? 0), s).
Definition module_list_continues (input : str) : bool :=
  match sr_koops_skip_timestamp input with
  | Some _ => false
  | None =>
    let '(n, s) := sr_skip_string (L "Pid: ") input in
    if negb (n =? 0) then false else
    let '(b, s) := keyword_number (L "CPU") s in
    if b then false else
    let '(b, s) := keyword_number (L "irq event stamp") s in
    if b then false else
    let '(n, s) := sr_skip_string (L "CR2: ") s in
    if n =? 0 then true else
    let '(n, _) := sr_skip_hexadecimal_uint s in
    n =? 0
  end.
(** [result[i] = x] in an array of [size] elements; the elements below [i] are set, the others are not *)
Definition store (size : nat) (result : list str) : res unit := if length result <? size then Ok tt else UB.
(* lib/koops_stacktrace.c:468-515 the loop of sr_koops_stacktrace_parse_modules; [result] are the modules
   stored so far.  result_size is an int in the code; it does not overflow below 2^30 modules. *)
Definition module_stop : str := sp :: tab :: nl :: L "[".
Fixpoint modules_loop (fuel : nat) (size : nat) (result : list str) (ws : nat) (s : str) : res (list str * str) :=
  match fuel with
  | O => Fail
  | S fuel =>
    let finish (s : str) := do _ <- store size result; Ok (result, s) in
    match sr_parse_char_cspan module_stop s with
    | Some (module, s) =>
      let size := if length result =? size - 1 then size * 2 else size in
      do _ <- store size result;
      let '(ws, s) := sr_skip_char_span blanks s in
      modules_loop fuel size (result ++ [module]) ws s
    | None =>
      if Ascii.eqb (cur s) nl then
        do next <- advance s;
        if negb (module_list_continues next) then finish s else
        let s := next in
        if negb (Ascii.eqb (cur s) sp) && (ws =? 0) && (0 <? length result) then
          match sr_parse_char_cspan module_stop s with
          | None => finish s
          | Some (therest, s) =>
            let '(ws, s) := sr_skip_char_span blanks s in
            modules_loop fuel size (removelast result ++ [last result [] ++ therest]) ws s
          end
        else
          let '(ws, s) := sr_skip_char_span blanks s in
          modules_loop fuel size result ws s
      else finish s
    end
  end.
(* lib/koops_stacktrace.c:454-519 sr_koops_stacktrace_parse_modules *)
Definition sr_koops_stacktrace_parse_modules (input : str) : res (list str * str) :=
  let s := skip_blanks input in
  let '(n, s) := sr_skip_string (L "Modules linked in:") s in
  if n =? 0 then Fail else
  let '(ws, s) := sr_skip_char_span blanks s in
  match modules_loop (S (length s)) 20 [] ws s with
  | Fail => UB (* the fuel is enough: theorem modules_total *)
  | r => r
  end.

(** The state of the loop of sr_koops_stacktrace_parse. *)
Record koops_state := mk_koops_state {
  st_modules : option (list str);
  st_parsed_ip : bool;
  st_alt_stack : option str;
  st_frames : list koops_frame }.
Definition with_special (alt : option str) (f : koops_frame) : koops_frame :=
  match alt with
  | None => f
  | Some _ => mk_koops_frame (kf_address f) (kf_reliable f) (kf_function_name f) (kf_function_offset f) (kf_function_length f)
      (kf_module_name f) (kf_from_address f) (kf_from_function_name f) (kf_from_function_offset f) (kf_from_function_length f)
      (kf_from_module_name f) alt
  end.
(* lib/koops_stacktrace.c:358-407 one turn of the loop of sr_koops_stacktrace_parse up to next_line; the
   flag says that the loop is left *)
Definition koops_line (st : koops_state) (input : str) : res (bool * koops_state * str) :=
  let s := skip_blanks input in
  let s := match sr_koops_skip_timestamp s with Some s => s | None => s end in
  let s := skip_blanks s in
  let '(n, s) := sr_skip_string (L "Last Breaking-Event-Address:" ++ [nl]) s in
  if negb (n =? 0) then Ok (true, st, []) else
  do m <- (match st_modules st with
           | Some _ => Ok None
           | None => match sr_koops_stacktrace_parse_modules s with Ok x => Ok (Some x) | Fail => Ok None | UB => UB end
           end);
  match m with
  | Some (modules, s) => Ok (false, mk_koops_state (Some modules) (st_parsed_ip st) (st_alt_stack st) (st_frames st), s)
  | None =>
    match (if st_parsed_ip st then None else parse_IP s) with
    | Some (frame, s) => Ok (false, mk_koops_state (st_modules st) true (st_alt_stack st) (frame :: st_frames st), s)
    | None =>
      let '(alt, s) := match parse_alt_stack_end s with Some s => (None, s) | None => (st_alt_stack st, s) end in
      let '(alt, s) := match parse_alt_stack_start s with Some (label, s) => (Some label, s) | None => (alt, s) end in
      match sr_koops_frame_parse s with
      | Some (frame, s) =>
        Ok (false, mk_koops_state (st_modules st) (st_parsed_ip st) alt (st_frames st ++ [with_special alt frame]), s)
      | None => Ok (false, mk_koops_state (st_modules st) (st_parsed_ip st) alt (st_frames st), snd (sr_skip_char_cspan [nl] s))
      end
    end
  end.
(* lib/koops_stacktrace.c:352-411 the loop *)
Fixpoint koops_loop (fuel : nat) (st : koops_state) (s : str) : res (koops_state * str) :=
  match fuel with
  | O => Fail
  | S fuel =>
    if at_end s then Ok (st, s) else
    do (stop, st, s) <- koops_line st s;
    if stop then Ok (st, s) else koops_loop fuel st (snd (sr_skip_char nl s))
  end.
(* lib/koops_stacktrace.c:331-416 sr_koops_stacktrace_parse *)
Definition sr_koops_stacktrace_parse (input : str) : res (koops_stacktrace * str) :=
  let flags := snd (parse_taint_flags input no_taint) in
  let reason := fst (span (fun c => negb (Ascii.eqb c nl)) input) in
  do (st, s) <- koops_loop (S (length input)) (mk_koops_state None false None []) input;
  Ok (mk_koops_stacktrace None flags (st_modules st) (Some input) (st_frames st) (Some reason), s).
