(** * What a kernel oops looks like. *)
From Verif Require Import Base Types UtilsSpec ParseSpec.
Open Scope nat_scope.

(** ** Words *)
Definition hexadecimal64 (s : str) (v : N) : Prop := numeral hexadecimal_digit 16 s v /\ (v <= 18446744073709551615)%N.
Definition starts_with_hex (s : str) : Prop := match s with [] => False | c :: _ => hexadecimal_digit c <> None end.
(** All the hexadecimal digits that [s] starts with, as a number, and the rest. *)
Definition hex_run (s : str) (v : N) (r : str) : Prop := exists ds, s = ds ++ r /\ hexadecimal64 ds v /\ ~ starts_with_hex r.
Definition hex_0x (s : str) (v : N) (r : str) : Prop := exists q, s = L "0x" ++ q /\ hex_run q v r.
Definition blank_char (c : ascii) : Prop := c = sp \/ c = tab.
(** [r] follows the spaces and tabs that [s] starts with. *)
Definition gap (s r : str) : Prop :=
  exists ws, s = ws ++ r /\ Forall blank_char ws /\ match r with [] => True | c :: _ => ~ blank_char c end.
(** [r] follows the character if [s] starts with it. *)
Definition maybe (c : ascii) (s : str) (b : bool) (r : str) : Prop :=
  (s = c :: r /\ b = true) \/ (~ begins [c] s /\ r = s /\ b = false).
(** The character is there if it is due. *)
Definition closes (due : bool) (c : ascii) (s r : str) : Prop := if due then s = c :: r else r = s.
Definition line_end (s r : str) : Prop := s = nl :: r \/ (s = [] /\ r = []).

(** ** Timestamps, addresses, modules and functions *)
Definition digit_char (c : ascii) : Prop := decimal_digit c <> None.
Definition any_space (c : ascii) : Prop := In c [sp; tab; nl; ascii_of_nat 11; ascii_of_nat 12; ascii_of_nat 13].
(** "[  123.456]" *)
Definition timestamp (s r : str) : Prop :=
  exists ws ds es, s = L "[" ++ ws ++ ds ++ L "." ++ es ++ L "]" ++ r /\
    Forall any_space ws /\ ds <> [] /\ Forall digit_char ds /\ es <> [] /\ Forall digit_char es.
(** "[<ffffffff81234567>]" or "[ffffffff81234567]" *)
Definition address (s : str) (v : N) (r : str) : Prop :=
  exists q, (s = L "[<" ++ q /\ hex_run q v (L ">]" ++ r)) \/ (s = L "[" ++ q /\ hex_run q v (L "]" ++ r)).
(** The number after "[<" or "[", whether or not the brackets are closed, 0 without one. *)
Definition address_seen (s : str) (v : N) : Prop := exists q r, (s = L "[<" ++ q \/ s = L "[" ++ q) /\ hex_run q v r.
Definition address_left (s : str) (v : Z) : Prop :=
  (exists n, address_seen s n /\ v = Z.of_N n) \/ ((forall n, ~ address_seen s n) /\ v = 0%Z).
(** "[name]" *)
Definition module_word (s m r : str) : Prop := s = L "[" ++ m ++ L "]" ++ r /\ m <> [] /\ without (sp :: tab :: nl :: L "]") m.
Definition maybe_module (s : str) (m : option str) (r : str) : Prop :=
  (exists w, module_word s w r /\ m = Some w) \/ ((forall w q, ~ module_word s w q) /\ m = None /\ r = s).
(** "0x12"; anything else is taken as 0 and stays *)
Definition number (s : str) (v : Z) (r : str) : Prop :=
  (exists n, hex_0x s n r /\ v = Z.of_N n) \/ ((forall n q, ~ hex_0x s n q) /\ v = 0%Z /\ r = s).
Definition name_word (name : str) : Prop := name <> [] /\ without (sp :: tab :: nl :: L ")+<") name.
(** Name, offset, length, module. *)
Definition function_info := (option str * Z * Z * option str)%type.
Definition unnamed : function_info := (None, 0%Z, 0%Z, None).
(** "0x12", or "name+0x1/0x2 [module]"; both maybe in parentheses *)
Definition function (s : str) (f : function_info) (r : str) : Prop :=
  exists paren q, maybe "(" s paren q /\
    ((exists n t, hex_0x q n t /\ closes paren ")" t r /\ f = unnamed) \/
     ((forall n t, ~ hex_0x q n t) /\
      exists name offset len module t1 t2 t3 t4 t5 t6, q = name ++ L "+" ++ t1 /\ name_word name /\ number t1 offset (L "/" ++ t2) /\ number t2 len t3 /\
        gap t3 t4 /\ maybe_module t4 module t5 /\ gap t5 t6 /\ closes paren ")" t6 r /\ f = (Some name, offset, len, module))).

(** ** Frames *)
Definition frame_with (addr : Z) (reliable : bool) (f : function_info) (from : Z) (g : function_info) : koops_frame :=
  let '(name, offset, len, module) := f in
  let '(name', offset', len', module') := g in
  mk_koops_frame addr reliable name offset len module from name' offset' len' module' None.
(** "[stack pointer] [address] .function (unreliable)" *)
Definition ppc_frame (s : str) (f : koops_frame) (rest : str) : Prop :=
  exists sp0 a fn t0 t1 t2 t3 t4 t5 t6 t7 t8 dot unreliable, gap s t0 /\ address t0 sp0 t1 /\ gap t1 t2 /\ address t2 a t3 /\ gap t3 t4 /\
    maybe "." t4 dot t5 /\ function t5 fn t6 /\ gap t6 t7 /\
    ((t7 = L "(unreliable)" ++ t8 /\ unreliable = true) \/ (~ begins (L "(unreliable)") t7 /\ t8 = t7 /\ unreliable = false)) /\
    (exists t9, gap t8 t9 /\ line_end t9 rest) /\ f = frame_with (Z.of_N a) (negb unreliable) fn 0 unnamed.
(** "[<address>] ? (function) from [<address>] function"; the line may go on *)
Definition arm_frame (s : str) (f : koops_frame) (rest : str) : Prop :=
  exists a b name g t0 t1 t2 t3 t4 t5 t6 t7 t8 t9 question, gap s t0 /\ address t0 a t1 /\ gap t1 t2 /\ maybe "?" t2 question t3 /\ gap t3 t4 /\
    t4 = L "(" ++ name ++ L ")" ++ t5 /\ name_word name /\ gap t5 t6 /\ t6 = L "from" ++ t7 /\ gap t7 t8 /\ address t8 b t9 /\
    (exists t10, gap t9 t10 /\ function t10 g rest) /\ f = frame_with (Z.of_N a) (negb question) (Some name, 0%Z, 0%Z, None) (Z.of_N b) g.
(** "from [<address>] function" *)
Definition caller (s : str) (a : Z) (g : function_info) (r : str) : Prop :=
  (~ begins (L "from") s /\ r = s /\ a = 0%Z /\ g = unnamed) \/
  (exists b t1 t2 t3 t4 t5, s = L "from" ++ t1 /\ gap t1 t2 /\ address t2 b t3 /\ gap t3 t4 /\ function t4 g t5 /\ gap t5 r /\ a = Z.of_N b).
(** The module may come after the caller. *)
Definition late_module (s : str) (m m' : option str) (r : str) : Prop :=
  match m with
  | Some _ => m' = m /\ r = s
  | None => (exists w q, module_word s w q /\ m' = Some w /\ gap q r) \/ ((forall w q, ~ module_word s w q) /\ m' = None /\ r = s)
  end.
(** What comes after the address: "? function from [<address>] function [module]" *)
Definition frame_body (paren : bool) (a : Z) (s : str) (f : koops_frame) (rest : str) : Prop :=
  exists question name offset len m m' b g t1 t2 t3 t4 t5 t6 t7 t8 t9, gap s t1 /\ maybe "?" t1 question t2 /\ gap t2 t3 /\
    function t3 (name, offset, len, m) t4 /\ gap t4 t5 /\ caller t5 b g t6 /\ late_module t6 m m' t7 /\
    closes paren ")" t7 t8 /\ (if paren then gap t8 t9 else t9 = t8) /\ line_end t9 rest /\
    f = frame_with a (negb question) (name, offset, len, m') b g.
Definition usual_frame (s : str) (f : koops_frame) (rest : str) : Prop :=
  exists t0 paren t1, gap s t0 /\ maybe "(" t0 paren t1 /\
    ((exists a t2, address t1 a t2 /\ frame_body paren (Z.of_N a) t2 f rest) \/
     ((forall a t2, ~ address t1 a t2) /\
      ((exists a t2, hex_0x t1 a t2 /\ line_end t2 rest /\ f = frame_with (Z.of_N a) false unnamed 0 unnamed) \/
       ((forall a t2, ~ hex_0x t1 a t2) /\ exists a, address_left t1 a /\ frame_body paren a t1 f rest)))).
(** A line is read in the first of the three ways that fits. *)
Definition frame_text (s : str) (f : koops_frame) (rest : str) : Prop :=
  ppc_frame s f rest \/
  ((forall g q, ~ ppc_frame s g q) /\ (arm_frame s f rest \/ ((forall g q, ~ arm_frame s g q) /\ usual_frame s f rest))).

(** ** Taint flags *)
(** The letters after the first "Tainted: ", with spaces between them. *)
Definition taint_letters (s letters : str) : Prop :=
  exists pre r, first_split (fun t => begins (L "Tainted: ") t) s pre (L "Tainted: " ++ letters ++ r) /\
    Forall (fun c => c = sp \/ (65 <= code c <= 90)%N) letters /\ match r with [] => True | c :: _ => c <> sp /\ ~ (65 <= code c <= 90)%N end.

(** ** Modules *)
(** [s] goes on with the keyword, a separator and a number. *)
Definition counted (keyword s : str) : Prop :=
  exists sep d r, s = keyword ++ sep ++ d :: r /\ sep <> [] /\ Forall (fun c => In c (L " :")) sep /\ digit_char d.
(** What is left after the keyword and its separators. *)
Definition past_keyword (keyword s r : str) : Prop :=
  (~ begins keyword s /\ r = s) \/
  (exists sep, s = keyword ++ sep ++ r /\ Forall (fun c => In c (L " :")) sep /\ match r with [] => True | c :: _ => ~ In c (L " :") end).
(** The next line does not belong to the list of modules. *)
Definition list_ends (s : str) : Prop :=
  (exists r, timestamp s r) \/ begins (L "Pid: ") s \/ counted (L "CPU") s \/
  exists r, past_keyword (L "CPU") s r /\
    (counted (L "irq event stamp") r \/
     exists q d t, past_keyword (L "irq event stamp") r q /\ q = L "CR2: " ++ d :: t /\ hexadecimal_digit d <> None).
Definition module_name (m : str) : Prop := m <> [] /\ without (sp :: tab :: nl :: L "[") m.
Definition no_module (s : str) : Prop := stops_at (sp :: tab :: nl :: L "[") s.
(** [spaced]: there was a space or a tab before [s]. *)
Definition spaces_then (s : str) (spaced : bool) (r : str) : Prop := gap s r /\ (spaced = false <-> r = s).
(** A list of modules may go on in the next line; a name is cut at the end of a line unless there is a
    space on one of the two sides. *)
Inductive module_list : bool -> list str -> str -> list str -> str -> Prop :=
| ml_name spaced ms s m q spaced' r ms' rest : s = m ++ q -> module_name m -> no_module q -> spaces_then q spaced' r ->
  module_list spaced' (ms ++ [m]) r ms' rest -> module_list spaced ms s ms' rest
| ml_cut ms m q t u spaced' r ms' rest : ~ list_ends q -> q = t ++ u -> module_name t -> no_module u -> spaces_then u spaced' r ->
  module_list spaced' (ms ++ [m ++ t]) r ms' rest -> module_list false (ms ++ [m]) (nl :: q) ms' rest
| ml_cut_short ms m q : ~ list_ends q -> no_module q -> ~ begins (L " ") q -> module_list false (ms ++ [m]) (nl :: q) (ms ++ [m]) q
| ml_next spaced ms q spaced' r ms' rest : ~ list_ends q -> spaced = true \/ ms = [] \/ begins (L " ") q -> spaces_then q spaced' r ->
  module_list spaced' ms r ms' rest -> module_list spaced ms (nl :: q) ms' rest
| ml_over spaced ms q : list_ends q -> module_list spaced ms (nl :: q) ms (nl :: q)
| ml_stop spaced ms s : no_module s -> ~ begins [nl] s -> module_list spaced ms s ms s.
Definition modules_text (s : str) (ms : list str) (rest : str) : Prop :=
  exists t0 q spaced r, gap s t0 /\ t0 = L "Modules linked in:" ++ q /\ spaces_then q spaced r /\ module_list spaced [] r ms rest.

(** ** The lines of an oops *)
(** "RIP: 0010:[<address>]  frame" or "EIP: [<address>] ? function" *)
Definition rest_of_line (s r : str) : Prop := exists junk, s = junk ++ r /\ ~ In nl junk /\ stops_at [nl] r.
Definition some_gap (s r : str) : Prop := gap s r /\ r <> s.
Definition ip_line (s : str) (f : koops_frame) (rest : str) : Prop :=
  exists t0, gap s t0 /\
    ((exists t1 t2 t3 t4 t5 word, t0 = L "RIP:" ++ t1 /\ some_gap t1 t2 /\ t2 = word ++ t3 /\ word <> [] /\ without [sp; tab] word /\ some_gap t3 t4 /\
        frame_text t4 f t5 /\ rest_of_line t5 rest) \/
     (exists t1 t2 t3 t4 t5 t6 t7 a question fn, t0 = L "EIP:" ++ t1 /\ some_gap t1 t2 /\ address t2 a t3 /\ gap t3 t4 /\ maybe "?" t4 question t5 /\ gap t5 t6 /\
        function t6 fn t7 /\ rest_of_line t7 rest /\ f = frame_with (Z.of_N a) (negb question) fn 0 unnamed)).
(** "<EOI>", "<<EOE>>": back on the usual stack *)
Definition chars_of (set : str) (w : str) : Prop := w <> [] /\ Forall (fun c => In c set) w.
Definition stack_end (s r : str) : Prop :=
  exists t0 open tag close, gap s t0 /\ t0 = open ++ L "EO" ++ tag ++ close ++ r /\
    chars_of (L "<") open /\ chars_of (L "IE") tag /\ chars_of (L ">") close /\ ~ begins (L ">") r.
(** "<IRQ>": on another stack *)
Definition stack_start (s label r : str) : Prop :=
  exists t0, gap s t0 /\ t0 = L "<" ++ label ++ L ">" ++ r /\ label <> [] /\ without (L "> " ++ [tab; nl]) label.
(** Modules, whether the instruction pointer was read, the stack, the frames. *)
Definition progress := (option (list str) * bool * option str * list koops_frame)%type.
Definition on_stack (label : option str) (f : koops_frame) : koops_frame :=
  mk_koops_frame (kf_address f) (kf_reliable f) (kf_function_name f) (kf_function_offset f) (kf_function_length f)
    (kf_module_name f) (kf_from_address f) (kf_from_function_name f) (kf_from_function_offset f) (kf_from_function_length f)
    (kf_from_module_name f) label.
Definition past_timestamp (s r : str) : Prop :=
  exists t1 t2, gap s t1 /\ (timestamp t1 t2 \/ ((forall q, ~ timestamp t1 q) /\ t2 = t1)) /\ gap t2 r.
Definition stack_words (label : option str) (s : str) (label' : option str) (r : str) : Prop :=
  exists label1 t, ((stack_end s t /\ label1 = None) \/ ((forall q, ~ stack_end s q) /\ t = s /\ label1 = label)) /\
    ((exists w, stack_start t w r /\ label' = Some w) \/ ((forall w q, ~ stack_start t w q) /\ r = t /\ label' = label1)).
(** One line, after the timestamp. *)
Inductive oops_line : progress -> str -> progress -> str -> Prop :=
| ol_modules ip label fs s ms r : modules_text s ms r -> oops_line (None, ip, label, fs) s (Some ms, ip, label, fs) r
| ol_ip ms label fs s f r : (ms = None -> forall l q, ~ modules_text s l q) -> ip_line s f r ->
  oops_line (ms, false, label, fs) s (ms, true, label, f :: fs) r
| ol_frame ms ip label fs s label' t f r : (ms = None -> forall l q, ~ modules_text s l q) -> (ip = false -> forall g q, ~ ip_line s g q) ->
  stack_words label s label' t -> frame_text t f r -> oops_line (ms, ip, label, fs) s (ms, ip, label', fs ++ [on_stack label' f]) r
| ol_other ms ip label fs s label' t r : (ms = None -> forall l q, ~ modules_text s l q) -> (ip = false -> forall g q, ~ ip_line s g q) ->
  stack_words label s label' t -> (forall f q, ~ frame_text t f q) -> rest_of_line t r -> oops_line (ms, ip, label, fs) s (ms, ip, label', fs) r.
Definition last_line (s : str) : Prop := begins (L "Last Breaking-Event-Address:" ++ [nl]) s.
Inductive oops_lines : progress -> str -> progress -> Prop :=
| os_end p : oops_lines p [] p
| os_last p s t : s <> [] -> past_timestamp s t -> last_line t -> oops_lines p s p
| os_line p s t p' q b q' p'' : s <> [] -> past_timestamp s t -> ~ last_line t -> oops_line p t p' q -> maybe nl q b q' ->
  oops_lines p' q' p'' -> oops_lines p s p''.

(** ** Usual lines *)
(** "[<ffffffff81234567>] ? name+0x12/0x34 [module]" *)
Definition usual_line (ds : str) (question : bool) (name os ls : str) (m : option str) : str :=
  L "[<" ++ ds ++ L ">] " ++ (if question then L "? " else []) ++ name ++ L "+0x" ++ os ++ L "/0x" ++ ls ++
  match m with None => [] | Some w => L " [" ++ w ++ L "]" end.
(** A name as functions have it: it does not look like the start of something else. *)
Definition function_word (name : str) : Prop :=
  name_word name /\ ~ begins (L "0x") name /\ ~ begins (L "[") name /\ ~ begins (L "?") name /\ ~ begins (L "(") name /\ ~ begins (L ".") name.
(** The numbers of such a line, its words, and the frame that it stands for. *)
Definition usual_line_of (line : str) (f : koops_frame) : Prop :=
  exists ds a question name os o ls l m, line = usual_line ds question name os ls m /\ hexadecimal64 ds a /\ hexadecimal64 os o /\ hexadecimal64 ls l /\
    function_word name /\ match m with None => True | Some w => w <> [] /\ without (sp :: tab :: nl :: L "]") w end /\
    f = mk_koops_frame (Z.of_N a) (negb question) (Some name) (Z.of_N o) (Z.of_N l) m 0 None 0 0 None None.
(** Maybe after a timestamp, and after spaces. *)
Definition stamped_line (line : str) (f : koops_frame) : Prop :=
  exists stamp ws u, line = stamp ++ ws ++ u /\ (stamp = [] \/ timestamp stamp []) /\ Forall blank_char ws /\ usual_line_of u f.
Definition lines_text (lines : list str) : str := concat (map (fun l => l ++ [nl]) lines).
Definition spaced_words (ms : list str) : str := concat (map (fun m => sp :: m) ms).

(** ** Texts of oopses *)
Definition nothing_yet : progress := (None, false, None, []).
(** What an oops says: its frames, its modules, its first line. *)
Definition oops_text (s : str) (frames : list koops_frame) (modules : option (list str)) (reason : str) : Prop :=
  (exists ip label, oops_lines nothing_yet s (modules, ip, label, frames)) /\ (exists r, s = reason ++ r /\ ~ In nl reason /\ stops_at [nl] r).
