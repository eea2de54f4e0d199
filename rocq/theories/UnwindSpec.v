(** * What a stack trace of a core dump is. *)
From Verif Require Import Base Types UtilsModel UnwindModel.
Open Scope nat_scope.

(** The last [n] elements, or all of them if there are not so many. *)
Definition last_of {A} (n : nat) (l k : list A) : Prop := exists dropped, l = dropped ++ k /\ length k = Nat.min n (length l).
Definition libc_start : str := L "__libc_start_main".

Section Process.
Variable addrmodule : Z -> option module.
Variable cxa_demangle : str -> option str.
(** The name shown for a symbol: C++ names demangled where possible. *)
Definition shown_name (symbol name : str) : Prop :=
  ((exists r, symbol = L "_Z" ++ r) /\ cxa_demangle symbol = Some name) \/
  (name = symbol /\ (cxa_demangle symbol = None \/ forall r, symbol <> L "_Z" ++ r)).
(** The frame for the code at [ip].  For a return address the module and the function are those of the call before it. *)
Definition frame_for (ip : Z) (minus_one : bool) (f : core_frame) : Prop :=
  let code := if minus_one then ((ip - 1) mod 18446744073709551616)%Z else ip in
  cf_address f = ip /\ cf_fingerprint f = None /\ cf_fingerprint_hashed f = true /\
  match addrmodule code with
  | None => cf_build_id f = None /\ cf_build_id_offset f = ip /\ cf_function_name f = None /\ cf_file_name f = None
  | Some m =>
    (* in lowercase hexadecimal digits (C08) *)
    cf_build_id f = match mod_build_id m with [] => None | _ => Some (sr_bin2hex (mod_build_id m)) end /\
    match mod_info m with
    | None => cf_build_id_offset f = ip /\ cf_file_name f = None
    | Some (name, start, file) =>
      cf_build_id_offset f = ((ip - start) mod 18446744073709551616)%Z /\
      cf_file_name f = Some (match file with Some file => file | None => name end)
    end /\
    match mod_addrname m code with
    | None => cf_function_name f = None
    | Some symbol => exists name, cf_function_name f = Some name /\ shown_name symbol name
    end
  end.
(** The frames of a thread: all that are reported, in order, down to the start of the program. *)
Inductive unwinds (ret : Z) : list (option (Z * bool)) -> list core_frame -> Prop :=
| un_end : (ret = 0 \/ ret = -1 \/ ret = 2)%Z -> unwinds ret [] []
| un_start ip m f r : frame_for ip m f -> cf_function_name f = Some libc_start -> unwinds ret (Some (ip, m) :: r) []
| un_frame ip m f r fs : frame_for ip m f -> cf_function_name f <> Some libc_start -> unwinds ret r fs ->
    unwinds ret (Some (ip, m) :: r) (f :: fs).
Definition thread_of (u : unwound) (t : core_thread) : Prop :=
  exists fs, unwinds (u_ret u) (u_frames u) fs /\ last_of 256 fs (ct_frames t).

(** ** libunwind *)
(** The name of a frame: the one of its symbol, or the one libunwind knows. *)
Definition lu_frame (s : lu_step) (ip : Z) (f : core_frame) : Prop :=
  exists g, frame_for ip false g /\
    f = mk_core_frame (cf_address g) (cf_build_id g) (cf_build_id_offset g)
          (match cf_function_name g with Some n => Some n | None => lu_proc_name s end) (cf_file_name g) None true.
Inductive lu_unwinds (steps : nat -> lu_step) : nat -> nat -> list core_frame -> Prop :=
| lu_limit i : lu_unwinds steps 0 i []
| lu_zero n i : lu_ip (steps i) = Some 0%Z -> lu_unwinds steps (S n) i []
| lu_last n i ip f : lu_ip (steps i) = Some ip -> ip <> 0%Z -> lu_frame (steps i) ip f ->
    (cf_function_name f = Some libc_start \/ (lu_ret (steps i) <= 0)%Z) -> lu_unwinds steps (S n) i [f]
| lu_more n i ip f fs : lu_ip (steps i) = Some ip -> ip <> 0%Z -> lu_frame (steps i) ip f ->
    cf_function_name f <> Some libc_start -> (0 < lu_ret (steps i))%Z -> lu_unwinds steps n (S i) fs -> lu_unwinds steps (S n) i (f :: fs).
Definition lu_thread_of (thread : Z * (nat -> lu_step)) (t : core_thread) : Prop :=
  (0 <= fst thread)%Z /\ lu_unwinds (snd thread) 999 0 (ct_frames t).
End Process.
(** The signal of the first thread that has one. *)
Definition first_signal (cursigs : list Z) (signal : Z) : Prop :=
  (signal = 0%Z /\ Forall (eq 0%Z) cursigs) \/
  (signal <> 0%Z /\ exists before after, cursigs = before ++ signal :: after /\ Forall (eq 0%Z) before).

(** ** The signal: that of the first process status note that has one *)
Definition process_status (n : note) (signal : Z) : Prop :=
  n_type n = 1%Z /\ 5 <= n_namesz n /\ (exists rest, n_name n = Some (L "CORE" ++ nul :: rest)) /\
  exists a lo hi b, n_desc n = Some (a ++ lo :: hi :: b) /\ length a = 12 /\ length b = 322 /\
    (signal mod 65536 = Z.of_N (N_of_ascii lo) + 256 * Z.of_N (N_of_ascii hi) /\ -32768 <= signal < 32768)%Z.
Fixpoint all_notes (segments : list (option (Z * option (list note)))) : list note :=
  match segments with
  | [] => []
  | Some (t, Some notes) :: r => (if (t =? 4)%Z then notes else []) ++ all_notes r
  | _ :: r => all_notes r
  end.
Definition no_signal (n : note) : Prop := forall s, process_status n s -> s = 0%Z.
Definition signal_of (notes : list note) (signal : Z) : Prop :=
  (signal = 0%Z /\ Forall no_signal notes) \/
  (signal <> 0%Z /\ exists before n after, notes = before ++ n :: after /\ Forall no_signal before /\ process_status n signal).
