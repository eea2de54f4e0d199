(** * Reading and writing whole files (lib/utils.c). *)
From Verif Require Import Base Types UtilsModel.
Open Scope nat_scope.

(* lib/utils.c:36 FILE_SIZE_LIMIT *)
Definition FILE_SIZE_LIMIT : N := 20000000%N.

(* What the operating system answers to the calls of sr_file_to_string: did open(O_RDONLY) succeed, the
   result of lseek to the end (None: -1) and the bytes stored by read (None: -1).  The second lseek and
   close are not checked by the code. *)
Record reading := mk_reading { rd_open : bool; rd_size : option N; rd_read : option (list ascii) }.
(* a buffer as a C string: up to the first NUL byte *)
Fixpoint c_string (bytes : list ascii) : str :=
  match bytes with
  | [] => []
  | c :: r => if Ascii.eqb c nul then [] else c :: c_string r
  end.
(* lib/utils.c:152-204 sr_file_to_string; None is NULL, and then an error message is set *)
Definition sr_file_to_string (r : reading) : option str :=
  if negb (rd_open r) then None
  else
    match rd_size r with
    | None => None
    | Some size =>
      if (FILE_SIZE_LIMIT <? size)%N then None
      else
        match rd_read r with
        | None => None
        | Some contents => if (N.of_nat (length contents) =? size)%N then Some (c_string contents) else None
        end
    end.

(* A name on the disk: nothing or a file with its bytes. *)
Definition disk := option (list ascii).
(* What the operating system answers to the calls of sr_string_to_file: did open(O_WRONLY | O_TRUNC |
   O_CREAT) succeed, the number of bytes write stored (None: -1), did close succeed. *)
Record writing := mk_writing { wr_open : bool; wr_count : option nat; wr_close : bool }.
(* lib/utils.c:206-249 sr_string_to_file.  The states of the file before the first call and after each
   call that changes it, and the result; false with an error message. *)
Definition sr_string_to_file (w : writing) (old : disk) (contents : str) : list disk * bool :=
  if negb (wr_open w) then ([old], false)
  else
    let count := length contents in
    match wr_count w with
    | None => ([old; Some []], false)
    | Some n =>
      let states := [old; Some []; Some (firstn n contents)] in
      if negb (Nat.eqb count n) then (states, false)
      else if negb (wr_close w) then (states, false)
      else (states, true)
    end.
