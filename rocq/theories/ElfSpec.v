(** * What the unwind table and the procedure linkage table of an ELF file say. *)
From Verif Require Import Base Types LookupModel ElfModel JsonSpec.
Open Scope Z_scope.

(** The number a little-endian field holds. *)
Fixpoint le_value (bs : list ascii) : Z :=
  match bs with [] => 0 | b :: r => Z.of_N (N_of_ascii b) + 256 * le_value r end.
(** The bytes [bs] are at position [pos] of [data]. *)
Definition bytes_at (data : list ascii) (pos : nat) (bs : list ascii) : Prop :=
  exists before after, data = before ++ bs ++ after /\ length before = pos.

(** The first section with a name; [index] is its number. *)
Definition first_section (f : elf_file) (name : str) (index : nat) (h : shdr) (data : list ascii) : Prop :=
  exists before s after,
    elf_sections f = before ++ s :: after /\ index = S (length before) /\
    Forall (fun s => sec_header s <> None /\ exists n, sec_name s = Some n /\ n <> name) before /\
    sec_header s = Some h /\ sec_name s = Some name /\ sec_data s = Some data.

(** ** Pointer encodings of the exception header: the low three bits tell the size, bits 4 to 6 what the pointer is
    relative to. *)
Inductive pointer_size (class : Z) (e : ascii) : nat -> Prop :=
| ps_native32 : (N_of_ascii e mod 8 = 0)%N -> class = 1 -> pointer_size class e 4
| ps_native64 : (N_of_ascii e mod 8 = 0)%N -> class <> 1 -> pointer_size class e 8
| ps_data2 : (N_of_ascii e mod 8 = 2)%N -> pointer_size class e 2
| ps_data4 : (N_of_ascii e mod 8 = 3)%N -> pointer_size class e 4
| ps_data8 : (N_of_ascii e mod 8 = 4)%N -> pointer_size class e 8.
Definition pc_relative (e : ascii) : Prop := ((N_of_ascii e / 16) mod 8 = 1)%N.

(** The encoding of the pointers in the FDEs of a CIE (size, relative to the program counter or absolute): what stands
    in the augmentation data for the letter R; before it there is one byte for each L and an encoded pointer for each P. *)
Inductive encoding_of (class : Z) : str -> list ascii -> nat -> bool -> Prop :=
| enc_none data n : pointer_size class nul n -> encoding_of class [] data n false
| enc_R a e data n b : pointer_size class e n -> (n = 4 \/ n = 8)%nat -> (b = true <-> pc_relative e) ->
    encoding_of class ("R"%char :: a) (e :: data) n b
| enc_L a data n b : encoding_of class a (skipn 1 data) n b -> encoding_of class ("L"%char :: a) data n b
| enc_P a e data k n b : pointer_size class e k -> encoding_of class a (skipn k data) n b ->
    encoding_of class ("P"%char :: a) (e :: data) n b.
Definition cie_encoding (class : Z) (a : str) (data : list ascii) (n : nat) (b : bool) : Prop :=
  (exists a', a = "z"%char :: a' /\ encoding_of class a' data n b) \/
  (hd nul a <> "z"%char /\ encoding_of class a data n b).
(** The augmentation data is there for all letters up to the R. *)
Inductive data_present (class : Z) : str -> list ascii -> Prop :=
| dp_none data : data_present class [] data
| dp_R a e data : data_present class ("R"%char :: a) (e :: data)
| dp_L a x data : data_present class a data -> data_present class ("L"%char :: a) (x :: data)
| dp_P a e p data : pointer_size class e (length p) -> data_present class a data ->
    data_present class ("P"%char :: a) (e :: p ++ data)
| dp_P_unknown a e data : (forall k, ~ pointer_size class e k) -> data_present class ("P"%char :: a) (e :: data)
| dp_other c a data : c <> "R"%char -> c <> "L"%char -> c <> "P"%char -> data_present class (c :: a) data.
Definition cie_present (class : Z) (a : str) (data : list ascii) : Prop :=
  (exists a', a = "z"%char :: a' /\ data_present class a' data) \/
  (hd nul a <> "z"%char /\ data_present class a data).

(** ** Entries of the unwind table *)
(** The CIE an FDE refers to: the one at that offset. *)
Definition cie_at (class : Z) (earlier : list cfi) (pointer : Z) (n : nat) (b : bool) : Prop :=
  exists before o a data after,
    earlier = before ++ Cie o a data :: after /\ Z.of_nat o = pointer /\
    Forall (fun c => match c with Cie o' _ _ => o' <> o | _ => True end) before /\
    cie_encoding class a data n b.
(** The function an FDE at [pos] describes: two encoded numbers, its start and its length.  A relative start is
    relative to its own place in the file. *)
Definition fde_says (base sh_offset : Z) (data : list ascii) (n : nat) (pcrel : bool) (pos : nat) (r : elf_fde) : Prop :=
  exists loc range,
    bytes_at data pos (loc ++ range) /\ length loc = n /\ length range = n /\
    fde_exec_base r = base /\ fde_length r = le_value range /\
    fde_start_address r =
      if pcrel then (le_value loc + (sh_offset + Z.of_nat pos)) mod 256 ^ Z.of_nat n
      else (le_value loc - base) mod 18446744073709551616.
(** One record for each FDE, in their order; entries the library cannot read but can step over are left out. *)
Inductive table_says (class base sh_offset : Z) (data : list ascii) : list cfi -> list cfi -> list elf_fde -> Prop :=
| ts_end earlier : table_says class base sh_offset data earlier [] []
| ts_bad earlier o next l rs : (o < next)%nat ->
    table_says class base sh_offset data (earlier ++ [BadCfi o next]) l rs ->
    table_says class base sh_offset data earlier (BadCfi o next :: l) rs
| ts_cie earlier o a d n b l rs : cie_encoding class a d n b ->
    table_says class base sh_offset data (earlier ++ [Cie o a d]) l rs ->
    table_says class base sh_offset data earlier (Cie o a d :: l) rs
| ts_fde earlier o p start n b r l rs : cie_at class earlier p n b ->
    fde_says base sh_offset data n b start r ->
    table_says class base sh_offset data (earlier ++ [Fde o p start]) l rs ->
    table_says class base sh_offset data earlier (Fde o p start :: l) (r :: rs).
(** An FDE in the 32-bit format: a length, the offset of the CIE, then the numbers. *)
Definition usual_fde (data : list ascii) (c : cfi) : Prop :=
  match c with
  | Fde o _ start => start = (o + 8)%nat /\
      exists w, bytes_at data o w /\ length w = 4%nat /\ le_value w <> 4294967295
  | _ => True
  end.
(** The data of an entry lies inside the section; [all] are the entries of the table. *)
Definition entry_inside (class : Z) (data : list ascii) (all : list cfi) (c : cfi) : Prop :=
  match c with
  | Fde o p start => (o + 4 <= length data)%nat /\
      forall o' a d n b, In (Cie o' a d) all -> Z.of_nat o' = p -> cie_encoding class a d n b -> (start + 2 * n <= length data)%nat
  | Cie _ a d => cie_present class a d
  | BadCfi _ _ => True
  end.

(** The first loadable executable segment starts at [base]. *)
Definition executable (p : phdr) : Prop := p_type p = 1 /\ Z.odd (p_flags p) = true.
Definition executable_base (f : elf_file) (base : Z) : Prop :=
  exists before p after, elf_phdrs f = Some (map Some before ++ Some p :: after) /\
    Forall (fun p => ~ executable p) before /\ executable p /\ p_vaddr p = base.

(** ** Procedure linkage table *)
(** The first relocation section for section [plt]: relocations, symbols, string table. *)
Definition relocations_of (f : elf_file) (plt : nat) (rela symbols : list ascii) (strings : Z) : Prop :=
  exists before s after h sym h',
    elf_sections f = before ++ s :: after /\
    Forall (fun s => exists h, sec_header s = Some h /\ ~ (sh_type h = 4 /\ sh_info h = Z.of_nat plt)) before /\
    sec_header s = Some h /\ sh_type h = 4 /\ sh_info h = Z.of_nat plt /\ sec_data s = Some rela /\
    elf_getscn f (sh_link h) = Some sym /\ sec_data sym = Some symbols /\ sec_header sym = Some h' /\ sh_link h' = strings.
(** Slot number [k] of the table (slot 0 is special) pushes a relocation number; its entry is the address of the slot
    and the name of the symbol of that relocation. *)
Definition slot_says (f : elf_file) (base : Z) (data rela symbols : list ascii) (strings : Z) (k : nat) (e : plt_entry) : Prop :=
  exists number sym name,
    bytes_at data (16 * k + 7) number /\ length number = 4%nat /\
    elf_rela f rela (le_value number) = Some sym /\ elf_sym f symbols sym = Some name /\
    plt_address e = (base + 16 * Z.of_nat k) mod 18446744073709551616 /\ plt_symbol_name e = elf_strptr f strings name.
Definition plt_says (f : elf_file) (es : list plt_entry) : Prop :=
  exists index h data rela symbols strings,
    first_section f (L ".plt") index h data /\ relocations_of f index rela symbols strings /\ strings <> 0 /\
    (* the slots 1, 2, ... that start inside of the section *)
    (forall k, (16 * k < length data)%nat -> (k <= length es)%nat) /\
    (forall k e, nth_error es k = Some e -> (16 * S k < length data)%nat /\ slot_says f (sh_addr h) data rela symbols strings (S k) e).

(** ** JSON *)
Definition fde_json (f : elf_fde) : json :=
  JObj [(L "start_address", JInt (fde_start_address f)); (L "length", JInt (fde_length f))].
