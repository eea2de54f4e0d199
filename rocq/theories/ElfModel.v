(** * Unwind tables and procedure linkage tables of ELF files (lib/elves.c).

    libelf and libdw are not part of the project: what their calls return for one file is the record
    [elf_file], over which the theorems quantify.  The host is little-endian (the code assumes that it
    runs on the machine the file is for, lib/elves.c:474-480). *)
From Verif Require Import Base UtilsModel Types LookupModel JsonModel.
Open Scope nat_scope.

(** ** What the libraries return *)
(* GElf_Shdr: the fields used *)
Record shdr := mk_shdr { sh_type : Z; sh_addr : Z; sh_offset : Z; sh_link : Z; sh_info : Z }.
(* An Elf_Scn: gelf_getshdr, elf_strptr of its name, elf_getdata; None is NULL *)
Record section := mk_section { sec_header : option shdr; sec_name : option str; sec_data : option (list ascii) }.
(* GElf_Phdr: the fields used *)
Record phdr := mk_phdr { p_type : Z; p_flags : Z; p_vaddr : Z }.
(* One call of dwarf_next_cfi that does not report the end: a CIE with its augmentation string and the
   bytes from its augmentation data on; an FDE with the position of fde.start in the section; an error
   with the offset of the next entry.  The first number is the offset given to the call. *)
Inductive cfi :=
| Cie (offset : nat) (augmentation : str) (augmentation_data : list ascii)
| Fde (offset : nat) (cie_pointer : Z) (start : nat)
| BadCfi (offset next : nat).
Record elf_file := mk_elf {
  elf_open : bool;                      (* open and elf_begin *)
  elf_class : option Z;                 (* elf_getident: e_ident[EI_CLASS] *)
  elf_shdrstrndx : bool;                (* elf_getshdrstrndx *)
  elf_section0 : section;               (* elf_getscn of index 0 *)
  elf_sections : list section;          (* elf_nextscn: sections 1, 2, ... *)
  elf_phdrs : option (list (option phdr)); (* elf_getphdrnum and gelf_getphdr *)
  elf_rela : list ascii -> Z -> option Z;  (* gelf_getrela of a section's data: GELF_R_SYM(r_info) *)
  elf_sym : list ascii -> Z -> option Z;   (* gelf_getsym of a section's data: st_name *)
  elf_strptr : Z -> Z -> option str;       (* elf_strptr *)
  elf_cfis : list cfi                      (* dwarf_next_cfi until it reports the end *)
}.

(** ** Sections *)
(* lib/elves.c:72-112 the loop of find_elf_section_by_name; [index] is the index of the first section of the list *)
Fixpoint find_section_loop (name : str) (index : nat) (sections : list section) : res (nat * shdr * list ascii) :=
  match sections with
  | [] => Fail
  | s :: r =>
    match sec_header s with
    | None => Fail
    | Some h =>
      match sec_name s with
      | None => Fail
      | Some n =>
        if str_eqb n name then
          match sec_data s with
          | None => Fail
          | Some d => Ok (index, h, d)
          end
        else find_section_loop name (S index) r
      end
    end
  end.
(* lib/elves.c:58-115 find_elf_section_by_name *)
Definition find_elf_section_by_name (f : elf_file) (name : str) : res (nat * shdr * list ascii) :=
  if elf_shdrstrndx f then find_section_loop name 1 (elf_sections f) else Fail.
(* elf_getscn *)
Definition elf_getscn (f : elf_file) (index : Z) : option section :=
  if (index =? 0)%Z then Some (elf_section0 f) else nth_error (elf_sections f) (Z.to_nat (index - 1)).

(** ** Bytes *)
(* lib/elves.c:481-496 fde_read_address; p is the memory from the pointer to the end of the buffer.  Also the
   uint32_t read of lib/elves.c:266-269. *)
Fixpoint fde_read_address (p : list ascii) (len : nat) {struct len} : res Z :=
  match len with
  | 0 => Ok 0%Z
  | S n =>
    match p with
    | [] => UB
    | b :: r => do v <- fde_read_address r n; Ok (Z.of_N (code b) + 256 * v)%Z
    end
  end.

(** ** Procedure linkage table *)
(* lib/elves.h:42-50 struct sr_elf_plt_entry *)
Record plt_entry := mk_plt { plt_address : Z; plt_symbol_name : option str }.
(* lib/elves.c:174-233 the relocation section for .plt: its data, the data of the symbol table, the string table;
   None when no section matches *)
Fixpoint rela_loop (f : elf_file) (plt_index : nat) (sections : list section) : res (option (list ascii * list ascii * Z)) :=
  match sections with
  | [] => Ok None
  | s :: r =>
    match sec_header s with
    | None => Fail
    | Some h =>
      if (sh_type h =? 4)%Z && (sh_info h =? Z.of_nat plt_index)%Z then
        match sec_data s with
        | None => Fail
        | Some rela_data =>
          match elf_getscn f (sh_link h) with
          | None => Fail
          | Some symbols =>
            match sec_data symbols with
            | None => Fail
            | Some symbol_data =>
              match sec_header symbols with
              | None => Fail
              | Some h' => Ok (Some (rela_data, symbol_data, sh_link h'))
              end
            end
          end
        end
      else rela_loop f plt_index r
    end
  end.
(* lib/elves.c:263-317 the loop over the slots, plt_offset being a multiple of 16.  The offset is an unsigned int that
   does not wrap in a section smaller than 4 GiB.  The fuel is the size of the section; running out of it is UB (excluded
   by the theorems). *)
Fixpoint plt_loop (fuel : nat) (f : elf_file) (base : Z) (data rela_data symbol_data : list ascii) (strings : Z) (plt_offset : nat)
  : res (list plt_entry) :=
  if Nat.ltb plt_offset (length data) then
    match fuel with
    | 0 => UB
    | S fuel =>
      do index <- fde_read_address (skipn (plt_offset + 7) data) 4;
      match elf_rela f rela_data index with
      | None => Fail
      | Some sym =>
        match elf_sym f symbol_data sym with
        | None => Fail
        | Some name =>
          do rest <- plt_loop fuel f base data rela_data symbol_data strings (plt_offset + 16);
          Ok (mk_plt (w64 (base + Z.of_nat plt_offset)) (elf_strptr f strings name) :: rest)
        end
      end
    end
  else Ok [].
(* lib/elves.c:118-328 sr_elf_get_procedure_linkage_table; Fail is NULL with an error message *)
Definition sr_elf_get_procedure_linkage_table (f : elf_file) : res (list plt_entry) :=
  if elf_open f then
    do (index, h, data) <- find_elf_section_by_name f (L ".plt");
    do found <- rela_loop f index (elf_sections f);
    match found with
    | None => Fail
    | Some (rela_data, symbol_data, strings) =>
      if (strings =? 0)%Z then Fail
      else plt_loop (length data) f (sh_addr h) data rela_data symbol_data strings 16
    end
  else Fail.
(* lib/elves.c:342-357 sr_elf_plt_find_for_address *)
Fixpoint sr_elf_plt_find_for_address (plt : list plt_entry) (address : Z) : option plt_entry :=
  match plt with
  | [] => None
  | e :: r => if (plt_address e =? address)%Z then Some e else sr_elf_plt_find_for_address r address
  end.

(** ** Unwind table *)
(* lib/elves.c:364-379 encoded_size: DW_EH_PE_udata2/4/8 are 2, 3, 4, DW_EH_PE_absptr is 0; ELFCLASS32 is 1 *)
Definition encoded_size (encoding : ascii) (class : Z) : nat :=
  match N.land (code encoding) 7 with
  | 2%N => 2
  | 3%N => 4
  | 4%N => 8
  | 0%N => if (class =? 1)%Z then 4 else 8
  | _ => 0
  end.
(* lib/elves.c:381-388 struct cie *)
Record cie := mk_cie { cie_offset : nat; cie_ptr_len : nat; cie_pcrel : bool }.
(* lib/elves.c:425-470 the loop of read_cie: pointer length and pcrel; DW_EH_PE_pcrel is 0x10 *)
Fixpoint read_cie_loop (class : Z) (augmentation : str) (data : list ascii) : res (nat * bool) :=
  match augmentation with
  | [] => Ok (encoded_size nul class, false)
  | c :: r =>
    if Ascii.eqb c "R" then
      match data with
      | [] => UB
      | e :: _ =>
        let len := encoded_size e class in
        if Nat.eqb len 4 || Nat.eqb len 8 then Ok (len, N.eqb (N.land (code e) 112) 16) else Fail
      end
    else if Ascii.eqb c "L" then read_cie_loop class r (skipn 1 data)
    else if Ascii.eqb c "P" then
      match data with
      | [] => UB
      | e :: _ =>
        let size := encoded_size e class in
        if Nat.eqb size 0 then Fail else read_cie_loop class r (skipn (size + 1) data)
      end
    else Fail
  end.
(* lib/elves.c:402-473 read_cie *)
Definition read_cie (offset : nat) (augmentation : str) (data : list ascii) (class : Z) : res cie :=
  let augmentation := match augmentation with c :: r => if Ascii.eqb c "z" then r else augmentation | [] => [] end in
  do (len, pcrel) <- read_cie_loop class augmentation data;
  Ok (mk_cie offset len pcrel).
(* lib/elves.c:675-687 the search for the CIE of an FDE *)
Fixpoint find_cie (cies : list cie) (pointer : Z) : option cie :=
  match cies with
  | [] => None
  | c :: r => if (pointer =? Z.of_nat (cie_offset c))%Z then Some c else find_cie r pointer
  end.
(* lib/elves.c:703-745 reading the FDE *)
Definition read_fde (base offset : Z) (data : list ascii) (c : cie) (cfi_offset start : nat) : res elf_fde :=
  do initial_location <- fde_read_address (skipn start data) (cie_ptr_len c);
  do address_range <- fde_read_address (skipn (start + cie_ptr_len c) data) (cie_ptr_len c);
  if cie_pcrel c then
    do length <- fde_read_address (skipn cfi_offset data) 4;
    let skip := (if length =? 4294967295 then 12 else 4)%Z in
    let mask := (if Nat.eqb (cie_ptr_len c) 4 then 4294967295 else 18446744073709551615)%Z in
    Ok (mk_fde base (Z.land (w64 (initial_location + (offset + Z.of_nat cfi_offset + 2 * skip))) mask) address_range)
  else Ok (mk_fde base (w64 (initial_location - base)) address_range).
(* lib/elves.c:601-760 the loop over the entries *)
Fixpoint cfi_loop (class base offset : Z) (data : list ascii) (cfis : list cfi) (cies : list cie) : res (list elf_fde) :=
  match cfis with
  | [] => Ok []
  | BadCfi o next :: r => if Nat.ltb o next then cfi_loop class base offset data r cies else Fail
  | Cie o augmentation augmentation_data :: r =>
    do c <- read_cie o augmentation augmentation_data class;
    cfi_loop class base offset data r (cies ++ [c])
  | Fde o pointer start :: r =>
    match find_cie cies pointer with
    | None => Fail
    | Some c =>
      do fde <- read_fde base offset data c o start;
      do rest <- cfi_loop class base offset data r cies;
      Ok (fde :: rest)
    end
  end.
(* lib/elves.c:558-580 the first loadable executable segment; PT_LOAD is 1, PF_X is 1 *)
Fixpoint exec_base_loop (phdrs : list (option phdr)) : res Z :=
  match phdrs with
  | [] => Ok ulong_max
  | None :: _ => Fail
  | Some p :: r => if (p_type p =? 1)%Z && Z.odd (p_flags p) then Ok (p_vaddr p) else exec_base_loop r
  end.
(* lib/elves.c:499-768 sr_elf_get_eh_frame; Fail is NULL with an error message, Ok [] is NULL without one.  Closing the
   file and freeing the CIEs is not modelled. *)
Definition sr_elf_get_eh_frame (f : elf_file) : res (list elf_fde) :=
  if elf_open f then
    match elf_class f with
    | None => Fail
    | Some class =>
      do (_, h, data) <- find_elf_section_by_name f (L ".eh_frame");
      match elf_phdrs f with
      | None => Fail
      | Some phdrs =>
        do base <- exec_base_loop phdrs;
        if (base =? ulong_max)%Z then Fail
        else cfi_loop class base (sh_offset h) data (elf_cfis f) []
      end
    end
  else Fail.

(** ** JSON *)
(* lib/elves.c:876-889 the part for recursive being false *)
Definition fde_to_json (f : elf_fde) : str :=
  L "{   ""start_address"": " ++ print_Z (fde_start_address f) ++ [nl] ++
  L ",   ""length"": " ++ print_Z (fde_length f) ++ [nl] ++ L "}".
(* lib/elves.c:855-872 the loop over the entries *)
Fixpoint fde_items (first : bool) (l : list elf_fde) : str :=
  match l with
  | [] => []
  | f :: r =>
    (if first then L "[ " else L ", ") ++ sr_indent_except_first_line (fde_to_json f) 2 ++
    (match r with [] => [] | _ => [nl] end) ++ fde_items false r
  end.
(* lib/elves.c:847-891 sr_elf_fde_to_json; without recursion NULL is dereferenced *)
Definition sr_elf_fde_to_json (l : list elf_fde) (recursive : bool) : res str :=
  if recursive then Ok (fde_items true l ++ L " ]")
  else match l with [] => UB | f :: _ => Ok (fde_to_json f) end.
