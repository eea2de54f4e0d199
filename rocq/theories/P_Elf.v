(** * Properties C63, C64: unwind tables and procedure linkage tables of ELF files. *)
From Verif Require Import Base Types UtilsModel LookupModel LookupSpec ElfModel ElfSpec ElfProofs ElfProofs2 JsonModel JsonSpec.
Open Scope Z_scope.

(** ** C63 the unwind table *)
(** The records are exactly what the section says: one for each FDE, in order, read with the encoding of its CIE. *)
Theorem C63_table_exact : forall f rs,
  (forall i h data, first_section f (L ".eh_frame") i h data -> Forall (usual_fde data) (elf_cfis f)) ->
  sr_elf_get_eh_frame f = Ok rs <->
  elf_open f = true /\ elf_shdrstrndx f = true /\
  exists class i h data base,
    elf_class f = Some class /\ first_section f (L ".eh_frame") i h data /\ executable_base f base /\ base <> 18446744073709551615 /\
    table_says class base (sh_offset h) data [] (elf_cfis f) rs.
Proof. exact eh_frame_iff. Qed.
(** What a section says is unambiguous. *)
Theorem C63_encoding_unambiguous : forall class a data n b n' b',
  cie_encoding class a data n b -> cie_encoding class a data n' b' -> n = n' /\ b = b'.
Proof. exact cie_encoding_fun. Qed.
(** Nothing outside of the section is read when the entries are complete. *)
Theorem C63_stays_inside : forall f,
  (forall class i h data, elf_class f = Some class -> first_section f (L ".eh_frame") i h data -> Forall (entry_inside class data (elf_cfis f)) (elf_cfis f)) ->
  sr_elf_get_eh_frame f <> UB.
Proof. exact eh_frame_not_ub. Qed.
(** The function a relative FDE describes starts at [v] in memory when the section is loaded at its file offset plus the
    executable's base. *)
Theorem C63_relative_address : forall base offset addr data n pos r loc range v,
  fde_says base offset data n true pos r ->
  bytes_at data pos (loc ++ range) -> length loc = n -> length range = n ->
  (le_value loc + (addr + Z.of_nat pos)) mod 256 ^ Z.of_nat n = v mod 256 ^ Z.of_nat n ->
  addr - offset = base -> 0 <= v - base < 256 ^ Z.of_nat n ->
  fde_start_address r + fde_exec_base r = v /\ fde_length r = le_value range.
Proof. exact fde_virtual_address. Qed.
Theorem C63_absolute_address : forall base offset data n pos r loc range,
  fde_says base offset data n false pos r -> bytes_at data pos (loc ++ range) -> length loc = n -> length range = n -> (n <= 8)%nat ->
  (fde_start_address r + fde_exec_base r) mod 18446744073709551616 = le_value loc /\ fde_length r = le_value range.
Proof. exact fde_absolute_address. Qed.
(** The JSON of a table that has entries. *)
Theorem C63_json : forall l, l <> [] -> exists t, sr_elf_fde_to_json l true = Ok t /\ jval (JArr (map fde_json l)) t.
Proof. exact fdes_json. Qed.
Theorem C63_json_one : forall f l, exists t, sr_elf_fde_to_json (f :: l) false = Ok t /\ jval (fde_json f) t.
Proof. intros f l. exists (fde_to_json f). split; [reflexivity|apply fde_jval]. Qed.
(** An empty table has no JSON. *)
Theorem C63_json_empty_refuted : exists t, sr_elf_fde_to_json [] true = Ok t /\ ~ valid_json t.
Proof. exists (L " ]"). exact no_fdes_json. Qed.

(** A file with two functions at 0x401100 and 0x401140, loaded at 0x400000. *)
Definition le4 (z : Z) : list ascii := map (fun k => ascii_of_N (Z.to_N (z / 256 ^ k mod 256))) [0; 1; 2; 3].
Definition C63_data (sh_addr : Z) : list ascii :=
  (* CIE at 0 *) le4 8 ++ le4 0 ++ [ascii_of_N 27; nul; nul; nul] ++
  (* FDE at 12 *) le4 12 ++ le4 16 ++ le4 (4198656 - (sh_addr + 20)) ++ le4 64 ++
  (* FDE at 28 *) le4 12 ++ le4 32 ++ le4 (4198720 - (sh_addr + 36)) ++ le4 32.
Definition C63_cfis := [Cie 0 (L "zR") [ascii_of_N 27; nul; nul; nul]; BadCfi 8 12; Fde 12 0 20; Fde 28 0 36].
Definition C63_file (base : Z) (sh_addr sh_offset : Z) : elf_file :=
  mk_elf true (Some 2) true (mk_section None None None)
    [mk_section (Some (mk_shdr 1 0 0 0 0)) (Some (L ".text")) None;
     mk_section (Some (mk_shdr 1 sh_addr sh_offset 0 0)) (Some (L ".eh_frame")) (Some (C63_data sh_addr))]
    (Some [Some (mk_phdr 6 4 0); Some (mk_phdr 1 5 base)]) (fun _ _ => None) (fun _ _ => None) (fun _ _ => None) C63_cfis.
Definition C63_usual := C63_file 4194304 4202496 8192.
Example C63_example : sr_elf_get_eh_frame C63_usual = Ok [mk_fde 4194304 4352 64; mk_fde 4194304 4416 32].
Proof. vm_compute. reflexivity. Qed.
Example C63_example_found : sr_elf_find_fde_for_address [mk_fde 4194304 4352 64; mk_fde 4194304 4416 32] 4198730 = Some (mk_fde 4194304 4416 32).
Proof. reflexivity. Qed.
Lemma C63_section base a o : forall i h data, first_section (C63_file base a o) (L ".eh_frame") i h data -> h = mk_shdr 1 a o 0 0 /\ data = C63_data a.
Proof.
  intros i h data H. assert (E : find_elf_section_by_name (C63_file base a o) (L ".eh_frame") = Ok (i, h, data)) by (apply find_by_name_iff; split; [reflexivity|exact H]).
  cbn [find_elf_section_by_name C63_file elf_shdrstrndx elf_sections find_section_loop sec_header sec_name sec_data] in E.
  change (str_eqb (L ".text") (L ".eh_frame")) with false in E. change (str_eqb (L ".eh_frame") (L ".eh_frame")) with true in E. cbn iota in E. injection E as _ <- <-. auto.
Qed.
Example C63_example_usual : forall i h data, first_section C63_usual (L ".eh_frame") i h data -> Forall (usual_fde data) (elf_cfis C63_usual).
Proof.
  intros i h data H. apply C63_section in H as [_ ->]. repeat constructor.
  - exists (le4 12). split; [|split; [reflexivity|vm_compute; discriminate]].
    exists (firstn 12 (C63_data 4202496)), (skipn 16 (C63_data 4202496)). split; vm_compute; reflexivity.
  - exists (le4 12). split; [|split; [reflexivity|vm_compute; discriminate]].
    exists (firstn 28 (C63_data 4202496)), (skipn 32 (C63_data 4202496)). split; vm_compute; reflexivity.
Qed.
Example C63_example_inside : forall class i h data, elf_class C63_usual = Some class -> first_section C63_usual (L ".eh_frame") i h data ->
  Forall (entry_inside class data (elf_cfis C63_usual)) (elf_cfis C63_usual).
Proof.
  intros class i h data _ H. apply C63_section in H as [_ ->]. constructor.
  - left. exists (L "R"). split; [reflexivity|apply dp_R].
  - constructor; [exact Logic.I|].
    assert (Hn : forall o a d n b, In (Cie o a d) (elf_cfis C63_usual) -> cie_encoding class a d n b -> n = 4%nat).
    { intros o a d n b Hi He. cbn in Hi. destruct Hi as [E|[E|[E|[E|[]]]]]; try discriminate. injection E as <- <- <-.
      assert (E : read_cie 0 (L "zR") [ascii_of_N 27; nul; nul; nul] class = Ok (mk_cie 0 n b)) by (apply cie_iff; eauto).
      vm_compute in E. congruence. }
    constructor; [|constructor; [|constructor]]; (split; [vm_compute; lia|]); intros o a d n b Hi _ He; rewrite (Hn _ _ _ _ _ Hi He); vm_compute; lia.
Qed.
(** A CIE with a personality routine and a language specific data area. *)
Example C63_example_personality : cie_encoding 2 (L "zPLR") ([ascii_of_N 155] ++ le4 4660 ++ [ascii_of_N 27; ascii_of_N 27]) 4 true.
Proof.
  assert (E : read_cie 0 (L "zPLR") ([ascii_of_N 155] ++ le4 4660 ++ [ascii_of_N 27; ascii_of_N 27]) 2 = Ok (mk_cie 0 4 true)) by reflexivity.
  apply cie_iff in E as (n & b & E & H). injection E as <- <-. exact H.
Qed.

(** When the code has a segment of its own (the executable segment does not start the file), relative entries are
    recorded at wrong addresses: the function at 0x401100 is not found. *)
Definition C63_separate := C63_file 4198400 4202496 8192.
Theorem C63_separate_code_refuted : exists f i h data base rs loc range,
  (forall i h data, first_section f (L ".eh_frame") i h data -> Forall (usual_fde data) (elf_cfis f)) /\
  first_section f (L ".eh_frame") i h data /\ executable_base f base /\
  (* the FDE at 12 describes the function at 4198656, 64 bytes long *)
  bytes_at data 20 (loc ++ range) /\ length loc = 4%nat /\ length range = 4%nat /\
  (le_value loc + (sh_addr h + 20)) mod 256 ^ 4 = 4198656 /\ le_value range = 64 /\
  sr_elf_get_eh_frame f = Ok rs /\ sr_elf_find_fde_for_address rs 4198656 = None.
Proof.
  exists C63_separate, 2%nat, (mk_shdr 1 4202496 8192 0 0), (C63_data 4202496), 4198400,
    [mk_fde 4198400 4352 64; mk_fde 4198400 4416 32], (le4 (4198656 - (4202496 + 20))), (le4 64).
  split.
  { intros i h data H. apply C63_section in H as [_ ->]. repeat constructor.
    - exists (le4 12). split; [|split; [reflexivity|vm_compute; discriminate]].
      exists (firstn 12 (C63_data 4202496)), (skipn 16 (C63_data 4202496)). split; vm_compute; reflexivity.
    - exists (le4 12). split; [|split; [reflexivity|vm_compute; discriminate]].
      exists (firstn 28 (C63_data 4202496)), (skipn 32 (C63_data 4202496)). split; vm_compute; reflexivity. }
  split. { apply find_by_name_iff. reflexivity. }
  split. { exists [mk_phdr 6 4 0], (mk_phdr 1 5 4198400), []. repeat split; auto. constructor; [|constructor]. intros [H _]. discriminate. }
  split. { exists (firstn 20 (C63_data 4202496)), (skipn 28 (C63_data 4202496)). split; vm_compute; reflexivity. }
  repeat split; vm_compute; reflexivity.
Qed.
(** Entries in the 64-bit format are recorded four bytes off: the offset of the CIE is taken to be twelve bytes long, as
    the length is, although it has eight. *)
Definition C63_data64 : list ascii :=
  le4 8 ++ le4 0 ++ [ascii_of_N 27; nul; nul; nul] ++
  le4 4294967295 ++ le4 16 ++ le4 0 ++ le4 16 ++ le4 0 ++ le4 (4198656 - (4202496 + 32)) ++ le4 64.
Definition C63_file64 : elf_file :=
  mk_elf true (Some 2) true (mk_section None None None)
    [mk_section (Some (mk_shdr 1 4202496 8192 0 0)) (Some (L ".eh_frame")) (Some C63_data64)]
    (Some [Some (mk_phdr 1 5 4194304)]) (fun _ _ => None) (fun _ _ => None) (fun _ _ => None)
    [Cie 0 (L "zR") [ascii_of_N 27; nul; nul; nul]; Fde 12 0 32].
Theorem C63_64bit_format_refuted : exists f i h data r,
  first_section f (L ".eh_frame") i h data /\ executable_base f 4194304 /\ In (Fde 12 0 32) (elf_cfis f) /\
  (exists w, bytes_at data 12 w /\ length w = 4%nat /\ le_value w = 4294967295) /\
  sr_elf_get_eh_frame f = Ok [r] /\ ~ fde_says 4194304 (sh_offset h) data 4 true 32 r.
Proof.
  exists C63_file64, 1%nat, (mk_shdr 1 4202496 8192 0 0), C63_data64, (mk_fde 4194304 4356 64).
  split. { apply find_by_name_iff. reflexivity. }
  split. { exists [], (mk_phdr 1 5 4194304), []. repeat split; auto. }
  split; [right; left; reflexivity|].
  split. { exists (le4 4294967295). split; [|split; reflexivity]. exists (firstn 12 C63_data64), (skipn 16 C63_data64). split; vm_compute; reflexivity. }
  split; [vm_compute; reflexivity|].
  intros (loc & range & Ha & H1 & H2 & _ & _ & H).
  assert (Hb : bytes_at C63_data64 32 (le4 (4198656 - (4202496 + 32)) ++ le4 64)).
  { exists (firstn 32 C63_data64), []. split; vm_compute; reflexivity. }
  assert (E : loc ++ range = le4 (4198656 - (4202496 + 32)) ++ le4 64) by (eapply at_functional; [exact Ha|exact Hb|]; rewrite !app_length, H1, H2; reflexivity).
  apply app_split_length in E as [-> _]; [|exact H1]. vm_compute in H. discriminate.
Qed.
(** An FDE that is cut off makes the reader go beyond the section. *)
Definition C63_file_cut : elf_file :=
  mk_elf true (Some 2) true (mk_section None None None)
    [mk_section (Some (mk_shdr 1 4202496 8192 0 0)) (Some (L ".eh_frame")) (Some (firstn 26 (C63_data 4202496)))]
    (Some [Some (mk_phdr 1 5 4194304)]) (fun _ _ => None) (fun _ _ => None) (fun _ _ => None)
    [Cie 0 (L "zR") [ascii_of_N 27; nul; nul; nul]; Fde 12 0 20].
Theorem C63_cut_entry_refuted : exists f, Forall (fun c => match c with Fde _ _ s => (s < 26)%nat | _ => True end) (elf_cfis f) /\ sr_elf_get_eh_frame f = UB.
Proof. exists C63_file_cut. split; [repeat constructor|vm_compute; reflexivity]. Qed.

(** ** C64 the procedure linkage table *)
(** The entries are exactly the slots of the table from the second on: the address of the slot and the name of the
    function it calls. *)
Theorem C64_plt_exact : forall f es,
  sr_elf_get_procedure_linkage_table f = Ok es <-> elf_open f = true /\ elf_shdrstrndx f = true /\ plt_says f es.
Proof. exact plt_iff. Qed.
Theorem C64_stays_inside : forall f,
  (forall i h data, first_section f (L ".plt") i h data -> (length data mod 16 = 0 \/ 11 <= length data mod 16)%nat) ->
  sr_elf_get_procedure_linkage_table f <> UB.
Proof. exact plt_not_ub. Qed.
Theorem C64_find : forall plt address, finds (fun e => plt_address e = address) plt (sr_elf_plt_find_for_address plt address).
Proof. exact plt_find. Qed.
(** The addresses are those of the slots, each listed once. *)
Theorem C64_addresses : forall f es i h data,
  sr_elf_get_procedure_linkage_table f = Ok es -> first_section f (L ".plt") i h data ->
  (0 <= sh_addr h /\ sh_addr h + Z.of_nat (length data) < 18446744073709551616) ->
  map plt_address es = map (fun k => sh_addr h + 16 * Z.of_nat k) (seq 1 (length es)) /\ NoDup (map plt_address es).
Proof.
  intros f es i h data H Hs Hb. assert (E : map plt_address es = map (fun k => sh_addr h + 16 * Z.of_nat k) (seq 1 (length es))).
  { apply plt_iff in H as (_ & Hx & i' & h' & d' & rd & sd & st & Hs' & _ & _ & _ & Hn).
    assert (Ei : find_elf_section_by_name f (L ".plt") = Ok (i, h, data)) by (apply find_by_name_iff; auto).
    assert (Ei' : find_elf_section_by_name f (L ".plt") = Ok (i', h', d')) by (apply find_by_name_iff; auto).
    rewrite Ei in Ei'. injection Ei' as <- <- <-. clear - Hn Hb.
    assert (G : forall k l, (forall j e, nth_error l j = Some e -> plt_address e = sh_addr h + 16 * Z.of_nat (k + j)) ->
      map plt_address l = map (fun k => sh_addr h + 16 * Z.of_nat k) (seq k (length l))).
    { intros k l. revert k. induction l as [|e l IH]; intros k Hl; [reflexivity|]. cbn [map length seq]. f_equal.
      - rewrite (Hl 0%nat e eq_refl). do 3 f_equal. lia.
      - apply IH. intros j e' He. rewrite (Hl (S j) e' He). do 3 f_equal. lia. }
    apply G. intros j e He. apply Hn in He as [Hlt (w & sym & name & _ & _ & _ & _ & Ha & _)]. rewrite Ha. rewrite Z.mod_small by lia. reflexivity. }
  split; [exact E|]. rewrite E. apply FinFun.Injective_map_NoDup; [|apply seq_NoDup]. intros a b Hab. lia.
Qed.
(** A table whose last slot is cut off. *)
Definition C64_file (data : list ascii) : elf_file :=
  mk_elf true (Some 2) true (mk_section None None None)
    [mk_section (Some (mk_shdr 11 0 0 3 0)) (Some (L ".dynsym")) (Some (L "symbols"));
     mk_section (Some (mk_shdr 4 0 0 1 4)) (Some (L ".rela.plt")) (Some (L "relocations"));
     mk_section (Some (mk_shdr 3 0 0 0 0)) (Some (L ".dynstr")) (Some (L "strings"));
     mk_section (Some (mk_shdr 1 4096 0 0 0)) (Some (L ".plt")) (Some data)]
    None (fun _ n => if n <? 2 then Some (n + 10) else None) (fun _ n => Some (100 * n))
    (fun t n => if t =? 3 then (if n =? 1000 then Some (L "malloc") else Some (L "free")) else None) [].
Definition C64_slot (n : Z) : list ascii := repeat nul 7 ++ le4 n ++ repeat nul 5.
Theorem C64_cut_slot_refuted : exists f, sr_elf_get_procedure_linkage_table f = UB.
Proof. exists (C64_file (C64_slot 0 ++ C64_slot 0 ++ [nul])). vm_compute. reflexivity. Qed.
Example C64_example : sr_elf_get_procedure_linkage_table (C64_file (repeat nul 16 ++ C64_slot 1 ++ C64_slot 0)) =
  Ok [mk_plt 4112 (Some (L "free")); mk_plt 4128 (Some (L "malloc"))].
Proof. vm_compute. reflexivity. Qed.
Example C64_example_find : sr_elf_plt_find_for_address [mk_plt 4112 (Some (L "free")); mk_plt 4128 (Some (L "malloc"))] 4128 = Some (mk_plt 4128 (Some (L "malloc"))).
Proof. reflexivity. Qed.
(** A table of which a relocation cannot be read is not returned at all. *)
Example C64_example_bad : sr_elf_get_procedure_linkage_table (C64_file (repeat nul 16 ++ C64_slot 1 ++ C64_slot 7)) = Fail.
Proof. vm_compute. reflexivity. Qed.
Print Assumptions C63_table_exact.
Print Assumptions C63_encoding_unambiguous.
Print Assumptions C63_stays_inside.
Print Assumptions C63_relative_address.
Print Assumptions C63_absolute_address.
Print Assumptions C63_json.
Print Assumptions C63_json_one.
Print Assumptions C63_json_empty_refuted.
Print Assumptions C63_separate_code_refuted.
Print Assumptions C63_64bit_format_refuted.
Print Assumptions C63_cut_entry_refuted.
Print Assumptions C64_plt_exact.
Print Assumptions C64_stays_inside.
Print Assumptions C64_find.
Print Assumptions C64_addresses.
Print Assumptions C64_cut_slot_refuted.
