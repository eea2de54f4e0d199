(** * Proofs about the procedure linkage table, and the JSON of unwind tables. *)
From Verif Require Import Base Types UtilsModel UtilsProofs LookupModel LookupSpec ElfModel ElfSpec ElfProofs JsonModel JsonSpec JsonProofs JsonTypesModel JsonWriters.
Open Scope nat_scope.

(** ** Relocations *)
Lemma rela_iff f plt sections rela symbols strings :
  rela_loop f plt sections = Ok (Some (rela, symbols, strings)) <->
  exists before s after h sym h',
    sections = before ++ s :: after /\
    Forall (fun s => exists h, sec_header s = Some h /\ ~ (sh_type h = 4%Z /\ sh_info h = Z.of_nat plt)) before /\
    sec_header s = Some h /\ sh_type h = 4%Z /\ sh_info h = Z.of_nat plt /\ sec_data s = Some rela /\
    elf_getscn f (sh_link h) = Some sym /\ sec_data sym = Some symbols /\ sec_header sym = Some h' /\ sh_link h' = strings.
Proof.
  induction sections as [|s r IH]; cbn [rela_loop].
  - split; [discriminate|]. intros (b & s & a & h & sym & h' & E & _). destruct b; discriminate.
  - split.
    + destruct (sec_header s) as [h|] eqn:Eh; [|discriminate]. destruct (_ && _) eqn:Et.
      * apply andb_true_iff in Et as [E1 E2]. apply Z.eqb_eq in E1, E2.
        destruct (sec_data s) as [rd|] eqn:Ed; [|discriminate]. destruct (elf_getscn f (sh_link h)) as [sym|] eqn:Eg; [|discriminate].
        destruct (sec_data sym) as [sd|] eqn:Esd; [|discriminate]. destruct (sec_header sym) as [h'|] eqn:Eh'; [|discriminate].
        intros H. injection H as <- <- <-. exists [], s, r, h, sym, h'. repeat split; auto.
      * intros H. apply IH in H as (b & s' & a & h2 & sym & h' & -> & Hb & H). exists (s :: b), s', a, h2, sym, h'. split; [reflexivity|]. split; [|exact H].
        constructor; [|exact Hb]. exists h. split; [exact Eh|]. intros [E1 E2]. apply Z.eqb_eq in E1, E2. rewrite E1, E2 in Et. discriminate.
    + intros (b & s' & a & h & sym & h' & E & Hb & H1 & H2 & H3 & H4 & H5 & H6 & H7 & H8). destruct b as [|s0 b].
      * injection E as -> ->. apply Z.eqb_eq in H2, H3. rewrite H1, H2, H3, H4, H5, H6, H7, H8. reflexivity.
      * injection E as -> ->. inversion Hb as [|? ? (h0 & Hh & Hn) Hb']; subst. rewrite Hh. destruct (_ && _) eqn:Et.
        { exfalso. apply andb_true_iff in Et as [E1 E2]. apply Z.eqb_eq in E1, E2. auto. }
        apply IH. exists b, s', a, h, sym, h'. repeat split; auto.
Qed.
Lemma rela_not_ub f plt sections : rela_loop f plt sections <> UB.
Proof.
  induction sections as [|s r IH]; cbn [rela_loop]; [discriminate|]. destruct (sec_header s); [|discriminate]. destruct (_ && _); [|exact IH].
  destruct (sec_data s); [|discriminate]. destruct (elf_getscn _ _) as [sym|]; [|discriminate]. destruct (sec_data sym); [|discriminate]. destruct (sec_header sym); discriminate.
Qed.

(** ** Slots *)
Lemma plt_loop_iff fuel f base data rela symbols strings k es : length data <= fuel + 16 * k ->
  plt_loop fuel f base data rela symbols strings (16 * k) = Ok es <->
  length data <= 16 * (k + length es) /\
  forall i e, nth_error es i = Some e -> 16 * (k + i) < length data /\ slot_says f base data rela symbols strings (k + i) e.
Proof.
  revert k es. induction fuel as [|fuel IH]; intros k es Hf; cbn [plt_loop]; destruct (Nat.ltb_spec (16 * k) (length data)) as [Hlt|Hge]; try lia.
  - split.
    + intros H. injection H as <-. cbn. split; [lia|]. intros [|i] e; discriminate.
    + intros [H1 H2]. destruct es as [|e es]; [reflexivity|]. destruct (H2 0 e eq_refl). lia.
  - replace (16 * k + 16) with (16 * S k) by lia. split.
    + destruct (fde_read_address (skipn (16 * k + 7) data) 4) as [v| |] eqn:Er; cbn [bind]; try discriminate.
      apply read_at in Er as (w & Hw & Hl & ->); [|discriminate].
      destruct (elf_rela f rela (le_value w)) as [sym|] eqn:E1; [|discriminate]. destruct (elf_sym f symbols sym) as [name|] eqn:E2; [|discriminate].
      destruct (plt_loop fuel f base data rela symbols strings (16 * S k)) as [es'| |] eqn:El; cbn [bind]; try discriminate.
      intros H. injection H as <-. apply IH in El as [H1 H2]; [|lia]. cbn [length]. split; [lia|]. intros [|i] e He; cbn [nth_error] in He.
      * injection He as <-. rewrite Nat.add_0_r. split; [exact Hlt|]. exists w, sym, name. cbn [plt_address plt_symbol_name]. unfold w64, two64. repeat split; auto. f_equal; lia.
      * apply H2 in He. replace (k + S i) with (S k + i) by lia. exact He.
    + intros [H1 H2]. destruct es as [|e es]; [cbn in H1; lia|]. destruct (H2 0 e eq_refl) as [_ (w & sym & name & Hw & Hl & E1 & E2 & Ha & Hn)].
      rewrite Nat.add_0_r in *. assert (Er : fde_read_address (skipn (16 * k + 7) data) 4 = Ok (le_value w)) by (apply read_at; [discriminate|eauto]).
      rewrite Er. cbn [bind]. rewrite E1, E2.
      assert (El : plt_loop fuel f base data rela symbols strings (16 * S k) = Ok es).
      { apply IH; [lia|]. cbn in H1. split; [lia|]. intros i e' He. replace (S k + i) with (k + S i) by lia. apply H2. exact He. }
      rewrite El. cbn [bind]. destruct e as [ea en]. cbn in Ha, Hn. subst. unfold w64, two64. rewrite Nat2Z.inj_mul. reflexivity.
  - split.
    + intros H. injection H as <-. cbn. split; [lia|]. intros [|i] e; discriminate.
    + intros [H1 H2]. destruct es as [|e es]; [reflexivity|]. destruct (H2 0 e eq_refl). lia.
Qed.
Lemma plt_loop_not_ub fuel f base data rela symbols strings k : length data <= fuel + 16 * k ->
  length data mod 16 = 0 \/ 11 <= length data mod 16 ->
  plt_loop fuel f base data rela symbols strings (16 * k) <> UB.
Proof.
  intros Hf Hm. revert k Hf. induction fuel as [|fuel IH]; intros k Hf; cbn [plt_loop]; destruct (Nat.ltb_spec (16 * k) (length data)) as [Hlt|Hge]; try lia; try discriminate.
  replace (16 * k + 16) with (16 * S k) by lia.
  assert (Hr : 11 <= length data - 16 * k).
  { pose proof (Nat.div_mod (length data) 16 ltac:(discriminate)) as E. pose proof (Nat.mod_upper_bound (length data) 16 ltac:(discriminate)) as E'.
    set (q := length data / 16) in *. set (m := length data mod 16) in *. destruct (Nat.le_gt_cases q k); [|lia]. assert (16 * q <= 16 * k) by lia. lia. }
  destruct (read_cases (skipn (16 * k + 7) data) 4) as [[v ->]|[_ H]]; [|rewrite skipn_length in H; lia]. cbn [bind].
  destruct (elf_rela _ _ _); [|discriminate]. destruct (elf_sym _ _ _); [|discriminate].
  specialize (IH (S k) ltac:(lia)). destruct (plt_loop fuel _ _ _ _ _ _ _); cbn [bind]; congruence.
Qed.
Theorem plt_iff f es : sr_elf_get_procedure_linkage_table f = Ok es <-> elf_open f = true /\ elf_shdrstrndx f = true /\ plt_says f es.
Proof.
  unfold sr_elf_get_procedure_linkage_table. destruct (elf_open f); [|split; [discriminate|intros (H & _); discriminate]]. unfold plt_says, relocations_of. split.
  - destruct (find_elf_section_by_name f _) as [[[i h] d]| |] eqn:Es; cbn [bind]; try discriminate. apply find_by_name_iff in Es as [Hx Es].
    destruct (rela_loop f i (elf_sections f)) as [[[[rd sd] st]|]| |] eqn:Er; cbn [bind]; try discriminate. apply rela_iff in Er.
    destruct (Z.eqb_spec st 0); [discriminate|]. intros H. change 16 with (16 * 1) in H. apply plt_loop_iff in H as [H1 H2]; [|lia].
    split; [reflexivity|]. split; [exact Hx|]. exists i, h, d, rd, sd, st. split; [exact Es|]. split; [exact Er|]. split; [auto|]. split.
    + intros k Hk. lia.
    + intros k e He. apply H2 in He. exact He.
  - intros (_ & Hx & i & h & d & rd & sd & st & Es & Er & Hst & H1 & H2).
    assert (E : find_elf_section_by_name f (L ".plt") = Ok (i, h, d)) by (apply find_by_name_iff; auto). rewrite E. cbn [bind].
    assert (E' : rela_loop f i (elf_sections f) = Ok (Some (rd, sd, st))) by (apply rela_iff; exact Er). rewrite E'. cbn [bind].
    apply Z.eqb_neq in Hst. rewrite Hst. change 16 with (16 * 1) at 1. apply plt_loop_iff; [lia|]. split.
    + destruct (Nat.le_gt_cases (length d) (16 * (1 + length es))) as [|Hgt]; [assumption|]. specialize (H1 (1 + length es) Hgt). lia.
    + intros k e He. apply H2 in He. exact He.
Qed.
Theorem plt_not_ub f :
  (forall i h data, first_section f (L ".plt") i h data -> length data mod 16 = 0 \/ 11 <= length data mod 16) ->
  sr_elf_get_procedure_linkage_table f <> UB.
Proof.
  intros Hu. unfold sr_elf_get_procedure_linkage_table. destruct (elf_open f); [|discriminate].
  destruct (find_elf_section_by_name f _) as [[[i h] d]| |] eqn:Es; cbn [bind]; try discriminate; [|elim (find_by_name_not_ub _ _ Es)].
  apply find_by_name_iff in Es as [Hx Es].
  destruct (rela_loop f i (elf_sections f)) as [[[[rd sd] st]|]| |] eqn:Er; cbn [bind]; try discriminate; [|elim (rela_not_ub _ _ _ Er)].
  destruct (st =? 0)%Z; [discriminate|]. change 16 with (16 * 1) at 1. apply plt_loop_not_ub; [lia|]. eauto.
Qed.
Theorem plt_find plt address : finds (fun e => plt_address e = address) plt (sr_elf_plt_find_for_address plt address).
Proof.
  induction plt as [|e r IH]; cbn; [constructor|]. destruct (Z.eqb_spec (plt_address e) address).
  - exists [], r. repeat split; auto.
  - unfold finds in *. destruct (sr_elf_plt_find_for_address r address) as [x|].
    + destruct IH as (b & a & -> & Hx & Hb). exists (e :: b), a. repeat split; auto.
    + constructor; auto.
Qed.

(** ** JSON *)
Lemma fde_jval f : jval (fde_json f) (fde_to_json f).
Proof.
  pose proof (jf_cons (L "start_address") (L "start_address") (JInt (fde_start_address f)) (L "   ") [] [sp] (print_Z (fde_start_address f)) [nl]
    _ _ ws_3 ltac:(apply plain_key_jchars; reflexivity) ws_nil ltac:(apply (ws_spaces 1)) (jv_print_Z _) ws_1
    (jfields_fld (L "length") _ _ eq_refl (jv_print_Z (fde_length f)))) as H.
  apply jfields_object with (w := []) in H; [|discriminate|apply ws_nil]. unfold fde_json. cbn [app] in H. unfold fde_to_json.
  match type of H with jval _ ?a => match goal with |- jval _ ?b => replace b with a; [exact H|] end end.
  unfold fld. cbn [skipn app L list_ascii_of_string]. rewrite <- !app_assoc. cbn [app]. rewrite <- !app_assoc. reflexivity.
Qed.
Lemma fde_items_comma l : l <> [] -> exists t, jitems (map fde_json l) (","%char :: t) /\ fde_items false l = ","%char :: t /\ fde_items true l = "["%char :: t.
Proof.
  induction l as [|f l IH]; intros Hne; [congruence|]. cbn [map fde_items]. destruct l as [|g l].
  - eexists. split; [|split; reflexivity]. cbn [map app fde_items]. rewrite !app_nil_r.
    pose proof (ji_cons (fde_json f) [sp] (sr_indent_except_first_line (fde_to_json f) 2) [] [] [] ltac:(apply (ws_spaces 1)) ltac:(apply jval_indent, fde_jval) ws_nil ji_nil) as H.
    cbn [app] in H. rewrite !app_nil_r in H. exact H.
  - destruct IH as (t & Ht & E & _); [discriminate|]. rewrite E. eexists. split; [|split; reflexivity].
    exact (ji_cons (fde_json f) [sp] (sr_indent_except_first_line (fde_to_json f) 2) [nl] _ _ ltac:(apply (ws_spaces 1)) ltac:(apply jval_indent, fde_jval) ws_1 Ht).
Qed.
Theorem fdes_json l : l <> [] -> exists t, sr_elf_fde_to_json l true = Ok t /\ jval (JArr (map fde_json l)) t.
Proof.
  intros Hne. destruct (fde_items_comma l Hne) as (t & Ht & _ & E). eexists. split; [reflexivity|]. rewrite E.
  apply jitems_array with (w := [sp]) in Ht; [exact Ht|destruct l; [congruence|discriminate]|apply (ws_spaces 1)].
Qed.
Theorem no_fdes_json : sr_elf_fde_to_json [] true = Ok (L " ]") /\ ~ valid_json (L " ]").
Proof.
  split; [reflexivity|]. intros (v & w1 & t & w2 & Hw1 & Hv & Hw2 & E). apply jval_head in Hv as (c & r & -> & Hc).
  destruct w1 as [|x w1].
  - injection E as <- _. destruct v as [|[]| | | |]; cbn in Hc; try discriminate; destruct Hc as [Hc|Hc]; [discriminate|apply Hc; reflexivity].
  - destruct w1 as [|y w1].
    + injection E as _ <- _. destruct v as [|[]| | | |]; cbn in Hc; try discriminate; destruct Hc as [Hc|Hc]; [discriminate|apply Hc; reflexivity].
    + destruct w1; discriminate.
Qed.
