(** * Proofs about the readers of ELF files. *)
From Verif Require Import Base Types UtilsModel UtilsProofs LookupModel ElfModel ElfSpec.
Open Scope nat_scope.

Lemma app_split_length (a b c d : list ascii) : a ++ b = c ++ d -> length a = length c -> a = c /\ b = d.
Proof.
  revert c. induction a as [|x a IH]; intros [|y c] E Hl; try discriminate; [auto|]. injection E as <- E. injection Hl as Hl.
  destruct (IH c E Hl) as [-> ->]. auto.
Qed.
(** ** Bytes *)
Lemma read_iff p n v : fde_read_address p n = Ok v <-> exists bs q, p = bs ++ q /\ length bs = n /\ v = le_value bs.
Proof.
  revert p v. induction n as [|n IH]; intros p v; cbn [fde_read_address].
  - split.
    + intros H. injection H as <-. exists [], p. auto.
    + intros (bs & q & -> & E & ->). destruct bs; [reflexivity|discriminate].
  - destruct p as [|b r].
    + split; [discriminate|]. intros (bs & q & E & Hl & _). destruct bs; [discriminate|]. discriminate.
    + split.
      * destruct (fde_read_address r n) as [w| |] eqn:E; cbn [bind]; try discriminate. intros H. injection H as <-.
        apply IH in E as (bs & q & -> & Hl & ->). exists (b :: bs), q. cbn. auto.
      * intros (bs & q & E & Hl & ->). destruct bs as [|b' bs]; [discriminate|]. injection E as <- E. injection Hl as Hl.
        assert (H : fde_read_address r n = Ok (le_value bs)) by (apply IH; eauto). rewrite H. reflexivity.
Qed.
Lemma read_cases p n : (exists v, fde_read_address p n = Ok v) \/ (fde_read_address p n = UB /\ length p < n).
Proof.
  revert p. induction n as [|n IH]; intros p; cbn [fde_read_address]; [eauto|]. destruct p as [|b r]; [right; cbn; split; [reflexivity|lia]|].
  destruct (IH r) as [[v ->]|[-> H]]; cbn [bind]; [eauto|]. right. cbn. split; [reflexivity|lia].
Qed.
Lemma read_short p n : length p < n -> fde_read_address p n = UB.
Proof.
  intros H. destruct (read_cases p n) as [[v E]|[E _]]; [|exact E]. apply read_iff in E as (bs & q & -> & Hl & _). rewrite app_length in H. lia.
Qed.
Lemma at_skipn data pos bs : bs <> [] -> bytes_at data pos bs <-> exists q, skipn pos data = bs ++ q.
Proof.
  intros Hne. split.
  - intros (b & a & -> & <-). exists a. rewrite skipn_app, skipn_all, Nat.sub_diag. reflexivity.
  - intros [q E]. exists (firstn pos data), q. rewrite <- E, firstn_skipn. split; [reflexivity|]. rewrite firstn_length.
    assert (length (skipn pos data) <> 0) by (rewrite E; destruct bs; [congruence|cbn; lia]). rewrite skipn_length in H. lia.
Qed.
Lemma read_at data pos n v : n <> 0 ->
  fde_read_address (skipn pos data) n = Ok v <-> exists bs, bytes_at data pos bs /\ length bs = n /\ v = le_value bs.
Proof.
  intros Hn. rewrite read_iff. split.
  - intros (bs & q & E & Hl & Hv). exists bs. split; [|auto]. apply at_skipn; [|eauto]. destruct bs; [cbn in *; lia|discriminate].
  - intros (bs & Ha & Hl & Hv). apply at_skipn in Ha as [q E]; [|destruct bs; [cbn in *; lia|discriminate]]. eauto.
Qed.
Lemma at_app data pos a b : bytes_at data pos (a ++ b) <-> bytes_at data pos a /\ bytes_at data (pos + length a) b.
Proof.
  split.
  - intros (x & y & -> & <-). split; [exists x, (b ++ y)|exists (x ++ a), y]; rewrite ?app_length, <- !app_assoc; auto.
  - intros [(x & y & E & <-) (x' & y' & E' & Hl)]. exists x, y'. split; [|reflexivity].
    rewrite E in E'. rewrite app_assoc in E'. assert (El : length (x ++ a) = length x') by (rewrite app_length; lia).
    destruct (app_split_length _ _ _ _ E' El) as [<- Ey]. clear E'. rename Ey into E'.
    subst y. rewrite E, <- app_assoc. reflexivity.
Qed.
Lemma at_length data pos bs : bytes_at data pos bs -> pos + length bs <= length data.
Proof. intros (a & b & -> & <-). rewrite !app_length. lia. Qed.
Lemma le_bound bs : (0 <= le_value bs < 256 ^ Z.of_nat (length bs))%Z.
Proof.
  induction bs as [|b bs IH]; [cbn; lia|]. cbn [le_value length]. rewrite Nat2Z.inj_succ, Z.pow_succ_r by lia.
  pose proof (N_ascii_bounded b). lia.
Qed.
Lemma at_functional data pos a b : bytes_at data pos a -> bytes_at data pos b -> length a = length b -> a = b.
Proof.
  intros (x & y & E & Hx) (x' & y' & E' & Hx') Hl. subst data.
  destruct (app_split_length _ _ _ _ E' ltac:(congruence)) as [_ E2]. destruct (app_split_length _ _ _ _ E2 Hl) as [-> _]. reflexivity.
Qed.

(** ** Sections *)
Lemma find_section_iff name sections index i h d :
  find_section_loop name index sections = Ok (i, h, d) <->
  exists before s after, sections = before ++ s :: after /\ i = index + length before /\
    Forall (fun s => sec_header s <> None /\ exists n, sec_name s = Some n /\ n <> name) before /\
    sec_header s = Some h /\ sec_name s = Some name /\ sec_data s = Some d.
Proof.
  revert index. induction sections as [|s r IH]; intros index; cbn [find_section_loop].
  - split; [discriminate|]. intros (b & s & a & E & _). destruct b; discriminate.
  - split.
    + destruct (sec_header s) as [h'|] eqn:Eh; [|discriminate]. destruct (sec_name s) as [n|] eqn:En; [|discriminate].
      destruct (str_eqb n name) eqn:Ee.
      * destruct (sec_data s) as [d'|] eqn:Ed; [|discriminate]. intros H. injection H as <- <- <-. apply str_eqb_eq in Ee. subst n.
        exists [], s, r. cbn. rewrite Nat.add_0_r. auto 10.
      * intros H. apply IH in H as (b & s' & a & -> & -> & Hb & H). exists (s :: b), s', a. cbn. split; [reflexivity|]. split; [lia|].
        split; [|exact H]. constructor; [|exact Hb]. split; [congruence|]. exists n. split; [auto|]. intros ->. rewrite str_eqb_refl in Ee. discriminate.
    + intros (b & s' & a & E & -> & Hb & H1 & H2 & H3). destruct b as [|s0 b].
      * injection E as -> ->. rewrite H1, H2, str_eqb_refl, H3. cbn. rewrite Nat.add_0_r. reflexivity.
      * injection E as -> ->. inversion Hb as [|? ? [Hh (n & Hn & Hne)] Hb']; subst. destruct (sec_header s0) as [h'|]; [|congruence].
        rewrite Hn. destruct (str_eqb n name) eqn:Ee; [apply str_eqb_eq in Ee; congruence|].
        apply IH. exists b, s', a. cbn. repeat split; auto.
Qed.
Lemma find_by_name_iff f name i h d :
  find_elf_section_by_name f name = Ok (i, h, d) <-> elf_shdrstrndx f = true /\ first_section f name i h d.
Proof.
  unfold find_elf_section_by_name, first_section. destruct (elf_shdrstrndx f); [|split; [discriminate|intros [? _]; discriminate]].
  rewrite find_section_iff. split; [intros H; split; [reflexivity|exact H]|intros [_ H]; exact H].
Qed.
Lemma find_section_not_ub name sections index : find_section_loop name index sections <> UB.
Proof.
  revert index. induction sections as [|s r IH]; intros index; cbn [find_section_loop]; [discriminate|].
  destruct (sec_header s); [|discriminate]. destruct (sec_name s); [|discriminate]. destruct (str_eqb _ _); [|apply IH]. destruct (sec_data s); discriminate.
Qed.
Lemma find_by_name_not_ub f name : find_elf_section_by_name f name <> UB.
Proof. unfold find_elf_section_by_name. destruct (elf_shdrstrndx f); [apply find_section_not_ub|discriminate]. Qed.

(** ** Encodings *)
Lemma land7 e : N.land (code e) 7 = (N_of_ascii e mod 8)%N.
Proof. change 7%N with (N.ones 3). rewrite N.land_ones. reflexivity. Qed.
Lemma size_iff e class n : pointer_size class e n <-> encoded_size e class = n /\ n <> 0.
Proof.
  unfold encoded_size. rewrite land7. pose proof (N.mod_upper_bound (N_of_ascii e) 8 ltac:(discriminate)) as Hb. split.
  - intros H. inversion H; subst; match goal with E : (_ mod 8 = _)%N |- _ => rewrite E end; split; try reflexivity; try discriminate.
    apply Z.eqb_neq in H1. rewrite H1. reflexivity.
  - set (m := (N_of_ascii e mod 8)%N) in *.
    assert (Hm : (m = 0 \/ m = 1 \/ m = 2 \/ m = 3 \/ m = 4 \/ m = 5 \/ m = 6 \/ m = 7)%N) by lia.
    destruct Hm as [E|[E|[E|[E|[E|[E|[E|E]]]]]]]; rewrite E; intros [<- Hn]; try congruence; try (constructor; exact E).
    destruct (class =? 1)%Z eqn:Ec; [apply Z.eqb_eq in Ec; apply ps_native32|apply Z.eqb_neq in Ec; apply ps_native64]; auto.
Qed.
Lemma size_0 e class : encoded_size e class = 0 <-> forall k, ~ pointer_size class e k.
Proof.
  split.
  - intros H k Hk. apply size_iff in Hk. lia.
  - intros H. destruct (encoded_size e class) as [|k] eqn:E; [reflexivity|]. exfalso. apply (H (S k)). apply size_iff. auto.
Qed.
Lemma pcrel_iff e : N.eqb (N.land (code e) 112) 16 = true <-> pc_relative e.
Proof.
  unfold pc_relative, code. destruct e as [b0 b1 b2 b3 b4 b5 b6 b7].
  destruct b0, b1, b2, b3, b4, b5, b6, b7; vm_compute; split; intros H; reflexivity || discriminate H.
Qed.
Lemma pcrel_eq e (b : bool) : (b = true <-> pc_relative e) <-> b = N.eqb (N.land (code e) 112) 16.
Proof.
  rewrite <- pcrel_iff. destruct b, (N.eqb _ _); split; intros H; try reflexivity; try (split; congruence); try (symmetry; apply H; reflexivity); try (apply H; reflexivity).
Qed.
Lemma encoding_iff class a data n b : read_cie_loop class a data = Ok (n, b) <-> encoding_of class a data n b.
Proof.
  split.
  - revert data. induction a as [|c a IH]; intros data; cbn [read_cie_loop].
    + intros H. injection H as <- <-. apply enc_none. apply size_iff. split; [reflexivity|]. unfold encoded_size. cbn. destruct (class =? 1)%Z; discriminate.
    + destruct (Ascii.eqb_spec c "R") as [->|].
      * destruct data as [|e d]; [discriminate|]. destruct (Nat.eqb _ 4 || Nat.eqb _ 8) eqn:E; [|discriminate]. intros H. injection H as <- <-.
        apply orb_true_iff in E. rewrite !Nat.eqb_eq in E. apply enc_R; [apply size_iff; split; [reflexivity|lia]|exact E|]. apply pcrel_eq. reflexivity.
      * destruct (Ascii.eqb_spec c "L") as [->|]; [intros H; apply enc_L; auto|].
        destruct (Ascii.eqb_spec c "P") as [->|]; [|discriminate]. destruct data as [|e d]; [discriminate|].
        destruct (Nat.eqb_spec (encoded_size e class) 0); [discriminate|]. intros H. apply enc_P with (encoded_size e class); [apply size_iff; auto|].
        rewrite Nat.add_1_r in H. cbn [skipn] in H. auto.
  - intros H. induction H; cbn [read_cie_loop].
    + apply size_iff in H as [-> _]. reflexivity.
    + cbn [Ascii.eqb]. change (Ascii.eqb "R" "R") with true. cbn iota. apply size_iff in H as [-> _]. apply pcrel_eq in H1. rewrite <- H1.
      destruct H0 as [-> | ->]; reflexivity.
    + change (Ascii.eqb "L" "R") with false. change (Ascii.eqb "L" "L") with true. cbn iota. exact IHencoding_of.
    + change (Ascii.eqb "P" "R") with false. change (Ascii.eqb "P" "L") with false. change (Ascii.eqb "P" "P") with true. cbn iota.
      apply size_iff in H as [-> Hk]. apply Nat.eqb_neq in Hk. rewrite Hk, Nat.add_1_r. exact IHencoding_of.
Qed.
Lemma encoding_size class a data n b : encoding_of class a data n b -> n = 4 \/ n = 8.
Proof.
  induction 1; auto. apply size_iff in H as [<- _]. unfold encoded_size. cbn. destruct (class =? 1)%Z; auto.
Qed.
Lemma present_not_ub class a data : data_present class a data -> read_cie_loop class a data <> UB.
Proof.
  induction 1; cbn [read_cie_loop].
  - discriminate.
  - change (Ascii.eqb "R" "R") with true. cbn iota. destruct (_ || _); discriminate.
  - change (Ascii.eqb "L" "R") with false. change (Ascii.eqb "L" "L") with true. cbn iota. exact IHdata_present.
  - change (Ascii.eqb "P" "R") with false. change (Ascii.eqb "P" "L") with false. change (Ascii.eqb "P" "P") with true. cbn iota.
    apply size_iff in H as [-> Hk]. apply Nat.eqb_neq in Hk. rewrite Hk, Nat.add_1_r. cbn [skipn]. rewrite skipn_app, skipn_all, Nat.sub_diag. exact IHdata_present.
  - change (Ascii.eqb "P" "R") with false. change (Ascii.eqb "P" "L") with false. change (Ascii.eqb "P" "P") with true. cbn iota.
    apply size_0 in H. rewrite H. discriminate.
  - apply Ascii.eqb_neq in H, H0, H1. rewrite H, H0, H1. discriminate.
Qed.
Lemma cie_iff class o a data c :
  read_cie o a data class = Ok c <-> exists n b, c = mk_cie o n b /\ cie_encoding class a data n b.
Proof.
  unfold read_cie, cie_encoding. split.
  - destruct a as [|x a]; [|destruct (Ascii.eqb_spec x "z") as [->|Hx]];
      destruct (read_cie_loop _ _ _) as [[n b]| |] eqn:E; cbn [bind]; try discriminate; intros H; injection H as <-; apply encoding_iff in E;
      exists n, b; (split; [reflexivity|]); [right; split; [discriminate|exact E] |left; eauto |right; auto].
  - intros (n & b & -> & [(a' & -> & H)|[Hz H]]); apply encoding_iff in H.
    + cbn iota. change (Ascii.eqb "z" "z") with true. cbn iota. rewrite H. reflexivity.
    + destruct a as [|x a]; [rewrite H; reflexivity|]. cbn [hd] in Hz. apply Ascii.eqb_neq in Hz. rewrite Hz, H. reflexivity.
Qed.
Lemma cie_not_ub class o a data : cie_present class a data -> read_cie o a data class <> UB.
Proof.
  intros H. unfold read_cie. assert (E : read_cie_loop class (match a with c :: r => if Ascii.eqb c "z" then r else a | [] => [] end) data <> UB).
  { destruct H as [(a' & -> & H)|[Hz H]]; apply present_not_ub in H.
    - exact H.
    - destruct a as [|x a]; [exact H|]. cbn [hd] in Hz. apply Ascii.eqb_neq in Hz. rewrite Hz. exact H. }
  destruct (read_cie_loop _ _ _) as [[n b]| |]; cbn [bind]; congruence.
Qed.

(** ** FDEs *)
Lemma land_mask v n : n = 4 \/ n = 8 ->
  Z.land (w64 v) (if Nat.eqb n 4 then 4294967295 else 18446744073709551615)%Z = (v mod 256 ^ Z.of_nat n)%Z.
Proof.
  unfold w64, two64. intros [-> | ->]; cbn [Nat.eqb].
  - change 4294967295%Z with (Z.ones 32). rewrite Z.land_ones by lia. change (256 ^ Z.of_nat 4)%Z with (2 ^ 32)%Z.
    change 18446744073709551616%Z with (2 ^ 32 * 2 ^ 32)%Z. rewrite Z.rem_mul_r by lia. rewrite Z.mul_comm, Z.mod_add, Z.mod_mod by lia. reflexivity.
  - change 18446744073709551615%Z with (Z.ones 64). rewrite Z.land_ones by lia. change (256 ^ Z.of_nat 8)%Z with (2 ^ 64)%Z.
    change 18446744073709551616%Z with (2 ^ 64)%Z. rewrite Z.mod_mod by lia. reflexivity.
Qed.
Definition entry_ok_32 (data : list ascii) (o start : nat) : Prop :=
  start = o + 8 /\ exists w, bytes_at data o w /\ length w = 4 /\ le_value w <> 4294967295%Z.
Lemma fde_iff base off data c o start r : (cie_ptr_len c = 4 \/ cie_ptr_len c = 8) -> entry_ok_32 data o start ->
  read_fde base off data c o start = Ok r <-> fde_says base off data (cie_ptr_len c) (cie_pcrel c) start r.
Proof.
  intros Hn [Hs (w & Hw & Hlw & Hv)]. unfold read_fde, fde_says. set (n := cie_ptr_len c) in *.
  assert (Hn0 : n <> 0) by lia.
  assert (Hlen : fde_read_address (skipn o data) 4 = Ok (le_value w)) by (apply read_at; [discriminate|eauto]).
  apply Z.eqb_neq in Hv. rewrite Hlen. cbn [bind]. rewrite Hv.
  split.
  - destruct (fde_read_address (skipn start data) n) as [v1| |] eqn:E1; cbn [bind]; try discriminate.
    destruct (fde_read_address (skipn (start + n) data) n) as [v2| |] eqn:E2; cbn [bind]; try discriminate.
    apply read_at in E1 as (loc & Ha1 & Hl1 & ->); [|exact Hn0]. apply read_at in E2 as (range & Ha2 & Hl2 & ->); [|exact Hn0].
    intros H. exists loc, range. split; [apply at_app; rewrite Hl1; auto|]. split; [exact Hl1|]. split; [exact Hl2|].
    destruct (cie_pcrel c); injection H as <-; cbn; (split; [reflexivity|]); (split; [reflexivity|]).
    + rewrite land_mask by exact Hn. rewrite Hs, Nat2Z.inj_add. f_equal. lia.
    + reflexivity.
  - intros (loc & range & Ha & Hl1 & Hl2 & Hb & Hr & Hst). apply at_app in Ha as [Ha1 Ha2]. rewrite Hl1 in Ha2.
    assert (E1 : fde_read_address (skipn start data) n = Ok (le_value loc)) by (apply read_at; eauto).
    assert (E2 : fde_read_address (skipn (start + n) data) n = Ok (le_value range)) by (apply read_at; eauto).
    rewrite E1, E2. cbn [bind]. destruct r as [rb rs rl]; cbn in *. subst rb rl rs. destruct (cie_pcrel c).
    + rewrite land_mask by exact Hn. rewrite Hs, Nat2Z.inj_add. do 2 f_equal. f_equal. lia.
    + reflexivity.
Qed.
Lemma fde_not_ub base off data c o start : (cie_ptr_len c = 4 \/ cie_ptr_len c = 8) -> start + 2 * cie_ptr_len c <= length data -> o + 4 <= length data ->
  read_fde base off data c o start <> UB.
Proof.
  intros Hn Hs Ho. unfold read_fde. set (n := cie_ptr_len c) in *.
  destruct (read_cases (skipn start data) n) as [[v ->]|[_ H]]; [|rewrite skipn_length in H; lia]. cbn [bind].
  destruct (read_cases (skipn (start + n) data) n) as [[v2 ->]|[_ H]]; [|rewrite skipn_length in H; lia]. cbn [bind].
  destruct (cie_pcrel c); [|discriminate].
  destruct (read_cases (skipn o data) 4) as [[v3 ->]|[_ H]]; [|rewrite skipn_length in H; lia]. discriminate.
Qed.

(** ** The table *)
(** The CIEs read so far. *)
Inductive cies_of (class : Z) : list cfi -> list cie -> Prop :=
| co_nil : cies_of class [] []
| co_cie l cs o a d n b : cies_of class l cs -> cie_encoding class a d n b -> cies_of class (l ++ [Cie o a d]) (cs ++ [mk_cie o n b])
| co_fde l cs o p s : cies_of class l cs -> cies_of class (l ++ [Fde o p s]) cs
| co_bad l cs o n : cies_of class l cs -> cies_of class (l ++ [BadCfi o n]) cs.
Lemma cie_encoding_fun class a d n b n' b' : cie_encoding class a d n b -> cie_encoding class a d n' b' -> n = n' /\ b = b'.
Proof.
  intros H H'. assert (E : read_cie 0 a d class = Ok (mk_cie 0 n b)) by (apply cie_iff; eauto).
  assert (E' : read_cie 0 a d class = Ok (mk_cie 0 n' b')) by (apply cie_iff; eauto). rewrite E in E'. injection E' as <- <-. auto.
Qed.
Lemma cie_encoding_size class a d n b : cie_encoding class a d n b -> n = 4 \/ n = 8.
Proof. intros [(a' & _ & H)|[_ H]]; eapply encoding_size; exact H. Qed.
Definition unlike (o : nat) (c : cfi) : Prop := match c with Cie o' _ _ => o' <> o | _ => True end.
Lemma cies_none class l cs p : cies_of class l cs -> find_cie cs p = None ->
  Forall (fun c => match c with Cie o' _ _ => Z.of_nat o' <> p | _ => True end) l.
Proof.
  intros H. revert p. induction H; intros q; intros E.
  - constructor.
  - apply Forall_app. assert (Hn : find_cie cs q = None /\ (q =? Z.of_nat o)%Z = false).
    { clear - E. induction cs as [|c cs IH]; cbn in E.
      - destruct (q =? Z.of_nat o)%Z; [discriminate|auto].
      - cbn. destruct (q =? Z.of_nat (cie_offset c))%Z; [discriminate|]. apply IH. exact E. }
    destruct Hn as [Hn Ho]. split; [apply IHcies_of; exact Hn|]. constructor; [|constructor]. apply Z.eqb_neq in Ho. congruence.
  - apply Forall_app. split; [apply IHcies_of; exact E|]. constructor; [exact Logic.I|constructor].
  - apply Forall_app. split; [apply IHcies_of; exact E|]. constructor; [exact Logic.I|constructor].
Qed.
Lemma find_cie_app cs c p : find_cie (cs ++ [c]) p = match find_cie cs p with Some x => Some x | None => if (p =? Z.of_nat (cie_offset c))%Z then Some c else None end.
Proof. induction cs as [|x cs IH]; cbn; [destruct (p =? _)%Z; reflexivity|]. destruct (p =? Z.of_nat (cie_offset x))%Z; [reflexivity|exact IH]. Qed.
Lemma find_cie_sound class l cs p c : cies_of class l cs -> find_cie cs p = Some c ->
  cie_at class l p (cie_ptr_len c) (cie_pcrel c) /\ (cie_ptr_len c = 4 \/ cie_ptr_len c = 8).
Proof.
  intros H. revert c. induction H; intros c E.
  - discriminate.
  - rewrite find_cie_app in E. destruct (find_cie cs p) as [x|] eqn:Ef.
    + injection E as <-. destruct (IHcies_of _ eq_refl) as [(bf & o' & a' & d' & af & -> & Ho & Hb & He) Hs]. split; [|exact Hs].
      exists bf, o', a', d', (af ++ [Cie o a d]). rewrite <- app_assoc. auto.
    + cbn in E. destruct (p =? Z.of_nat o)%Z eqn:Ho; [|discriminate]. injection E as <-. cbn. apply Z.eqb_eq in Ho. split; [|eapply cie_encoding_size; eauto].
      exists l, o, a, d, []. split; [reflexivity|]. split; [auto|]. split; [|exact H0].
      eapply Forall_impl; [|eapply cies_none; eauto]. intros [o' a' d'| |]; auto. intros Hne ->. auto.
  - destruct (IHcies_of _ E) as [(bf & o' & a' & d' & af & -> & Ho & Hb & He) Hs]. split; [|exact Hs].
    exists bf, o', a', d', (af ++ [Fde o p0 s]). rewrite <- app_assoc. auto.
  - destruct (IHcies_of _ E) as [(bf & o' & a' & d' & af & -> & Ho & Hb & He) Hs]. split; [|exact Hs].
    exists bf, o', a', d', (af ++ [BadCfi o n]). rewrite <- app_assoc. auto.
Qed.
Lemma cie_at_fun class l p n b n' b' : cie_at class l p n b -> cie_at class l p n' b' -> n = n' /\ b = b'.
Proof.
  intros (bf & o & a & d & af & E & Ho & Hb & He) (bf' & o' & a' & d' & af' & E' & Ho' & Hb' & He').
  assert (o = o') by lia. subst o'. rewrite E in E'. clear E. revert bf' E' Hb Hb'. induction bf as [|x bf IH]; intros bf' E' Hb Hb'.
  - destruct bf' as [|y bf']; [injection E' as <- <- _; eapply cie_encoding_fun; eauto|]. injection E' as <- _. inversion Hb'; subst. congruence.
  - destruct bf' as [|y bf']; [injection E' as -> _; inversion Hb; subst; congruence|]. injection E' as _ E'. inversion Hb; inversion Hb'; subst. eapply IH; eauto.
Qed.
Lemma find_cie_complete class l cs p n b : cies_of class l cs -> cie_at class l p n b ->
  exists c, find_cie cs p = Some c /\ cie_ptr_len c = n /\ cie_pcrel c = b /\ (n = 4 \/ n = 8).
Proof.
  intros H Ha. destruct (find_cie cs p) as [c|] eqn:E.
  - destruct (find_cie_sound _ _ _ _ _ H E) as [Hc Hs]. destruct (cie_at_fun _ _ _ _ _ _ _ Ha Hc) as [-> ->]. eauto.
  - exfalso. destruct Ha as (bf & o & a & d & af & -> & Ho & _). pose proof (cies_none _ _ _ _ H E) as Hn. apply Forall_app in Hn as [_ Hn].
    inversion Hn; subst. auto.
Qed.
Lemma table_iff class base off data l earlier cs rs : cies_of class earlier cs -> Forall (usual_fde data) l ->
  cfi_loop class base off data l cs = Ok rs <-> table_says class base off data earlier l rs.
Proof.
  intros Hc Hu. revert earlier cs rs Hc. induction l as [|e l IH]; intros earlier cs rs Hc; cbn [cfi_loop].
  - split; [intros H; injection H as <-; constructor|intros H; inversion H; reflexivity].
  - inversion Hu as [|? ? He Hl]; subst. specialize (IH Hl). destruct e as [o a d|o p s|o nx].
    + split.
      * destruct (read_cie o a d class) as [c| |] eqn:E; cbn [bind]; try discriminate. apply cie_iff in E as (n & b & -> & He').
        intros H. apply ts_cie with n b; [exact He'|]. eapply IH; [|exact H]. apply co_cie; auto.
      * intros H. inversion H; subst. assert (E : read_cie o a d class = Ok (mk_cie o n b)) by (apply cie_iff; eauto). rewrite E. cbn [bind].
        eapply IH; [|eassumption]. apply co_cie; auto.
    + cbn in He. split.
      * destruct (find_cie cs p) as [c|] eqn:E; [|discriminate]. destruct (find_cie_sound _ _ _ _ _ Hc E) as [Ha Hs].
        destruct (read_fde base off data c o s) as [r| |] eqn:Er; cbn [bind]; try discriminate. apply fde_iff in Er; [|exact Hs|exact He].
        destruct (cfi_loop _ _ _ _ l cs) as [rs'| |] eqn:El; cbn [bind]; try discriminate. intros H. injection H as <-.
        eapply ts_fde; eauto. eapply IH; [|exact El]. apply co_fde. exact Hc.
      * intros H. inversion H as [| | |? ? ? ? n b r ? rs' Ha Hf Ht]; subst. destruct (find_cie_complete _ _ _ _ _ _ Hc Ha) as (c & -> & <- & <- & Hs).
        apply fde_iff with (o := o) in Hf; [|exact Hs|exact He]. rewrite Hf. cbn [bind].
        assert (El : cfi_loop class base off data l cs = Ok rs') by (eapply IH; [|eassumption]; apply co_fde; exact Hc). rewrite El. reflexivity.
    + split.
      * destruct (Nat.ltb_spec o nx); [|discriminate]. intros E. apply ts_bad; [auto|]. eapply IH; [|exact E]. apply co_bad. exact Hc.
      * intros E. inversion E as [|? ? ? ? ? Hlt Ht| |]; subst. apply Nat.ltb_lt in Hlt. rewrite Hlt. eapply IH; [|eassumption]. apply co_bad. exact Hc.
Qed.
Lemma table_not_ub class base off data all l earlier cs : cies_of class earlier cs -> all = earlier ++ l ->
  Forall (entry_inside class data all) l -> cfi_loop class base off data l cs <> UB.
Proof.
  intros Hc Ha Hu. revert earlier cs Hc Ha. induction l as [|e l IH]; intros earlier cs Hc Ha; cbn [cfi_loop]; [discriminate|].
  assert (Ha' : all = (earlier ++ [e]) ++ l) by (rewrite <- app_assoc; exact Ha).
  pose proof (Forall_inv Hu) as He. pose proof (Forall_inv_tail Hu) as Hl. specialize (IH Hl). destruct e as [o a d|o p s|o nx].
  - pose proof (cie_not_ub class o a d He) as Hn. destruct (read_cie o a d class) as [c| |] eqn:E; cbn [bind]; try congruence.
    apply cie_iff in E as (n & b & -> & He'). eapply IH; [exact (co_cie class earlier cs o a d n b Hc He')|exact Ha'].
  - destruct (find_cie cs p) as [c|] eqn:E; [|discriminate]. destruct (find_cie_sound _ _ _ _ _ Hc E) as [(bf & o' & a' & d' & af & Ee & Ho & _ & He') Hs]. destruct He as [H2 H1].
    assert (Hin : s + 2 * cie_ptr_len c <= length data).
    { eapply H1; [|exact Ho|exact He']. rewrite Ha, Ee. apply in_or_app. left. apply in_or_app. right. left. reflexivity. }
    pose proof (fde_not_ub base off data c o s Hs Hin H2) as Hf. destruct (read_fde base off data c o s) as [r| |]; cbn [bind]; try congruence.
    assert (Hl' : cfi_loop class base off data l cs <> UB) by (eapply IH; [exact (co_fde class earlier cs o p s Hc)|exact Ha']). destruct (cfi_loop _ _ _ _ l cs); cbn [bind]; congruence.
  - destruct (Nat.ltb o nx); [|discriminate]. eapply IH; [exact (co_bad class earlier cs o nx Hc)|exact Ha'].
Qed.

(** ** Segments *)
Lemma exec_base_iff phdrs base : base <> ulong_max ->
  exec_base_loop phdrs = Ok base <->
  exists before p after, phdrs = map Some before ++ Some p :: after /\ Forall (fun p => ~ executable p) before /\ executable p /\ p_vaddr p = base.
Proof.
  intros Hb. induction phdrs as [|p r IH]; cbn [exec_base_loop].
  - split; [intros H; injection H as <-; congruence|]. intros (b & p & a & E & _). destruct b; discriminate.
  - destruct p as [p|].
    + split.
      * destruct (_ && _) eqn:E.
        -- intros H. injection H as <-. apply andb_true_iff in E as [E1 E2]. apply Z.eqb_eq in E1. exists [], p, r. repeat split; auto.
        -- intros H. apply IH in H as (b & q & a & -> & Hf & Hq & Hv). exists (p :: b), q, a. split; [reflexivity|]. split; [|auto].
           constructor; [|exact Hf]. intros [H1 H2]. apply Z.eqb_eq in H1. rewrite H1, H2 in E. discriminate.
      * intros (b & q & a & E & Hf & [H1 H2] & Hv). destruct b as [|q' b].
        -- injection E as -> ->. apply Z.eqb_eq in H1. rewrite H1, H2. cbn. congruence.
        -- injection E as -> ->. inversion Hf; subst. destruct (_ && _) eqn:E.
           { exfalso. apply andb_true_iff in E as [E1 E2]. apply Z.eqb_eq in E1. apply H3. split; auto. }
           apply IH. exists b, q, a. repeat split; auto.
    + split; [discriminate|]. intros (b & q & a & E & _). destruct b; discriminate.
Qed.
Lemma exec_base_not_ub phdrs : exec_base_loop phdrs <> UB.
Proof. induction phdrs as [|[p|] r IH]; cbn [exec_base_loop]; try discriminate. destruct (_ && _); [discriminate|exact IH]. Qed.

Theorem eh_frame_iff f rs :
  (forall i h data, first_section f (L ".eh_frame") i h data -> Forall (usual_fde data) (elf_cfis f)) ->
  sr_elf_get_eh_frame f = Ok rs <->
  elf_open f = true /\ elf_shdrstrndx f = true /\
  exists class i h data base,
    elf_class f = Some class /\ first_section f (L ".eh_frame") i h data /\ executable_base f base /\ base <> 18446744073709551615%Z /\
    table_says class base (sh_offset h) data [] (elf_cfis f) rs.
Proof.
  intros Hu. unfold sr_elf_get_eh_frame. destruct (elf_open f); [|split; [discriminate|intros (H & _); discriminate]].
  destruct (elf_class f) as [class|]; [|split; [discriminate|intros (_ & _ & ? & ? & ? & ? & ? & H & _); discriminate]].
  split.
  - destruct (find_elf_section_by_name f _) as [[[i h] d]| |] eqn:Es; cbn [bind]; try discriminate. apply find_by_name_iff in Es as [Hx Es].
    unfold executable_base. destruct (elf_phdrs f) as [ph|]; [|discriminate].
    destruct (exec_base_loop ph) as [base| |] eqn:Eb; cbn [bind]; try discriminate.
    destruct (Z.eqb_spec base ulong_max) as [|Hb]; [discriminate|]. apply exec_base_iff in Eb as (b & p & a & -> & Hr); [|exact Hb]. intros H.
    split; [reflexivity|]. split; [exact Hx|]. exists class, i, h, d, base. split; [reflexivity|]. split; [exact Es|]. split; [exists b, p, a; split; [reflexivity|exact Hr]|].
    split; [exact Hb|]. eapply table_iff; [apply co_nil|eapply Hu; exact Es|exact H].
  - intros (_ & Hx & class' & i & h & d & base & Ec & Es & (b & p & a & -> & Hr) & Hb & Ht). injection Ec as <-.
    assert (E : find_elf_section_by_name f (L ".eh_frame") = Ok (i, h, d)) by (apply find_by_name_iff; auto). rewrite E. cbn [bind].
    assert (Eb : exec_base_loop (map Some b ++ Some p :: a) = Ok base) by (apply exec_base_iff; [exact Hb|]; exists b, p, a; auto). rewrite Eb. cbn [bind].
    apply Z.eqb_neq in Hb. unfold ulong_max. rewrite Hb. eapply table_iff; [apply co_nil|eapply Hu; exact Es|exact Ht].
Qed.
Theorem eh_frame_not_ub f :
  (forall class i h data, elf_class f = Some class -> first_section f (L ".eh_frame") i h data -> Forall (entry_inside class data (elf_cfis f)) (elf_cfis f)) ->
  sr_elf_get_eh_frame f <> UB.
Proof.
  intros Hu. unfold sr_elf_get_eh_frame. destruct (elf_open f); [|discriminate]. destruct (elf_class f) as [class|]; [|discriminate].
  destruct (find_elf_section_by_name f _) as [[[i h] d]| |] eqn:Es; cbn [bind]; try discriminate; [|elim (find_by_name_not_ub _ _ Es)].
  apply find_by_name_iff in Es as [Hx Es]. destruct (elf_phdrs f) as [ph|]; [|discriminate].
  destruct (exec_base_loop ph) as [base| |] eqn:Eb; cbn [bind]; try discriminate; [|elim (exec_base_not_ub _ Eb)].
  destruct (_ =? _)%Z; [discriminate|]. eapply table_not_ub; [apply co_nil|reflexivity|eauto].
Qed.

(** Where a function is. *)
Theorem fde_virtual_address base off addr data n pos r loc range v :
  fde_says base off data n true pos r ->
  bytes_at data pos (loc ++ range) -> length loc = n -> length range = n ->
  ((le_value loc + (addr + Z.of_nat pos)) mod 256 ^ Z.of_nat n = v mod 256 ^ Z.of_nat n)%Z ->
  (addr - off = base)%Z -> (0 <= v - base < 256 ^ Z.of_nat n)%Z ->
  (fde_start_address r + fde_exec_base r = v)%Z /\ fde_length r = le_value range.
Proof.
  intros (loc' & range' & Ha' & Hl1 & Hl2 & Hb & Hr & Hs) Ha H1 H2 Hv Hbase Hrange.
  assert (E : loc' ++ range' = loc ++ range) by (eapply at_functional; eauto; rewrite !app_length; lia).
  assert (loc' = loc /\ range' = range) as [-> ->].
  { apply app_split_length; [exact E|congruence]. }
  split; [|exact Hr]. rewrite Hs, Hb.
  assert (Hp : (0 < 256 ^ Z.of_nat n)%Z) by (apply Z.pow_pos_nonneg; lia).
  replace (le_value loc + (off + Z.of_nat pos))%Z with ((le_value loc + (addr + Z.of_nat pos)) - base)%Z by lia.
  rewrite Zminus_mod, Hv, <- Zminus_mod. rewrite Z.mod_small by lia. lia.
Qed.
Theorem fde_absolute_address base off data n pos r loc range :
  fde_says base off data n false pos r -> bytes_at data pos (loc ++ range) -> length loc = n -> length range = n -> n <= 8 ->
  ((fde_start_address r + fde_exec_base r) mod 18446744073709551616 = le_value loc)%Z /\ fde_length r = le_value range.
Proof.
  intros (loc' & range' & Ha' & Hl1 & Hl2 & Hb & Hr & Hs) Ha H1 H2 Hn.
  assert (E : loc' ++ range' = loc ++ range) by (eapply at_functional; eauto; rewrite !app_length; lia).
  assert (loc' = loc /\ range' = range) as [-> ->].
  { apply app_split_length; [exact E|congruence]. }
  split; [|exact Hr]. rewrite Hs, Hb, Zplus_mod_idemp_l. replace (le_value loc - base + base)%Z with (le_value loc) by lia.
  apply Z.mod_small. pose proof (le_bound loc) as Hle. rewrite H1 in Hle. split; [lia|].
  eapply Z.lt_le_trans; [apply Hle|]. change 18446744073709551616%Z with (256 ^ 8)%Z. apply Z.pow_le_mono_r; lia.
Qed.
