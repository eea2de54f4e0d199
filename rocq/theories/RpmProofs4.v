(** * Proofs: formatted package names and files; a sorting function. *)
From Verif Require Import Base Types UtilsModel UtilsSpec UtilsProofs JsonModel JsonProofs CmpModel CmpSpec CmpProofs
  RpmModel RpmSpec RpmProofs RpmProofs2 RpmProofs3.
From Coq Require Import Sorted.
Open Scope nat_scope.

Lemma dec_char d : (d < 10)%N -> decimal_digit (ascii_of_N (48 + d)) = Some d.
Proof.
  intros H. assert (X : In d [0; 1; 2; 3; 4; 5; 6; 7; 8; 9]%N).
  { destruct d as [|p]; [now left|]. do 4 (destruct p as [p|p|]; try (cbn; tauto); try lia). }
  cbn in X. repeat (destruct X as [<-|X]; [reflexivity|]). contradiction.
Qed.
Lemma dec_digits_numeral fuel : forall n, N.to_nat (N.log2 n) < fuel -> decimal (dec_digits fuel n) n.
Proof.
  induction fuel as [|f IH]; intros n H; [lia|]. cbn [dec_digits].
  assert (M : (n mod 10 < 10)%N) by (apply N.mod_lt; discriminate).
  destruct (N.ltb_spec n 10) as [K|K].
  - rewrite N.mod_small by assumption. constructor. now apply dec_char.
  - assert (E : n = (n / 10 * 10 + n mod 10)%N) by (rewrite N.mul_comm; apply N.div_mod; discriminate).
    assert (X : decimal (dec_digits f (n / 10) ++ [ascii_of_N (48 + n mod 10)]) (n / 10 * 10 + n mod 10)%N); [|now rewrite <- E in X].
    constructor; [|now apply dec_char]. apply IH.
    assert (N.log2 (n / 10) < N.log2 n)%N; [|lia].
    apply N.le_lt_trans with (N.log2 (n / 2)).
    + apply N.log2_le_mono, N.div_le_compat_l. lia.
    + rewrite <- N.div2_div, N.div2_spec. rewrite N.log2_shiftr.
      assert (0 < N.log2 n)%N by (apply N.log2_pos; lia). lia.
Qed.
Lemma print_N_decimal n : decimal (print_N n) n.
Proof. apply dec_digits_numeral. lia. Qed.
Lemma print_N_chars n c : In c (print_N n) -> is_digit c = true.
Proof. intros H. pose proof (decimal_digits _ _ (print_N_decimal n)) as [_ K]. eapply Forall_forall in K; eassumption. Qed.
Lemma print_N_not n c : is_digit c = false -> ~ In c (print_N n).
Proof. intros H X. apply print_N_chars in X. congruence. Qed.

Theorem nevra_roundtrip name epoch version release architecture :
  name <> [] -> version <> [] -> release <> [] ->
  ~ In "-"%char version -> ~ In "-"%char release -> ~ In "-"%char architecture -> ~ In "."%char architecture ->
  (epoch < 4294967296)%N ->
  sr_rpm_package_parse_nevra (name ++ L "-" ++ print_N epoch ++ L ":" ++ version ++ L "-" ++ release ++ L "." ++ architecture) =
  Accepted name epoch version release architecture.
Proof.
  intros. apply nevra_accepted. exists (Some (print_N epoch)). split.
  - unfold nevra_shape. rewrite <- app_assoc. repeat split; auto.
    + apply (decimal_digits _ _ (print_N_decimal epoch)).
    + now apply print_N_not.
    + now apply print_N_not.
  - exists [], [], (print_N epoch). repeat split; auto. apply print_N_decimal.
Qed.
Theorem nevra_roundtrip0 name version release architecture :
  name <> [] -> version <> [] -> release <> [] -> ~ In ":"%char version ->
  ~ In "-"%char version -> ~ In "-"%char release -> ~ In "-"%char architecture -> ~ In "."%char architecture ->
  sr_rpm_package_parse_nevra (name ++ L "-" ++ version ++ L "-" ++ release ++ L "." ++ architecture) =
  Accepted name 0 version release architecture.
Proof. intros. apply nevra_accepted. exists None. split; [|reflexivity]. repeat split; auto. Qed.

(** Files written in the format of abrt's dso_list. *)
Record dso_entry := mk_dso_entry { de_library : str; de_nevra : str; de_vendor : str; de_package : rpm_package }.
Definition dso_entry_line (e : dso_entry) : str :=
  de_library e ++ L " " ++ de_nevra e ++ L " (" ++ de_vendor e ++ L ") " ++ print_N (Z.to_N (rp_install_time (de_package e))) ++ [nl].
Definition dso_entry_ok (e : dso_entry) : Prop :=
  let p := de_package e in
  ~ In sp (de_library e) /\ ~ In nl (de_nevra e) /\ ~ In sp (de_nevra e) /\ ~ In nl (de_vendor e) /\
  (exists name n version release architecture,
     is_nevra (de_nevra e) name n version release architecture /\
     p = mk_rpm_package (Some name) (Z.of_N n) (Some version) (Some release) (Some architecture) (rp_install_time p) ROLE_UNKNOWN []) /\
  (0 <= rp_install_time p < 18446744073709551615)%Z.
Lemma is_nevra_long text name n version release architecture : is_nevra text name n version release architecture -> 2 <= length text.
Proof.
  intros (e & (-> & _) & _). rewrite !app_length. change (length (L "-")) with 1. change (length (L ".")) with 1. lia.
Qed.
Lemma dso_entries_loop es : Forall dso_entry_ok es -> forall fuel u,
  length (u ++ concat (map dso_entry_line es)) < fuel -> ~ In sp u ->
  dso_loop fuel (Some (u ++ concat (map dso_entry_line es))) = Ok (map de_package es).
Proof.
  induction 1 as [|e es (H1 & H2 & H3 & H4 & (name & n & version & release & architecture & Hn & Ep) & Ht) Hes IH]; intros fuel u Hf Hu; cbn [map concat] in *.
  - rewrite app_nil_r in *. destruct fuel as [|fuel]; [lia|]. destruct u as [|c u]; [reflexivity|].
    cbn [dso_loop]. rewrite from_char_none by assumption. apply dso_loop_none.
  - destruct fuel as [|fuel]; [lia|].
    set (time := Z.to_N (rp_install_time (de_package e))) in *.
    assert (E : u ++ dso_entry_line e ++ concat (map dso_entry_line es) =
            (u ++ de_library e) ++ sp :: de_nevra e ++ sp :: (L "(" ++ de_vendor e ++ L ") ") ++ print_N time ++ [] ++ nl :: concat (map dso_entry_line es)).
    { unfold dso_entry_line. fold time. change (L " ") with [sp]. change (L " (") with (sp :: L "("). cbn [app].
      repeat (rewrite <- app_assoc; cbn [app]). reflexivity. }
    rewrite E in Hf |- *.
    rewrite (dso_good_step fuel (u ++ de_library e) (de_nevra e) (L "(" ++ de_vendor e ++ L ") ") (print_N time) [] name n version release architecture time).
    + rewrite <- (app_nil_l (concat (map dso_entry_line es))) at 1. change (nl :: [] ++ concat (map dso_entry_line es)) with ([nl] ++ concat (map dso_entry_line es)).
      rewrite IH; [cbn [bind]| |].
      * f_equal. f_equal. rewrite Ep. cbn [rp_install_time]. f_equal. unfold time. rewrite Z2N.id by lia. now rewrite Ep.
      * rewrite !app_length in Hf. cbn [length] in Hf. rewrite !app_length in Hf. cbn [length] in Hf. rewrite !app_length in Hf. cbn [length] in Hf.
        rewrite app_length. cbn [length]. lia.
      * intros [X|[]]. discriminate.
    + intros X. apply in_app_or in X as [X|X]; auto.
    + assumption.
    + assumption.
    + eapply is_nevra_long, Hn.
    + now apply nevra_accepted.
    + intros X. apply in_app_or in X as [X|X]; [cbn in X; intuition discriminate|]. apply in_app_or in X as [X|X]; [auto|cbn in X; intuition discriminate].
    + right. exists (L "(" ++ de_vendor e ++ L ")"). rewrite <- !app_assoc. reflexivity.
    + rewrite app_nil_r. now apply print_N_not.
    + rewrite app_nil_r. now apply print_N_not.
    + apply print_N_decimal.
    + unfold time. lia.
    + discriminate.
Qed.
Theorem dso_roundtrip es : Forall dso_entry_ok es ->
  sr_abrt_parse_dso_list (concat (map dso_entry_line es)) = Ok (map de_package es).
Proof. intros H. apply (dso_entries_loop es H _ []); [cbn [app]; lia|intros []]. Qed.

(** ** Insertion sort is a qsort. *)
Section Isort.
  Context {A : Type} (cmp : A -> A -> Z).
  Fixpoint insert (x : A) (l : list A) : list A :=
    match l with
    | [] => [x]
    | y :: r => if (cmp x y <=? 0)%Z then x :: l else y :: insert x r
    end.
  Fixpoint isort (l : list A) : list A := match l with [] => [] | x :: r => insert x (isort r) end.
End Isort.
Lemma insert_perm {A} cmp (x : A) l : Permutation (x :: l) (insert cmp x l).
Proof.
  induction l as [|y l IH]; cbn; [constructor; constructor|]. destruct (_ <=? _)%Z; [apply Permutation_refl|].
  eapply Permutation_trans; [apply perm_swap|]. now constructor.
Qed.
Lemma isort_perm {A} cmp (l : list A) : Permutation l (isort cmp l).
Proof. induction l as [|x l IH]; cbn; [constructor|]. eapply Permutation_trans; [|apply insert_perm]. now constructor. Qed.
Theorem isort_sorts : sorts isort.
Proof.
  intros ok eqv cmp l (_ & Hsym & Htrans) Hok. split; [apply isort_perm|].
  induction l as [|x l IH]; cbn [isort]; [constructor|]. inversion Hok as [|? ? Hx Hl]; subst. specialize (IH Hl).
  assert (Hs : Forall ok (isort cmp l)) by (eapply Permutation_Forall; [apply isort_perm|exact Hl]).
  revert Hs IH. generalize (isort cmp l). clear l Hok Hl. intros l Hl Hs. induction Hs as [|y l Hs IH Hy]; cbn [insert].
  - constructor; constructor.
  - inversion Hl as [|? ? Oy Ol]; subst. destruct (Z.leb_spec (cmp x y) 0) as [K|K].
    + constructor; [constructor; assumption|]. constructor; [assumption|]. apply Forall_forall. intros z Hz.
      eapply Forall_forall in Hy; [|eassumption]. eapply Forall_forall in Ol; [|eassumption]. eapply Htrans; [| | |exact K|exact Hy]; assumption.
    + constructor; [now apply IH|]. eapply Permutation_Forall; [apply insert_perm|]. constructor; [|assumption].
      pose proof (Hsym x y Hx Oy) as E. revert E K. generalize (cmp x y) (cmp y x). intros [|a|a] [|b|b]; cbn; lia.
Qed.
Lemma uniq_neighbours l before p q after : sr_rpm_package_uniq l = before ++ p :: q :: after -> ~ same_package p q.
Proof.
  pose proof (uniq_apart l) as H. intros E. rewrite E in H. clear E. induction before as [|x before IH]; cbn [app] in H.
  - now inversion H.
  - apply IH. inversion H; subst; [|assumption]. destruct before; discriminate.
Qed.
Lemma sort_uniq qsort l s : sorts qsort -> Forall (fun p => small (rp_epoch p)) l ->
  sr_rpm_package_sort qsort l = Ok s -> ForallOrdPairs (fun p q => ~ same_package p q) (sr_rpm_package_uniq s).
Proof.
  intros Q Hs E. destruct l as [|p r]; [discriminate|].
  destruct (sort_correct qsort (p :: r) Q Hs) as (s' & E' & P & St); [discriminate|]. rewrite E in E'. injection E' as <-.
  apply uniq_sorted_apart; [|exact St]. eapply Permutation_Forall; [exact P|exact Hs].
Qed.
