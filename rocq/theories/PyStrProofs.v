(** * Proofs for PyStrModel.v. *)
From Verif Require Import Base Types UtilsSpec UtilsProofs JsonModel JsonSpec JsonProofs RpmProofs4 TextModel HeapModel HeapSpec HeapProofs HeapProofs2 HeapListModel PyModel PySpec PyProofs PyAttrModel PyAttrSpec PyAttrProofs PyAttrProofs2
  PyBaseModel PyBaseSpec PyBaseProofs PyBaseProofs2 PyStrModel PyStrSpec.
Open Scope Z_scope.

(** ** Numbers *)
Lemma below16 d : (d < 16)%N -> In d [0; 1; 2; 3; 4; 5; 6; 7; 8; 9; 10; 11; 12; 13; 14; 15]%N.
Proof. intros H. destruct d as [|p]; [now left|]. do 5 (destruct p as [p|p|]; try (cbn; tauto); try lia). Qed.
Lemma hex_char_digit d : (d < 16)%N -> hexadecimal_digit (hex_char d) = Some d /\ In (hex_char d) (L "0123456789abcdef") /\ (hex_char d = "0"%char -> d = 0%N).
Proof. intros H. apply below16 in H. cbn [In] in H. repeat (destruct H as [<-|H]; [split; [reflexivity|split; [cbn; tauto|intros E; first [reflexivity|discriminate E]]]|]). contradiction. Qed.
Lemma log2_div16 n : (16 <= n)%N -> (N.log2 (n / 16) < N.log2 n)%N.
Proof.
  intros K. apply N.le_lt_trans with (N.log2 (n / 2)).
  - apply N.log2_le_mono, N.div_le_compat_l. lia.
  - rewrite <- N.div2_div, N.div2_spec. rewrite N.log2_shiftr. assert (0 < N.log2 n)%N by (apply N.log2_pos; lia). lia.
Qed.
Lemma hex_digits_ok fuel : forall n, (N.to_nat (N.log2 n) < fuel)%nat ->
  numeral hexadecimal_digit 16 (hex_digits fuel n) n /\ Forall (fun c => In c (L "0123456789abcdef")) (hex_digits fuel n) /\
  hex_digits fuel n <> [] /\ ((0 < n)%N -> hd nul (hex_digits fuel n) <> "0"%char) /\ (forall w, (n < 16 ^ N.of_nat (S w))%N -> (length (hex_digits fuel n) <= S w)%nat).
Proof.
  induction fuel as [|f IH]; intros n H; [lia|]. cbn [hex_digits].
  assert (M : (n mod 16 < 16)%N) by (apply N.mod_lt; discriminate). destruct (hex_char_digit _ M) as (Hd & Hi & Hz).
  destruct (N.ltb_spec n 16) as [K|K].
  - rewrite N.mod_small in * by assumption. split; [apply num_one; exact Hd|]. split; [constructor; [exact Hi|constructor]|]. split; [discriminate|]. split; [|intros; cbn [length]; lia]. cbn [hd]. intros P E. apply Hz in E. lia.
  - pose proof (log2_div16 n K) as Lg. destruct (IH (n / 16)%N) as (A & B & C & E & F); [lia|].
    assert (En : n = (n / 16 * 16 + n mod 16)%N) by (rewrite N.mul_comm; apply N.div_mod; discriminate).
    split; [|split; [|split; [|split]]].
    + assert (X : numeral hexadecimal_digit 16 (hex_digits f (n / 16) ++ [hex_char (n mod 16)]) (n / 16 * 16 + n mod 16)%N) by (constructor; assumption). now rewrite <- En in X.
    + apply Forall_app. split; [exact B|constructor; [exact Hi|constructor]].
    + destruct (hex_digits f (n / 16)); discriminate.
    + intros _. assert (Q : (0 < n / 16)%N) by (apply N.div_str_pos; lia). specialize (E Q). destruct (hex_digits f (n / 16)); [congruence|exact E].
    + intros w W. rewrite app_length. cbn [length]. destruct w as [|w]; [change (16 ^ N.of_nat 1)%N with 16%N in W; lia|].
      assert (n / 16 < 16 ^ N.of_nat (S w))%N; [|specialize (F w H0); lia].
      apply N.div_lt_upper_bound; [discriminate|]. rewrite (Nnat.Nat2N.inj_succ (S w)), N.pow_succ_r' in W. exact W.
Qed.
Lemma hex_ok z : 0 <= z -> writes (X z) (hex z).
Proof.
  intros H. unfold hex. destruct (hex_digits_ok (S (N.to_nat (N.log2 (Z.to_N z)))) (Z.to_N z)) as (A & B & C & D' & _); [lia|].
  split; [split; [exact H|split; assumption]|]. intros Z. destruct (N.eq_dec (Z.to_N z) 0) as [E|E]; [rewrite E; reflexivity|]. exfalso. apply D'; [lia|exact Z].
Qed.
Lemma numeral_zeros n s v : numeral hexadecimal_digit 16 s v -> numeral hexadecimal_digit 16 (repeat "0"%char n ++ s) v.
Proof.
  intros H. revert n. induction H as [c d E|s v c d H IH E]; intros n.
  - destruct n as [|n]; [apply num_one; exact E|].
    assert (Z : forall n, numeral hexadecimal_digit 16 (repeat "0"%char (S n)) 0).
    { clear. induction n as [|n IH]; [apply num_one; reflexivity|]. change (repeat "0"%char (S (S n))) with ("0"%char :: repeat "0"%char (S n)). rewrite repeat_cons. change 0%N with (0 * 16 + 0)%N. constructor; [exact IH|reflexivity]. }
    change d with (0 * 16 + d)%N. constructor; [apply Z|exact E].
  - rewrite app_assoc. constructor; [apply IH|exact E].
Qed.
Lemma hex16_ok z : u64 z -> writes (X16 z) (hex16 z).
Proof.
  intros [H1 H2]. unfold hex16, hex. destruct (hex_digits_ok (S (N.to_nat (N.log2 (Z.to_N z)))) (Z.to_N z)) as (A & B & C & _ & F); [lia|].
  specialize (F 15%nat). set (s := hex_digits _ _) in *. assert (Len : (length s <= 16)%nat).
  { apply F. change (16 ^ N.of_nat 16)%N with 18446744073709551616%N. change (2 ^ 64) with 18446744073709551616 in H2. lia. }
  split; [split; [exact H1|split; [apply numeral_zeros; exact A|apply Forall_app; split; [|exact B]]]|].
  - apply Forall_forall. intros c Hc. apply repeat_spec in Hc. subst c. cbn; tauto.
  - rewrite app_length, repeat_length. lia.
Qed.
Lemma int32_as z : u32 z -> int32 z = as_int z.
Proof.
  intros [H1 H2]. unfold int32, as_int. change (2 ^ 31) with 2147483648 in *. change (2 ^ 32) with 4294967296 in *. destruct (Z.ltb_spec z 2147483648).
  - rewrite Z.mod_small by lia. lia.
  - replace (z + 2147483648) with (z - 2147483648 + 1 * 4294967296) by lia. rewrite Z.mod_add by discriminate. rewrite Z.mod_small by lia. lia.
Qed.
Lemma signed_print z : signed z = print_Z z.
Proof. reflexivity. Qed.
Lemma percent_d_ok z : u32 z -> writes (D (as_int z)) (percent_d z).
Proof. intros H. unfold percent_d. rewrite int32_as by exact H. rewrite signed_print. apply print_Z_jint. Qed.
Lemma dec_ok z : 0 <= z -> writes (D z) (dec z).
Proof. intros H. left. pose proof (print_N_jnat (Z.to_N z)) as J. rewrite Z2N.id in J by exact H. exact J. Qed.

(** ** Pieces *)
Lemma says_nil : says [] []. Proof. exists []. split; [constructor|reflexivity]. Qed.
Lemma says_cons p ps s t : writes p s -> says ps t -> says (p :: ps) (s ++ t).
Proof. intros H (parts & F & ->). exists (s :: parts). split; [constructor; assumption|reflexivity]. Qed.
Lemma says_one p s : writes p s -> says [p] s.
Proof. intros H. rewrite <- (app_nil_r s). apply says_cons; [exact H|apply says_nil]. Qed.
Lemma says_app ps qs s t : says ps s -> says qs t -> says (ps ++ qs) (s ++ t).
Proof. intros (a & F & ->) (b & G & ->). exists (a ++ b). split; [apply Forall2_app; assumption|rewrite concat_app; reflexivity]. Qed.
Lemma says_text t : says [T t] t. Proof. apply says_one. reflexivity. Qed.
Lemma says_nonzero z ps s : says ps s -> says (if_nonzero z ps) (nonzero z s).
Proof. unfold if_nonzero, nonzero. destruct (z =? 0); [intros; apply says_nil|tauto]. Qed.
Lemma says_eq ps s t : says ps s -> s = t -> says ps t. Proof. intros H <-. exact H. Qed.
Lemma says_repeat t n : says (repeat (T t) n) (concat (repeat t n)).
Proof. induction n as [|n IH]; [apply says_nil|]. cbn [repeat concat]. apply says_cons; [reflexivity|exact IH]. Qed.

Ltac written := first [reflexivity | (apply hex_ok; unfold u64, u32 in *; lia) | (apply hex16_ok; assumption) | (apply percent_d_ok; assumption) | (apply dec_ok; unfold u64, u32 in *; lia)].
Ltac pieces := repeat first [apply says_nil | apply says_repeat | (apply says_one; written) | (apply says_cons; [written|])].
Ltac split_says := repeat (apply says_app).
Ltac halves := repeat lazymatch goal with
  | |- says (_ ++ _) (_ ++ _) => apply says_app
  | |- says (if_some ?o _) (opt_text _ ?o _) => destruct o; cbn [if_some opt_text app]
  | |- says (if_some ?o _) (match ?o with _ => _ end) => destruct o; cbn [if_some app]
  | |- says (if_nonzero _ _) (nonzero _ _) => apply says_nonzero
  | |- says (if_nonzero ?z _) (if ?z =? 0 then _ else _) => apply says_nonzero
  end.

Lemma kernel_function_ok fn m o l : u64 o -> u64 l ->
  says (kernel_function fn m o l) (opt_text [] fn [] ++ nonzero o (L "+0x" ++ hex o) ++ nonzero l (L "/0x" ++ hex l) ++ opt_text (L " [") m (L "]")).
Proof.
  intros Ho Hl. unfold kernel_function. apply says_app; [destruct fn; cbn [if_some opt_text app]; [rewrite app_nil_r|]; pieces|].
  apply says_app; [apply says_nonzero; pieces|]. apply says_app; [apply says_nonzero; pieces|]. destruct m; cbn [if_some]; unfold opt_text; pieces.
Qed.
Lemma bracket_angled b s : bracket b s = angled b s. Proof. reflexivity. Qed.
Lemma starts_qq n : starts_with (L "??") n = if list_eq_dec ascii_dec (firstn 2 n) (L "??") then true else false.
Proof.
  destruct (list_eq_dec ascii_dec (firstn 2 n) (L "??")) as [E|E].
  - apply starts_with_iff. rewrite <- (firstn_skipn 2 n), E. eexists. reflexivity.
  - destruct (starts_with (L "??") n) eqn:S; [|reflexivity]. exfalso. apply starts_with_iff in S as [r ->]. apply E. reflexivity.
Qed.
Lemma frame_pieces_ok f : c_numbers f -> says (frame_pieces f) (frame_str f).
Proof.
  destruct f as [f|f|f|f|f|f|f]; cbn [c_numbers frame_str frame_pieces]; intros H.
  - destruct H as [H1 H2]. unfold core_frame_str. apply says_app; [apply says_nonzero; pieces|].
    apply says_app; [destruct (cf_function_name f); cbn [if_some]; unfold opt_text; cbn [app]; pieces|].
    apply says_app; [destruct (cf_build_id f); cbn [if_some]; unfold opt_text; cbn [app]; pieces|].
    apply says_app; [destruct (cf_file_name f); cbn [if_some]; unfold opt_text; pieces|].
    destruct (cf_fingerprint f) as [x|]; cbn [if_some]; unfold opt_text; [|pieces].
    apply says_cons; [reflexivity|]. apply says_cons; [reflexivity|]. apply says_one. destruct (cf_fingerprint_hashed f); reflexivity.
  - unfold python_frame_str. apply says_app; [destruct (pf_file_name f); cbn [if_some]; pieces|].
    apply says_app; [apply says_nonzero; pieces|]. apply says_app; [destruct (pf_function_name f); cbn [if_some]; pieces|].
    destruct (pf_line_contents f) as [x|]; cbn [if_some]; unfold opt_text; [|pieces]. rewrite app_nil_r.
    change ((nl :: L "    ") ++ x) with ([nl] ++ L "    " ++ x). pieces.
  - destruct H as (H1 & H2 & H3 & H4 & H5 & H6). unfold koops_frame_str.
    apply says_app; [destruct (kf_special_stack f); cbn [if_some]; unfold opt_text; pieces|].
    apply says_app; [apply says_nonzero; pieces|]. apply says_app; [destruct (kf_reliable f); pieces|].
    eapply says_eq; [apply says_app; [apply kernel_function_ok; assumption|]|rewrite <- !app_assoc; reflexivity].
    apply says_app; [destruct (kf_from_function_name f); [pieces|apply says_nonzero; pieces]|]. apply says_app; [apply says_nonzero; pieces|]. apply kernel_function_ok; assumption.
  - unfold java_frame_str. destruct (vf_is_exception f).
    + apply says_app; [destruct (vf_name f); cbn [if_some]; unfold opt_text; cbn [app]; [rewrite app_nil_r|]; pieces|].
      destruct (vf_message f); cbn [if_some]; unfold opt_text; [rewrite app_nil_r|]; pieces.
    + apply says_app; [pieces|]. apply says_app; [destruct (vf_name f); cbn [if_some]; unfold opt_text; [rewrite app_nil_r|]; pieces|].
      apply says_app; [destruct (vf_file_name f); cbn [if_some]; unfold opt_text; [rewrite app_nil_r|]; pieces|].
      apply says_app; [apply says_nonzero; pieces|]. apply says_app; [destruct (vf_is_native f); pieces|]. pieces.
  - destruct H as (H1 & H2 & H3). unfold gdb_frame_str. eapply says_eq; [|rewrite !app_assoc; rewrite <- (app_assoc (_ ++ _) (L ": ")), <- !app_assoc; reflexivity].
    eapply says_eq; [apply says_app; [do 2 (apply says_cons; [written|]); pieces|]|rewrite <- !app_assoc; reflexivity].
    apply says_app; [destruct (gf_function_name f) as [n|]; [rewrite starts_qq; destruct (list_eq_dec ascii_dec (firstn 2 n) (L "??")); pieces|pieces]|].
    change (2 ^ 64 - 1) with ulong_max. apply says_app; [destruct (gf_address f =? ulong_max); pieces|]. destruct (gf_library_name f); cbn [if_some]; unfold opt_text; pieces.
  - destruct H as (H1 & H2 & H3). unfold ruby_frame_str. apply says_app; [destruct (rf_file_name f); cbn [if_some]; unfold opt_text; cbn [app]; [rewrite app_nil_r|]; pieces|].
    apply says_app; [apply says_nonzero; pieces|]. destruct (rf_function_name f) as [x|]; cbn [if_some]; [|pieces].
    apply says_app; [pieces|]. apply says_app; [pieces|]. apply says_app; [|pieces].
    destruct (Z.eqb_spec (rf_block_level f) 0) as [E|E]; [rewrite E; apply says_nil|]. destruct (Z.eqb_spec (rf_block_level f) 1); [pieces|].
    destruct (Z.ltb_spec 1 (rf_block_level f)); [pieces|]. unfold u32 in H2. lia.
  - destruct H as (H1 & H2). unfold js_frame_str. apply says_app; [pieces|]. apply says_app; [destruct (jf_function_name f); cbn [if_some]; unfold opt_text; cbn [app]; pieces|].
    eapply says_eq; [apply says_app; [do 4 (apply says_cons; [written|]); pieces|]|rewrite <- !app_assoc; reflexivity].
    destruct (jf_function_name f); cbn [if_some]; pieces.
Qed.

(** ** Objects *)
Lemma obj_alive os h r b : alive os r b -> exists n, obj (St os h) r = Ok (n, b).
Proof. intros [n H]. exists (S n). exact (obj_ok (St os h) r _ _ H). Qed.
Lemma frame_struct_ok k v f : is_frame k v f -> frame_struct k = true.
Proof. intros H. apply any_frame_iff. exact (frame_kind_frame _ _ _ H). Qed.
Lemma str_frame_is os h r k n e f : py_frame os h r k n e f -> py_str (St os h) r = Ok (St os h, py_string (frame_str f)).
Proof.
  intros ([at_ A] & O & F). destruct (obj_alive os h _ _ A) as [m E]. unfold py_str. rewrite E. cbn [bind]. rewrite (frame_struct_ok _ _ _ F). cbn [mem].
  rewrite (load_frame_ok _ _ _ _ _ O F). reflexivity.
Qed.
Lemma str_frame_ok os h r k n e f : py_frame os h r k n e f -> c_numbers f ->
  exists s a, says (frame_pieces f) s /\ py_str (St os h) r = Ok (St os h, a) /\ gives_text a s.
Proof. intros P N. eexists _, _. split; [apply frame_pieces_ok; exact N|]. split; [exact (str_frame_is _ _ _ _ _ _ _ P)|apply py_string_gives]. Qed.

(** Members of a structure whose list is not linked yet. *)
Lemma num_at h k c scal ps kids arr raw n m t z : nth_error h c = Some (CObj k scal ps kids arr raw n) -> (exists i, offset k (L m) t = Ok i) ->
  number_of k scal (L m) z -> num h c (L m) t = Ok z.
Proof.
  intros Hc [i Ei] (j & E1 & E2). pose proof (offset_pos _ _ _ _ Ei) as E3. pose proof (nth_unique _ _ _ _ (proj1 (members_nodup k)) E1 E3) as ->.
  unfold num, load_scalar. rewrite (get_obj _ _ _ _ _ _ _ _ _ Hc). cbn [bind]. rewrite Ei. cbn [bind]. unfold load. rewrite E2. reflexivity.
Qed.
Lemma txt_at h k c scal ps kids arr raw n ss fs m s : nth_error h c = Some (CObj k scal ps kids arr raw n) -> own_strs h ps ss fs -> k <> KReport ->
  (exists i, pos (strings k) (L m) = Some i) -> string_of k ss (L m) s -> txt h c (L m) = Ok s.
Proof.
  intros Hc Os K [i Ei] (j & E1 & E2). pose proof (pos_nth _ _ _ Ei) as E3. rewrite <- (text_members_are k K) in E3.
  pose proof (nth_unique _ _ _ _ (proj2 (members_nodup k)) E1 E3) as ->.
  unfold txt, load_string. rewrite (get_obj _ _ _ _ _ _ _ _ _ Hc). cbn [bind]. rewrite Ei. unfold load.
  destruct (own_strs_nth _ _ _ _ _ _ Os E2) as (p & Ep & Hp). rewrite Ep. cbn [bind]. destruct p as [a|], s as [s|]; try contradiction; [|reflexivity].
  rewrite (get_string _ _ _ (proj1 Hp)). reflexivity.
Qed.
Lemma title_ok h k fk n e es t : unlinked_thread h k fk n e es -> is_thread k (e_val e) t -> thread_numbers t ->
  exists x, title h k (e_addr e) = Ok (Some x) /\ says (thread_pieces t) x.
Proof.
  intros (scal & ps & p & ss & fs & arr & sarr & fa & raw & _ & Hc & _ & Os & _ & Ev & _) I N. destruct t; cbn [is_thread] in I; destruct I as [-> I]; cbn [title].
  all: try (eexists; split; [reflexivity|apply says_text]).
  - destruct I as [I _]. rewrite Ev in I. erewrite txt_at; [|exact Hc|exact Os|discriminate|eexists; vm_compute; reflexivity|exact I]. cbn [bind]. eexists. split; [reflexivity|].
    cbn [thread_pieces]. unfold opt_text. destruct (vt_name t); cbn [if_some]; [rewrite app_nil_r; pieces|rewrite app_nil_r; pieces].
  - destruct I as [I _]. rewrite Ev in I. erewrite num_at; [|exact Hc|eexists; vm_compute; reflexivity|exact I]. cbn [bind]. eexists. split; [reflexivity|]. cbn [thread_numbers] in N. cbn [thread_pieces]. pieces.
Qed.
Lemma contents_frames k fk : frame_kind k = Some fk -> contents k = L " frames".
Proof. unfold contents. destruct k; cbn; intros H; try discriminate H; reflexivity. Qed.
Lemma counted_ok n what : says (counted n what) (L " with " ++ dec (Z.of_nat n) ++ what).
Proof. unfold counted. pieces. Qed.
Lemma str_counts os h r k c l at_ x items ps : alive os r (PyStruct k c (Some l :: at_)) -> frame_struct k = false -> title h k c = Ok (Some x) -> says ps x ->
  alive os l (PyList items) ->
  exists s a, says (ps ++ counted (length items) (contents k)) s /\ py_str (St os h) r = Ok (St os h, a) /\ gives_text a s.
Proof.
  intros A F E X I. destruct (obj_alive os h _ _ A) as [m Eo]. destruct (obj_alive os h _ _ I) as [m' Ei]. eexists _, _. split; [apply says_app; [exact X|apply counted_ok]|].
  split; [|apply py_string_gives]. unfold py_str. rewrite Eo. cbn [bind]. rewrite F. cbn [mem]. rewrite E. cbn [bind hd list_size]. rewrite Ei. reflexivity.
Qed.
Lemma same_length {A B} {R : A -> B -> Prop} {l m} : Forall2 R l m -> length l = length m.
Proof. induction 1; cbn; congruence. Qed.
Lemma frames_count k v t vs : is_thread k v t -> kids v = [vs] -> length vs = length (sr_thread_frames t).
Proof.
  intros H E. assert (exists fk, has_frames fk v (sr_thread_frames t)) as (fk & vs' & E' & F).
  { destruct t; cbn [is_thread] in H; cbn [sr_thread_frames]; eexists; decompose [and] H; eassumption. }
  rewrite E in E'. injection E' as <-. exact (same_length F).
Qed.
Lemma str_thread_ok os h r k n e es t : py_thread_is os h r k n e es t -> thread_numbers t ->
  exists s a, says (thread_pieces t ++ counted (length (sr_thread_frames t)) (L " frames")) s /\ py_str (St os h) r = Ok (St os h, a) /\ gives_text a s.
Proof.
  intros (fk & l & items & at_ & A & (Pl & Pi) & U & _ & I) N. destruct (title_ok _ _ _ _ _ _ _ U I N) as (x & Ex & X).
  pose proof U as (scal & ps & p & ss & fs & arr & sarr & fa & raw & Hk & _ & _ & _ & _ & Ev & _).
  assert (Len : length items = length (sr_thread_frames t)).
  { rewrite <- (frames_count k (e_val e) t (map e_val es) I) by (rewrite Ev; reflexivity). rewrite map_length. exact (same_length Pi). }
  rewrite <- Len, <- (contents_frames k fk Hk). eapply str_counts; eauto. destruct k; cbn in Hk |- *; congruence.
Qed.
Lemma str_stack_ok os h r k c l at_ items : In k [KCoreStack; KJavaStack; KGdbStack] -> alive os r (PyStruct k c (Some l :: at_)) -> alive os l (PyList items) ->
  exists s a, says (T (stack_name k) :: counted (length items) (L " threads")) s /\ py_str (St os h) r = Ok (St os h, a) /\ gives_text a s.
Proof.
  intros K A I. assert (E : title h k c = Ok (Some (stack_name k)) /\ frame_struct k = false /\ contents k = L " threads") by (cbn in K; destruct K as [<-|[<-|[<-|[]]]]; repeat split).
  destruct E as (E & F & C). rewrite <- C. exact (str_counts os h r k c l at_ (stack_name k) items [T (stack_name k)] A F E (says_text _) I).
Qed.
Lemma str_multi_ok os h r k n e ts s : py_stack_is os h r k n e ts s ->
  exists x a, says (T (stack_name k) :: counted (thread_count s) (L " threads")) x /\ py_str (St os h) r = Ok (St os h, a) /\ gives_text a x.
Proof.
  intros (tk & fk & l & at_ & _ & _ & A & (Pl & _) & U & _ & I).
  destruct U as (tk' & fk' & scal & ps & p & ss & fs & arr & sarr & fa & raw & K & _ & _ & _ & _ & _ & _ & Ev & _).
  assert (Len : length (map pt_ref ts) = thread_count s).
  { rewrite map_length. destruct s; cbn [is_stack] in I; try (destruct I as [I _]; destruct K as [-> | ->]; discriminate I).
    - destruct I as (_ & _ & _ & _ & vs & E & F). rewrite Ev in E. injection E as <-. pose proof (same_length F) as H. rewrite !map_length in H. exact H.
    - destruct I as (_ & vs & E & F). rewrite Ev in E. injection E as <-. pose proof (same_length F) as H. rewrite !map_length in H. exact H. }
  rewrite <- Len. eapply str_stack_ok; eauto. cbn. intuition.
Qed.
Lemma str_gdb_ok os h r n e ts items libs s : py_gdb_is os h r n e ts items libs s ->
  exists x a, says (T (L "Stacktrace") :: counted (length (gs_threads s)) (L " threads")) x /\ py_str (St os h) r = Ok (St os h, a) /\ gives_text a x.
Proof.
  intros (lt & ll & at_ & A & (Pl & _) & _ & U & _ & I). destruct U as (scal & pc & p & pl & crash & arr & sarr & fa & raw & _ & _ & _ & _ & Ev & _).
  destruct I as (_ & _ & cs & vs & ls & E & _ & F & _). rewrite Ev in E. injection E as <- <- <-. pose proof (same_length F) as H. rewrite !map_length in H.
  assert (Len : length (map pt_ref ts) = length (gs_threads s)) by (rewrite map_length; exact H).
  rewrite <- Len. exact (str_stack_ok os h r KGdbStack _ lt _ _ (or_intror (or_intror (or_introl eq_refl))) A Pl).
Qed.
(** The attribute is no list, or deleted. *)
Lemma str_no_list os h r k n e l at_ b t fk es : alive os r (PyStruct k (e_addr e) (Some l :: at_)) -> unlinked_thread h k fk n e es -> is_thread k (e_val e) t -> thread_numbers t ->
  alive os l b -> (forall items, b <> PyList items) ->
  (exists x, py_str (St os h) r = Ok (St os h, ValueAnd x SystemError)) \/ py_str (St os h) r = Ok (St os h, Raise UnicodeDecodeError).
Proof.
  intros A U I N Al Hb. destruct (title_ok _ _ _ _ _ _ _ U I N) as (x & Ex & X). destruct (obj_alive os h _ _ A) as [m Eo]. destruct (obj_alive os h _ _ Al) as [m' Ei].
  pose proof U as (scal & ps & p & ss & fs & arr & sarr & fa & raw & Hk & _). assert (F : frame_struct k = false) by (destruct k; cbn in Hk |- *; congruence).
  unfold py_str. rewrite Eo. cbn [bind]. rewrite F. cbn [mem]. rewrite Ex. cbn [bind hd list_size]. rewrite Ei. cbn [bind].
  destruct b as [|items|? ? ?]; try (exfalso; exact (Hb _ eq_refl)); cbn [bind]; unfold py_string; (destruct (from_utf8 _); [left; eexists; reflexivity|right; reflexivity]).
Qed.
Lemma str_deleted os h r k n e at_ t fk es : alive os r (PyStruct k (e_addr e) (None :: at_)) -> unlinked_thread h k fk n e es -> is_thread k (e_val e) t -> thread_numbers t ->
  py_str (St os h) r = UB.
Proof.
  intros A U I N. destruct (title_ok _ _ _ _ _ _ _ U I N) as (x & Ex & X). destruct (obj_alive os h _ _ A) as [m Eo].
  pose proof U as (scal & ps & p & ss & fs & arr & sarr & fa & raw & Hk & _). assert (F : frame_struct k = false) by (destruct k; cbn in Hk |- *; congruence).
  unfold py_str. rewrite Eo. cbn [bind]. rewrite F. cbn [mem]. rewrite Ex. reflexivity.
Qed.

(** ** Packages, operating systems, libraries *)
Lemma rpm_pieces_ok n e v r a : 0 <= e -> says (rpm_pieces n e v r a) (rpm_str n e v r a).
Proof.
  intros H. unfold rpm_pieces, rpm_str. destruct n as [n|]; [|apply says_text]. apply says_cons; [reflexivity|]. destruct v as [v|]; cbn [if_some]; [|apply says_nil].
  apply says_cons; [reflexivity|]. apply says_app; [apply says_nonzero; pieces|]. apply says_cons; [reflexivity|]. destruct r as [r|]; cbn [if_some]; [|apply says_nil].
  apply says_cons; [reflexivity|]. apply says_cons; [reflexivity|]. unfold opt_text. destruct a; cbn [if_some]; [rewrite app_nil_r|]; pieces.
Qed.
Lemma os_pieces_ok n v a c : says (os_pieces n v a c) (os_str n v a c).
Proof.
  unfold os_pieces, os_str, opt_text. apply says_cons; [reflexivity|]. apply says_app; [destruct v; cbn [if_some]; [rewrite app_nil_r|]; pieces|].
  apply says_app; [destruct a; cbn [if_some]; pieces|]. destruct c; cbn [if_some]; [rewrite app_nil_r|]; pieces.
Qed.
Lemma str_rpm_is os h r n e at_ name epoch version release architecture : alive os r (PyStruct KRpm (e_addr e) at_) -> own h KRpm n e ->
  is_text KRpm (e_val e) "name" name -> is_number KRpm (e_val e) "epoch" epoch -> is_text KRpm (e_val e) "version" version ->
  is_text KRpm (e_val e) "release" release -> is_text KRpm (e_val e) "architecture" architecture ->
  py_str (St os h) r = Ok (St os h, py_string (rpm_str name epoch version release architecture)).
Proof.
  intros A O H1 H2 H3 H4 H5. destruct (obj_alive os h _ _ A) as [m Eo]. unfold py_str. rewrite Eo. cbn [bind frame_struct title mem]. repeat member O. reflexivity.
Qed.
Lemma str_os_is os h r n e at_ name version architecture cpe : alive os r (PyStruct KOs (e_addr e) at_) -> own h KOs n e ->
  is_text KOs (e_val e) "name" name -> is_text KOs (e_val e) "version" version -> is_text KOs (e_val e) "architecture" architecture -> is_text KOs (e_val e) "cpe" cpe ->
  py_str (St os h) r = Ok (St os h, py_string (os_str name version architecture cpe)).
Proof.
  intros A O H1 H2 H3 H4. destruct (obj_alive os h _ _ A) as [m Eo]. unfold py_str. rewrite Eo. cbn [bind frame_struct title mem]. repeat member O. reflexivity.
Qed.
Lemma str_lib_is os h r n e at_ l : alive os r (PyStruct KGdbLib (e_addr e) at_) -> own h KGdbLib n e -> is_lib (e_val e) l ->
  py_str (St os h) r = Ok (St os h, py_string (lib_str (gl_soname l))).
Proof.
  intros A O (_ & _ & _ & H). destruct (obj_alive os h _ _ A) as [m Eo]. unfold py_str. rewrite Eo. cbn [bind frame_struct title mem]. repeat member O. reflexivity.
Qed.
