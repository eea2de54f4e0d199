(** * Proofs about duplicate hashes (C21). *)
From Verif Require Import Base Types JsonSpec JsonModel JsonProofs UtilsProofs NormModel NormProofs2 TextModel TextSpec.
From Verif Require Import NormSpec.
Open Scope Z_scope.

(** ** Numerals *)
Definition hexd (d : Z) : ascii := nth (Z.to_nat d) (L "0123456789abcdef") nul.
Definition hexv (c : ascii) : Z :=
  let n := Z.of_N (N_of_ascii c) in if n <? 58 then n - 48 else n - 87.
Lemma hexd_cases (P : Z -> Prop) : P 0 -> P 1 -> P 2 -> P 3 -> P 4 -> P 5 -> P 6 -> P 7 -> P 8 -> P 9 -> P 10 -> P 11 ->
  P 12 -> P 13 -> P 14 -> P 15 -> forall d, 0 <= d < 16 -> P d.
Proof.
  intros. assert (d = 0 \/ d = 1 \/ d = 2 \/ d = 3 \/ d = 4 \/ d = 5 \/ d = 6 \/ d = 7 \/ d = 8 \/ d = 9 \/ d = 10
    \/ d = 11 \/ d = 12 \/ d = 13 \/ d = 14 \/ d = 15) as K by lia.
  repeat (destruct K as [->|K]; [assumption|]). subst. assumption.
Qed.
Lemma hexv_hexd d : 0 <= d < 16 -> hexv (hexd d) = d.
Proof. revert d. apply hexd_cases; reflexivity. Qed.
Lemma hex_char_hexd d : 0 <= d < 16 -> hex_char (Z.to_N d) = hexd d.
Proof. revert d. apply hexd_cases; reflexivity. Qed.
Lemma hexd_not d c : 0 <= d < 16 -> ~ In c (L "0123456789abcdef") -> hexd d <> c.
Proof.
  intros H N E. apply N. rewrite <- E. unfold hexd. apply nth_In. change (length (L "0123456789abcdef")) with 16%nat. lia.
Qed.
Definition hexval (s : str) : Z := fold_left (fun a c => a * 16 + hexv c) s 0.
Lemma hexnum_val n s : hexnum n s -> hexval s = n.
Proof.
  induction 1 as [d H|n s d Hn H IH Hd].
  - unfold hexval. cbn [fold_left]. fold (hexd d). rewrite hexv_hexd by assumption. lia.
  - unfold hexval in *. rewrite fold_left_app. rewrite IH. cbn [fold_left]. fold (hexd d). rewrite hexv_hexd by assumption. lia.
Qed.
Lemma hexnum_fun n m s : hexnum n s -> hexnum m s -> n = m.
Proof. intros H1 H2. apply hexnum_val in H1, H2. congruence. Qed.
Lemma hexnum_det n s : hexnum n s -> forall t, hexnum n t -> s = t.
Proof.
  induction 1 as [d H|n s d Hn H IH Hd]; intros t Ht; inversion Ht; subst.
  - reflexivity.
  - exfalso. lia.
  - exfalso. lia.
  - assert (n = n0 /\ d = d0) as [-> ->] by lia. f_equal. apply IH. assumption.
Qed.
Lemma hexnum_chars n s c : hexnum n s -> ~ In c (L "0123456789abcdef") -> ~ In c s.
Proof.
  intros H N. induction H as [d H|n s d Hn H IH Hd].
  - intros [E|[]]. revert E. apply (hexd_not d); assumption.
  - rewrite in_app_iff. intros [E|[E|[]]]; [tauto|]. revert E. apply (hexd_not d); assumption.
Qed.
Lemma hexnum_ne n s : hexnum n s -> s <> [].
Proof. intros H E. destruct H; [discriminate|]. destruct s; discriminate. Qed.
Lemma hex_digits_ok : forall f n, (N.log2 n < N.of_nat f)%N -> hexnum (Z.of_N n) (hex_digits f n).
Proof.
  induction f as [|f IH]; intros n Hf; [lia|]. cbn [hex_digits].
  destruct (N.ltb_spec n 16) as [Hs|Hb].
  - rewrite N.mod_small by assumption. rewrite <- (N2Z.id n) at 2. rewrite hex_char_hexd by lia. apply hx_one. lia.
  - assert (Hm : (n mod 16 < 16)%N) by (apply N.mod_lt; lia).
    assert (Hq : (0 < n / 16)%N) by (apply N.div_str_pos; lia).
    replace (Z.of_N n) with (Z.of_N (n / 16) * 16 + Z.of_N (n mod 16)) by (pose proof (N.div_mod n 16); lia).
    assert (Hr : 0 <= Z.of_N (n mod 16) < 16).
    { split; [apply N2Z.is_nonneg|]. apply N2Z.inj_lt in Hm. exact Hm. }
    assert (Hd : hex_char (n mod 16) = hexd (Z.of_N (n mod 16))).
    { rewrite <- hex_char_hexd; [rewrite N2Z.id; reflexivity|exact Hr]. }
    rewrite Hd. apply hx_more; [lia| |exact Hr]. apply IH.
    assert (H1 : (N.log2 (n / 16) < N.log2 n)%N).
    { replace (n / 16)%N with (N.shiftr n 4) by (rewrite N.shiftr_div_pow2; reflexivity).
      rewrite N.log2_shiftr. assert (0 < N.log2 n)%N by (apply N.log2_pos; lia). lia. }
    lia.
Qed.
Lemma hex_ok z : 0 <= z -> hexnum z (hex z).
Proof.
  intros H. unfold hex. pose proof (hex_digits_ok (S (N.to_nat (N.log2 (Z.to_N z)))) (Z.to_N z)) as K.
  rewrite Z2N.id in K by assumption. apply K. lia.
Qed.
Lemma hex_inj a b : 0 <= a -> 0 <= b -> hex a = hex b -> a = b.
Proof. intros Ha Hb E. apply hex_ok in Ha, Hb. rewrite E in Ha. exact (hexnum_fun _ _ _ Ha Hb). Qed.
(* even for a number that is not unsigned *)
Lemma hex_digits_chars c f n : ~ In c (L "0123456789abcdef") -> ~ In c (hex_digits f n).
Proof.
  intros N. revert n. induction f as [|f IH]; intros n; [intros []|]. cbn [hex_digits].
  assert (K : hex_char (n mod 16) <> c).
  { assert (Hm : (n mod 16 < 16)%N) by (apply N.mod_lt; discriminate).
    assert (Hr : 0 <= Z.of_N (n mod 16) < 16) by (split; [apply N2Z.is_nonneg|apply N2Z.inj_lt in Hm; exact Hm]).
    rewrite <- (N2Z.id (n mod 16)). rewrite hex_char_hexd by exact Hr. apply hexd_not; assumption. }
  destruct (n <? 16)%N; [intros [E|[]]; tauto|]. rewrite in_app_iff. intros [E|[E|[]]]; [exact (IH _ E)|tauto].
Qed.
Lemma hex_chars c z : ~ In c (L "0123456789abcdef") -> ~ In c (hex z).
Proof. intros N. apply hex_digits_chars. assumption. Qed.
Lemma dec_ok z : 0 <= z -> decnum z (dec z).
Proof. intros H. pose proof (print_N_jnat (Z.to_N z)) as K. rewrite Z2N.id in K by assumption. exact K. Qed.
Lemma dec_inj a b : 0 <= a -> 0 <= b -> dec a = dec b -> a = b.
Proof. intros Ha Hb E. apply print_N_inj in E. lia. Qed.
Lemma dec_chars c z : dig c = None -> ~ In c (dec z).
Proof.
  intros N H. destruct (print_N_digits (Z.to_N z)) as [K _]. rewrite Forall_forall in K. exact (K _ H N).
Qed.

(** ** Duplicate hash *)
Lemma frame_text_key flags f : frame_unsigned f ->
  match frame_key (flag_koops_compat flags) f with
  | Some k => exists x, key_line k x /\ frame_duphash_text flags f = x ++ [nl]
  | None => frame_duphash_text flags f = []
  end.
Proof.
  intros U. destruct f as [f|f|f|f|f|f|f]; cbn [frame_key frame_duphash_text frame_unsigned] in *.
  - unfold core_duphash_text. destruct (cf_build_id f) as [b|], (cf_function_name f) as [n|], (cf_fingerprint f) as [p|];
      eexists; (split; [constructor; apply hex_ok; tauto || lia|]); rewrite <- ?app_assoc; reflexivity.
  - eexists. split; [constructor; apply dec_ok; lia|]. unfold file_line_text. rewrite <- ?app_assoc. reflexivity.
  - unfold koops_duphash_text. destruct (flag_koops_compat flags), (kf_reliable f); cbn [andb negb]; try reflexivity;
      (destruct (kf_function_name f) as [n|]; eexists; (split; [constructor; apply hex_ok; tauto || lia|]);
       rewrite <- ?app_assoc; reflexivity).
  - unfold java_duphash_text. destruct (vf_name f) as [n|]; eexists; (split; [constructor; apply dec_ok; lia|]);
      rewrite <- ?app_assoc; reflexivity.
  - eexists. split; [constructor|]. unfold gdb_duphash_text, words. cbn [map concat].
    destruct (gf_function_type f) as [t|], (gf_function_name f) as [n|], (gf_signal_handler_called f);
      rewrite ?app_nil_r, <- ?app_assoc; cbn [app]; reflexivity.
  - eexists. split; [constructor; apply dec_ok; lia|]. unfold file_line_text. rewrite <- ?app_assoc. reflexivity.
  - eexists. split; [constructor; apply dec_ok; lia|]. unfold file_line_text. rewrite <- ?app_assoc. reflexivity.
Qed.
Lemma duphash_loop_ok flags : forall l n buf, Forall frame_unsigned l ->
  exists lines, Forall2 key_line (firstn (Z.to_nat n) (keys (flag_koops_compat flags) l)) lines /\
                duphash_loop flags l n buf = buf ++ unlines lines.
Proof.
  induction l as [|f l IH]; intros n buf U.
  - exists []. cbn [keys duphash_loop]. rewrite firstn_nil, app_nil_r. split; [constructor|reflexivity].
  - inversion U as [|? ? Uf Ul]; subst. cbn [keys duphash_loop].
    destruct (Z.ltb_spec 0 n) as [Hn|Hn].
    + pose proof (frame_text_key flags f Uf) as K. destruct (frame_key (flag_koops_compat flags) f) as [k|].
      * destruct K as (x & K1 & K2). rewrite K2.
        replace (Nat.ltb (length buf) (length (buf ++ x ++ [nl]))) with true.
        2:{ symmetry. apply Nat.ltb_lt. rewrite !app_length. cbn [length]. lia. }
        destruct (IH (n - 1) (buf ++ x ++ [nl]) Ul) as (ls & A & B). exists (x :: ls). split.
        -- replace (Z.to_nat n) with (S (Z.to_nat (n - 1))) by lia. cbn [firstn]. constructor; assumption.
        -- rewrite B. unfold unlines. cbn [map concat]. rewrite <- !app_assoc. reflexivity.
      * rewrite K, app_nil_r, Nat.ltb_irrefl. apply IH. assumption.
    + exists []. replace (Z.to_nat n) with O by lia. cbn [firstn]. rewrite app_nil_r. split; [constructor|reflexivity].
Qed.
Lemma keys_length c l : (length (keys c l) <= length l)%nat.
Proof. induction l as [|f l IH]; cbn [keys]; [reflexivity|]. destruct (frame_key c f); cbn [length]; lia. Qed.
Lemma first_eq {A} n (l : list A) : Z.of_nat (length l) <= int_max ->
  firstn (Z.to_nat (if n =? 0 then int_max else n)) l = first n l.
Proof.
  intros H. unfold first. destruct (n =? 0); [|reflexivity]. apply firstn_all2. unfold int_max in *. lia.
Qed.
Definition answer (sha1 : str -> str) (flags : N) (text : str) : option str :=
  if flag_koops_compat flags && Nat.eqb (length text) 0 then None
  else if flag_nohash flags then Some text else Some (sha1 text).
Lemma duphash_answer sha1 t n prefix flags l : considered t flags l -> Forall frame_unsigned l ->
  Z.of_nat (length l) <= int_max ->
  exists lines, Forall2 key_line (first n (keys (flag_koops_compat flags) l)) lines /\
    sr_thread_get_duphash sha1 t n prefix flags = Ok (answer sha1 flags (header prefix flags ++ unlines lines)).
Proof.
  intros C U Hl. unfold sr_thread_get_duphash.
  assert (E : exists t', (if flag_nonormalize flags then Ok t else sr_thread_normalize t) = Ok t' /\ l = sr_thread_frames t').
  { unfold considered, unnormalized in C. fold (flag_nonormalize flags) in C. destruct (flag_nonormalize flags); [exists t; split; [reflexivity|assumption]|assumption]. }
  destruct E as (t' & -> & El). cbn [bind].
  set (b := if flag_koops_compat flags then _ else _).
  assert (Eb : b = header prefix flags).
  { unfold b, header, old_koops. fold (flag_koops_compat flags). destruct (flag_koops_compat flags); rewrite ?app_nil_r; reflexivity. }
  rewrite Eb. rewrite <- El.
  destruct (duphash_loop_ok flags l (if n =? 0 then int_max else n) (header prefix flags) U) as (ls & A & B).
  exists ls. rewrite first_eq in A by (pose proof (keys_length (flag_koops_compat flags) l); lia).
  split; [assumption|]. rewrite B. reflexivity.
Qed.
Lemma considered_total t flags : exists l, considered t flags l.
Proof.
  unfold considered, unnormalized. fold (flag_nonormalize flags). destruct (flag_nonormalize flags); [eauto|].
  destruct t; cbn [sr_thread_normalize]; eauto.
  destruct (koops_normalize_ok (ks_frames t)) as (m & r & _ & E & _). rewrite E. cbn [bind]. eauto.
Qed.
Lemma sub_Forall {A} (P : A -> Prop) m l : subseq m l -> Forall P l -> Forall P m.
Proof. induction 1; intros F; [constructor| |]; inversion F; subst; [constructor|]; auto. Qed.
Lemma sub_length {A} (m l : list A) : subseq m l -> (length m <= length l)%nat.
Proof. induction 1; cbn [length]; lia. Qed.
Lemma kept_sub {A} (P : A -> Prop) a b : kept P a b -> subseq b a.
Proof. induction 1; constructor; assumption. Qed.
Lemma F2_Forall {A B} (R : A -> B -> Prop) (P : A -> Prop) (Q : B -> Prop) l m : (forall a b, R a b -> P a -> Q b) ->
  Forall2 R l m -> Forall P l -> Forall Q m /\ length m = length l.
Proof.
  intros H F. induction F as [|a b l m r F IH]; intros K; [split; [constructor|reflexivity]|].
  inversion K; subst. destruct (IH H3) as [A1 A2]. cbn [length]. split; [constructor; eauto|lia].
Qed.
Lemma considered_unsigned t flags l : considered t flags l -> Forall frame_unsigned (sr_thread_frames t) ->
  Forall frame_unsigned l /\ (length l <= length (sr_thread_frames t))%nat.
Proof.
  unfold considered, unnormalized. fold (flag_nonormalize flags). destruct (flag_nonormalize flags); [intros ->; split; [assumption|lia]|].
  intros (t' & N & ->) U. destruct t as [t|t|t|t|t|t|t]; cbn [sr_thread_normalize] in N;
    try (injection N as <-; split; [assumption|reflexivity]).
  - injection N as <-. unfold sr_normalize_core_thread. cbn [sr_thread_frames ct_frames] in *.
    destruct (NormProofs.core_selection (ct_frames t)) as (m & S & F). rewrite Forall_map in U.
    apply (sub_Forall _ _ _ S) in U. apply sub_length in S. rewrite !map_length, Forall_map.
    destruct (F2_Forall core_canonical (fun x => frame_unsigned (FCore x)) (fun x => frame_unsigned (FCore x)) m _
      ltac:(intros a b KK; cbn [frame_unsigned]; destruct KK as (_ & _ & -> & _ & -> & _); auto) F U) as [A1 A2]. split; [assumption|lia].
  - cbn [bind] in N. destruct (koops_normalize_ok (ks_frames t)) as (m & r & F & E & K). rewrite E in N. cbn [bind] in N.
    injection N as <-. cbn [sr_thread_frames ks_frames] in *. rewrite Forall_map in U.
    destruct (F2_Forall cut_name (fun x => frame_unsigned (FKoops x)) (fun x => frame_unsigned (FKoops x)) (ks_frames t) m
      ltac:(intros a b KK; cbn [frame_unsigned]; destruct KK as (_ & -> & _ & -> & -> & _ & -> & _ & -> & -> & _); auto) F U) as [A1 A2].
    apply kept_sub in K. apply (sub_Forall _ _ _ K) in A1. apply sub_length in K.
    rewrite !map_length, Forall_map. split; [assumption|lia].
  - injection N as <-. unfold sr_normalize_gdb_thread. cbn [sr_thread_frames gt_frames] in *.
    destruct (NormProofs.gdb_selection (gt_frames t)) as (m & S & F). rewrite Forall_map in U.
    apply (sub_Forall _ _ _ S) in U. apply sub_length in S. rewrite !map_length, Forall_map.
    destruct (F2_Forall gdb_canonical (fun x => frame_unsigned (FGdb x)) (fun x => frame_unsigned (FGdb x)) m _
      ltac:(intros a b KK; cbn [frame_unsigned]; destruct KK as (_ & _ & -> & _ & -> & _ & -> & _); auto) F U) as [A1 A2]. split; [assumption|lia].
Qed.
Definition small (t : thread) : Prop := Z.of_nat (length (sr_thread_frames t)) <= int_max.

Theorem duphash_text sha1 t n prefix flags : Forall frame_unsigned (sr_thread_frames t) -> small t ->
  exists l lines text r, considered t flags l /\
    Forall2 key_line (first n (keys (flag_koops_compat flags) l)) lines /\
    text = header prefix flags ++ unlines lines /\
    sr_thread_get_duphash sha1 t n prefix flags = Ok r /\
    (r = None <-> flag_koops_compat flags = true /\ text = []) /\
    (forall x, r = Some x -> x = if flag_nohash flags then text else sha1 text).
Proof.
  intros U Hs. destruct (considered_total t flags) as (l & C). destruct (considered_unsigned _ _ _ C U) as [U' Hl].
  destruct (duphash_answer sha1 t n prefix flags l C U') as (lines & F & E); [unfold small in Hs; lia|].
  exists l, lines, (header prefix flags ++ unlines lines), (answer sha1 flags (header prefix flags ++ unlines lines)).
  repeat (split; [assumption || reflexivity|]). unfold answer.
  destruct (flag_koops_compat flags); cbn [andb].
  - destruct (Nat.eqb_spec (length (header prefix flags ++ unlines lines)) 0) as [Z|Z].
    + apply length_zero_iff_nil in Z. split; [tauto|discriminate].
    + split; [split; [destruct (flag_nohash flags); discriminate|intros [_ K]; rewrite K in Z; elim Z; reflexivity]|].
      intros x. destruct (flag_nohash flags); congruence.
  - split; [split; [destruct (flag_nohash flags); discriminate|intros [K _]; discriminate]|].
    intros x. destruct (flag_nohash flags); congruence.
Qed.
(** One text per key. *)
Definition line_of (k : key) : str :=
  match k with
  | KBuild b o => b ++ L "+0x" ++ hex o
  | KName n => n
  | KCoreName n => L "  " ++ n
  | KAddress a => L "0x" ++ hex a
  | KGdb t n h => L " " ++ words [t; n; if h then Some (L "<signal handler called>") else None]
  | KPlace c f n => shown c ++ L "/" ++ shown f ++ L ":" ++ dec n
  | KFile f n => shown f ++ L ":" ++ dec n
  end.
Lemma frame_text_line flags f :
  frame_duphash_text flags f =
  match frame_key (flag_koops_compat flags) f with Some k => line_of k ++ [nl] | None => [] end.
Proof.
  destruct f as [f|f|f|f|f|f|f]; cbn [frame_key frame_duphash_text line_of];
    unfold core_duphash_text, file_line_text, koops_duphash_text, java_duphash_text, gdb_duphash_text, words; cbn [map concat].
  - destruct (cf_build_id f), (cf_function_name f), (cf_fingerprint f); cbn [line_of]; rewrite <- ?app_assoc; reflexivity.
  - rewrite <- ?app_assoc; reflexivity.
  - destruct (flag_koops_compat flags), (kf_reliable f), (kf_function_name f); cbn [line_of andb negb]; rewrite <- ?app_assoc; reflexivity.
  - destruct (vf_name f); cbn [line_of]; rewrite <- ?app_assoc; reflexivity.
  - destruct (gf_function_type f) as [t|], (gf_function_name f) as [n|], (gf_signal_handler_called f);
      rewrite ?app_nil_r, <- ?app_assoc; cbn [app]; reflexivity.
  - rewrite <- ?app_assoc; reflexivity.
  - rewrite <- ?app_assoc; reflexivity.
Qed.
Lemma duphash_loop_lines flags : forall l n buf,
  duphash_loop flags l n buf = buf ++ unlines (map line_of (firstn (Z.to_nat n) (keys (flag_koops_compat flags) l))).
Proof.
  induction l as [|f l IH]; intros n buf.
  - cbn [keys duphash_loop]. rewrite firstn_nil. cbn [map]. unfold unlines. cbn. rewrite app_nil_r. reflexivity.
  - cbn [keys duphash_loop]. destruct (Z.ltb_spec 0 n) as [Hn|Hn].
    + rewrite frame_text_line. destruct (frame_key (flag_koops_compat flags) f) as [k|].
      * replace (Nat.ltb (length buf) (length (buf ++ line_of k ++ [nl]))) with true.
        2:{ symmetry. apply Nat.ltb_lt. rewrite !app_length. cbn [length]. lia. }
        rewrite IH. replace (Z.to_nat n) with (S (Z.to_nat (n - 1))) by lia. cbn [firstn map].
        unfold unlines. cbn [map concat]. rewrite <- !app_assoc. reflexivity.
      * rewrite app_nil_r, Nat.ltb_irrefl. apply IH.
    + replace (Z.to_nat n) with O by lia. cbn [firstn map]. unfold unlines. cbn. rewrite app_nil_r. reflexivity.
Qed.
Lemma duphash_lines sha1 t n prefix flags l : considered t flags l -> Z.of_nat (length l) <= int_max ->
  sr_thread_get_duphash sha1 t n prefix flags =
  Ok (answer sha1 flags (header prefix flags ++ unlines (map line_of (first n (keys (flag_koops_compat flags) l))))).
Proof.
  intros C Hl. unfold sr_thread_get_duphash.
  assert (E : exists t', (if flag_nonormalize flags then Ok t else sr_thread_normalize t) = Ok t' /\ l = sr_thread_frames t').
  { unfold considered, unnormalized in C. fold (flag_nonormalize flags) in C. destruct (flag_nonormalize flags); [exists t; split; [reflexivity|assumption]|assumption]. }
  destruct E as (t' & -> & El). cbn [bind].
  set (b := if flag_koops_compat flags then _ else _).
  assert (Eb : b = header prefix flags).
  { unfold b, header, old_koops. fold (flag_koops_compat flags). destruct (flag_koops_compat flags); rewrite ?app_nil_r; reflexivity. }
  rewrite Eb, <- El, duphash_loop_lines. rewrite first_eq by (pose proof (keys_length (flag_koops_compat flags) l); lia).
  reflexivity.
Qed.
Theorem duphash_same_keys sha1 t u n prefix flags l m : considered t flags l -> considered u flags m ->
  Z.of_nat (length l) <= int_max -> Z.of_nat (length m) <= int_max ->
  first n (keys (flag_koops_compat flags) l) = first n (keys (flag_koops_compat flags) m) ->
  sr_thread_get_duphash sha1 t n prefix flags = sr_thread_get_duphash sha1 u n prefix flags.
Proof. intros C D Hl Hm E. rewrite (duphash_lines _ _ _ _ _ l), (duphash_lines _ _ _ _ _ m), E by assumption. reflexivity. Qed.

(** Frames below the n-th contributing one. *)
Lemma keys_app c l m : keys c (l ++ m) = keys c l ++ keys c m.
Proof. induction l as [|f l IH]; cbn [keys app]; [reflexivity|]. destruct (frame_key c f); rewrite IH; reflexivity. Qed.
Theorem duphash_later_frames sha1 t u n prefix flags l m1 m2 : 0 < n -> n <= Z.of_nat (length (keys (flag_koops_compat flags) l)) ->
  considered t flags (l ++ m1) -> considered u flags (l ++ m2) ->
  Z.of_nat (length (l ++ m1)) <= int_max -> Z.of_nat (length (l ++ m2)) <= int_max ->
  sr_thread_get_duphash sha1 t n prefix flags = sr_thread_get_duphash sha1 u n prefix flags.
Proof.
  intros Hn Hl C D H1 H2. apply (duphash_same_keys _ _ _ _ _ _ _ _ C D H1 H2). rewrite !keys_app. unfold first.
  destruct (Z.eqb_spec n 0); [lia|]. rewrite !firstn_app. replace (Z.to_nat n - _)%nat with O by lia. reflexivity.
Qed.

(** ** Lines *)
Lemma split_first (c : ascii) a x b y : ~ In c a -> ~ In c b -> a ++ c :: x = b ++ c :: y -> a = b /\ x = y.
Proof.
  revert b. induction a as [|d a IH]; intros [|e b] Ha Hb E.
  - injection E as E. auto.
  - cbn [app] in E. injection E as E1 E2. subst. elim Hb. left; reflexivity.
  - cbn [app] in E. injection E as E1 E2. subst. elim Ha. left; reflexivity.
  - cbn [app] in E. injection E as E1 E2. subst.
    destruct (IH b) as [-> ->]; [intros K; apply Ha; right; exact K|intros K; apply Hb; right; exact K|exact E2|]. auto.
Qed.
Lemma unlines_cons x l : unlines (x :: l) = x ++ nl :: unlines l.
Proof. unfold unlines. cbn [map concat]. rewrite <- app_assoc. reflexivity. Qed.
Lemma unlines_app l m : unlines (l ++ m) = unlines l ++ unlines m.
Proof. unfold unlines. rewrite map_app, concat_app. reflexivity. Qed.
Lemma unlines_inj : forall l m, Forall no_newline l -> Forall no_newline m -> unlines l = unlines m -> l = m.
Proof.
  induction l as [|x l IH]; intros [|y m] Hl Hm E; [reflexivity| | |].
  - rewrite unlines_cons in E. symmetry in E. apply app_eq_nil in E. destruct E; discriminate.
  - rewrite unlines_cons in E. apply app_eq_nil in E. destruct E; discriminate.
  - rewrite !unlines_cons in E. inversion Hl; inversion Hm; subst. apply split_first in E as [-> E]; [|assumption|assumption].
    f_equal. apply IH; assumption.
Qed.
Theorem duphash_text_lines sha1 t u n prefix flags l m : considered t flags l -> considered u flags m ->
  Z.of_nat (length l) <= int_max -> Z.of_nat (length m) <= int_max ->
  Forall (fun f => forall k x, frame_key (flag_koops_compat flags) f = Some k -> key_line k x -> no_newline x) (l ++ m) ->
  Forall frame_unsigned (l ++ m) ->
  flag_nohash flags = true ->
  sr_thread_get_duphash sha1 t n prefix flags = sr_thread_get_duphash sha1 u n prefix flags ->
  exists lines, Forall2 key_line (first n (keys (flag_koops_compat flags) l)) lines /\
                Forall2 key_line (first n (keys (flag_koops_compat flags) m)) lines.
Proof.
  intros C D Hl Hm N U Hn E.
  rewrite Forall_app in N, U. destruct N as [N1 N2], U as [U1 U2].
  destruct (duphash_answer sha1 t n prefix flags l C U1 Hl) as (x & X1 & X2).
  destruct (duphash_answer sha1 u n prefix flags m D U2 Hm) as (y & Y1 & Y2).
  exists x. split; [assumption|]. rewrite X2, Y2 in E. injection E as E.
  assert (T : header prefix flags ++ unlines x = header prefix flags ++ unlines y).
  { unfold answer in E. rewrite Hn in E.
    destruct (Nat.eqb_spec (length (header prefix flags ++ unlines x)) 0) as [Zx|Zx],
             (Nat.eqb_spec (length (header prefix flags ++ unlines y)) 0) as [Zy|Zy];
      rewrite ?andb_false_r, ?andb_true_r in E; destruct (flag_koops_compat flags); try congruence.
    apply length_zero_iff_nil in Zx, Zy. congruence. }
  apply app_inv_head in T.
  assert (NN : forall l z, Forall (fun f => forall k x, frame_key (flag_koops_compat flags) f = Some k -> key_line k x -> no_newline x) l ->
     Forall2 key_line (first n (keys (flag_koops_compat flags) l)) z -> Forall no_newline z).
  { clear. intros l z N F. assert (K : Forall (fun k => forall x, key_line k x -> no_newline x) (first n (keys (flag_koops_compat flags) l))).
    { assert (K : Forall (fun k => forall x, key_line k x -> no_newline x) (keys (flag_koops_compat flags) l)).
      { clear F. induction N as [|f l Hf N IH]; cbn [keys]; [constructor|].
        destruct (frame_key (flag_koops_compat flags) f) as [k|] eqn:Ek; [|exact IH]. constructor; [|exact IH].
        intros x. apply Hf. reflexivity. }
      unfold first. destruct (n =? 0); [exact K|]. rewrite Forall_forall in *. intros k Hk. apply K.
      rewrite <- (firstn_skipn (Z.to_nat n)). apply in_or_app. left. exact Hk. }
    clear N. induction F as [|k x ks z Hx F IH]; [constructor|]. inversion K; subst. constructor; auto. }
  apply unlines_inj in T; [subst; assumption|apply (NN _ _ N1 X1)|apply (NN _ _ N2 Y1)].
Qed.
