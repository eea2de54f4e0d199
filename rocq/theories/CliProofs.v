(** * Proofs: the command line program. *)
From Verif Require Import Base Types UtilsModel UtilsSpec UtilsProofs JsonSpec JsonTypesModel RpmModel RpmSpec RpmProofs RpmProofs2 RpmProofs3 RpmProofs4 SystemModel SystemSpec
  SystemProofs SystemProofs2 TextModel NormModel NormSpec UnwindModel FileModel FileSpec GdbLibProofs CliModel CliSpec.
Open Scope nat_scope.

(** ** The name of the program *)
Lemma strip_slashes_spec r : exists s, r = s ++ strip_slashes r /\ Forall (eq "/"%char) s /\ match strip_slashes r with [] => True | c :: _ => c <> "/"%char end.
Proof.
  induction r as [|c r IH]; cbn [strip_slashes]; [exists []; repeat split; auto|].
  destruct (Ascii.eqb_spec c "/") as [->|N].
  - destruct IH as (s & E & F & M). exists ("/"%char :: s). cbn [app]. rewrite <- E. repeat split; auto.
  - exists []. repeat split; auto.
Qed.
Lemma all_slashes l : Forall (eq "/"%char) l -> strip_slashes l = [].
Proof. induction 1 as [|c l E F IH]; cbn [strip_slashes]; [reflexivity|]. subst. exact IH. Qed.
Lemma strip_app l c r : Forall (eq "/"%char) l -> c <> "/"%char -> strip_slashes (l ++ c :: r) = c :: r.
Proof.
  intros F N. induction F as [|x l E F IH]; cbn [app strip_slashes].
  - destruct (Ascii.eqb_spec c "/"); congruence.
  - subst. exact IH.
Qed.
Lemma called_iff path name : called path name <-> basename path = name.
Proof.
  split.
  - intros [[-> ->]|[(N & F & ->)|(dir & sl & -> & Nn & Ni & F & D)]]; [reflexivity| |].
    + destruct path as [|c path]; [congruence|]. unfold basename. rewrite all_slashes by (now apply Forall_rev). reflexivity.
    + assert (E : rev (dir ++ name ++ sl) = rev sl ++ rev name ++ rev dir) by now rewrite !rev_app_distr, app_assoc.
      destruct (dir ++ name ++ sl) as [|c p] eqn:X.
      { apply app_eq_nil in X as [_ X]. apply app_eq_nil in X as [X _]. congruence. }
      unfold basename. rewrite E. destruct (rev name) as [|x r] eqn:R.
      { apply (f_equal (@rev _)) in R. rewrite rev_involutive in R. cbn in R. congruence. }
      assert (Hx : x <> "/"%char). { intros ->. apply Ni. apply in_rev. rewrite R. now left. }
      cbn [app]. rewrite strip_app; [|now apply Forall_rev|assumption].
      change (x :: r ++ rev dir) with ((x :: r) ++ rev dir). rewrite span_unique.
      * cbn [fst]. rewrite <- R. apply rev_involutive.
      * rewrite <- R. apply Forall_rev. apply Forall_forall. intros y Hy. destruct (Ascii.eqb_spec y "/") as [->|]; [contradiction|reflexivity].
      * destruct D as [->|[d ->]]; [exact Logic.I|]. rewrite rev_app_distr. reflexivity.
  - intros <-. destruct path as [|c path]; [left; auto|]. unfold basename. set (p := c :: path).
    assert (P : p <> []) by discriminate. clearbody p. destruct (strip_slashes_spec (rev p)) as (s & E & F & M).
    destruct (strip_slashes (rev p)) as [|x r] eqn:X.
    + right. left. split; [assumption|]. split; [|reflexivity]. rewrite <- (rev_involutive p), E, app_nil_r. now apply Forall_rev.
    + right. right. destruct (span (fun c => negb (Ascii.eqb c "/")) (x :: r)) as [a b] eqn:Sp. cbn [fst].
      apply span_iff in Sp as (E2 & Fa & Mb). exists (rev b), (rev s).
      assert (Ep : p = rev b ++ rev a ++ rev s).
      { rewrite <- (rev_involutive p), E, E2, !rev_app_distr. now rewrite app_assoc. }
      split; [exact Ep|]. split.
      { intros R. apply (f_equal (@rev _)) in R. rewrite rev_involutive in R. cbn in R. subst a. cbn [app] in E2. subst b.
        cbn in Mb. destruct (Ascii.eqb_spec x "/"); [contradiction|discriminate]. }
      split.
      { intros K. apply in_rev in K. rewrite Forall_forall in Fa. specialize (Fa _ K). discriminate. }
      split; [now apply Forall_rev|]. destruct b as [|y b]; [now left|]. right. exists (rev b). cbn [rev].
      cbn in Mb. destruct (Ascii.eqb_spec y "/") as [->|]; [reflexivity|discriminate].
Qed.

(** ** The file of debug normalize *)
Lemma not_in_negb c l : ~ In c l <-> Forall (fun x => negb (Ascii.eqb x c) = true) l.
Proof.
  rewrite Forall_forall. split.
  - intros N x Hx. destruct (Ascii.eqb_spec x c) as [->|]; [contradiction|reflexivity].
  - intros F K. specialize (F _ K). destruct (Ascii.eqb_spec c c); [discriminate|congruence].
Qed.
Definition the_frame (function library : str) : gdb_frame :=
  mk_gdb_frame (Some function) None 0 (Some []) 4294967295 false 18446744073709551615 (Some library).
Lemma named_frame_iff a b f : named_frame a b f <-> f = the_frame a b.
Proof.
  split.
  - intros (H1 & H2 & H3 & H4 & H5 & H6 & H7 & H8). destruct f. cbn in *. unfold the_frame. congruence.
  - intros ->. repeat split.
Qed.
Lemma span_full p (l : str) : Forall (fun c => p c = true) l -> span p l = (l, []).
Proof. intros F. rewrite <- (app_nil_r l) at 1. now rewrite span_unique. Qed.
Lemma normalize_bare k fn : fn <> [] -> ~ In " "%char fn -> normalize_frames (S k) fn = Ok [the_frame fn []].
Proof.
  intros N NI. apply not_in_negb in NI. cbn [normalize_frames]. rewrite (span_full _ fn NI).
  destruct fn as [|c fn]; [congruence|]. cbn [span skip_line]. destruct k; reflexivity.
Qed.
Lemma head_ne (a : str) c b : exists x y, a ++ c :: b = x :: y.
Proof. destruct a; cbn; eauto. Qed.
Lemma normalize_last k fn lib : ~ In " "%char fn -> ~ In nl lib -> normalize_frames (S k) (fn ++ " "%char :: lib) = Ok [the_frame fn (" "%char :: lib)].
Proof.
  intros NI NL. apply not_in_negb in NI, NL. cbn [normalize_frames].
  rewrite (span_unique _ fn (" "%char :: lib)); [|assumption|reflexivity].
  rewrite (span_full _ (" "%char :: lib)); [|now constructor].
  destruct (head_ne fn " "%char lib) as (x & y & ->). cbn [span skip_line]. destruct k; reflexivity.
Qed.
Lemma normalize_line k fn lib rest : ~ In " "%char fn -> ~ In nl lib ->
  normalize_frames (S k) (fn ++ " "%char :: lib ++ nl :: rest) = do fs <- normalize_frames k rest; Ok (the_frame fn (" "%char :: lib) :: fs).
Proof.
  intros NI NL. apply not_in_negb in NI, NL. cbn [normalize_frames].
  rewrite (span_unique _ fn (" "%char :: lib ++ nl :: rest)); [|assumption|reflexivity].
  change (" "%char :: lib ++ nl :: rest) with ((" "%char :: lib) ++ nl :: rest).
  rewrite (span_unique _ (" "%char :: lib) (nl :: rest)); [|now constructor|reflexivity].
  destruct (head_ne fn " "%char (lib ++ nl :: rest)) as (x & y & E). cbn [app]. rewrite E. reflexivity.
Qed.
Lemma normalize_ok k : forall text, length text <= k -> exists frames, normalize_frames k text = Ok frames /\ listing text frames.
Proof.
  induction k as [|k IH]; intros text H.
  { destruct text; [|cbn in H; lia]. exists []. split; [reflexivity|constructor]. }
  destruct (span (fun c => negb (Ascii.eqb c " ")) text) as [fn r] eqn:E. apply span_iff in E as (E & F & M). apply not_in_negb in F.
  destruct r as [|c r].
  - rewrite app_nil_r in E. subst fn. destruct text as [|x t]; [exists []; split; [reflexivity|constructor]|].
    eexists. split; [apply normalize_bare; [discriminate|assumption]|]. apply listing_bare; [discriminate|assumption|now apply named_frame_iff].
  - destruct (Ascii.eqb_spec c " ") as [->|]; [|discriminate].
    destruct (span (fun c => negb (Ascii.eqb c nl)) r) as [lib r2] eqn:E2. apply span_iff in E2 as (E2 & F2 & M2). apply not_in_negb in F2.
    destruct r2 as [|c r2].
    + rewrite app_nil_r in E2. subst. eexists. split; [apply normalize_last; assumption|].
      apply (listing_last fn lib); [assumption|assumption|now apply named_frame_iff].
    + destruct (Ascii.eqb_spec c nl) as [->|]; [|discriminate]. subst.
      destruct (IH r2) as (fs & R1 & R2). { rewrite !app_length in H. cbn [length] in H. rewrite app_length in H. cbn [length] in H. lia. }
      eexists. split; [rewrite normalize_line by assumption; rewrite R1; reflexivity|].
      apply (listing_line fn lib _ r2); [assumption|assumption|now apply named_frame_iff|assumption].
Qed.
Lemma listing_normalize text frames : listing text frames -> forall k, length text <= k -> normalize_frames k text = Ok frames.
Proof.
  induction 1 as [|fn f N NI NF|fn lib f NI NL NF|fn lib f rest fs NI NL NF Li IH]; intros k Hk; try apply named_frame_iff in NF; subst.
  - destruct k; reflexivity.
  - destruct k; [destruct fn; [congruence|cbn in Hk; lia]|]. now apply normalize_bare.
  - destruct k; [rewrite app_length in Hk; cbn in Hk; lia|]. now apply normalize_last.
  - cbn [app L] in *. cbn in Hk |- *. rewrite app_length in Hk. cbn [length] in Hk. rewrite app_length in Hk. cbn [length] in Hk.
    destruct k; [lia|]. rewrite normalize_line by assumption. rewrite IH by lia. reflexivity.
Qed.
Lemma listing_unique text a b : listing text a -> listing text b -> a = b.
Proof. intros H K. assert (X := listing_normalize _ _ H _ (le_n _)). rewrite (listing_normalize _ _ K _ (le_n _)) in X. congruence. Qed.
Lemma listing_total text : exists frames, listing text frames.
Proof. destruct (normalize_ok (length text) text (le_n _)) as (f & _ & H). eauto. Qed.
Lemma listing_proper l : Forall proper l -> listing (file_of_names l) (map (fun p => the_frame (fst p) (L " " ++ snd p)) l).
Proof.
  unfold file_of_names. induction 1 as [|[a b] l (H1 & H2 & H3) F IH]; cbn [map concat]; [constructor|]. cbn [fst snd] in *.
  unfold line. replace (((a ++ L " " ++ b) ++ [nl]) ++ concat (map (fun p => (fst p ++ L " " ++ snd p) ++ [nl]) l))
    with (a ++ L " " ++ b ++ [nl] ++ concat (map (fun p => (fst p ++ L " " ++ snd p) ++ [nl]) l)) by now rewrite <- !app_assoc.
  apply listing_line; [assumption|assumption|now apply named_frame_iff|exact IH].
Qed.

(** ** Numbers *)
Lemma to_int_iff v z : to_int v = z <-> becomes_int v z.
Proof.
  unfold to_int, becomes_int. assert (D := Z.div_mod (Z.of_N v) 4294967296 ltac:(lia)). assert (B := Z.mod_pos_bound (Z.of_N v) 4294967296 ltac:(lia)).
  set (w := (Z.of_N v mod 4294967296)%Z) in *. set (q := (Z.of_N v / 4294967296)%Z) in *. split.
  - intros <-. destruct (Z.ltb_spec w 2147483648); (split; [lia|]); [exists q|exists (q + 1)%Z]; lia.
  - intros [R [k K]]. destruct (Z.ltb_spec w 2147483648); lia.
Qed.
Lemma two64 : (u64max + 1)%N = 18446744073709551616%N. Proof. reflexivity. Qed.
Lemma strtoul_end_iff text v : strtoul_end text = (v, []) <-> argument text v.
Proof.
  unfold strtoul_end, strtoul10. split.
  - destruct (span is_space text) as [blank s] eqn:E. apply span_spec in E as (-> & Hb & Hs). cbn [snd].
    set (sg := match s with c :: r => if Ascii.eqb c "-" then (true, r) else if Ascii.eqb c "+" then (false, r) else (false, s) | [] => (false, s) end).
    assert (G : exists sign, (fst sg = false /\ (sign = [] \/ sign = L "+") \/ fst sg = true /\ sign = L "-") /\ s = sign ++ snd sg).
    { subst sg. destruct s as [|c s]; [exists []; auto|]. destruct (Ascii.eqb_spec c "-") as [->|N1]; [exists (L "-"); auto|].
      destruct (Ascii.eqb_spec c "+") as [->|N2]; [exists (L "+"); auto|exists []; auto]. }
    destruct G as (sign & Hsign & Es). destruct sg as [neg t]. cbn [fst snd] in *.
    destruct (span is_digit t) as [d rest] eqn:E. apply span_spec in E as (-> & Hd & Hr).
    destruct d as [|c d].
    { intros H. injection H as <- H. left. split; [assumption|reflexivity]. }
    unfold strtou. fold (horner 10 (c :: d)). intros H. right. exists blank, sign, (c :: d), (horner 10 (c :: d)).
    assert (Hdec : decimal (c :: d) (horner 10 (c :: d))) by (apply horner_decimal; [discriminate|assumption]).
    assert (Hbl : Forall space_char blank). { eapply Forall_impl; [|exact Hb]. intros x. apply is_space_iff. }
    destruct (N.ltb_spec u64max (horner 10 (c :: d))) as [O|O]; injection H as <- ->; rewrite app_nil_r in Es; subst s;
      (split; [reflexivity|]); (split; [assumption|]); (split; [exact Hdec|]); unfold u64max in *.
    + split; [lia|]. left. split; [lia|]. split; [|reflexivity]. destruct Hsign as [[_ [?|?]]|[_ ?]]; tauto.
    + assert (B : (horner 10 (c :: d) < 18446744073709551616)%N) by lia. revert B. generalize (horner 10 (c :: d)). intros n B.
      destruct Hsign as [[-> Hsign]|[-> ->]].
      * split; [exact B|]. right. split; [exact B|]. left. auto.
      * change (18446744073709551615 + 1)%N with 18446744073709551616%N.
        assert (D := N.div_mod (18446744073709551616 - n) 18446744073709551616 ltac:(lia)).
        assert (R := N.mod_lt (18446744073709551616 - n) 18446744073709551616 ltac:(lia)).
        set (w := ((18446744073709551616 - n) mod 18446744073709551616)%N) in *. set (q := ((18446744073709551616 - n) / 18446744073709551616)%N) in *.
        split; [exact R|]. right. split; [exact B|]. right. split; [reflexivity|].
        destruct (N.eq_dec n 0) as [->|Z0]; [exists 0%N|exists 1%N].
        -- assert (q = 1)%N by nia. lia.
        -- assert (q = 0)%N by nia. lia.
  - intros [[-> ->]|(blank & sign & digits & n & -> & Hb & Hd & Hv & C)]; [reflexivity|].
    destruct (decimal_digits _ _ Hd) as [Hne Hdig].
    assert (Hs : sign = [] \/ sign = L "+" \/ sign = L "-") by tauto.
    destruct (sign_split blank sign digits [] Hb Hs Hne Hdig ltac:(discriminate)) as (E1 & E2 & E3). rewrite !app_nil_r in *.
    rewrite E1, E2, E3. destruct digits as [|c digits]; [congruence|].
    apply decimal_horner in Hd. unfold strtou. fold (horner 10 (c :: digits)). rewrite <- Hd. unfold u64max.
    destruct (N.ltb_spec 18446744073709551615 n) as [O|O].
    + destruct C as [(A & _ & ->)|[A _]]; [reflexivity|lia].
    + destruct C as [[A _]|(A & C)]; [lia|]. destruct C as [[Hs' ->]|(-> & k & K)].
      * destruct Hs' as [-> | ->]; reflexivity.
      * change (str_eqb (L "-") (L "-")) with true. cbv iota. f_equal.
        change (18446744073709551615 + 1)%N with 18446744073709551616%N.
        assert (D := N.div_mod (18446744073709551616 - n) 18446744073709551616 ltac:(lia)).
        assert (R := N.mod_lt (18446744073709551616 - n) 18446744073709551616 ltac:(lia)).
        set (w := ((18446744073709551616 - n) mod 18446744073709551616)%N) in *. set (q := ((18446744073709551616 - n) / 18446744073709551616)%N) in *.
        assert (k = 0 \/ k = 1)%N as [->| ->] by nia; nia.
Qed.
Lemma strtoul_end_bad text : (forall v, ~ argument text v) -> snd (strtoul_end text) <> [].
Proof. intros H K. destruct (strtoul_end text) as [v r] eqn:E. cbn in K. subst. now apply (H v), strtoul_end_iff. Qed.
Lemma argument_unique text v w : argument text v -> argument text w -> v = w.
Proof. rewrite <- !strtoul_end_iff. congruence. Qed.
Lemma int_unique v y z : becomes_int v y -> becomes_int v z -> y = z.
Proof. rewrite <- !to_int_iff. congruence. Qed.
