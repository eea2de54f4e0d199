(** * Proofs about the Java locations: frames and lines. *)
From Verif Require Import Base Types UtilsSpec UtilsModel UtilsProofs RpmSpec RpmProofs ParseSpec ParseModel ParseProofs RubyParseProofs JsParseProofs PyParseSpec PyParseProofs JavaParseModel JavaParseSpec JavaParseProofs JavaParseProofs2 LocParseModel LocParseSpec LocParseProofs JavaLocModel JavaLocSpec JavaLocProofs JavaLocProofs2.
Open Scope nat_scope.

Definition at_ (text s : str) (l : location) : Prop := exists p, text = p ++ s /\ counted text p (line l) (column l).
Definition at_b (text s : str) (l : location) : Prop := exists p, text = p ++ s /\ counted text p (line l) (column l) /\ before_blanks p.
Lemma at_b_at text s l : at_b text s l -> at_ text s l.
Proof. intros (p & E & C & _). exists p. auto. Qed.
Lemma counted_line text u : forall p ln col, counted text p ln col -> ~ In nl u -> counted text (p ++ u) ln (col + Z.of_nat (length u)).
Proof.
  induction u as [|c u IH] using rev_ind; intros p ln col H Hn.
  - rewrite app_nil_r. cbn. rewrite Z.add_0_r. exact H.
  - rewrite in_app_iff in Hn. rewrite app_assoc, app_length. cbn [length]. replace (col + Z.of_nat (length u + 1))%Z with (col + Z.of_nat (length u) + 1)%Z by lia.
    apply ct_char; [apply IH; tauto|]. intros ->. apply Hn. right. left. reflexivity.
Qed.
Lemma counted_eat text u : forall p lc, counted text p (fst lc) (snd lc) -> counted text (p ++ u) (fst (eat_all lc u)) (snd (eat_all lc u)).
Proof.
  induction u as [|c u IH] using rev_ind; intros p lc H.
  - rewrite app_nil_r. exact H.
  - rewrite app_assoc, eat_all_app. specialize (IH _ _ H). destruct (eat_all lc u) as [ln col]. cbn [fst snd] in IH. change (eat_all (ln, col) [c]) with (loc_eat_char (ln, col) c).
    unfold loc_eat_char. destruct (Ascii.eqb_spec c nl) as [->|Hc]; cbn [fst snd]; [apply (ct_newline _ _ _ _ IH)|apply ct_char; assumption].
Qed.
Lemma counted_blank text ws : forall p ln col, counted text p ln col -> before_blanks p -> blank ws -> counted text (p ++ ws) ln (col + Z.of_nat (length ws)) /\ (ws = [] \/ before_blanks (p ++ ws)).
Proof.
  induction ws as [|c ws IH] using rev_ind; intros p ln col H Hp Hb.
  - rewrite app_nil_r. cbn. rewrite Z.add_0_r. auto.
  - apply Forall_app in Hb as [Hb Hc]. inversion Hc as [|? ? Hc' _]; subst. destruct (IH _ _ _ H Hp Hb) as [C B]. rewrite app_assoc, app_length. cbn [length].
    replace (col + Z.of_nat (length ws + 1))%Z with (col + Z.of_nat (length ws) + 1)%Z by lia. split.
    + destruct (ascii_dec c nl) as [->|Hn]; [|apply ct_char; assumption]. apply ct_blank; [exact C|]. destruct B as [->|B]; [rewrite app_nil_r; exact Hp|exact B].
    + right. right. right. right. right. exists c. split; [exact Hc'|]. exists (p ++ ws). reflexivity.
Qed.
Lemma at_track text s l s' l' : at_ text s l -> ontrack s l s' l' -> at_ text s' l'.
Proof.
  intros (p & -> & C) (u & -> & Hu & ->). exists (p ++ u). split; [rewrite <- app_assoc; reflexivity|]. rewrite columns_eq. cbn [line column]. apply counted_line; assumption.
Qed.
Lemma white_at text s l : at_b text s l -> exists r l', white s l = (r, l') /\ past_blanks s r /\ at_ text r l' /\ message l' = message l.
Proof.
  intros (p & E & C & B). unfold white. destruct (past_blanks_total s) as [r Hr]. pose proof (proj1 (past_blanks_eval s r) Hr) as Er. rewrite Er. exists r, (columns l (length s - length r)). split; [reflexivity|]. split; [exact Hr|].
  split; [|reflexivity]. destruct Hr as (ws & -> & Hb & _). exists (p ++ ws). split; [rewrite <- app_assoc; exact E|]. rewrite columns_eq, app_length. cbn [line column].
  replace (length ws + length r - length r) with (length ws) by lia. apply (counted_blank text ws p _ _ C B Hb).
Qed.
Lemma columns_message l n : message (columns l n) = message l. Proof. reflexivity. Qed.
Lemma track_message s l s' l' : ontrack s l s' l' -> message l' = message l.
Proof. intros (u & _ & _ & ->). reflexivity. Qed.
Lemma newline_at text r l : at_ text (nl :: r) l -> at_b text r (sr_location_add l 2 0).
Proof.
  intros (p & E & C). exists (p ++ [nl]). split; [rewrite <- app_assoc; exact E|]. split.
  - unfold sr_location_add. cbn. apply (ct_newline _ _ _ _ C).
  - right. right. right. right. exists nl. split; [unfold space_char; cbn; auto 10|exists p; reflexivity].
Qed.
Lemma add_two l a b : sr_location_add l a (b + 2) = columns (sr_location_add l a b) 2.
Proof. unfold sr_location_add, loc_add. cbn [fst snd]. rewrite columns_eq. destruct (1 <? a)%Z; cbn; f_equal; lia. Qed.
Lemma source_track c l : tracked c l
  (and_then (if Ascii.eqb (cur c) "(" then
         past c l (fun cursor l =>
         let mark := cursor in
         let '(cursor, l) := until (L ":)" ++ [nl]) cursor l in
         let '(is_native, file_name) :=
           if length mark =? length cursor then (false, None)
           else if is_native_method mark then (true, None)
           else if negb (is_unknown_source mark) then (false, anonymize_path (Some (between mark cursor)))
           else (false, None) in
         if Ascii.eqb (cur cursor) ":" then
           past cursor l (fun cursor l =>
           match sr_parse_uint32 cursor with
           | Some (file_line, _, after) => Took (is_native, file_name, Z.of_N file_line, after) (columns l (length cursor - length after))
           | None => Took (is_native, file_name, 0%Z, cursor) (columns l 0)
           end)
         else Took (is_native, file_name, 0%Z, cursor) l)
       else Took (false, None, 0%Z, c) l) (fun '(is_native, file_name, file_line, cursor) l => Took ((is_native, file_name, file_line) : bool * option str * Z, cursor) l)).
Proof.
  destruct (Ascii.eqb (cur c) "(") eqn:B; cbn [and_then]; [|apply ontrack_refl]. apply cur_cons in B as [r ->]; [|discriminate]. rewrite past_eq. cbv beta zeta.
  assert (T0 := char_track "(" r l ltac:(discriminate)). take_until c1 l1. assert (T1 := ontrack_trans _ _ _ _ _ _ T0 T). destruct (if length r =? _ then _ else _) as [nat file].
  destruct (Ascii.eqb (cur c1) ":") eqn:B; cbn [and_then]; [|exact T1]. apply cur_cons in B as [r2 ->]; [|discriminate]. rewrite past_eq. cbv beta zeta.
  assert (T2 := ontrack_trans _ _ _ _ _ _ T1 (char_track ":" r2 l1 ltac:(discriminate))). destruct (sr_parse_uint32 r2) as [[[n k] q]|] eqn:U; cbn [and_then].
  - apply uint32_iff in U as (ds & -> & (Hd & _) & _). apply (ontrack_trans _ _ _ _ _ _ T2). exists ds. split; [reflexivity|]. split.
    + intros Hi. apply numeral_run in Hd as [Hd _]. rewrite Forall_forall in Hd. exact (Hd _ Hi eq_refl).
    + rewrite app_length. f_equal. lia.
  - rewrite columns_0. exact T2.
Qed.
Lemma frame_place text s l : at_ text s l -> match java_frame_loc s l with
  | Took (_, rest) l' => message l' = message l /\ (at_b text rest l' \/ (rest = [] /\ at_ text [] (right l' 1)))
  | Refused l' => l' = says l (L "Frame expected") /\ forall r, ~ first_at (L "at") s r
  | Broken => True
  end.
Proof.
  intros (p & Et & C). unfold java_frame_loc. pose proof (strstr_location_correct s (L "at")) as H. destruct (sr_strstr_location s (L "at")) as [[post [a b]]| |].
  2:{ split; [reflexivity|]. intros r (x & -> & [y ->] & _). exact (H _ _ eq_refl). }
  2:{ destruct H. }
  destruct H as (pre & (Es & [r ->] & _) & Hpos). apply pos_of_eat_all in Hpos. rewrite (advance_by_app (L "at") r : advance_by 2 (L "at" ++ r) = Ok r). cbn [see].
  assert (A : at_b text r (sr_location_add l a (b + 2))).
  { exists (p ++ pre ++ L "at"). split; [rewrite Et, Es, <- !app_assoc; reflexivity|]. split; [|right; left; exists (p ++ pre); apply app_assoc].
    rewrite add_two, columns_eq, app_assoc. cbn [line column]. change 2 with (length (L "at")). apply counted_line; [|cbn; intros [E|[E|[]]]; discriminate].
    pose proof (counted_eat text pre p (line l, column l) C) as G. rewrite eat_all_add, Hpos in G. unfold sr_location_add. destruct (loc_add (line l, column l) (a, b)). exact G. }
  assert (Em : message (sr_location_add l a (b + 2)) = message l) by (unfold sr_location_add; destruct (loc_add _ _); reflexivity).
  destruct (white_at _ _ _ A) as (q & l1 & Ew & _ & A1 & M1). rewrite Ew. cbn beta iota zeta. rewrite <- Em, <- M1. clear - A1. take_until c l2. clear E St Eu Wu u.
  pose proof (source_track c l2) as Hs. destruct (if Ascii.eqb (cur c) "(" then _ else _) as [[[[nat file] fl] c3] l3|l3|]; cbn [and_then tracked] in *; [|destruct Hs|exact Logic.I].
  assert (T3 := ontrack_trans _ _ _ _ _ _ T Hs). pose proof (url_track c3 l3) as Hu. destruct (java_url_loc c3 l3) as [[path m] l4|l4|]; cbn [and_then tracked] in *; [|destruct Hu|exact Logic.I].
  assert (T4 := ontrack_trans _ _ _ _ _ _ T3 Hu). rewrite <- (track_message _ _ _ _ T4). apply (at_track _ _ _ _ _ A1) in T4. clear - T4.
  destruct (strchrnul m nl) as [x y] eqn:E. apply strchrnul_spec in E as (-> & Hx & Hy). destruct y as [|z y].
  - cbn [cur Ascii.eqb]. change (Ascii.eqb nul nl) with false. cbv iota. split; [reflexivity|]. right. split; [reflexivity|]. rewrite app_nil_r in *. destruct T4 as (p & -> & C). exists (p ++ x). split; [rewrite app_nil_r; reflexivity|].
    unfold right, sr_location_add. cbn [loc_add fst snd line column Z.ltb Z.compare]. cbn [length]. replace (column l4 + (Z.of_nat (length x - 0) - 1) + 1)%Z with (column l4 + Z.of_nat (length x))%Z by lia. apply counted_line; assumption.
  - subst z. change (Ascii.eqb (cur (nl :: y)) nl) with true. cbn [advance see]. split; [reflexivity|]. left.
    assert (T5 : at_ text (nl :: y) (columns l4 (length x))). { apply (at_track _ _ _ _ _ T4). exists x. auto. }
    apply newline_at in T5. exact T5.
Qed.
(** ** The lines *)
Definition near (text s : str) (l : location) : Prop := at_ text s l \/ (s = [] /\ at_ text [] (right l 1)).
Definition ok_at (text s : str) (l : location) : Prop := at_b text s l \/ (s = [] /\ near text [] l).
Lemma ok_near text s l : ok_at text s l -> near text s l.
Proof. intros [H|[-> H]]; [left; apply at_b_at; exact H|exact H]. Qed.
Lemma lines_place text fuel : forall s l, ok_at text s l -> match java_lines_loc fuel s l with
  | Took (_, how, s') l' => near text s' l'
  | Refused l' => exists fs q suf, java_run s fs q /\ q <> [] /\ past_blanks q suf /\ ~ begins (L "... ") suf /\ ~ begins (L "Suppressed: ") suf /\ ~ begins (L "Caused by: ") suf /\
      (forall r, ~ first_at (L "at") suf r) /\ at_ text suf l' /\ message l' = Some (L "Frame expected")
  | Broken => True
  end.
Proof.
  induction fuel as [|fuel IH]; intros s l H; [exact Logic.I|]. cbn [java_lines_loc]. destruct s as [|c s]; [apply ok_near; exact H|]. destruct H as [H|[H _]]; [|discriminate]. cbn [at_end].
  destruct (white_at _ _ _ H) as (r & l1 & Ew & Hb & A & M). rewrite Ew. cbv beta iota.
  destruct (starts_with (L "... ") r) eqn:B1; [left; exact A|]. destruct (starts_with (L "Suppressed: ") r) eqn:B2; [left; exact A|]. destruct (starts_with (L "Caused by: ") r) eqn:B3; [left; exact A|].
  assert (N1 : ~ begins (L "... ") r) by (intros X; apply starts_true in X; congruence). assert (N2 : ~ begins (L "Suppressed: ") r) by (intros X; apply starts_true in X; congruence).
  assert (N3 : ~ begins (L "Caused by: ") r) by (intros X; apply starts_true in X; congruence).
  pose proof (frame_place text r l1 A) as F. pose proof (forget_java_frame r l1) as Ff. destruct (java_frame_loc r l1) as [[f q] l2|l2|]; cbn [and_then]; [|destruct F as [-> F]|exact Logic.I].
  - symmetry in Ff. apply java_frame_iff in Ff. assert (O : ok_at text q l2) by (destruct F as [_ [F|[-> F]]]; [left; assumption|right; split; [reflexivity|right; split; [reflexivity|exact F]]]). specialize (IH q l2 O).
    destruct (java_lines_loc fuel q l2) as [[[fs how] s'] l3|l3|]; cbn [and_then]; [exact IH| |exact Logic.I].
    destruct IH as (fs & q2 & suf & R & Rest). exists (f :: fs), q2, suf. split; [|exact Rest]. apply (jr_cons _ r _ q); auto. discriminate.
  - exists [], (c :: s), r. split; [constructor|]. split; [discriminate|]. repeat split; assumption.
Qed.
