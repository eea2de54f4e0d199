(** * Proofs about the Java exception parser. *)
From Verif Require Import Base Types UtilsSpec UtilsModel UtilsProofs RpmSpec RpmProofs RpmProofs4 LookupProofs JsonModel TextModel ParseSpec ParseModel ParseProofs RubyParseProofs JsParseProofs PyParseSpec PyParseProofs JavaParseModel JavaParseSpec.
Open Scope nat_scope.

(** ** Pieces *)

Lemma split_at c (s : str) : ~ In c s \/ exists a b, s = a ++ c :: b /\ ~ In c a.
Proof.
  destruct (in_dec ascii_dec c s) as [H|H]; [right|left; exact H]. induction s as [|x s IH]; [destruct H|]. destruct (ascii_dec x c) as [->|Hx]; [exists [], s; auto|].
  destruct H as [H|H]; [contradiction|]. destruct (IH H) as (a & b & -> & Ha). exists (x :: a), b. split; [reflexivity|]. intros [E|E]; contradiction.
Qed.
Lemma in_app_not {A} (x : A) a b : ~ In x (a ++ b) <-> ~ In x a /\ ~ In x b.
Proof. rewrite in_app_iff. tauto. Qed.
Lemma in_cons_not {A} (x y : A) a : ~ In x (y :: a) <-> y <> x /\ ~ In x a.
Proof. cbn. tauto. Qed.
Lemma without_two c d s : without [c; d] s <-> ~ In c s /\ ~ In d s.
Proof.
  unfold without. rewrite Forall_forall. split.
  - intros H. split; intros Hi; apply (H _ Hi); cbn; auto.
  - intros [H1 H2] x Hx [->|[->|[]]]; contradiction.
Qed.
Lemma between_app t q : between (t ++ q) q = t.
Proof. unfold between. rewrite app_length. replace (length t + length q - length q) with (length t) by lia. apply firstn_app_exact. Qed.
Lemma same_length (t q : str) : (length (t ++ q) =? length q) = match t with [] => true | _ => false end.
Proof. destruct t; [apply Nat.eqb_refl|]. cbn [app length]. rewrite app_length. apply Nat.eqb_neq. lia. Qed.
Lemma same_length' (t q : str) : (length q =? length (t ++ q)) = match t with [] => true | _ => false end.
Proof. rewrite Nat.eqb_sym. apply same_length. Qed.
Lemma advance_by_app p s : advance_by (length p) (p ++ s) = Ok s.
Proof. unfold advance_by. rewrite app_length, skipn_app_exact. destruct (Nat.ltb_spec (length p + length s) (length p)); [lia|reflexivity]. Qed.
Lemma scheme_prefix p scheme r : ~ In ":"%char p -> ~ In ":"%char scheme -> starts_with (p ++ L ":") (scheme ++ ":"%char :: r) = true <-> scheme = p.
Proof.
  intros Hp Hs. rewrite starts_with_iff. split.
  - intros [q E]. rewrite <- app_assoc in E. apply app_at_unique in E as [-> _]; auto.
  - intros ->. exists r. rewrite <- app_assoc. reflexivity.
Qed.
Lemma scheme_false p scheme r : ~ In ":"%char p -> ~ In ":"%char scheme -> scheme <> p -> starts_with (p ++ L ":") (scheme ++ ":"%char :: r) = false.
Proof. intros Hp Hs H. destruct (starts_with _ _) eqn:E; [|reflexivity]. apply scheme_prefix in E; auto. contradiction. Qed.
Lemma cur_tail c tail : stops_at [nl] tail -> c <> nl -> c <> nul -> Ascii.eqb (cur tail) c = false.
Proof. intros Ht H1 H2. apply Ascii.eqb_neq. destruct tail as [|x tail]; [cbn; congruence|]. destruct Ht as [<-|[]]. cbn. congruence. Qed.
Lemma skip_to c a tail : ~ In c a -> ~ In nl a -> stops_at [nl] tail -> sr_skip_char_cspan ([c; nl]) (a ++ tail) = (length a, tail).
Proof. intros Hc Hn Ht. apply skip_cspan_val; [apply without_two; auto|]. destruct tail as [|x tail]; [exact Logic.I|]. destruct Ht as [<-|[]]. right. left. reflexivity. Qed.
Lemma skip_to_char c a b : ~ In c a -> ~ In nl a -> sr_skip_char_cspan ([c; nl]) (a ++ c :: b) = (length a, c :: b).
Proof. intros Hc Hn. apply skip_cspan_val; [apply without_two; auto|]. left. reflexivity. Qed.
(** The rest of a line *)
Definition on_line (tail cursor : str) : Prop := exists y, cursor = y ++ tail /\ ~ In nl y.
Lemma path_eval stop scheme s path tail : java_path stop scheme s path -> ~ In ":"%char scheme -> ~ In nl scheme -> ~ In nl s -> stops_at [nl] tail -> stop <> nl ->
  exists cursor, (do (mark, cursor) <- (if negb (starts_with (L "file:") (scheme ++ ":"%char :: s ++ tail)) then Ok (scheme ++ ":"%char :: s ++ tail, scheme ++ ":"%char :: s ++ tail)
                                     else do cursor <- advance (":"%char :: s ++ tail); Ok (cursor, cursor));
               let '(_, cursor) := sr_skip_char_cspan ([stop; nl]) cursor in
               Ok (@inr str _ (if length mark =? length cursor then None else anonymize_path (Some (between mark cursor)), cursor))) = Ok (inr (path, cursor)) /\ on_line tail cursor.
Proof.
  intros (text & r & E & Hst & Hr & Hp) Hc Hns Hn Ht Hstop.
  assert (Hgo : forall whole, whole = text ++ r -> ~ In nl whole -> exists cursor, (let '(_, cursor) := sr_skip_char_cspan ([stop; nl]) (whole ++ tail) in
               Ok (@inr str _ (if length (whole ++ tail) =? length cursor then None else anonymize_path (Some (between (whole ++ tail) cursor)), cursor))) = Ok (inr (path, cursor)) /\ on_line tail cursor).
  { intros whole -> Hw. apply in_app_not in Hw as [Hw1 Hw2]. exists (r ++ tail). split; [|exists r; auto]. rewrite <- app_assoc.
    assert (Es : sr_skip_char_cspan ([stop; nl]) (text ++ r ++ tail) = (length text, r ++ tail)).
    { apply skip_cspan_val; [apply without_two; auto|]. destruct r as [|x r]; [destruct tail as [|x tail]; [exact Logic.I|]; destruct Ht as [<-|[]]; right; left; reflexivity|]. destruct Hr as [<-|[]]. left. reflexivity. }
    rewrite Es, same_length, between_app. destruct text as [|x text]; [rewrite Hp; reflexivity|]. destruct Hp as (shown & Ha & ->). apply anonymize_iff in Ha. rewrite Ha. reflexivity. }
  destruct E as [[-> E]|[Hf E]].
  - assert (Eb : starts_with (L "file:") (L "file" ++ ":"%char :: s ++ tail) = true) by (apply starts_with_iff; eexists; reflexivity). rewrite Eb. cbn [negb advance bind]. exact (Hgo s E Hn).
  - change (L "file:") with (L "file" ++ L ":"). rewrite scheme_false; [|cbn; intuition discriminate|exact Hc|exact Hf]. cbn [negb bind].
    specialize (Hgo (scheme ++ ":"%char :: s) E). rewrite <- app_assoc in Hgo. apply Hgo. apply in_app_not. split; [exact Hns|]. apply in_cons_not. split; [discriminate|exact Hn].
Qed.
Lemma url_eval line path tail : java_url line path -> ~ In nl line -> stops_at [nl] tail -> exists cursor, sr_java_frame_parse_frame_url (line ++ tail) = Ok (path, cursor) /\ on_line tail cursor.
Proof.
  unfold sr_java_frame_parse_frame_url. change (L "[" ++ [nl]) with (["["%char; nl]). change (L ":" ++ [nl]) with ([":"%char; nl]). change (L "!" ++ [nl]) with (["!"%char; nl]). change (L "]" ++ [nl]) with (["]"%char; nl]).
  intros [[H ->]|(a & b & -> & Ha & H)] Hn Ht.
  { rewrite skip_to by auto. rewrite cur_tail by (auto; discriminate). exists tail. split; [reflexivity|]. exists []. auto. }
  apply in_app_not in Hn as [Hna Hn]. apply in_cons_not in Hn as [_ Hn]. rewrite <- app_assoc. cbn [app]. rewrite skip_to_char by auto. change (negb (Ascii.eqb (cur ("["%char :: b ++ tail)) "[")) with false. cbv iota. cbn [advance bind].
  assert (Hend : forall path cursor, on_line tail cursor -> exists cursor', (if negb (Ascii.eqb (cur cursor) "]") && negb (Ascii.eqb (cur cursor) nl) then Ok (path, snd (sr_skip_char_cspan (["]"%char; nl]) cursor)) else Ok (path, cursor)) = Ok (path : option str, cursor') /\ on_line tail cursor').
  { intros p cursor (y & -> & Hy). destruct (_ && _); [|exists (y ++ tail); split; [reflexivity|exists y; auto]]. destruct (split_at "]" y) as [Hs|(y1 & y2 & -> & Hs)].
    - rewrite skip_to by auto. eexists. split; [reflexivity|]. exists []. auto.
    - apply in_app_not in Hy as [Hy1 Hy2]. rewrite <- app_assoc. cbn [app]. rewrite skip_to_char by auto. eexists. split; [reflexivity|]. exists ("]"%char :: y2). auto. }
  destruct H as [[H ->]|(scheme & r & -> & Hs & H)].
  { rewrite skip_to by auto. rewrite cur_tail by (auto; discriminate). cbn [bind]. apply Hend. exists []. auto. }
  apply in_app_not in Hn as [Hns Hn]. apply in_cons_not in Hn as [_ Hn]. rewrite <- app_assoc. cbn [app]. rewrite skip_to_char by auto. change (Ascii.eqb (cur (":"%char :: r ++ tail)) ":") with true. cbv iota.
  destruct H as [[-> H]|[Hj H]].
  - assert (Eb : starts_with (L "jar:") (L "jar" ++ ":"%char :: r ++ tail) = true) by (apply starts_with_iff; eexists; reflexivity). rewrite Eb. cbn [advance bind]. destruct H as [[H ->]|(scheme & r' & -> & Hs' & H)].
    + rewrite skip_to by auto. rewrite cur_tail by (auto; discriminate). cbn [negb bind]. exists tail. split; [reflexivity|]. exists []. auto.
    + apply in_app_not in Hn as [Hns' Hn]. apply in_cons_not in Hn as [_ Hn]. rewrite <- app_assoc. cbn [app]. rewrite skip_to_char by auto. change (Ascii.eqb (cur (":"%char :: r' ++ tail)) ":") with true. cbn [negb bind].
      destruct (path_eval "!" _ _ _ tail H Hs' Hns' Hn Ht) as (cursor & -> & Hc); [discriminate|]. cbn [bind]. apply Hend. exact Hc.
  - change (L "jar:") with (L "jar" ++ L ":"). rewrite scheme_false; [|cbn; intuition discriminate|exact Hs|exact Hj]. cbn [bind].
    destruct (path_eval "]" _ _ _ tail H Hs Hns Hn Ht) as (cursor & -> & Hc); [discriminate|]. cbn [bind]. apply Hend. exact Hc.
Qed.
Lemma split_stop c (s : str) : exists a b, s = a ++ b /\ ~ In c a /\ stops_at [c] b.
Proof. destruct (split_at c s) as [H|(a & b & -> & H)]; [exists s, []; rewrite app_nil_r; repeat split; auto|exists a, (c :: b); repeat split; auto; left; reflexivity]. Qed.
Lemma str_dec (a b : str) : a = b \/ a <> b.
Proof. destruct (list_eq_dec ascii_dec a b); auto. Qed.
Lemma path_total stop scheme s : exists path, java_path stop scheme s path.
Proof.
  assert (Hgo : forall whole, exists text r path, whole = text ++ r /\ ~ In stop text /\ stops_at [stop] r /\ match text with [] => path = None | _ => exists shown, anonymized text shown /\ path = Some shown end).
  { intros whole. destruct (split_stop stop whole) as (text & r & -> & H1 & H2). exists text, r. destruct text as [|x text]; [exists None; auto|]. destruct (anonymized_ok (x :: text)) as (shown & _ & Ha). exists (Some shown). repeat (split; [auto|]). eauto. }
  destruct (str_dec scheme (L "file")) as [E|E].
  - destruct (Hgo s) as (text & r & path & H1 & H2 & H3 & H4). exists path, text, r. auto.
  - destruct (Hgo (scheme ++ ":"%char :: s)) as (text & r & path & H1 & H2 & H3 & H4). exists path, text, r. auto.
Qed.
Lemma url_total line : exists path, java_url line path.
Proof.
  destruct (split_at "[" line) as [H|(a & b & -> & H)]; [exists None; left; auto|]. assert (exists path, java_place b path) as [path Hp]; [|exists path; right; eauto].
  destruct (split_at ":" b) as [Hc|(scheme & r & -> & Hc)]; [exists None; left; auto|]. destruct (str_dec scheme (L "jar")) as [E|E].
  - destruct (split_at ":" r) as [Hr|(scheme' & r' & -> & Hr)]; [exists None; right; exists scheme, r; repeat split; auto; left; split; auto; left; auto|].
    destruct (path_total "!" scheme' r') as [path Hp]. exists path. right. eexists. eexists. repeat split; [exact Hc|]. left. split; [exact E|]. right. exists scheme', r'. auto.
  - destruct (path_total "]" scheme r) as [path Hp]. exists path. right. exists scheme, r. auto.
Qed.
(** ** A frame *)

Lemma begins_app_short p s t : begins p s -> begins p (s ++ t).
Proof. intros [r ->]. exists (r ++ t). apply app_assoc_reverse. Qed.
(** A prefix that has none of the stop characters is found in the text before the stop. *)
Lemma begins_stop set p s q : without set p -> stops_at set q -> begins p (s ++ q) -> begins p s.
Proof.
  intros Hp Hq [r E]. revert p r Hp E. induction s as [|x s IH]; intros [|y p] r Hp E; try (eexists; reflexivity).
  - exfalso. cbn [app] in E. subst q. cbn in Hq. inversion Hp. contradiction.
  - cbn [app] in E. injection E as -> E. inversion Hp as [|? ? _ Hp']; subst. destruct (IH p r Hp' E) as [z ->]. exists z. reflexivity.
Qed.
Lemma starts_stop set p s q : without set p -> stops_at set q -> starts_with p (s ++ q) = starts_with p s.
Proof.
  intros Hp Hq. destruct (starts_with p s) eqn:E.
  - apply starts_with_iff. apply begins_app_short. apply starts_with_iff. exact E.
  - destruct (starts_with p (s ++ q)) eqn:E'; [|reflexivity]. apply starts_with_iff in E'. apply (begins_stop set) in E'; auto. apply starts_with_iff in E'. congruence.
Qed.
Lemma starts_true p s : begins p s -> starts_with p s = true.
Proof. apply starts_with_iff. Qed.
Lemma starts_false p s : ~ begins p s -> starts_with p s = false.
Proof. intros H. destruct (starts_with p s) eqn:E; [apply starts_with_iff in E; contradiction|reflexivity]. Qed.
Lemma cur_is c s : c <> nul -> Ascii.eqb (cur s) c = true <-> begins [c] s.
Proof.
  intros Hc. rewrite Ascii.eqb_eq. split.
  - destruct s as [|x s]; cbn; [congruence|]. intros ->. exists s. reflexivity.
  - intros [r ->]. reflexivity.
Qed.
Lemma cur_not c s : c <> nul -> ~ begins [c] s -> Ascii.eqb (cur s) c = false.
Proof. intros Hc H. destruct (Ascii.eqb (cur s) c) eqn:E; [apply cur_is in E; auto; contradiction|reflexivity]. Qed.
Lemma not_begins_tail c q tail : stops_at [nl] tail -> c <> nl -> ~ begins [c] q -> ~ begins [c] (q ++ tail).
Proof. intros Ht Hc Hq H. apply (begins_stop [nl]) in H; auto. apply without_one. intros [E|[]]. congruence. Qed.
Lemma nl_not_digit : decimal_digit nl = None.
Proof. reflexivity. Qed.
Lemma no_digit_tail q tail : stops_at [nl] tail -> ~ starts_with_digit q -> ~ starts_with_digit (q ++ tail).
Proof. intros Ht Hq. destruct q as [|x q]; [|exact Hq]. destruct tail as [|x tail]; [exact Hq|]. destruct Ht as [<-|[]]. cbn. intros H. apply H. reflexivity. Qed.
Lemma tail_stops c tail : stops_at [nl] tail -> stops_at [c; nl] tail.
Proof. destruct tail as [|x tail]; [auto|]. intros [<-|[]]. right. left. reflexivity. Qed.
Definition source_model (cursor : str) : res (bool * option str * Z * str) :=
    (if Ascii.eqb (cur cursor) "(" then
       do cursor <- advance cursor;
       let mark := cursor in
       let '(_, cursor) := sr_skip_char_cspan (L ":)" ++ [nl]) cursor in
       let '(is_native, file_name) :=
         if length mark =? length cursor then (false, None)
         else if is_native_method mark then (true, None)
         else if negb (is_unknown_source mark) then (false, anonymize_path (Some (between mark cursor)))
         else (false, None) in
       if Ascii.eqb (cur cursor) ":" then
         do cursor <- advance cursor;
         match sr_parse_uint32 cursor with
         | Some (file_line, _, cursor) => Ok (is_native, file_name, Z.of_N file_line, cursor)
         | None => Ok (is_native, file_name, 0%Z, cursor)
         end
       else Ok (is_native, file_name, 0%Z, cursor)
     else Ok (false, None, 0%Z, cursor)).
Lemma number_line s number after : java_number s number after -> ~ In nl s -> ~ In nl after.
Proof.
  intros [(_ & -> & _)|[(ds & n & -> & _)|(-> & _)]] H; [exact H| |].
  - intros Hi. apply H. right. apply (in_or_app ds). right. exact Hi.
  - intros Hi. apply H. right. exact Hi.
Qed.
Lemma source_line s native file number after : java_source s native file number after -> ~ In nl s -> ~ In nl after.
Proof.
  intros [(_ & -> & _)|(src & q & -> & _ & _ & _ & _ & Hn)] H; [exact H|]. apply (number_line _ _ _ Hn). intros Hi. apply H. right. apply (in_or_app src). right. exact Hi.
Qed.
Lemma digit_in_line ds r after tail : after ++ tail = ds ++ r -> stops_at [nl] tail -> Forall (fun c => decimal_digit c <> None) ds -> exists r', after = ds ++ r' /\ r = r' ++ tail.
Proof.
  revert after. induction ds as [|d ds IH]; intros after E Ht Hd; [exists after; auto|]. inversion Hd as [|? ? H1 H2]; subst. destruct after as [|x after].
  - cbn [app] in E. subst tail. destruct Ht as [<-|[]]. exfalso. apply H1. reflexivity.
  - injection E as -> E. destruct (IH _ E Ht H2) as (r' & -> & ->). exists r'. auto.
Qed.
Lemma number_eval s number after tail native file : java_number s number after -> stops_at [nl] tail ->
  (if Ascii.eqb (cur (s ++ tail)) ":" then
         do cursor <- advance (s ++ tail);
         match sr_parse_uint32 cursor with
         | Some (file_line, _, cursor) => Ok (native : bool, file : option str, Z.of_N file_line, cursor)
         | None => Ok (native, file, 0%Z, cursor)
         end
       else Ok (native, file, 0%Z, s ++ tail)) = Ok (native, file, number, after ++ tail).
Proof.
  intros [(Hn & -> & ->)|[(ds & n & -> & Hd & -> & Ha)|(-> & -> & Hno)]] Ht.
  - rewrite cur_not; [reflexivity|discriminate|apply not_begins_tail; [exact Ht|discriminate|exact Hn]].
  - change (cur ((L ":" ++ ds ++ after) ++ tail)) with ":"%char. change (Ascii.eqb ":" ":") with true. cbv iota. cbn [L list_ascii_of_string app advance bind].
    assert (E : sr_parse_uint32 ((ds ++ after) ++ tail) = Some (n, length ds, after ++ tail)) by (apply uint32_iff; exists ds; rewrite <- app_assoc; repeat split; auto; [apply Hd|apply Hd|apply no_digit_tail; auto]).
    rewrite E. reflexivity.
  - change (cur ((L ":" ++ after) ++ tail)) with ":"%char. change (Ascii.eqb ":" ":") with true. cbv iota. cbn [L list_ascii_of_string app advance bind].
    assert (E : sr_parse_uint32 (after ++ tail) = None).
    { apply uint32_none. intros run r v E Hr. destruct (digit_in_line run r after tail E Ht) as (r' & E1 & ->). { destruct Hr as [Hr _]. apply numeral_run in Hr as [Hr _]. exact Hr. }
      specialize (Hno _ _ _ E1 Hr). destruct r' as [|x r']; [destruct Hno|exact Hno]. }
    rewrite E. reflexivity.
Qed.
Lemma source_eval s native file number after tail : java_source s native file number after -> ~ In nl s -> stops_at [nl] tail ->
  source_model (s ++ tail) = Ok (native, file, number, after ++ tail).
Proof.
  unfold source_model. intros [(Hn & -> & -> & -> & ->)|(src & q & -> & Hw & Hq & Hnat & Hf & Hnum)] Hl Ht.
  { rewrite cur_not; [reflexivity|discriminate|apply not_begins_tail; [exact Ht|discriminate|exact Hn]]. }
  change (Ascii.eqb (cur ((L "(" ++ src ++ q) ++ tail)) "(") with true. cbv iota. change ((L "(" ++ src ++ q) ++ tail) with ("("%char :: (src ++ q) ++ tail). cbn [advance bind].
  assert (Hls : ~ In nl src) by (intros Hi; apply Hl; right; apply (in_or_app src); left; exact Hi).
  assert (Hstop : stops_at (L ":)" ++ [nl]) (q ++ tail)).
  { destruct q as [|x q]; [destruct tail as [|x tail]; [exact Logic.I|]; destruct Ht as [<-|[]]; right; right; left; reflexivity|]. destruct Hq as [<-|[<-|[]]]; cbn; auto. }
  assert (Hws : without (L ":)" ++ [nl]) src).
  { unfold without. rewrite Forall_forall. intros x Hx Hi. apply in_app_iff in Hi as [Hi|[<-|[]]]; [|contradiction]. exact (without_In _ _ Hw _ Hx Hi). }
  rewrite <- app_assoc. rewrite (skip_cspan_val _ _ _ Hws Hstop), same_length, between_app. unfold is_native_method, is_unknown_source.
  rewrite !(starts_stop (L ":)" ++ [nl])); [|repeat (apply Forall_cons; [cbn; intuition discriminate|]); apply Forall_nil|exact Hstop|repeat (apply Forall_cons; [cbn; intuition discriminate|]); apply Forall_nil|exact Hstop].
  assert (E : (match src with [] => (false, None) | _ => if starts_with (L "Native Method") src then (true, None) else if negb (starts_with (L "Unknown Source") src) then (false, anonymize_path (Some src)) else (false, None) end) = (native, file)).
  { destruct src as [|x src].
    - destruct Hf as [[-> _]|(H & _)]; [|contradiction]. destruct native; [|reflexivity]. exfalso. destruct (proj1 Hnat eq_refl) as [z Ez]. discriminate Ez.
    - destruct (begins_dec (L "Native Method") (x :: src)) as [Hb|Hb].
      + rewrite (starts_true _ _ Hb). rewrite (proj2 Hnat Hb). destruct Hf as [[-> _]|(_ & H & _)]; [reflexivity|contradiction].
      + rewrite (starts_false _ _ Hb). assert (native = false) as -> by (destruct native; [exfalso; apply Hb, Hnat; reflexivity|reflexivity]). destruct (begins_dec (L "Unknown Source") (x :: src)) as [Hu|Hu].
        * rewrite (starts_true _ _ Hu). destruct Hf as [[-> _]|(_ & _ & H & _)]; [reflexivity|contradiction].
        * rewrite (starts_false _ _ Hu). destruct Hf as [[_ [H|[H|H]]]|(_ & _ & _ & shown & Ha & ->)]; [discriminate|contradiction|contradiction|]. apply anonymize_iff in Ha. rewrite Ha. reflexivity. }
  set (z := if match src with [] => true | _ :: _ => false end then _ else _). assert (Ez : z = (native, file)) by (rewrite <- E; unfold z; destruct src; reflexivity). rewrite Ez.
  exact (number_eval q number after tail native file Hnum Ht).
Qed.
Lemma number_total s : exists number after, java_number s number after.
Proof.
  destruct (begins_dec (L ":") s) as [[r ->]|H]; [|exists 0%Z, s; left; auto]. destruct (sr_parse_uint32 r) as [[[v n] q]|] eqn:E.
  - apply uint32_iff in E as (run & -> & Hr & _ & Hq). exists (Z.of_N v), q. right. left. exists run, v. auto.
  - exists 0%Z, r. right. right. split; [reflexivity|]. split; [reflexivity|]. exact (proj1 (uint32_none _) E).
Qed.
Lemma split_set set (s : str) : exists a b, s = a ++ b /\ without set a /\ stops_at set b.
Proof. destruct (sr_skip_char_cspan set s) as [n b] eqn:E. apply skip_cspan_iff in E as (a & H1 & _ & H2 & H3). eauto. Qed.
Lemma source_total s : exists native file number after, java_source s native file number after.
Proof.
  destruct (begins_dec (L "(") s) as [[r ->]|H]; [|exists false, None, 0%Z, s; left; auto]. destruct (split_set (L ":)") r) as (src & q & -> & H1 & H2). destruct (number_total q) as (number & after & Hn).
  destruct (begins_dec (L "Native Method") src) as [Hb|Hb].
  - exists true, None, number, after. right. exists src, q. split; [reflexivity|]. split; [exact H1|]. split; [exact H2|]. split; [tauto|]. split; [left; auto|exact Hn].
  - destruct (begins_dec (L "Unknown Source") src) as [Hu|Hu]; [|destruct src as [|x src]].
    + exists false, None, number, after. right. exists src, q. split; [reflexivity|]. split; [exact H1|]. split; [exact H2|]. split; [split; [discriminate|contradiction]|]. split; [left; auto|exact Hn].
    + exists false, None, number, after. right. exists [], q. split; [reflexivity|]. split; [exact H1|]. split; [exact H2|]. split; [split; [discriminate|contradiction]|]. split; [left; auto|exact Hn].
    + destruct (anonymized_ok (x :: src)) as (shown & _ & Ha). exists false, (Some shown), number, after. right. exists (x :: src), q. split; [reflexivity|]. split; [exact H1|]. split; [exact H2|]. split; [split; [discriminate|contradiction]|]. split; [|exact Hn].
      right. split; [discriminate|]. split; [exact Hb|]. split; [exact Hu|]. eauto.
Qed.
Definition frame_model (cursor : str) : res (java_frame * str) :=
  let mark := cursor in
  let '(_, cursor) := sr_skip_char_cspan (L "(" ++ [nl]) cursor in
  let name := if length cursor =? length mark then None else Some (between mark cursor) in
  do (is_native, file_name, file_line, cursor) <- source_model cursor;
  do (class_path, mark) <- sr_java_frame_parse_frame_url cursor;
  let '(_, cursor) := strchrnul mark nl in
  do rest <- (if Ascii.eqb (cur cursor) nl then advance cursor else Ok cursor);
  Ok (mk_java_frame name file_name file_line class_path is_native false None, rest).
Lemma frame_parse_split input : sr_java_frame_parse input =
  do (cursor, _) <- sr_strstr_location input (L "at");
  do cursor <- advance_by 2 cursor;
  frame_model (sr_skip_whitespace cursor).
Proof. reflexivity. Qed.
Lemma strchrnul_line y tail : ~ In nl y -> stops_at [nl] tail -> snd (strchrnul (y ++ tail) nl) = tail.
Proof.
  intros Hy Ht. destruct (strchrnul (y ++ tail) nl) as [a b] eqn:E. apply strchrnul_spec in E as (E & Ha & Hb). cbn [snd]. destruct tail as [|x tail].
  - rewrite app_nil_r in E. subst y. destruct b as [|x b]; [reflexivity|]. subst x. exfalso. apply Hy. apply in_or_app. right. left. reflexivity.
  - destruct Ht as [<-|[]]. destruct b as [|x b].
    + exfalso. apply Ha. rewrite app_nil_r in E. rewrite <- E. apply in_or_app. right. left. reflexivity.
    + subst x. apply app_at_unique in E as [_ ->]; auto.
Qed.
Lemma optional_if name o : optional name o -> o = if match name with [] => true | _ => false end then None else Some name.
Proof. destruct name; exact (fun H => H). Qed.
Lemma line_eval line f tail : java_line line f -> ~ In nl line -> stops_at [nl] tail ->
  frame_model (line ++ tail) = do rest <- (if Ascii.eqb (cur tail) nl then advance tail else Ok tail); Ok (f, rest).
Proof.
  intros (name & q & after & -> & Hw & Hq & Hname & Hsrc & Hurl & Hexc & Hmsg) Hl Ht. apply in_app_not in Hl as [Hl1 Hl2]. unfold frame_model.
  rewrite <- app_assoc. assert (Es : sr_skip_char_cspan (L "(" ++ [nl]) (name ++ q ++ tail) = (length name, q ++ tail)).
  { apply skip_cspan_val.
    - apply (without_two "("%char nl). split; [apply (without_one "("%char); exact Hw|exact Hl1].
    - destruct q as [|x q]; [apply (tail_stops "("%char); exact Ht|]. destruct Hq as [<-|[]]. left. reflexivity. }
  rewrite Es, same_length', between_app, (source_eval _ _ _ _ _ _ Hsrc Hl2 Ht). cbn [bind].
  destruct (url_eval _ _ tail Hurl (source_line _ _ _ _ _ Hsrc Hl2) Ht) as (cursor & -> & y & -> & Hy). cbn [bind].
  pose proof (strchrnul_line y tail Hy Ht) as Ec. destruct (strchrnul (y ++ tail) nl) as [a b]. cbn [snd] in Ec. subst b.
  rewrite <- (optional_if _ _ Hname). destruct f as [n fn fl cp nat exc msg]. cbn [vf_is_exception vf_message] in Hexc, Hmsg. subst exc msg. reflexivity.
Qed.
Lemma line_total line : exists f, java_line line f.
Proof.
  destruct (split_set (L "(") line) as (name & q & -> & H1 & H2). destruct (source_total q) as (native & file & number & after & Hs). destruct (url_total after) as [path Hu].
  exists (mk_java_frame (match name with [] => None | _ => Some name end) file number path native false None), name, q, after. split; [reflexivity|]. split; [exact H1|]. split; [exact H2|]. split; [destruct name; reflexivity|]. auto.
Qed.
Lemma line_rest_iff s line rest : line_and_rest s line rest <-> exists tail, s = line ++ tail /\ ~ In nl line /\ stops_at [nl] tail /\ (if Ascii.eqb (cur tail) nl then advance tail else Ok tail) = Ok rest.
Proof.
  split.
  - intros [Hl [->|[-> ->]]]; [exists (nl :: rest)|exists []; rewrite app_nil_r]; (split; [reflexivity|]); (split; [exact Hl|]); split; [left; reflexivity|reflexivity|exact Logic.I|reflexivity].
  - intros (tail & -> & Hl & Ht & E). split; [exact Hl|]. destruct tail as [|x tail]; [injection E as <-; right; rewrite app_nil_r; auto|]. destruct Ht as [<-|[]]. injection E as <-. left. reflexivity.
Qed.
Lemma past_blanks_eval s r : past_blanks s r <-> sr_skip_whitespace s = r.
Proof.
  split.
  - intros (ws & -> & Hb & Hr). apply skip_ws_eval; assumption.
  - intros <-. destruct (skip_ws_split s) as (b & E & Hb & Hr). exists b. auto.
Qed.
Lemma frame_eval s f rest : java_frame_text s f rest -> sr_java_frame_parse s = Ok (f, rest).
Proof.
  intros (r & q & line & Hat & Hb & Hl & Hf). rewrite frame_parse_split. destruct (strstr_first s (L "at")) as [(r' & lc & -> & Hr)|[_ Hn]]; [|destruct (Hn _ Hat)].
  rewrite (first_at_fun _ _ _ _ Hr Hat). cbn [bind]. change 2 with (length (L "at")). rewrite advance_by_app. cbn [bind]. apply past_blanks_eval in Hb. rewrite Hb.
  apply line_rest_iff in Hl as (tail & -> & Hl & Ht & E). rewrite (line_eval _ _ _ Hf Hl Ht), E. reflexivity.
Qed.
Lemma frame_cases s : (exists f rest, sr_java_frame_parse s = Ok (f, rest) /\ java_frame_text s f rest) \/ (sr_java_frame_parse s = Fail /\ forall f rest, ~ java_frame_text s f rest).
Proof.
  destruct (strstr_first s (L "at")) as [(r & lc & E & Hr)|[E Hn]].
  - left. pose proof Hr as (a & _ & [q ->] & _). destruct (split_stop nl (sr_skip_whitespace q)) as (line & tail & El & Hl & Ht). destruct (line_total line) as [f Hf].
    assert (exists rest, line_and_rest (sr_skip_whitespace q) line rest) as [rest Hrest]. { destruct tail as [|x tail]; [exists []|exists tail]; (split; [exact Hl|]); [right; rewrite app_nil_r in El; auto|]. left. destruct Ht as [<-|[]]. exact El. }
    assert (Hx : java_frame_text s f rest). { exists q, (sr_skip_whitespace q), line. split; [exact Hr|]. split; [apply past_blanks_eval; reflexivity|]. auto. }
    exists f, rest. split; [apply frame_eval; exact Hx|exact Hx].
  - right. split; [rewrite frame_parse_split, E; reflexivity|]. intros f rest (q & _ & _ & H & _). exact (Hn _ H).
Qed.
Theorem java_frame_iff s f rest : sr_java_frame_parse s = Ok (f, rest) <-> java_frame_text s f rest.
Proof.
  split; [|apply frame_eval]. intros E. destruct (frame_cases s) as [(f' & rest' & E' & H)|[E' _]]; [|congruence]. rewrite E in E'. injection E' as <- <-. exact H.
Qed.
Theorem java_frame_not_UB s : sr_java_frame_parse s <> UB.
Proof. destruct (frame_cases s) as [(f & rest & -> & _)|[-> _]]; discriminate. Qed.
