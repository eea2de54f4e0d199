(** * Proofs about the Java locations: places. *)
From Verif Require Import Base Types UtilsSpec UtilsModel UtilsProofs RpmSpec RpmProofs ParseSpec ParseModel ParseProofs RubyParseProofs JsParseProofs PyParseSpec PyParseProofs JavaParseModel JavaParseSpec JavaParseProofs JavaParseProofs2 LocParseModel LocParseSpec LocParseProofs JavaLocModel JavaLocSpec JavaLocProofs.
Open Scope nat_scope.

Lemma columns_eq l n : columns l n = mk_location (line l) (column l + Z.of_nat n) (message l).
Proof. reflexivity. Qed.
Lemma columns_add l a b : columns (columns l a) b = columns l (a + b).
Proof. rewrite !columns_eq. cbn. f_equal. lia. Qed.
Lemma columns_0 l : columns l 0 = l.
Proof. rewrite columns_eq. destruct l; cbn. f_equal. lia. Qed.
Lemma columns_back l a b : b <= a -> sr_location_add (columns l a) 0 (- Z.of_nat b) = columns l (a - b).
Proof. intros H. rewrite !columns_eq. unfold sr_location_add. cbn. f_equal. lia. Qed.

(** Along a line. *)
Definition ontrack (s : str) (l : location) (s' : str) (l' : location) : Prop := exists u, s = u ++ s' /\ ~ In nl u /\ l' = columns l (length u).
Lemma ontrack_refl s l : ontrack s l s l.
Proof. exists []. repeat split; auto. cbn. symmetry. apply columns_0. Qed.
Lemma ontrack_trans s l s1 l1 s2 l2 : ontrack s l s1 l1 -> ontrack s1 l1 s2 l2 -> ontrack s l s2 l2.
Proof.
  intros (u & -> & Hu & ->) (v & -> & Hv & ->). exists (u ++ v). split; [apply app_assoc|]. split; [rewrite in_app_iff; tauto|]. rewrite columns_add, app_length. reflexivity.
Qed.
Lemma until_track chars s l : In nl chars -> exists s' l', until chars s l = (s', l') /\ ontrack s l s' l' /\ stops_at chars s' /\ exists u, s = u ++ s' /\ without chars u.
Proof.
  intros Hn. unfold until. destruct (sr_skip_char_cspan chars s) as [n b] eqn:E. apply skip_cspan_iff in E as (a & -> & -> & Ha & Hb). exists b, (columns l (length a)). split; [reflexivity|].
  split; [|split; [exact Hb|exists a; auto]]. exists a. split; [reflexivity|]. split; [|reflexivity]. intros Hi. exact (without_In _ _ Ha _ Hi Hn).
Qed.
Lemma cur_cons c s : c <> nul -> Ascii.eqb (cur s) c = true -> exists r, s = c :: r.
Proof. intros Hc H. apply (cur_is c s Hc) in H as [r ->]. exists r. reflexivity. Qed.
Lemma char_track c s l : c <> nl -> ontrack (c :: s) l s (columns l 1).
Proof. intros H. exists [c]. repeat split. intros [E|[]]. exact (H E). Qed.
Lemma past_eq {B} c s l (f : str -> location -> outcome B) : past (c :: s) l f = f s (columns l 1).
Proof. reflexivity. Qed.
Ltac take_until c l := match goal with |- context[until ?chars ?s ?l0] =>
  let E := fresh "E" in let T := fresh "T" in let St := fresh "St" in let u := fresh "u" in let Eu := fresh "Eu" in let Wu := fresh "Wu" in
  destruct (until_track chars s l0 ltac:(cbn; tauto)) as (c & l & E & T & St & u & Eu & Wu); rewrite E; cbn beta iota zeta end.
Definition tracked {A} (s : str) (l : location) (o : outcome (A * str)) : Prop := match o with Took (_, s') l' => ontrack s l s' l' | Refused _ => False | Broken => True end.
Lemma tracked_then {A B} s l (o : outcome (A * str)) (f : A * str -> location -> outcome (B * str)) : tracked s l o -> (forall x s' l', ontrack s l s' l' -> tracked s l (f (x, s') l')) -> tracked s l (and_then o f).
Proof. destruct o as [[x s'] l'|l'|]; cbn; auto. Qed.
Lemma track_back s l s' l' : ontrack s l s' l' -> sr_location_add l' 0 (- Z.of_nat (length s - length s')) = l.
Proof. intros (u & -> & _ & ->). rewrite app_length, columns_back by lia. replace (length u - (length u + length s' - length s')) with 0 by lia. apply columns_0. Qed.
Lemma url_track s l : tracked s l (java_url_loc s l).
Proof.
  unfold java_url_loc. take_until c1 l1. destruct (Ascii.eqb (cur c1) "[") eqn:B1; cbn [negb]; [|exact T].
  apply cur_cons in B1 as [s1 ->]; [|discriminate]. rewrite past_eq. cbv beta zeta. assert (T1 := ontrack_trans _ _ _ _ _ _ T (char_track "[" s1 l1 ltac:(discriminate))).
  clear E T St Eu Wu u. generalize dependent (columns l1 1). clear l1. intros l1 T1.
  take_until c2 l2. assert (T2 := ontrack_trans _ _ _ _ _ _ T1 T).
  assert (G : forall r l', ontrack s l (match r with inl c => c | inr (_, c) => c end) l' -> tracked s l (match r with
    | inl cursor => Took (None, cursor) l'
    | inr (class_path, cursor) =>
      if negb (Ascii.eqb (cur cursor) "]") && negb (Ascii.eqb (cur cursor) nl)
      then let '(cursor, l) := until (L "]" ++ [nl]) cursor l' in Took (class_path : option str, cursor) l
      else Took (class_path, cursor) l'
    end)).
  { intros [c|[path c]] l' Ht; [exact Ht|]. destruct (_ && _); [|exact Ht]. take_until c4 l4. exact (ontrack_trans _ _ _ _ _ _ Ht T0). }
  destruct (Ascii.eqb (cur c2) ":") eqn:B2; cbn [and_then]; [|apply (G (inr (None, c2))); exact T2].
  assert (H : forall mark lm cursor l' stop, ontrack s l mark lm -> ontrack mark lm cursor l' -> Ascii.eqb (cur cursor) ":" = true -> In nl stop ->
    tracked s l (and_then (and_then (if negb (starts_with (L "file:") mark) then Took (mark, mark) (sr_location_add l' 0 (- Z.of_nat (length mark - length cursor)))
                          else past cursor l' (fun cursor l => Took (cursor, cursor) l)) (fun '(mark, cursor) l =>
                let '(cursor, l) := until stop cursor l in
                Took (inr (if length mark =? length cursor then None else anonymize_path (Some (between mark cursor)), cursor)) l)) (fun r l' => match r with
    | inl cursor => Took (None, cursor) l'
    | inr (class_path, cursor) =>
      if negb (Ascii.eqb (cur cursor) "]") && negb (Ascii.eqb (cur cursor) nl)
      then let '(cursor, l) := until (L "]" ++ [nl]) cursor l' in Took (class_path : option str, cursor) l
      else Took (class_path, cursor) l'
    end))).
  { intros mark lm cursor l' stop Tm Tc Bc Hs. destruct (negb _).
    - rewrite (track_back _ _ _ _ Tc). cbn [and_then]. destruct (until_track stop mark lm Hs) as (c4 & l4 & E4 & T4 & _). rewrite E4. cbn [and_then].
      apply (G (inr (_, c4))). exact (ontrack_trans _ _ _ _ _ _ Tm T4).
    - apply cur_cons in Bc as [r ->]; [|discriminate]. rewrite past_eq. cbn [and_then]. destruct (until_track stop r (columns l' 1) Hs) as (c4 & l4 & E4 & T4 & _). rewrite E4. cbn [and_then].
      apply (G (inr (_, c4))). refine (ontrack_trans _ _ _ _ _ _ Tm (ontrack_trans _ _ _ _ _ _ Tc (ontrack_trans _ _ _ _ _ _ (char_track ":" r l' _) T4))). discriminate. }
  destruct (starts_with (L "jar:") s1); cbn [and_then].
  - apply cur_cons in B2 as [r ->]; [|discriminate]. rewrite past_eq. cbv beta zeta. assert (T3 := ontrack_trans _ _ _ _ _ _ T2 (char_track ":" r l2 ltac:(discriminate))).
    take_until c3 l3. destruct (Ascii.eqb (cur c3) ":") eqn:B3; cbn [negb and_then].
    + exact (H _ _ _ _ (L "!" ++ [nl]) T3 T0 B3 ltac:(cbn; tauto)).
    + apply (G (inl c3)). exact (ontrack_trans _ _ _ _ _ _ T3 T0).
  - exact (H _ _ _ _ (L "]" ++ [nl]) T1 T B2 ltac:(cbn; tauto)).
Qed.
