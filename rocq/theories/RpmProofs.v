(** * Proofs: package names. *)
From Verif Require Import Base Types UtilsModel UtilsSpec UtilsProofs CmpModel CmpSpec CmpProofs RpmModel RpmSpec.
Open Scope nat_scope.

Ltac aeq := cbn [app]; repeat (rewrite <- app_assoc; cbn [app]); reflexivity.
Lemma strrchr_cases s c :
  match strrchr s c with
  | Some i => exists a b, s = a ++ c :: b /\ length a = i /\ ~ In c b
  | None => ~ In c s
  end.
Proof.
  induction s as [|x s IH]; cbn [strrchr]; [intros []|].
  destruct (strrchr s c) as [i|].
  - destruct IH as (a & b & -> & <- & Hb). exists (x :: a), b. auto.
  - destruct (Ascii.eqb_spec x c) as [->|N]; [exists [], s; auto|]. intros [E|E]; auto.
Qed.
Lemma strrchr_none s c : ~ In c s -> strrchr s c = None.
Proof.
  induction s as [|x s IH]; cbn [strrchr]; intros H; [reflexivity|].
  rewrite IH by (intros K; apply H; now right). destruct (Ascii.eqb_spec x c) as [->|N]; [|reflexivity]. elim H; now left.
Qed.
Lemma strrchr_app a b c : ~ In c b -> strrchr (a ++ c :: b) c = Some (length a).
Proof.
  intros H. induction a as [|x a IH]; cbn [app strrchr length].
  - rewrite strrchr_none by assumption. now rewrite Ascii.eqb_refl.
  - now rewrite IH.
Qed.
Lemma strchr_cases s c :
  match strchr s c with
  | Some i => exists a b, s = a ++ c :: b /\ length a = i /\ ~ In c a
  | None => ~ In c s
  end.
Proof.
  induction s as [|x s IH]; cbn [strchr]; [intros []|].
  destruct (Ascii.eqb_spec x c) as [->|N]; [exists [], s; cbn; auto|].
  destruct (strchr s c) as [i|]; cbn [option_map].
  - destruct IH as (a & b & -> & <- & Ha). exists (x :: a), b. repeat split. intros [E|E]; auto.
  - intros [E|E]; auto.
Qed.
Lemma strchr_none s c : ~ In c s -> strchr s c = None.
Proof.
  intros H. pose proof (strchr_cases s c) as K. destruct (strchr s c); [|reflexivity].
  destruct K as (a & b & -> & _). elim H. apply in_or_app; right; now left.
Qed.
Lemma strchr_app a b c : ~ In c a -> strchr (a ++ c :: b) c = Some (length a).
Proof.
  intros H. induction a as [|x a IH]; cbn [app strchr length]; [now rewrite Ascii.eqb_refl|].
  destruct (Ascii.eqb_spec x c) as [->|N]; [elim H; now left|]. rewrite IH; [reflexivity|]. intros K; apply H; now right.
Qed.
Lemma previous_dash_none a b : ~ In "-"%char a -> previous_dash (a ++ b) (length a) = 0.
Proof.
  revert b. induction a as [|x a IH] using rev_ind; intros b H; [reflexivity|].
  rewrite app_length, Nat.add_comm. cbn [length plus previous_dash]. rewrite <- app_assoc.
  rewrite app_nth2, Nat.sub_diag by lia. cbn [app nth].
  destruct (Ascii.eqb_spec x "-") as [->|N]; [elim H; apply in_or_app; right; now left|].
  apply IH. intros K; apply H, in_or_app; now left.
Qed.
Lemma previous_dash_app n v b : ~ In "-"%char v -> previous_dash ((n ++ "-"%char :: v) ++ b) (length (n ++ "-"%char :: v)) = length n.
Proof.
  revert b. induction v as [|x v IH] using rev_ind; intros b H.
  - rewrite app_length, Nat.add_comm. cbn [length plus previous_dash]. rewrite <- app_assoc, app_nth2, Nat.sub_diag by lia. reflexivity.
  - replace (n ++ "-"%char :: v ++ [x]) with ((n ++ "-"%char :: v) ++ [x]) by now rewrite <- app_assoc.
    set (p := n ++ "-"%char :: v) in *. rewrite app_length, Nat.add_comm. cbn [length plus previous_dash]. rewrite <- app_assoc.
    rewrite app_nth2, Nat.sub_diag by lia. cbn [app nth].
    destruct (Ascii.eqb_spec x "-") as [->|N]; [elim H; apply in_or_app; right; now left|].
    apply IH. intros K; apply H, in_or_app; now left.
Qed.
Lemma strndup_at a b c k m : length a = k -> length b = m -> strndup (a ++ b ++ c) k m = b.
Proof.
  intros <- <-. unfold strndup. rewrite skipn_app, skipn_all, Nat.sub_diag. cbn [app skipn].
  rewrite firstn_app, firstn_all, Nat.sub_diag. cbn [firstn]. apply app_nil_r.
Qed.
Lemma skipn_at {A} (a b : list A) k : length a = k -> skipn k (a ++ b) = b.
Proof. intros <-. now rewrite skipn_app, skipn_all, Nat.sub_diag. Qed.

Lemma len_pos {A} (l : list A) : l <> [] <-> 0 < length l.
Proof. destruct l; cbn; split; try congruence; lia. Qed.

(** ** name-version-release *)
Lemma nvr_eval n v r : ~ In "-"%char v -> ~ In "-"%char r ->
  sr_rpm_package_parse_nvr (n ++ L "-" ++ v ++ L "-" ++ r) =
  if Nat.eqb (length n) 0 || Nat.eqb (length v) 0 then None else Some (n, v, r).
Proof.
  intros Hv Hr. unfold sr_rpm_package_parse_nvr.
  change (L "-") with ["-"%char]. cbn [app].
  replace (n ++ "-"%char :: v ++ "-"%char :: r) with ((n ++ "-"%char :: v) ++ "-"%char :: r) by now rewrite <- app_assoc.
  rewrite strrchr_app by assumption. rewrite previous_dash_app by assumption.
  rewrite app_length. cbn [length].
  replace (length n + S (length v) - length n) with (S (length v)) by lia. cbn [Nat.eqb].
  destruct (Nat.eqb (length n) 0 || Nat.eqb (length v) 0); [reflexivity|].
  f_equal. f_equal; [f_equal|].
  - rewrite <- app_assoc. apply (strndup_at []); reflexivity.
  - replace ((n ++ "-"%char :: v) ++ "-"%char :: r) with ((n ++ ["-"%char]) ++ v ++ "-"%char :: r) by now rewrite <- !app_assoc.
    apply strndup_at; [rewrite app_length; reflexivity|lia].
  - replace ((n ++ "-"%char :: v) ++ "-"%char :: r) with ((n ++ "-"%char :: v ++ ["-"%char]) ++ r) by aeq.
    apply skipn_at. rewrite app_length. cbn [length]. rewrite app_length. cbn [length]. lia.
Qed.
Theorem nvr_correct text : forall n v r, sr_rpm_package_parse_nvr text = Some (n, v, r) <-> is_nvr text n v r.
Proof.
  intros n v r. split.
  - intros H. pose proof (strrchr_cases text "-") as K. unfold sr_rpm_package_parse_nvr in H.
    destruct (strrchr text "-") as [d|] eqn:E; [|discriminate].
    destruct K as (a & b & -> & <- & Hb).
    pose proof (strrchr_cases a "-") as K. destruct (strrchr a "-") as [e|] eqn:E2.
    + destruct K as (n' & v' & -> & <- & Hv).
      assert (G := nvr_eval n' v' b Hv Hb). unfold sr_rpm_package_parse_nvr in G.
      change (L "-") with ["-"%char] in G. cbn [app] in G.
      replace (n' ++ "-"%char :: v' ++ "-"%char :: b) with ((n' ++ "-"%char :: v') ++ "-"%char :: b) in G by now rewrite <- app_assoc.
      rewrite E in G. rewrite H in G. clear H.
      destruct (Nat.eqb (length n') 0) eqn:E3; [discriminate|]. destruct (Nat.eqb (length v') 0) eqn:E4; [discriminate|].
      cbn [orb] in G. injection G as -> -> ->. apply Nat.eqb_neq in E3, E4.
      split; [change (L "-") with ["-"%char]; now rewrite <- app_assoc|].
      split; [intros ->; auto|]. split; [intros ->; auto|]. auto.
    + rewrite previous_dash_none in H by assumption. discriminate.
  - intros (-> & Hn & Hv & Dv & Dr). rewrite nvr_eval by assumption.
    destruct n; [congruence|]. destruct v; [congruence|]. reflexivity.
Qed.

(** ** Epochs *)
Lemma is_space_iff c : is_space c = true <-> space_char c.
Proof.
  unfold is_space, space_char, code. destruct c as [[] [] [] [] [] [] [] []]; cbv; split; intros H;
    try reflexivity; try discriminate; intuition discriminate.
Qed.
Lemma is_digit_iff c : is_digit c = true <-> decimal_digit c <> None.
Proof. destruct c as [[] [] [] [] [] [] [] []]; cbv; split; congruence. Qed.
Lemma digit_not_space c : is_digit c = true -> is_space c = false.
Proof. destruct c as [[] [] [] [] [] [] [] []]; cbv; congruence. Qed.
Lemma decimal_digits s n : decimal s n -> s <> [] /\ Forall (fun c => is_digit c = true) s.
Proof.
  induction 1 as [c d H|s v c d H [IH1 IH2] K].
  - split; [discriminate|]. constructor; [|constructor]. apply is_digit_iff. congruence.
  - split; [intros E; apply app_eq_nil in E as [_ E]; discriminate|]. apply Forall_app; split; [assumption|].
    constructor; [|constructor]. apply is_digit_iff. congruence.
Qed.
Lemma horner_decimal s : s <> [] -> Forall (fun c => is_digit c = true) s -> decimal s (horner 10 s).
Proof.
  intros H K. apply (horner_numeral decimal_digit 10 digits10 digit_val_dec digits10_dec); [assumption|].
  eapply Forall_impl; [|exact K]. intros c. rewrite is_digit_iff. apply (in_set_iff decimal_digit digits10 digit_val_dec digits10_dec).
Qed.
Lemma decimal_horner s n : decimal s n -> n = horner 10 s.
Proof. intros H. now apply (numeral_horner decimal_digit 10 digits10 digit_val_dec) in H as [-> _]. Qed.

Lemma not_space_plus : is_space "+"%char = false. Proof. reflexivity. Qed.
Lemma strtoul_epoch e n : ~ In "-"%char e ->
  ((exists r range rest, strtoul10 e = Some (r, range, rest) /\
      (range || negb (Nat.eqb (length rest) 0) || (u32max <? r)%N) = false /\ r = n) <-> is_epoch e n).
Proof.
  intros D. unfold strtoul10. split.
  - intros (r & range & rest & H & K & ->).
    destruct (span is_space e) as [blank s] eqn:E. apply span_spec in E as (-> & Hb & Hs). cbn [snd] in H.
    assert (D' : ~ In "-"%char s) by (intros X; apply D, in_or_app; now right).
    set (sg := match s with c :: r => if Ascii.eqb c "-" then (true, r) else if Ascii.eqb c "+" then (false, r) else (false, s) | [] => (false, s) end) in H.
    assert (G : exists sign, (sign = [] \/ sign = L "+") /\ s = sign ++ snd sg /\ fst sg = false).
    { destruct s as [|c s]; [exists []; auto|]. subst sg. destruct (Ascii.eqb_spec c "-") as [->|N1]; [elim D'; now left|].
      destruct (Ascii.eqb_spec c "+") as [->|N2]; [exists (L "+"); auto|exists []; auto]. }
    destruct G as (sign & Hsign & Es & Hneg). destruct sg as [neg t]. cbn [fst snd] in *. subst neg.
    destruct (span is_digit t) as [d rest'] eqn:E. apply span_spec in E as (-> & Hd & Hr).
    destruct d as [|c d]; [discriminate|]. unfold strtou in H. fold (horner 10 (c :: d)) in H.
    destruct (u64max <? horner 10 (c :: d))%N; injection H as <- <- <-; cbn [orb] in K; [discriminate|].
    apply orb_false_iff in K as [K1 K2]. apply negb_false_iff, Nat.eqb_eq in K1. destruct rest'; [|discriminate].
    apply N.ltb_ge in K2. unfold u32max in K2.
    exists blank, sign, (c :: d). rewrite app_nil_r in Es. rewrite Es. repeat split; auto.
    + eapply Forall_impl; [|exact Hb]. intros x. apply is_space_iff.
    + apply horner_decimal; [discriminate|assumption].
    + lia.
  - intros (blank & sign & digits & -> & Hb & Hs & Hd & Hn).
    assert (Hdec := decimal_digits _ _ Hd). destruct Hdec as [Hne Hdig].
    rewrite span_unique; [cbn [snd]| |].
    + assert (X : match sign ++ digits with
                  | [] => (false, sign ++ digits)
                  | c :: r => if Ascii.eqb c "-" then (true, r) else if Ascii.eqb c "+" then (false, r) else (false, sign ++ digits)
                  end = (false, digits)).
      { destruct Hs as [-> | ->]; [|reflexivity]. cbn [app]. destruct digits as [|c digits]; [reflexivity|].
        destruct (Ascii.eqb_spec c "-") as [->|N1]; [inversion Hdig; discriminate|].
        destruct (Ascii.eqb_spec c "+") as [->|N2]; [inversion Hdig; discriminate|]. reflexivity. }
      rewrite X. rewrite span_all by assumption. apply decimal_horner in Hd.
      destruct digits as [|c digits]; [congruence|]. unfold strtou. fold (horner 10 (c :: digits)). rewrite <- Hd.
      assert ((u64max <? n)%N = false) as -> by (apply N.ltb_ge; unfold u64max; lia).
      exists n, false, []. repeat split. cbn. apply N.ltb_ge. unfold u32max. lia.
    + eapply Forall_impl; [|exact Hb]. intros x. apply is_space_iff.
    + destruct Hs as [-> | ->]; [|reflexivity]. cbn [app]. destruct digits as [|c digits]; [congruence|].
      inversion Hdig; subst. now apply digit_not_space.
Qed.

(** ** NEVRA *)
Definition epoch_outcome (n w r a : str) : nevra :=
  match strchr w ":" with
  | None => Accepted n 0 w r a
  | Some i =>
    let e := firstn i w in let v := skipn (S i) w in
    if Nat.eqb (length v) 0 || Nat.eqb (length e) 0 then Rejected
    else match strtoul10 e with
         | None => Dangling
         | Some (k, range, rest) =>
           if range || negb (Nat.eqb (length rest) 0) || (u32max <? k)%N then Dangling else Accepted n k v r a
         end
  end.
Lemma nevra_eval n w r a :
  ~ In "-"%char w -> ~ In "-"%char r -> ~ In "-"%char a -> ~ In "."%char a ->
  sr_rpm_package_parse_nevra (n ++ L "-" ++ w ++ L "-" ++ r ++ L "." ++ a) =
  if Nat.eqb (length n) 0 || Nat.eqb (length w) 0 || Nat.eqb (length r) 0 then Rejected else epoch_outcome n w r a.
Proof.
  intros Hw Hr Ha Da. unfold sr_rpm_package_parse_nevra.
  change (L "-") with ["-"%char]. change (L ".") with ["."%char]. cbn [app].
  set (text := n ++ "-"%char :: w ++ "-"%char :: r ++ "."%char :: a).
  assert (T1 : text = (n ++ "-"%char :: w ++ "-"%char :: r) ++ "."%char :: a)
    by (unfold text; rewrite <- app_assoc; cbn [app]; now rewrite <- app_assoc).
  assert (T2 : text = (n ++ "-"%char :: w) ++ "-"%char :: r ++ "."%char :: a)
    by (unfold text; rewrite <- app_assoc; reflexivity).
  assert (E1 : strrchr text "." = Some (length n + length w + length r + 2)).
  { rewrite T1, strrchr_app by assumption. rewrite app_length. cbn [length]. rewrite app_length. cbn [length]. f_equal; lia. }
  assert (E2 : strrchr text "-" = Some (length (n ++ "-"%char :: w))).
  { rewrite T2. apply strrchr_app. intros K. apply in_app_or in K as [K|[K|K]]; [auto|discriminate|auto]. }
  assert (Pd : previous_dash text (length (n ++ "-"%char :: w)) = length n) by (rewrite T2; now apply previous_dash_app).
  rewrite E1, E2. cbv zeta. rewrite Pd.
  assert (Ld : length (n ++ "-"%char :: w) = length n + length w + 1) by (rewrite app_length; cbn [length]; lia).
  rewrite Ld.
  destruct (Nat.eqb_spec (length r) 0) as [Lr|Lr].
  { rewrite orb_true_r. replace (_ <=? _) with true; [reflexivity|]. symmetry. apply Nat.leb_le. lia. }
  rewrite orb_false_r. replace (_ <=? _) with false by (symmetry; apply Nat.leb_gt; lia).
  replace (length n + length w + 1 - length n) with (S (length w)) by lia. cbn [Nat.eqb].
  destruct (Nat.eqb_spec (length n) 0) as [Ln|Ln]; cbn [orb]; [reflexivity|].
  destruct (Nat.eqb_spec (length w) 0) as [Lw|Lw]; [reflexivity|].
  assert (Sn : skipn (length n) text = "-"%char :: w ++ "-"%char :: r ++ "."%char :: a) by (unfold text; now apply skipn_at).
  rewrite Sn.
  assert (Nname : strndup text 0 (length n) = n) by (apply (strndup_at []); reflexivity).
  assert (Nrel : strndup text (length n + length w + 1 + 1) (length n + length w + length r + 2 - (length n + length w + 1) - 1) = r).
  { unfold text. replace (n ++ "-"%char :: w ++ "-"%char :: r ++ "."%char :: a) with ((n ++ "-"%char :: w ++ ["-"%char]) ++ r ++ "."%char :: a)
      by aeq.
    apply strndup_at; [|lia]. rewrite app_length. cbn [length]. rewrite app_length. cbn [length]. lia. }
  assert (Narch : skipn (length n + length w + length r + 2 + 1) text = a).
  { rewrite T1. replace ((n ++ "-"%char :: w ++ "-"%char :: r) ++ "."%char :: a) with ((n ++ "-"%char :: w ++ "-"%char :: r ++ ["."%char]) ++ a).
    2:{ rewrite <- !app_assoc; cbn [app]. rewrite <- !app_assoc. cbn [app]. now rewrite <- app_assoc. }
    apply skipn_at. rewrite app_length. cbn [length]. rewrite app_length. cbn [length]. rewrite app_length. cbn [length]. lia. }
  assert (Nver : forall e v, w = e ++ v -> strndup text (length n + length e + 1) (length v) = v).
  { intros e v ->. unfold text. replace (n ++ "-"%char :: (e ++ v) ++ "-"%char :: r ++ "."%char :: a)
      with ((n ++ "-"%char :: e) ++ v ++ "-"%char :: r ++ "."%char :: a) by aeq.
    apply strndup_at; [|reflexivity]. rewrite app_length. cbn [length]. lia. }
  assert (Nep : forall e v, w = e ++ v -> strndup text (length n + 1) (length e) = e).
  { intros e v ->. unfold text. replace (n ++ "-"%char :: (e ++ v) ++ "-"%char :: r ++ "."%char :: a)
      with ((n ++ ["-"%char]) ++ e ++ v ++ "-"%char :: r ++ "."%char :: a) by aeq.
    apply strndup_at; [|reflexivity]. rewrite app_length. reflexivity. }
  rewrite Nname, Nrel, Narch. unfold epoch_outcome. cbn [strchr]. change (Ascii.eqb "-" ":") with false. cbv iota.
  pose proof (strchr_cases w ":") as K. destruct (strchr w ":") as [i|] eqn:Ew.
  - destruct K as (e & v & Ev & <- & He).
    assert (Es : strchr (w ++ "-"%char :: r ++ "."%char :: a) ":" = Some (length e))
      by (rewrite Ev, <- app_assoc; cbn [app]; now apply strchr_app).
    rewrite Es. cbn [option_map].
    assert (Lw2 : length w = length e + length v + 1) by (rewrite Ev, app_length; cbn [length]; lia).
    replace (length n + length w + 1 <? length n + S (length e)) with false by (symmetry; apply Nat.ltb_ge; lia).
    replace (length n + length w + 1 - (length n + S (length e))) with (S (length v)) by lia.
    replace (length n + S (length e) - length n) with (S (length e)) by lia. cbn [Nat.eqb].
    assert (Fe : firstn (length e) w = e) by (rewrite Ev, firstn_app, firstn_all, Nat.sub_diag; cbn [firstn]; apply app_nil_r).
    assert (Sv : skipn (S (length e)) w = v).
    { rewrite Ev. change (e ++ ":"%char :: v) with (e ++ [":"%char] ++ v). rewrite app_assoc. apply skipn_at. rewrite app_length. cbn [length]. lia. }
    rewrite Fe, Sv. destruct (Nat.eqb (length v) 0 || Nat.eqb (length e) 0); [reflexivity|].
    replace (S (length e) - 1) with (length e) by lia. rewrite (Nep e (":"%char :: v)) by assumption.
    replace (S (length v) - 1) with (length v) by lia.
    replace (length n + S (length e) + 1) with (length n + length (e ++ [":"%char]) + 1) by (rewrite app_length; cbn [length]; lia).
    rewrite (Nver (e ++ [":"%char]) v) by (rewrite Ev, <- app_assoc; reflexivity). reflexivity.
  - pose proof (strchr_cases (w ++ "-"%char :: r ++ "."%char :: a) ":") as K2.
    assert (X : match option_map S (strchr (w ++ "-"%char :: r ++ "."%char :: a) ":") with
                | Some i => if length n + length w + 1 <? length n + i then None else Some (length n + i) | None => None end = None).
    { destruct (strchr (w ++ _) ":") as [i|]; cbn [option_map]; [|reflexivity].
      replace (length n + length w + 1 <? length n + S i) with true; [reflexivity|]. symmetry. apply Nat.ltb_lt.
      destruct K2 as (x & y & E & <- & Hx).
      enough (length w < length x) by lia. destruct (Nat.lt_ge_cases (length w) (length x)) as [|G]; [assumption|exfalso].
      destruct (Nat.eq_dec (length x) (length w)) as [G2|G2].
      - assert (F := f_equal (fun l => nth (length w) l nul) E). cbn beta in F.
        rewrite app_nth2, Nat.sub_diag in F by lia. rewrite app_nth2, G2, Nat.sub_diag in F by lia. discriminate.
      - apply K. assert (F := f_equal (fun l => nth (length x) l nul) E). cbn beta in F.
        rewrite app_nth1 in F by lia. rewrite app_nth2, Nat.sub_diag in F by lia. cbn [nth] in F. rewrite <- F.
        apply nth_In. lia. }
    rewrite X. replace (S (length w) - 1) with (length w) by lia.
    assert (Y := Nver [] w eq_refl). cbn [length] in Y. rewrite Nat.add_0_r in Y. now rewrite Y.
Qed.
Lemma nevra_cases text :
  sr_rpm_package_parse_nevra text = Rejected \/
  exists n w r a, text = n ++ L "-" ++ w ++ L "-" ++ r ++ L "." ++ a /\ n <> [] /\ w <> [] /\ r <> [] /\
    ~ In "-"%char w /\ ~ In "-"%char r /\ ~ In "-"%char a /\ ~ In "."%char a.
Proof.
  pose proof (strrchr_cases text "-") as K1. pose proof (strrchr_cases text ".") as K2.
  unfold sr_rpm_package_parse_nevra.
  destruct (strrchr text ".") as [i|]; [|auto]. destruct (strrchr text "-") as [j|]; [|auto].
  destruct (i <=? j + 1) eqn:E; [auto|]. apply Nat.leb_gt in E.
  destruct K1 as (x & y & Ey & <- & Hy). destruct K2 as (u & a & Ea & <- & Ha).
  pose proof (strrchr_cases x "-") as K. destruct (strrchr x "-") as [k|].
  2:{ assert (Pd : previous_dash text (length x) = 0) by (rewrite Ey; now apply previous_dash_none). rewrite Pd. auto. }
  destruct K as (n & w & -> & <- & Hw).
  assert (Pd : previous_dash text (length (n ++ "-"%char :: w)) = length n) by (rewrite Ey; now apply previous_dash_app).
  cbv zeta. rewrite Pd.
  destruct (Nat.eqb_spec (length n) 0) as [E1|E1]; [auto|]. cbn [orb].
  destruct (Nat.eqb_spec (length (n ++ "-"%char :: w) - length n) 1) as [E2|E2]; [auto|].
  right.
  assert (exists r, u = (n ++ "-"%char :: w) ++ "-"%char :: r /\ y = r ++ "."%char :: a) as (r & -> & ->).
  { rewrite Ey in Ea. clear - Ea E Hy. set (p := n ++ "-"%char :: w) in *. clearbody p.
    revert u E Ea. induction p as [|c p IH]; intros [|d u] E Ea; cbn [length] in E; try lia.
    - cbn [app] in *. injection Ea as <- Ea. exists u. auto.
    - cbn [app] in *. injection Ea as <- Ea. destruct (IH u) as (r & -> & ->); [lia|assumption|]. exists r. auto. }
  exists n, w, r, a.
  split; [rewrite Ey; change (L "-") with ["-"%char]; change (L ".") with ["."%char]; now rewrite <- app_assoc|].
  split; [apply len_pos; lia|].
  rewrite app_length in E2. cbn [length] in E2. split; [apply len_pos; lia|].
  rewrite !app_length in E. cbn [length] in E. split; [apply len_pos; lia|].
  split; [assumption|]. split; [intros G; apply Hy, in_or_app; now left|]. split; [|assumption].
  intros G. apply Hy, in_or_app. right; now right.
Qed.

Lemma outcome_accepted n w r a n' k v r' a' : n <> [] -> w <> [] -> r <> [] ->
  ~ In "-"%char w -> ~ In "-"%char r -> ~ In "-"%char a -> ~ In "."%char a ->
  epoch_outcome n w r a = Accepted n' k v r' a' -> is_nevra (n ++ L "-" ++ w ++ L "-" ++ r ++ L "." ++ a) n' k v r' a'.
Proof.
  intros Hn Hw Hr Dw Dr Da Pa H. unfold epoch_outcome in H.
  pose proof (strchr_cases w ":") as K. destruct (strchr w ":") as [i|].
  - destruct K as (e & v0 & -> & <- & He).
    rewrite firstn_app, firstn_all, Nat.sub_diag in H. cbn [firstn] in H. rewrite app_nil_r in H.
    replace (skipn (S (length e)) (e ++ ":"%char :: v0)) with v0 in H
      by (change (e ++ ":"%char :: v0) with (e ++ [":"%char] ++ v0); rewrite app_assoc; symmetry; apply skipn_at; rewrite app_length; cbn [length]; lia).
    destruct (Nat.eqb_spec (length v0) 0) as [|L1]; [discriminate|]. destruct (Nat.eqb_spec (length e) 0) as [|L2]; [discriminate|].
    cbn [orb] in H.
    assert (De : ~ In "-"%char e) by (intros X; apply Dw, in_or_app; now left).
    assert (Dv : ~ In "-"%char v0) by (intros X; apply Dw, in_or_app; right; now right).
    assert (G := proj1 (strtoul_epoch e k De)).
    destruct (strtoul10 e) as [[[k0 range] rest]|]; [|discriminate].
    destruct (range || _ || _) eqn:E; [discriminate|]. injection H as <- <- <- <- <-.
    exists (Some e). split.
    + repeat split; auto; try (apply len_pos; lia).
      change (L ":") with [":"%char]. now rewrite <- !app_assoc.
    + cbn. apply G. now exists k0, range, rest.
  - injection H as <- <- <- <- <-. exists None. split; [|reflexivity]. repeat split; auto.
Qed.
Theorem nevra_accepted text n k v r a : sr_rpm_package_parse_nevra text = Accepted n k v r a <-> is_nevra text n k v r a.
Proof.
  split.
  - intros H. destruct (nevra_cases text) as [K|(n' & w & r' & a' & -> & Hn & Hw & Hr & Dw & Dr & Da & Pa)]; [congruence|].
    rewrite nevra_eval in H by assumption. apply len_pos in Hn, Hw, Hr.
    replace (Nat.eqb (length n') 0) with false in H by (symmetry; apply Nat.eqb_neq; lia).
    replace (Nat.eqb (length w) 0) with false in H by (symmetry; apply Nat.eqb_neq; lia).
    replace (Nat.eqb (length r') 0) with false in H by (symmetry; apply Nat.eqb_neq; lia).
    cbn [orb] in H. apply outcome_accepted; try apply len_pos; assumption.
  - intros (e & (E & Hn & Hv & Hr & He & Dv & Dr & Da & Pa) & Hk).
    destruct e as [e|].
    + destruct He as (Hne & De & Ce). cbn in Hk.
      assert (T : text = n ++ L "-" ++ (e ++ ":"%char :: v) ++ L "-" ++ r ++ L "." ++ a)
        by (rewrite E; change (L ":") with [":"%char]; now rewrite <- !app_assoc).
      assert (Dw : ~ In "-"%char (e ++ ":"%char :: v)) by (intros X; apply in_app_or in X as [X|[X|X]]; [auto|discriminate|auto]).
      rewrite T, nevra_eval by assumption.
      destruct n; [congruence|]. destruct r; [congruence|].
      replace (Nat.eqb (length (e ++ ":"%char :: v)) 0) with false by (rewrite app_length; symmetry; apply Nat.eqb_neq; cbn [length]; lia).
      cbn [length Nat.eqb orb]. unfold epoch_outcome. rewrite strchr_app by assumption.
      rewrite firstn_app, firstn_all, Nat.sub_diag. cbn [firstn]. rewrite app_nil_r.
      replace (skipn (S (length e)) (e ++ ":"%char :: v)) with v
        by (change (e ++ ":"%char :: v) with (e ++ [":"%char] ++ v); rewrite app_assoc; symmetry; apply skipn_at; rewrite app_length; cbn [length]; lia).
      destruct v; [congruence|]. destruct e as [|c e]; [congruence|]. cbn [length Nat.eqb orb].
      apply (strtoul_epoch (c :: e) k De) in Hk as (k0 & range & rest & -> & -> & ->). reflexivity.
    + cbn in Hk. subst k. rewrite E. cbn [app]. rewrite nevra_eval by assumption.
      destruct n; [congruence|]. destruct v; [congruence|]. destruct r; [congruence|]. cbn [length Nat.eqb orb].
      unfold epoch_outcome. now rewrite strchr_none.
Qed.
Theorem nevra_dangling text : sr_rpm_package_parse_nevra text = Dangling <-> bad_epoch text.
Proof.
  split.
  - intros H. destruct (nevra_cases text) as [K|(n & w & r & a & -> & Hn & Hw & Hr & Dw & Dr & Da & Pa)]; [congruence|].
    rewrite nevra_eval in H by assumption.
    destruct (_ || _ || _); [discriminate|]. unfold epoch_outcome in H.
    pose proof (strchr_cases w ":") as K. destruct (strchr w ":") as [i|]; [|discriminate].
    destruct K as (e & v & -> & <- & He).
    rewrite firstn_app, firstn_all, Nat.sub_diag in H. cbn [firstn] in H. rewrite app_nil_r in H.
    replace (skipn (S (length e)) (e ++ ":"%char :: v)) with v in H
      by (change (e ++ ":"%char :: v) with (e ++ [":"%char] ++ v); rewrite app_assoc; symmetry; apply skipn_at; rewrite app_length; cbn [length]; lia).
    destruct (Nat.eqb_spec (length v) 0) as [|L1]; [discriminate|]. destruct (Nat.eqb_spec (length e) 0) as [|L2]; [discriminate|].
    cbn [orb] in H.
    assert (De : ~ In "-"%char e) by (intros X; apply Dw, in_or_app; now left).
    assert (Dv : ~ In "-"%char v) by (intros X; apply Dw, in_or_app; right; now right).
    exists n, e, v, r, a. split.
    + repeat split; auto; try (apply len_pos; lia). change (L ":") with [":"%char]. now rewrite <- !app_assoc.
    + intros [k Hk]. apply (strtoul_epoch e k De) in Hk as (k0 & range & rest & X & Y & ->). rewrite X, Y in H. discriminate.
  - intros (n & e & v & r & a & (E & Hn & Hv & Hr & (Hne & De & Ce) & Dv & Dr & Da & Pa) & Hk).
    assert (T : text = n ++ L "-" ++ (e ++ ":"%char :: v) ++ L "-" ++ r ++ L "." ++ a)
      by (rewrite E; change (L ":") with [":"%char]; now rewrite <- !app_assoc).
    assert (Dw : ~ In "-"%char (e ++ ":"%char :: v)) by (intros X; apply in_app_or in X as [X|[X|X]]; [auto|discriminate|auto]).
    rewrite T, nevra_eval by assumption.
    destruct n; [congruence|]. destruct r; [congruence|].
    replace (Nat.eqb (length (e ++ ":"%char :: v)) 0) with false by (rewrite app_length; symmetry; apply Nat.eqb_neq; cbn [length]; lia).
    cbn [length Nat.eqb orb]. unfold epoch_outcome. rewrite strchr_app by assumption.
    rewrite firstn_app, firstn_all, Nat.sub_diag. cbn [firstn]. rewrite app_nil_r.
    replace (skipn (S (length e)) (e ++ ":"%char :: v)) with v
      by (change (e ++ ":"%char :: v) with (e ++ [":"%char] ++ v); rewrite app_assoc; symmetry; apply skipn_at; rewrite app_length; cbn [length]; lia).
    destruct v; [congruence|]. destruct e as [|c e]; [congruence|]. cbn [length Nat.eqb orb].
    destruct (strtoul10 (c :: e)) as [[[k0 range] rest]|] eqn:X; [|reflexivity].
    destruct (range || _ || _) eqn:Y; [reflexivity|]. elim Hk. exists k0. apply (strtoul_epoch (c :: e) k0 De). now exists k0, range, rest.
Qed.
