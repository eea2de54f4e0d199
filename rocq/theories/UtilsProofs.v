(** * Proofs about the text utilities. *)
From Verif Require Import Base UtilsModel UtilsSpec.
Open Scope Z_scope.

(** ** Basic facts *)

Lemma ascii_eqb_true (a b : ascii) : Ascii.eqb a b = true <-> a = b.
Proof. apply Ascii.eqb_eq. Qed.
Lemma ascii_eqb_false (a b : ascii) : Ascii.eqb a b = false <-> a <> b.
Proof. apply Ascii.eqb_neq. Qed.
Lemma ascii_eqb_refl a : Ascii.eqb a a = true.
Proof. apply Ascii.eqb_refl. Qed.

Lemma mem_In c l : mem c l = true <-> In c l.
Proof.
  unfold mem; rewrite existsb_exists; split.
  - intros (x & Hin & He); apply ascii_eqb_true in He; subst; exact Hin.
  - intros Hin; exists c; split; [exact Hin | apply ascii_eqb_refl].
Qed.
Lemma mem_false c l : mem c l = false <-> ~ In c l.
Proof. rewrite <- mem_In; destruct (mem c l); split; congruence. Qed.

Lemma str_eqb_eq a b : str_eqb a b = true <-> a = b.
Proof.
  revert b; induction a as [|x a IH]; destruct b as [|y b]; simpl; try (split; congruence).
  rewrite andb_true_iff, ascii_eqb_true, IH; split; [intros [-> ->]; reflexivity | intros H; inversion H; auto].
Qed.
Lemma str_eqb_refl a : str_eqb a a = true.
Proof. apply str_eqb_eq; reflexivity. Qed.
Lemma str_eqb_neq a b : str_eqb a b = false <-> a <> b.
Proof. rewrite <- str_eqb_eq; destruct (str_eqb a b); split; congruence. Qed.
Lemma opt_str_eqb_eq a b : opt_str_eqb a b = true <-> a = b.
Proof.
  destruct a, b; simpl; try (split; congruence).
  rewrite str_eqb_eq; split; congruence.
Qed.

Lemma starts_with_iff p s : starts_with p s = true <-> exists r, s = p ++ r.
Proof.
  revert s; induction p as [|a p IH]; intros s; simpl.
  - split; [intros _; exists s; reflexivity | reflexivity].
  - destruct s as [|b s]; [split; [discriminate | intros (r & Hr); discriminate]|].
    rewrite andb_true_iff, ascii_eqb_true, IH; split.
    + intros [-> (r & ->)]; exists r; reflexivity.
    + intros (r & Hr); inversion Hr; subst; split; [reflexivity | exists r; reflexivity].
Qed.

Lemma match_prefix_iff p s r : match_prefix p s = Some r <-> s = p ++ r.
Proof.
  revert s; induction p as [|a p IH]; intros s; simpl.
  - split; congruence.
  - destruct s as [|b s]; [split; discriminate|].
    destruct (Ascii.eqb b a) eqn:E.
    + apply ascii_eqb_true in E; subst; rewrite IH; split; [intros ->; reflexivity | congruence].
    + apply ascii_eqb_false in E; split; [discriminate | intros H; inversion H; congruence].
Qed.
Lemma match_prefix_none p s : match_prefix p s = None <-> starts_with p s = false.
Proof.
  revert s; induction p as [|a p IH]; intros s; simpl; [split; discriminate|].
  destruct s as [|b s]; [split; reflexivity|].
  rewrite (Ascii.eqb_sym a b).
  destruct (Ascii.eqb b a); simpl; [apply IH | split; reflexivity].
Qed.

Lemma span_app p s : fst (span p s) ++ snd (span p s) = s.
Proof.
  induction s as [|c s IH]; simpl; [reflexivity|].
  destruct (p c); [|reflexivity]. destruct (span p s); simpl in *; congruence.
Qed.
Lemma span_fst p s : Forall (fun c => p c = true) (fst (span p s)).
Proof.
  induction s as [|c s IH]; simpl; [constructor|].
  destruct (p c) eqn:E; [|constructor]. destruct (span p s); simpl in *; constructor; auto.
Qed.
Lemma span_snd p s : match snd (span p s) with [] => True | c :: _ => p c = false end.
Proof.
  induction s as [|c s IH]; simpl; [exact I|].
  destruct (p c) eqn:E; [|simpl; exact E]. destruct (span p s); simpl in *; exact IH.
Qed.
Lemma span_spec p s a b : span p s = (a, b) ->
  s = a ++ b /\ Forall (fun c => p c = true) a /\ match b with [] => True | c :: _ => p c = false end.
Proof.
  intros H. pose proof (span_app p s) as H1. pose proof (span_fst p s) as H2.
  pose proof (span_snd p s) as H3. rewrite H in *; simpl in *; auto.
Qed.
Lemma span_unique p a b :
  Forall (fun c => p c = true) a -> match b with [] => True | c :: _ => p c = false end ->
  span p (a ++ b) = (a, b).
Proof.
  induction a as [|x a IH]; simpl; intros Ha Hb.
  - destruct b as [|y b]; simpl; [reflexivity | rewrite Hb; reflexivity].
  - inversion Ha; subst. rewrite H1, IH; auto.
Qed.
Lemma span_all p a : Forall (fun c => p c = true) a -> span p a = (a, []).
Proof. intros H. rewrite <- (app_nil_r a) at 1. apply span_unique; auto. Qed.
Lemma span_ext p q s : (forall c, p c = q c) -> span p s = span q s.
Proof. intros H; induction s as [|c s IH]; simpl; [reflexivity|]. rewrite H, IH; reflexivity. Qed.

Lemma max_run_unique P s r1 t1 r2 t2 :
  max_run P s r1 t1 -> max_run P s r2 t2 -> r1 = r2 /\ t1 = t2.
Proof.
  revert s r2; induction r1 as [|x r1 IH]; intros s r2 (E1 & F1 & N1) (E2 & F2 & N2); subst s.
  - destruct r2 as [|y r2]; simpl in *; [auto|].
    subst t1. inversion F2; subst. contradiction.
  - destruct r2 as [|y r2]; simpl in *.
    + subst t2. inversion F1; subst. contradiction.
    + inversion E2; subst. inversion F1; inversion F2; subst.
      destruct (IH (r1 ++ t1) r2) as [-> ->]; repeat split; auto.
Qed.

Lemma span_max_run p P s a b : (forall c, p c = true <-> P c) ->
  span p s = (a, b) <-> max_run P s a b.
Proof.
  intros HP; split.
  - intros H; apply span_spec in H as (-> & Ha & Hb). split; [reflexivity|split].
    + eapply Forall_impl; [|exact Ha]. intros c; apply HP.
    + destruct b as [|c b]; [exact I|]. intros Hc; apply HP in Hc; congruence.
  - intros (-> & Ha & Hb). apply span_unique.
    + eapply Forall_impl; [|exact Ha]. intros c; apply HP.
    + destruct b as [|c b]; [exact I|]. destruct (p c) eqn:E; [apply HP in E; contradiction | reflexivity].
Qed.

(** ** Positions *)

Definition eat_all (lc : Z * Z) (s : str) : Z * Z := fold_left loc_eat_char s lc.

Lemma pos_of_app_char s line col c : pos_of s line col ->
  pos_of (s ++ [c]) (fst (loc_eat_char (line, col) c)) (snd (loc_eat_char (line, col) c)).
Proof.
  intros (b & l & -> & Hl & Hb & -> & ->).
  unfold loc_eat_char; simpl. destruct (Ascii.eqb c nl) eqn:E; simpl.
  - apply ascii_eqb_true in E; subst c.
    exists ((b ++ l) ++ [nl]), []. rewrite app_nil_r. repeat split; auto.
    + right; eexists; reflexivity.
    + rewrite (count_occ_app _ (b ++ l)); cbn [count_occ].
      destruct (ascii_dec nl nl); [lia | congruence].
  - apply ascii_eqb_false in E. exists b, (l ++ [c]). repeat split.
    + rewrite app_assoc; reflexivity.
    + rewrite in_app_iff; simpl. intros [H|[H|[]]]; auto.
    + exact Hb.
    + rewrite (count_occ_app _ (b ++ l)); cbn [count_occ].
      destruct (ascii_dec c nl); [congruence | lia].
    + rewrite app_length; simpl; lia.
Qed.

Lemma eat_all_app lc a b : eat_all lc (a ++ b) = eat_all (eat_all lc a) b.
Proof. apply fold_left_app. Qed.

Lemma eat_all_pos s : pos_of s (fst (eat_all (1, 0) s)) (snd (eat_all (1, 0) s)).
Proof.
  induction s as [|c s IH] using rev_ind.
  - exists [], []. simpl. repeat split; auto.
  - rewrite eat_all_app. simpl.
    destruct (eat_all (1, 0) s) as [li co]. apply pos_of_app_char; exact IH.
Qed.

Lemma pos_of_last_unique (b1 l1 b2 l2 : str) : b1 ++ l1 = b2 ++ l2 -> ~ In nl l1 -> ~ In nl l2 ->
  (b1 = [] \/ exists b, b1 = b ++ [nl]) -> (b2 = [] \/ exists b, b2 = b ++ [nl]) -> l1 = l2.
Proof.
  intros He H1 H2 Hb1 Hb2.
  assert (G : forall (b1 l1 b2 l2 : str), b1 ++ l1 = b2 ++ l2 -> ~ In nl l1 ->
     (b2 = [] \/ exists b, b2 = b ++ [nl]) -> (length b2 <= length b1)%nat).
  { clear. intros b1 l1 b2 l2 He H1 Hb. destruct Hb as [-> | [b ->]]; [simpl; lia|].
    destruct (le_lt_dec (length (b ++ [nl])) (length b1)) as [|Hlt]; [assumption|exfalso].
    apply H1. rewrite app_length in Hlt; simpl in Hlt.
    assert (Hn : nth_error (b1 ++ l1) (length b) = Some nl).
    { rewrite He, <- app_assoc, nth_error_app2, Nat.sub_diag by lia. reflexivity. }
    rewrite nth_error_app2 in Hn by lia. eapply nth_error_In; exact Hn. }
  assert (length b1 = length b2).
  { apply Nat.le_antisymm; [eapply (G b2 l2 b1 l1) | eapply (G b1 l1 b2 l2)]; eauto. }
  clear - H He; revert b2 H He; induction b1 as [|x b1 IH]; intros [|y b2] Hl He; simpl in *; try lia; auto.
  inversion He; subst. apply (IH b2); auto.
Qed.

Lemma pos_of_fun s l1 c1 l2 c2 : pos_of s l1 c1 -> pos_of s l2 c2 -> l1 = l2 /\ c1 = c2.
Proof.
  intros (b1 & t1 & E1 & N1 & B1 & -> & ->) (b2 & t2 & E2 & N2 & B2 & -> & ->).
  split; [reflexivity|]. rewrite (pos_of_last_unique b1 t1 b2 t2); auto; congruence.
Qed.

Lemma pos_of_eat_all s line col : pos_of s line col -> eat_all (1, 0) s = (line, col).
Proof.
  intros H. destruct (pos_of_fun _ _ _ _ _ (eat_all_pos s) H) as [H1 H2].
  destruct (eat_all (1,0) s); simpl in *; congruence.
Qed.

Lemma eat_all_fst lc s : fst (eat_all lc s) = fst lc + Z.of_nat (count_occ ascii_dec s nl).
Proof.
  revert lc; induction s as [|c s IH]; intros lc; cbn [eat_all fold_left count_occ]; [lia|].
  fold (eat_all (loc_eat_char lc c) s). rewrite IH. unfold loc_eat_char.
  destruct (Ascii.eqb c nl) eqn:E.
  - apply ascii_eqb_true in E; subst. destruct (ascii_dec nl nl); [|congruence]. simpl; lia.
  - apply ascii_eqb_false in E. destruct (ascii_dec c nl); [congruence|]. simpl; lia.
Qed.

Lemma eat_all_add lc s : eat_all lc s = loc_add lc (eat_all (1, 0) s).
Proof.
  induction s as [|c s IH] using rev_ind.
  - unfold loc_add; simpl. destruct lc; simpl; f_equal; lia.
  - rewrite !eat_all_app. simpl. rewrite IH. clear IH.
    assert (H : 1 <= fst (eat_all (1, 0) s)) by (rewrite eat_all_fst; simpl; lia).
    destruct (eat_all (1, 0) s) as [l c0]. destruct lc as [l0 k0]. simpl in H.
    unfold loc_eat_char, loc_add. cbn [fst snd].
    destruct (Ascii.eqb c nl); cbn [fst snd].
    + destruct (1 <? l) eqn:E; destruct (1 <? l + 1) eqn:E2; cbn [fst snd]; f_equal; lia.
    + destruct (1 <? l) eqn:E; cbn [fst snd]; f_equal; lia.
Qed.

Lemma loc_add_pos a la ca b lb cb : pos_of a la ca -> pos_of b lb cb ->
  pos_of (a ++ b) (fst (loc_add (la, ca) (lb, cb))) (snd (loc_add (la, ca) (lb, cb))).
Proof.
  intros Ha Hb. apply pos_of_eat_all in Ha, Hb. rewrite <- Ha, <- Hb, <- eat_all_add, <- eat_all_app.
  apply eat_all_pos.
Qed.

Lemma loc_cmp_lex a b : (loc_cmp a b < 0 <-> fst a < fst b \/ fst a = fst b /\ snd a < snd b) /\
  (loc_cmp a b = 0 <-> a = b).
Proof.
  destruct a as [x y], b as [u v]; unfold loc_cmp; cbn [fst snd].
  destruct (x - u =? 0) eqn:E1; cbn [negb]; [destruct (y - v =? 0) eqn:E2; cbn [negb]|].
  - assert (x = u) by lia. assert (y = v) by lia. subst. split; [lia | split; auto].
  - assert (x = u) by lia. subst. split; [lia|]. split; [lia | intros H; inversion H; lia].
  - split; [lia|]. split; [lia | intros H; inversion H; lia].
Qed.

Lemma strchr_loc_some s c lc post lc' :
  strchr_loc s c lc = Some (post, lc') <->
  exists pre, s = pre ++ c :: skipn 1 post /\ post = c :: skipn 1 post /\ ~ In c pre /\ lc' = eat_all lc pre.
Proof.
  revert lc; induction s as [|x s IH]; intros lc; simpl.
  - split; [discriminate | intros (pre & H & _); destruct pre; discriminate].
  - destruct (Ascii.eqb x c) eqn:E.
    + apply ascii_eqb_true in E; subst x. split.
      * intros H; inversion H; subst. exists []. simpl. auto.
      * intros (pre & H & Hp & Hn & ->). destruct pre as [|y pre]; simpl in *.
        { rewrite H, <- Hp. reflexivity. }
        { inversion H; subst. exfalso; apply Hn; left; reflexivity. }
    + apply ascii_eqb_false in E. rewrite IH. split.
      * intros (pre & -> & Hp & Hn & ->). exists (x :: pre). simpl. repeat split; auto.
        intros [H|H]; auto.
      * intros (pre & H & Hp & Hn & ->). destruct pre as [|y pre]; simpl in *.
        { inversion H; congruence. }
        { inversion H; subst. exists pre. repeat split; auto. }
Qed.
Lemma strchr_loc_none s c lc : strchr_loc s c lc = None <-> ~ In c s.
Proof.
  revert lc; induction s as [|x s IH]; intros lc; simpl; [tauto|].
  destruct (Ascii.eqb x c) eqn:E.
  - apply ascii_eqb_true in E. split; [discriminate | tauto].
  - apply ascii_eqb_false in E. rewrite IH. tauto.
Qed.

Lemma strchr_location_correct s c :
  match sr_strchr_location s c with
  | Some (post, (line, col)) =>
      exists pre, first_split (fun t => exists r, t = c :: r) s pre post /\ pos_of pre line col
  | None => ~ In c s
  end.
Proof.
  unfold sr_strchr_location. destruct (strchr_loc s c (1, 0)) as [[post [line col]]|] eqn:E.
  - apply strchr_loc_some in E as (pre & -> & Hp & Hn & Hlc). exists pre. split.
    + split; [rewrite Hp; reflexivity | split; [eauto|]].
      intros pre' post' He (r & ->).
      destruct (le_lt_dec (length pre) (length pre')) as [|Hlt]; [assumption|exfalso].
      apply Hn. assert (Hx : nth_error (pre ++ c :: skipn 1 post) (length pre') = Some c).
      { rewrite He, nth_error_app2, Nat.sub_diag by lia. reflexivity. }
      rewrite nth_error_app1 in Hx by lia. eapply nth_error_In; exact Hx.
    + pose proof (eat_all_pos pre) as H. rewrite <- Hlc in H. exact H.
  - apply strchr_loc_none in E. exact E.
Qed.

Lemma strstr_loop_spec fuel : forall pre0 hay needle, needle <> [] -> (length hay < fuel)%nat ->
  (forall p q, pre0 ++ hay = p ++ q -> (length p < length pre0)%nat -> starts_with needle q = false) ->
  match strstr_loop fuel hay needle (eat_all (1, 0) pre0) with
  | Ok (post, lc) => exists pre, pre0 ++ hay = pre ++ post /\ starts_with needle post = true /\
        (forall p q, pre0 ++ hay = p ++ q -> (length p < length pre)%nat -> starts_with needle q = false) /\
        lc = eat_all (1, 0) pre
  | Fail => forall p q, pre0 ++ hay = p ++ q -> starts_with needle q = false
  | UB => False
  end.
Proof.
  induction fuel as [|f IH]; intros pre0 hay needle Hne Hf Hpre; [lia|]. cbn [strstr_loop].
  destruct (sr_strchr_location hay (cur needle)) as [[h clc]|] eqn:E.
  - unfold sr_strchr_location in E. apply strchr_loc_some in E as (pre & Hh & Hp & Hn & ->).
    rewrite <- eat_all_add, <- eat_all_app.
    assert (Hmid : forall p q, pre0 ++ hay = p ++ q -> (length p < length (pre0 ++ pre))%nat ->
        starts_with needle q = false).
    { intros p q He Hlt. destruct (le_lt_dec (length pre0) (length p)) as [Hge|Hlt0]; [|eauto].
      assert (Hx : nth_error (pre0 ++ hay) (length p) = nth_error q 0).
      { rewrite He, nth_error_app2, Nat.sub_diag by lia. reflexivity. }
      rewrite app_length in Hlt. rewrite nth_error_app2 in Hx by lia.
      rewrite Hh, nth_error_app1 in Hx by lia.
      destruct needle as [|a needle]; [congruence|]. destruct q as [|b q]; [reflexivity|].
      simpl in *. destruct (Ascii.eqb a b) eqn:Eab; [|reflexivity].
      apply ascii_eqb_true in Eab; subst b. exfalso; apply Hn. eapply nth_error_In; exact Hx. }
    destruct (starts_with needle h) eqn:Es.
    + exists (pre0 ++ pre). rewrite Hh. split; [rewrite <- app_assoc, <- Hp; reflexivity|].
      split; [exact Es|]. split; [rewrite <- Hh; exact Hmid | reflexivity].
    + destruct h as [|x h']; [discriminate|]. simpl in Hh. inversion Hp; subst x.
      assert (Heq : eat_all (1, 0) (pre0 ++ pre ++ [cur needle]) = loc_eat_char (eat_all (1, 0) (pre0 ++ pre)) (cur needle)).
      { rewrite app_assoc, eat_all_app. reflexivity. }
      rewrite <- Heq.
      specialize (IH (pre0 ++ pre ++ [cur needle]) h' needle Hne).
      assert (Ht : (pre0 ++ pre ++ [cur needle]) ++ h' = pre0 ++ hay).
      { rewrite Hh, <- !app_assoc. reflexivity. }
      rewrite Ht in IH. apply IH.
      * rewrite Hh, app_length in Hf. simpl in Hf. lia.
      * intros p q He Hlt. rewrite app_assoc, app_length in Hlt. simpl in Hlt.
        destruct (Nat.eq_dec (length p) (length (pre0 ++ pre))) as [Hep|Hep].
        { assert (Hpq : pre0 ++ hay = (pre0 ++ pre) ++ cur needle :: h') by (rewrite Hh, <- app_assoc; reflexivity).
          rewrite He in Hpq. apply (f_equal (skipn (length p))) in Hpq.
          rewrite skipn_app, skipn_all, Nat.sub_diag in Hpq. rewrite Hep in Hpq.
          rewrite skipn_app, skipn_all, Nat.sub_diag in Hpq. simpl in Hpq. subst q. exact Es. }
        { apply (Hmid p q He). lia. }
  - unfold sr_strchr_location in E. apply strchr_loc_none in E. intros p q He.
    destruct (le_lt_dec (length pre0) (length p)) as [Hge|Hlt0]; [|eauto].
    destruct needle as [|a needle]; [congruence|]. destruct q as [|b q]; [reflexivity|].
    simpl. destruct (Ascii.eqb a b) eqn:Eab; [|reflexivity]. apply ascii_eqb_true in Eab; subst b.
    exfalso; apply E. simpl.
    assert (Hx : nth_error (pre0 ++ hay) (length p) = Some a).
    { rewrite He, nth_error_app2, Nat.sub_diag by lia. reflexivity. }
    rewrite nth_error_app2 in Hx by lia. eapply nth_error_In; exact Hx.
Qed.

Lemma strstr_location_correct hay needle :
  match sr_strstr_location hay needle with
  | Ok (post, (line, col)) =>
      exists pre, first_split (fun t => exists r, t = needle ++ r) hay pre post /\ pos_of pre line col
  | Fail => forall p r, hay <> p ++ needle ++ r
  | UB => False
  end.
Proof.
  unfold sr_strstr_location. destruct needle as [|a n] eqn:En.
  - exists []. split; [|exists [], []; simpl; repeat split; auto].
    split; [reflexivity|]. split; [exists hay; reflexivity | intros; simpl; lia].
  - rewrite <- En. assert (Hne : needle <> []) by (rewrite En; discriminate). clear En a n.
    pose proof (strstr_loop_spec (S (length hay)) [] hay needle Hne (Nat.lt_succ_diag_r _)) as H.
    cbn [eat_all fold_left app] in H.
    assert (H0 : forall p q, hay = p ++ q -> (length p < length (@nil ascii))%nat -> starts_with needle q = false).
    { intros p q _ Hlt; simpl in Hlt; lia. }
    specialize (H H0).
    destruct (strstr_loop _ _ _ _) as [[post [line col]]| |] eqn:E.
    + destruct H as (pre & He & Hs & Hmin & Hlc). exists pre. split.
      * split; [exact He|]. split; [apply starts_with_iff; exact Hs|].
        intros p q He' Hq. apply starts_with_iff in Hq.
        destruct (le_lt_dec (length pre) (length p)) as [|Hlt]; [assumption|].
        rewrite (Hmin p q He' Hlt) in Hq. discriminate.
      * pose proof (eat_all_pos pre) as Hpos. rewrite <- Hlc in Hpos. exact Hpos.
    + intros p r He. specialize (H p (needle ++ r) He).
      assert (starts_with needle (needle ++ r) = true) by (apply starts_with_iff; eauto). congruence.
    + exact H.
Qed.

Lemma strspn_loc_spec s acc n lc :
  strspn_loc s acc n lc = (let run := fst (span (fun c => mem c acc) s) in ((n + length run)%nat, eat_all lc run)).
Proof.
  revert n lc; induction s as [|x s IH]; intros n lc; simpl; [rewrite Nat.add_0_r; reflexivity|].
  destruct (mem x acc); [|simpl; rewrite Nat.add_0_r; reflexivity].
  rewrite IH. destruct (span (fun c => mem c acc) s); simpl. f_equal; lia.
Qed.

Lemma skip_span_location_correct s chars n line col rest :
  sr_skip_char_span_location s chars = (n, (line, col), rest) ->
  exists run, max_run (fun c => In c chars) s run rest /\ n = length run /\ pos_of run line col.
Proof.
  unfold sr_skip_char_span_location, sr_strspn_location. rewrite strspn_loc_spec. simpl.
  destruct (span (fun c => mem c chars) s) as [run r] eqn:E. simpl.
  destruct (eat_all (1, 0) run) as [l c] eqn:Ee. intros H; inversion H; subst. exists run.
  apply (span_max_run _ (fun c => In c chars)) in E; [|intros c0; apply mem_In].
  split; [|split; [reflexivity|]].
  - destruct E as (-> & Hr & Hn). rewrite skipn_app, skipn_all, Nat.sub_diag. simpl. split; auto.
  - pose proof (eat_all_pos run) as Hp. rewrite Ee in Hp. exact Hp.
Qed.

Lemma next_line_correct s line col ok rest line' col' pre0 :
  pos_of pre0 line col ->
  sr_skip_to_next_line_location s (line, col) = (ok, rest, (line', col')) ->
  exists skipped, s = skipped ++ rest /\ pos_of (pre0 ++ skipped) line' col' /\
    (if ok then exists l, skipped = l ++ [nl] /\ ~ In nl l else ~ In nl skipped /\ rest = []).
Proof.
  intros Hp. unfold sr_skip_to_next_line_location, sr_skip_char_cspan.
  destruct (span _ s) as [a b] eqn:E. apply span_spec in E as (-> & Ha & Hb).
  assert (Hna : ~ In nl a).
  { intros Hin. rewrite Forall_forall in Ha. specialize (Ha _ Hin). simpl in Ha. discriminate. }
  assert (Hea : forall lc, eat_all lc a = (fst lc, snd lc + Z.of_nat (length a))).
  { clear - Hna. induction a as [|x a IH]; intros lc; simpl.
    - destruct lc; simpl; f_equal; lia.
    - change (eat_all (loc_eat_char lc x) a = (fst lc, snd lc + Z.pos (Pos.of_succ_nat (length a)))).
      rewrite IH by (intros H; apply Hna; right; exact H). unfold loc_eat_char.
      destruct (Ascii.eqb x nl) eqn:E; [apply ascii_eqb_true in E; subst; exfalso; apply Hna; left; reflexivity|].
      simpl; f_equal; lia. }
  apply pos_of_eat_all in Hp.
  destruct b as [|x b]; cbn [fst snd].
  - intros H; inversion H; subst. exists a. split; [reflexivity|]. split; [|split; auto].
    pose proof (eat_all_pos (pre0 ++ a)) as Hpos. rewrite eat_all_app, Hp, Hea in Hpos. exact Hpos.
  - simpl in Hb. destruct (Ascii.eqb x nl) eqn:Ex; [|simpl in Hb; discriminate].
    apply ascii_eqb_true in Ex; subst x. intros H; inversion H; subst. exists (a ++ [nl]). split; [rewrite <- app_assoc; reflexivity|].
    split; [|eauto].
    pose proof (eat_all_pos (pre0 ++ a ++ [nl])) as Hpos. rewrite !eat_all_app, Hp, Hea in Hpos. exact Hpos.
Qed.

(** ** Integer parsing *)

Lemma digit_val_dec c d : decimal_digit c = Some d -> digit_val c = d /\ In c digits10.
Proof.
  destruct c as [[] [] [] [] [] [] [] []]; simpl; intros H; try discriminate H;
    injection H as <-; (split; [reflexivity | unfold digits10, L; simpl; tauto]).
Qed.
Lemma digits10_dec c : In c digits10 -> exists d, decimal_digit c = Some d.
Proof. unfold digits10, L; simpl. intros H; repeat (destruct H as [<-|H]; [eexists; reflexivity|]); destruct H. Qed.
Lemma digit_val_hex c d : hexadecimal_digit c = Some d -> digit_val c = d /\ In c hexdigits.
Proof.
  destruct c as [[] [] [] [] [] [] [] []]; simpl; intros H; try discriminate H;
    injection H as <-; (split; [reflexivity | unfold hexdigits, L; simpl; tauto]).
Qed.
Lemma hexdigits_hex c : In c hexdigits -> exists d, hexadecimal_digit c = Some d.
Proof. unfold hexdigits, L; simpl. intros H; repeat (destruct H as [<-|H]; [eexists; reflexivity|]); destruct H. Qed.

Section Numerals.
  Variable digit : ascii -> option N.
  Variable base : N.
  Variable set : str.
  Hypothesis Hval : forall c d, digit c = Some d -> digit_val c = d /\ In c set.
  Hypothesis Hset : forall c, In c set -> exists d, digit c = Some d.

  Definition horner (s : str) : N := fold_left (fun acc c => (acc * base + digit_val c)%N) s 0%N.

  Lemma numeral_horner s v : numeral digit base s v -> v = horner s /\ s <> [] /\ Forall (fun c => In c set) s.
  Proof.
    unfold horner. induction 1 as [c d Hd | s v c d Hn IH Hd].
    - destruct (Hval _ _ Hd) as [<- Hin]. simpl. split; [lia|]. split; [discriminate | constructor; auto].
    - destruct IH as (-> & Hne & Hf). destruct (Hval _ _ Hd) as [<- Hin].
      rewrite fold_left_app. simpl. split; [reflexivity|].
      split; [intros H; apply app_eq_nil in H as [_ H]; discriminate|].
      apply Forall_app; split; auto.
  Qed.

  Lemma horner_numeral s : s <> [] -> Forall (fun c => In c set) s -> numeral digit base s (horner s).
  Proof.
    induction s as [|c s IH] using rev_ind; intros Hne Hf; [congruence|].
    apply Forall_app in Hf as [Hs Hc]. inversion Hc as [|? ? Hin _]; subst.
    destruct (Hset _ Hin) as [d Hd]. destruct (Hval _ _ Hd) as [Hv _].
    destruct s as [|x s].
    - unfold horner; simpl. rewrite Hv. constructor. exact Hd.
    - unfold horner. rewrite fold_left_app. simpl fold_left at 1. rewrite Hv.
      constructor; [apply IH; [discriminate | exact Hs] | exact Hd].
  Qed.

  Lemma in_set_iff c : is_numeral_char digit c <-> In c set.
  Proof.
    unfold is_numeral_char; split.
    - destruct (digit c) as [d|] eqn:E; [|congruence]. intros _; apply (Hval _ _ E).
    - intros Hin. destruct (Hset _ Hin) as [d ->]. discriminate.
  Qed.

  Lemma parse_span_cases s :
    match sr_parse_char_span set s with
    | Some (run, rest) => max_run (is_numeral_char digit) s run rest /\ numeral digit base run (horner run)
    | None => match s with [] => True | c :: _ => ~ is_numeral_char digit c end
    end.
  Proof.
    unfold sr_parse_char_span. destruct (span (fun c => mem c set) s) as [a b] eqn:E.
    apply (span_max_run _ (is_numeral_char digit)) in E.
    2: { intros c; rewrite in_set_iff; apply mem_In. }
    destruct a as [|x a].
    - destruct E as (E & _ & Hn). simpl in E; subst b. exact Hn.
    - split; [exact E|]. destruct E as (_ & Hr & _). apply horner_numeral; [discriminate|].
      eapply Forall_impl; [|exact Hr]. intros c; apply in_set_iff.
  Qed.

  Lemma numeral_fun s v w : numeral digit base s v -> numeral digit base s w -> v = w.
  Proof. intros Hv Hw. apply numeral_horner in Hv as [-> _], Hw as [-> _]; reflexivity. Qed.
End Numerals.

(** Common shape of the four parsers: [limit] is the acceptance test on the value. *)
Definition parses_number (digit : ascii -> option N) (base : N) (accept : N -> Prop)
    (parse : str -> option (N * nat * str)) : Prop :=
  forall s,
    match parse s with
    | Some (v, n, rest) => exists run, max_run (is_numeral_char digit) s run rest /\
        numeral digit base run v /\ n = length run /\ accept v
    | None => forall run rest v, max_run (is_numeral_char digit) s run rest ->
        numeral digit base run v -> ~ accept v
    end.

Lemma parse_uint32_correct : parses_number decimal_digit 10 (fun v => v <= 4294967295)%N sr_parse_uint32.
Proof.
  intros s. unfold sr_parse_uint32.
  pose proof (parse_span_cases decimal_digit 10 digits10 digit_val_dec digits10_dec s) as H.
  destruct (sr_parse_char_span digits10 s) as [[run rest]|].
  - destruct H as [Hm Hnum]. unfold strtou. fold (horner 10 run).
    assert (G : forall run' rest' v, max_run (is_numeral_char decimal_digit) s run' rest' ->
         numeral decimal_digit 10 run' v -> v = horner 10 run).
    { intros run' rest' v Hm' Hv. destruct (max_run_unique _ _ _ _ _ _ Hm Hm') as [<- _].
      eapply numeral_fun; [exact digit_val_dec | exact Hv | exact Hnum]. }
    destruct (u64max <? horner 10 run)%N eqn:E1.
    + intros run' rest' v Hm' Hv. rewrite (G _ _ _ Hm' Hv). apply N.ltb_lt in E1. unfold u64max in E1. lia.
    + destruct (u32max <? horner 10 run)%N eqn:E2.
      * intros run' rest' v Hm' Hv. rewrite (G _ _ _ Hm' Hv). apply N.ltb_lt in E2. unfold u32max in E2. lia.
      * exists run. repeat split; try apply Hm; auto. apply N.ltb_ge in E2. exact E2.
  - intros run rest v (E & Hr & _) Hnum.
    apply (numeral_horner _ _ _ digit_val_dec) in Hnum as (_ & Hne & _).
    destruct run as [|x run]; [congruence|]. subst s. simpl in H. inversion Hr; contradiction.
Qed.

Lemma parse_uint64_correct : parses_number decimal_digit 10 (fun v => v < 18446744073709551615)%N sr_parse_uint64.
Proof.
  intros s. unfold sr_parse_uint64.
  pose proof (parse_span_cases decimal_digit 10 digits10 digit_val_dec digits10_dec s) as H.
  destruct (sr_parse_char_span digits10 s) as [[run rest]|].
  - destruct H as [Hm Hnum]. unfold strtou. fold (horner 10 run).
    assert (G : forall run' rest' v, max_run (is_numeral_char decimal_digit) s run' rest' ->
         numeral decimal_digit 10 run' v -> v = horner 10 run).
    { intros run' rest' v Hm' Hv. destruct (max_run_unique _ _ _ _ _ _ Hm Hm') as [<- _].
      eapply numeral_fun; [exact digit_val_dec | exact Hv | exact Hnum]. }
    destruct (u64max <? horner 10 run)%N eqn:E1.
    + intros run' rest' v Hm' Hv. rewrite (G _ _ _ Hm' Hv). apply N.ltb_lt in E1. unfold u64max in E1. lia.
    + apply N.ltb_ge in E1. unfold u64max in *. destruct (horner 10 run =? 18446744073709551615)%N eqn:E2.
      * intros run' rest' v Hm' Hv. rewrite (G _ _ _ Hm' Hv). apply N.eqb_eq in E2. lia.
      * exists run. repeat split; try apply Hm; auto. apply N.eqb_neq in E2. lia.
  - intros run rest v (E & Hr & _) Hnum.
    apply (numeral_horner _ _ _ digit_val_dec) in Hnum as (_ & Hne & _).
    destruct run as [|x run]; [congruence|]. subst s. simpl in H. inversion Hr; contradiction.
Qed.

Lemma parse_hex_correct : parses_number hexadecimal_digit 16 (fun v => v <= 18446744073709551615)%N sr_parse_hexadecimal_uint64.
Proof.
  intros s. unfold sr_parse_hexadecimal_uint64.
  pose proof (parse_span_cases hexadecimal_digit 16 hexdigits digit_val_hex hexdigits_hex s) as H.
  destruct (sr_parse_char_span hexdigits s) as [[run rest]|].
  - destruct H as [Hm Hnum]. unfold strtou. fold (horner 16 run).
    assert (G : forall run' rest' v, max_run (is_numeral_char hexadecimal_digit) s run' rest' ->
         numeral hexadecimal_digit 16 run' v -> v = horner 16 run).
    { intros run' rest' v Hm' Hv. destruct (max_run_unique _ _ _ _ _ _ Hm Hm') as [<- _].
      eapply numeral_fun; [exact digit_val_hex | exact Hv | exact Hnum]. }
    destruct (u64max <? horner 16 run)%N eqn:E1.
    + intros run' rest' v Hm' Hv. rewrite (G _ _ _ Hm' Hv). apply N.ltb_lt in E1. unfold u64max in E1. lia.
    + exists run. repeat split; try apply Hm; auto. apply N.ltb_ge in E1. exact E1.
  - intros run rest v (E & Hr & _) Hnum.
    apply (numeral_horner _ _ _ digit_val_hex) in Hnum as (_ & Hne & _).
    destruct run as [|x run]; [congruence|]. subst s. simpl in H. inversion Hr; contradiction.
Qed.

Lemma parse_0xhex_correct s :
  match sr_parse_hexadecimal_0xuint64 s with
  | Some (v, n, rest) => exists run, s = L "0x" ++ run ++ rest /\
       max_run (is_numeral_char hexadecimal_digit) (run ++ rest) run rest /\
       numeral hexadecimal_digit 16 run v /\ n = (2 + length run)%nat /\ (v <= 18446744073709551615)%N
  | None => forall t run rest v, s = L "0x" ++ t -> max_run (is_numeral_char hexadecimal_digit) t run rest ->
       numeral hexadecimal_digit 16 run v -> ~ (v <= 18446744073709551615)%N
  end.
Proof.
  unfold sr_parse_hexadecimal_0xuint64, sr_skip_char.
  destruct s as [|c0 s]; [intros t run rest v H; discriminate|].
  destruct (Ascii.eqb c0 "0") eqn:E0; cbn [negb].
  2: { intros t run rest v H. inversion H; subst. rewrite ascii_eqb_refl in E0. discriminate. }
  apply ascii_eqb_true in E0; subst c0.
  destruct s as [|cx s]; cbn [negb]; [intros t run rest v H; discriminate|].
  destruct (Ascii.eqb cx "x") eqn:Ex; cbn [negb].
  2: { intros t run rest v H. inversion H; subst. rewrite ascii_eqb_refl in Ex. discriminate. }
  apply ascii_eqb_true in Ex; subst cx.
  pose proof (parse_hex_correct s) as H.
  destruct (sr_parse_hexadecimal_uint64 s) as [[[v n] rest]|].
  - destruct H as (run & Hm & Hn & -> & Hle). exists run. destruct Hm as (-> & Hf & Hr).
    repeat split; auto.
  - intros t run rest v He Hm Hn. inversion He; subst. eapply H; eauto.
Qed.

(** ** Cursor contracts *)

Lemma skip_char_contract c s b r : sr_skip_char c s = (b, r) ->
  if b then s = c :: r else r = s /\ (s = [] \/ exists x t, s = x :: t /\ x <> c).
Proof.
  unfold sr_skip_char. destruct s as [|x s]; [intros H; inversion H; auto|].
  destruct (Ascii.eqb x c) eqn:E; intros H; inversion H; subst.
  - apply ascii_eqb_true in E; subst; reflexivity.
  - apply ascii_eqb_false in E. split; [reflexivity | right; eauto].
Qed.

Lemma skip_sequence_contract c s n r : sr_skip_char_sequence c s = (n, r) ->
  max_run (fun x => x = c) s (repeat c n) r.
Proof.
  revert n r; induction s as [|x s IH]; intros n r; simpl.
  - intros H; inversion H; subst. repeat split; auto. constructor.
  - destruct (Ascii.eqb x c) eqn:E.
    + apply ascii_eqb_true in E; subst x. destruct (sr_skip_char_sequence c s) as [m t] eqn:Es.
      intros H; inversion H; subst. destruct (IH _ _ eq_refl) as (-> & Hf & Hn).
      split; [reflexivity|]. split; [simpl; constructor; auto | exact Hn].
    + apply ascii_eqb_false in E. intros H; inversion H; subst. repeat split; auto. constructor.
Qed.

Lemma skip_span_contract chars s n r : sr_skip_char_span chars s = (n, r) ->
  exists run, max_run (fun c => In c chars) s run r /\ n = length run.
Proof.
  unfold sr_skip_char_span. destruct (span _ s) as [a b] eqn:E. intros H; inversion H; subst.
  exists a. split; [|reflexivity]. apply (span_max_run (fun c => mem c chars)); [intros c; apply mem_In | exact E].
Qed.

Lemma skip_cspan_contract reject s n r : sr_skip_char_cspan reject s = (n, r) ->
  exists run, max_run (fun c => ~ In c reject) s run r /\ n = length run.
Proof.
  unfold sr_skip_char_cspan. destruct (span _ s) as [a b] eqn:E. intros H; inversion H; subst.
  exists a. split; [|reflexivity]. apply (span_max_run (fun c => negb (mem c reject))); [|exact E].
  intros c. rewrite negb_true_iff. apply mem_false.
Qed.

Lemma parse_span_contract accept s :
  match sr_parse_char_span accept s with
  | Some (run, r) => max_run (fun c => In c accept) s run r /\ run <> []
  | None => max_run (fun c => In c accept) s [] s
  end.
Proof.
  unfold sr_parse_char_span. destruct (span _ s) as [a b] eqn:E.
  apply (span_max_run _ (fun c => In c accept)) in E; [|intros c; apply mem_In].
  destruct a; [|split; [exact E | discriminate]].
  destruct E as (E & H1 & H2); simpl in E; subst b. repeat split; auto.
Qed.

Lemma parse_cspan_contract reject s :
  match sr_parse_char_cspan reject s with
  | Some (run, r) => max_run (fun c => ~ In c reject) s run r /\ run <> []
  | None => max_run (fun c => ~ In c reject) s [] s
  end.
Proof.
  unfold sr_parse_char_cspan. destruct (span _ s) as [a b] eqn:E.
  apply (span_max_run _ (fun c => ~ In c reject)) in E.
  2: { intros c. rewrite negb_true_iff. apply mem_false. }
  destruct a; [|split; [exact E | discriminate]].
  destruct E as (E & H1 & H2); simpl in E; subst b. repeat split; auto.
Qed.

Lemma skip_string_contract string s n r : sr_skip_string string s = (n, r) ->
  (s = string ++ r /\ n = length string) \/
  (r = s /\ n = O /\ forall t, s <> string ++ t).
Proof.
  unfold sr_skip_string. destruct (match_prefix string s) as [t|] eqn:E; intros H; inversion H; subst.
  - apply match_prefix_iff in E; subst. left; split; [reflexivity|]. rewrite app_length; lia.
  - right; repeat split; auto. intros t He. apply match_prefix_iff in He. congruence.
Qed.

Lemma skip_string_ok string r : sr_skip_string string (string ++ r) = (length string, r).
Proof.
  unfold sr_skip_string. replace (match_prefix string (string ++ r)) with (Some r).
  - f_equal. rewrite app_length; lia.
  - symmetry; apply match_prefix_iff; reflexivity.
Qed.

Lemma parse_string_contract string s :
  match sr_parse_string string s with
  | Some (v, r) => s = string ++ r /\ v = string
  | None => forall t, s <> string ++ t
  end.
Proof.
  unfold sr_parse_string. destruct (match_prefix string s) as [t|] eqn:E.
  - apply match_prefix_iff in E; subst. split; [reflexivity|].
    rewrite app_length. replace (length string + length t - length t)%nat with (length string) by lia.
    apply firstn_all.
  - intros t He. apply match_prefix_iff in He. congruence.
Qed.

Lemma parse_char_limited_contract allowed s :
  match sr_parse_char_limited allowed s with
  | Some (c, r) => s = c :: r /\ In c allowed
  | None => s = [] \/ exists c r, s = c :: r /\ ~ In c allowed
  end.
Proof.
  unfold sr_parse_char_limited. destruct s as [|c s]; [auto|].
  destruct (mem c allowed) eqn:E; [apply mem_In in E; auto | apply mem_false in E; eauto].
Qed.

Lemma parse_digit_contract s :
  match sr_parse_digit s with
  | Some (c, r) => s = c :: r /\ decimal_digit c <> None
  | None => s = [] \/ exists c r, s = c :: r /\ decimal_digit c = None
  end.
Proof.
  destruct s as [|c s]; [left; reflexivity|].
  destruct c as [[] [] [] [] [] [] [] []]; simpl; (split; [reflexivity | discriminate]) || (right; do 2 eexists; split; reflexivity).
Qed.

(** ** struniq, bin2hex *)

Lemma uniq_adjacent_fun {A} (l l1 l2 : list A) : uniq_adjacent l l1 -> uniq_adjacent l l2 -> l1 = l2.
Proof.
  intros H; revert l2; induction H; intros l2 H2; inversion H2; subst; auto; try congruence.
  f_equal; auto.
Qed.

(** What the loop does, on the already processed tail: reading the array from index [loop]. *)
Lemma delete_at_mid {A} (p : list A) x t : delete_at (length p) (p ++ x :: t) = p ++ t.
Proof.
  unfold delete_at. rewrite firstn_app, firstn_all, Nat.sub_diag. simpl.
  rewrite app_nil_r. f_equal. induction p as [|y p IH]; [reflexivity | exact IH].
Qed.

Lemma struniq_loop_spec p : forall x t t', uniq_adjacent (x :: t) (x :: t') ->
  uniq_adjacent (p ++ x :: t) (struniq_loop (length p) (p ++ x :: t')).
Proof.
  induction p as [|y p IH] using rev_ind; intros x t t' Hu.
  - simpl. exact Hu.
  - rewrite app_length, Nat.add_1_r, <- !app_assoc. cbn [struniq_loop app].
    assert (H1 : nth (S (length p)) (p ++ y :: x :: t') [] = x).
    { rewrite app_nth2 by lia. replace (S (length p) - length p)%nat with 1%nat by lia. reflexivity. }
    assert (H2 : nth (length p) (p ++ y :: x :: t') [] = y).
    { rewrite app_nth2, Nat.sub_diag by lia. reflexivity. }
    rewrite H1, H2. destruct (str_eqb x y) eqn:E.
    + apply str_eqb_eq in E; subst y.
      replace (delete_at (S (length p)) (p ++ x :: x :: t')) with (p ++ x :: t').
      * apply IH. constructor; exact Hu.
      * change (p ++ x :: x :: t') with (p ++ ([x] ++ x :: t')). rewrite app_assoc.
        replace (S (length p)) with (length (p ++ [x])) by (rewrite app_length; simpl; lia).
        rewrite delete_at_mid, <- app_assoc. reflexivity.
    + apply str_eqb_neq in E. apply IH. constructor; [congruence | exact Hu].
Qed.

Lemma struniq_correct l : uniq_adjacent l (sr_struniq l).
Proof.
  unfold sr_struniq. destruct l as [|a l _] using rev_ind; [constructor|].
  rewrite app_length; simpl. destruct (length l + 1)%nat eqn:E; [lia|]. simpl.
  replace (n - 0)%nat with (length l) by lia.
  apply (struniq_loop_spec l a [] []). constructor.
Qed.

Lemma uniq_adjacent_hd {A} (l l' : list A) : uniq_adjacent l l' -> forall x t, l = x :: t -> exists t', l' = x :: t'.
Proof.
  induction 1; intros z t He; inversion He; subst; eauto.
Qed.

Lemma uniq_adjacent_In {A} (l l' : list A) : uniq_adjacent l l' -> forall x, In x l <-> In x l'.
Proof.
  induction 1; intros z; try tauto.
  - rewrite <- IHuniq_adjacent. simpl; tauto.
  - simpl. rewrite <- IHuniq_adjacent. simpl; tauto.
Qed.

Lemma hex_nibbles c :
  digit_val (nth (N.to_nat (N.shiftr (code c) 4)) hexdigits_locase nul) = N.shiftr (code c) 4 /\
  digit_val (nth (N.to_nat (N.land (code c) 15)) hexdigits_locase nul) = N.land (code c) 15.
Proof. destruct c as [[] [] [] [] [] [] [] []]; split; reflexivity. Qed.

Lemma code_nibbles c : code c = (16 * N.shiftr (code c) 4 + N.land (code c) 15)%N.
Proof. destruct c as [[] [] [] [] [] [] [] []]; reflexivity. Qed.

Fixpoint unhex (s : str) : str :=
  match s with
  | a :: b :: r => ascii_of_N (16 * digit_val a + digit_val b) :: unhex r
  | _ => []
  end.

Lemma unhex_bin2hex b : unhex (sr_bin2hex b) = b.
Proof.
  induction b as [|c b IH]; [reflexivity|].
  unfold sr_bin2hex in *. cbn [map concat app unhex].
  destruct (hex_nibbles c) as [-> ->]. rewrite <- code_nibbles, IH.
  unfold code. rewrite ascii_N_embedding. reflexivity.
Qed.

Lemma bin2hex_length b : length (sr_bin2hex b) = (2 * length b)%nat.
Proof. unfold sr_bin2hex. induction b; simpl in *; [reflexivity | rewrite IHb; lia]. Qed.

(** Each byte becomes the two hexadecimal digits of its value. *)
Lemma bin2hex_digits b : Forall (fun c => exists d, hexadecimal_digit c = Some d) (sr_bin2hex b).
Proof.
  induction b as [|c b IH]; [constructor|].
  unfold sr_bin2hex in *. cbn [map concat app].
  constructor; [|constructor]; [| |exact IH];
  clear; destruct c as [[] [] [] [] [] [] [] []]; eexists; reflexivity.
Qed.

(** ** anonymize_path *)

Lemma strchrnul_spec s c a b : strchrnul s c = (a, b) ->
  s = a ++ b /\ ~ In c a /\ match b with [] => True | x :: _ => x = c end.
Proof.
  unfold strchrnul. intros H; apply span_spec in H as (-> & Ha & Hb). split; [reflexivity|]. split.
  - intros Hin. rewrite Forall_forall in Ha. specialize (Ha _ Hin).
    rewrite ascii_eqb_refl in Ha. discriminate.
  - destruct b as [|x b]; [exact I|]. apply negb_false_iff, ascii_eqb_true in Hb. exact Hb.
Qed.
Lemma strchrnul_found a c r : ~ In c a -> strchrnul (a ++ c :: r) c = (a, c :: r).
Proof.
  intros Hn. unfold strchrnul. apply span_unique.
  - rewrite Forall_forall. intros x Hx. apply negb_true_iff, ascii_eqb_false. intros ->; contradiction.
  - rewrite ascii_eqb_refl; reflexivity.
Qed.
Lemma strchrnul_none a c : ~ In c a -> strchrnul a c = (a, []).
Proof.
  intros Hn. unfold strchrnul. apply span_all.
  rewrite Forall_forall. intros x Hx. apply negb_true_iff, ascii_eqb_false. intros ->; contradiction.
Qed.

Lemma anonymize_home user rest : ~ In "/"%char user ->
  anonymize_path (Some (L "/home/" ++ user ++ "/"%char :: rest)) = Some (L "/home/anonymized/" ++ rest).
Proof.
  intros Hu. unfold anonymize_path.
  replace (starts_with (L "/home/") (L "/home/" ++ user ++ "/"%char :: rest)) with true
    by (symmetry; apply starts_with_iff; eauto).
  rewrite skipn_app, skipn_all, Nat.sub_diag. cbn [app skipn].
  rewrite strchrnul_found by exact Hu. reflexivity.
Qed.

Lemma anonymize_other path :
  (forall user rest, path <> L "/home/" ++ user ++ "/"%char :: rest) ->
  anonymize_path (Some path) = Some path.
Proof.
  intros H. unfold anonymize_path. destruct (starts_with (L "/home/") path) eqn:E; [|reflexivity].
  apply starts_with_iff in E as [r ->]. rewrite skipn_app, skipn_all, Nat.sub_diag. cbn [app skipn].
  destruct (strchrnul r "/") as [a b] eqn:Es. apply strchrnul_spec in Es as (-> & Ha & Hb).
  destruct b as [|x b]; [reflexivity|]. subst x. exfalso. eapply H; reflexivity.
Qed.

Lemma anonymize_cases path :
  (exists user rest, ~ In "/"%char user /\ path = L "/home/" ++ user ++ "/"%char :: rest) \/
  (forall user rest, path <> L "/home/" ++ user ++ "/"%char :: rest).
Proof.
  destruct (starts_with (L "/home/") path) eqn:E.
  - apply starts_with_iff in E as [r ->]. destruct (strchrnul r "/") as [a b] eqn:Es.
    apply strchrnul_spec in Es as (-> & Ha & Hb). destruct b as [|x b].
    + right. intros user rest He. apply app_inv_head in He. apply Ha. rewrite app_nil_r in He.
      rewrite He. apply in_app_iff. right; left; reflexivity.
    + subst x. left. eauto.
  - right. intros user rest ->. assert (starts_with (L "/home/") (L "/home/" ++ user ++ "/"%char :: rest) = true) by (apply starts_with_iff; eauto). congruence.
Qed.

Lemma anonymize_idempotent p : anonymize_path (anonymize_path p) = anonymize_path p.
Proof.
  destruct p as [path|]; [|reflexivity].
  destruct (anonymize_cases path) as [(user & rest & Hu & ->)|H].
  - rewrite anonymize_home by exact Hu.
    change (L "/home/anonymized/" ++ rest) with (L "/home/" ++ L "anonymized" ++ "/"%char :: rest).
    rewrite anonymize_home; [reflexivity|]. unfold L; simpl. intuition discriminate.
  - f_equal. exact (anonymize_other _ H).
Qed.

(** ** Indentation *)

(** Deleting up to [n] blanks after every newline undoes indentation. *)
Fixpoint drop_blanks (n : nat) (s : str) : str :=
  match n, s with
  | S k, c :: r => if Ascii.eqb c sp then drop_blanks k r else s
  | _, _ => s
  end.

Lemma drop_blanks_spaces n s : drop_blanks n (spaces n ++ s) = s.
Proof. induction n; simpl; [reflexivity | exact IHn]. Qed.

Lemma indent_efl_nil n : sr_indent_except_first_line [] n = [].
Proof. reflexivity. Qed.

(** The text is cut into lines; every line but the first gets [n] blanks, unless it is the
    empty text after a final newline. *)
Fixpoint indent_rest (n : nat) (ls : list str) : str :=
  match ls with
  | [] => []
  | [l] => match l with [] => nl :: [] | _ => nl :: spaces n ++ l end
  | l :: ls' => nl :: spaces n ++ l ++ indent_rest n ls'
  end.

Lemma indent_line l n : ~ In nl l -> sr_indent_except_first_line l n = l.
Proof.
  induction l as [|c l IH]; intros H; [reflexivity|]. cbn [sr_indent_except_first_line].
  destruct (Ascii.eqb c nl) eqn:E.
  - apply ascii_eqb_true in E; subst. exfalso; apply H; left; reflexivity.
  - rewrite IH; [reflexivity | intros H'; apply H; right; exact H'].
Qed.

Lemma indent_app_line l r n : ~ In nl l ->
  sr_indent_except_first_line (l ++ r) n = l ++ sr_indent_except_first_line r n.
Proof.
  induction l as [|c l IH]; intros H; [reflexivity|]. cbn [sr_indent_except_first_line app].
  destruct (Ascii.eqb c nl) eqn:E.
  - apply ascii_eqb_true in E; subst. exfalso; apply H; left; reflexivity.
  - rewrite IH; [reflexivity | intros H'; apply H; right; exact H'].
Qed.

(** ** os-release *)

Lemma unquoted_unescape s : unquoted s (unescape_osinfo_value s).
Proof.
  remember (length s) as n eqn:Hn. assert (Hle : (length s <= n)%nat) by lia. clear Hn.
  revert s Hle; induction n as [|n IH]; intros s Hle.
  - destruct s; [constructor | simpl in Hle; lia].
  - destruct s as [|c s]; [constructor|]. simpl in Hle. cbn [unescape_osinfo_value].
    destruct (Ascii.eqb c "\") eqn:E1.
    + apply ascii_eqb_true in E1; subst. destruct s as [|d s]; [constructor|].
      constructor. apply IH. simpl in Hle; lia.
    + apply ascii_eqb_false in E1. destruct (Ascii.eqb c "'" || Ascii.eqb c dquote) eqn:E2.
      * apply uq_quote; [|apply IH; lia]. apply orb_true_iff in E2. rewrite !ascii_eqb_true in E2. tauto.
      * apply orb_false_iff in E2 as [E2 E3]. apply ascii_eqb_false in E2, E3.
        apply uq_plain; auto. apply IH; lia.
Qed.

Lemma unquoted_fun s v w : unquoted s v -> unquoted s w -> v = w.
Proof.
  intros H; revert w; induction H; intros w Hw; inversion Hw; subst; try reflexivity;
    try (f_equal; now auto); try (now auto); exfalso;
    repeat match goal with H : _ \/ _ |- _ => destruct H end; subst; try discriminate; try congruence.
Qed.

Lemma unquote_quoted v : unquoted (quoted v) v.
Proof.
  unfold quoted. apply uq_quote; [right; reflexivity|].
  induction v as [|c v IH]; simpl.
  - apply uq_quote; [right; reflexivity | constructor].
  - unfold quote_char at 1. destruct (Ascii.eqb c "\") eqn:E1; simpl; [constructor; exact IH|].
    destruct (Ascii.eqb c dquote) eqn:E2; simpl; [constructor; exact IH|].
    destruct (Ascii.eqb c "'") eqn:E3; simpl; [constructor; exact IH|].
    apply ascii_eqb_false in E1, E2, E3. apply uq_plain; auto.
Qed.

Lemma os_lines_no_eq ls : Forall (fun l => ~ In "="%char l) ls -> os_lines ls [].
Proof.
  induction 1; [constructor|]. change (@nil (str * str)) with (@nil (str*str) ++ []).
  constructor; [constructor; assumption | assumption].
Qed.

Lemma lines_no_char c s ls : lines_of s ls -> ~ In c s -> Forall (fun l => ~ In c l) ls.
Proof.
  induction 1; intros Hc; constructor; auto.
  - intros Hi; apply Hc, in_app_iff; auto.
  - apply IHlines_of. intros Hi; apply Hc, in_app_iff; right; right; exact Hi.
Qed.

Lemma lines_of_fun s l1 l2 : lines_of s l1 -> lines_of s l2 -> l1 = l2.
Proof.
  assert (Hspl : forall a b c d, ~ In nl a -> ~ In nl c -> a ++ nl :: b = c ++ nl :: d -> a = c /\ b = d).
  { induction a as [|x a IH]; intros b [|y c] d Ha Hc He; simpl in *; inversion He; subst; auto.
    - exfalso; apply Hc; left; reflexivity.
    - exfalso; apply Ha; left; reflexivity.
    - destruct (IH b c d) as [-> ->]; auto. }
  intros H; revert l2; induction H as [|l Hl1 Hl2|l rest ls Hl Hr IH]; intros l2 H2.
  - inversion H2; subst; auto; try congruence. destruct l; discriminate.
  - inversion H2; subst; auto; try congruence. exfalso; apply Hl2, in_app_iff; right; left; reflexivity.
  - inversion H2 as [E|l' Hne Hni|l' r' ls' Hn' Hl' E]; subst.
    + destruct l; discriminate.
    + exfalso; apply Hni, in_app_iff; right; left; reflexivity.
    + destruct (Hspl _ _ _ _ Hl Hn' (eq_sym E)) as [-> ->]. f_equal. apply IH; assumption.
Qed.

Lemma lines_of_exists s : exists ls, lines_of s ls.
Proof.
  remember (length s) as n eqn:Hn. assert (Hle : (length s <= n)%nat) by lia. clear Hn.
  revert s Hle; induction n as [|n IH]; intros s Hle.
  - destruct s; [exists []; constructor | simpl in Hle; lia].
  - destruct (strchrnul s nl) as [a b] eqn:E. apply strchrnul_spec in E as (-> & Ha & Hb).
    destruct b as [|x b].
    + rewrite app_nil_r. destruct a as [|y a]; [exists []; constructor|].
      exists [y :: a]. constructor; [discriminate | exact Ha].
    + subst x. destruct (IH b) as [ls Hls]; [rewrite app_length in Hle; simpl in Hle; lia|].
      exists (a :: ls). constructor; assumption.
Qed.

Lemma os_release_loop_ok fuel : forall s ls, (length s <= fuel)%nat -> lines_of s ls ->
  exists ps, os_release_loop fuel s = Ok ps /\ os_lines ls ps.
Proof.
  induction fuel as [|f IH]; intros s ls Hlen Hls.
  { destruct s; [|simpl in Hlen; lia]. exists []. split; [reflexivity|].
    inversion Hls; subst; [constructor | congruence | destruct l; discriminate]. }
  destruct s as [|c0 s0].
  { exists []. split; [reflexivity|]. inversion Hls; subst; [constructor | congruence | destruct l; discriminate]. }
  cbn [os_release_loop]. set (s := c0 :: s0) in *.
  destruct (strchrnul s nl) as [line rest_nl] eqn:Enl.
  apply strchrnul_spec in Enl as (Es & Hline & Hnl).
  set (rest := match rest_nl with [] => [] | _ :: r => r end).
  assert (Hrest : exists ls', ls = line :: ls' /\ lines_of rest ls').
  { unfold rest. destruct rest_nl as [|x r].
    - rewrite app_nil_r in Es. exists []. split; [|constructor].
      eapply lines_of_fun; [exact Hls|]. rewrite Es. constructor; [rewrite <- Es; discriminate | exact Hline].
    - subst x. destruct (lines_of_exists r) as [ls' Hls']. exists ls'. split; [|exact Hls'].
      eapply lines_of_fun; [exact Hls|]. rewrite Es. constructor; assumption. }
  destruct Hrest as (ls' & -> & Hls').
  assert (Hrl : (length rest <= f)%nat).
  { assert (length s = length line + length rest_nl)%nat by (rewrite Es, app_length; reflexivity).
    unfold rest. destruct rest_nl as [|x r]; simpl in *; lia. }
  destruct (IH rest ls' Hrl Hls') as (qs & Hloop & Hqs).
  destruct (Ascii.eqb c0 "#") eqn:Ehash.
  { apply ascii_eqb_true in Ehash. exists qs. split; [exact Hloop|].
    assert (exists r, line = "#"%char :: r) as [r ->].
    { destruct line as [|y line]; [|inversion Es; subst; eauto].
      simpl in Es. unfold s in Es. destruct rest_nl as [|x r]; [discriminate|]. inversion Es; subst. discriminate. }
    change qs with ([] ++ qs). constructor; [constructor | exact Hqs]. }
  apply ascii_eqb_false in Ehash.
  destruct (strchrnul s "=") as [key key_end] eqn:Eeq.
  apply strchrnul_spec in Eeq as (Ek & Hkey & Hke).
  destruct key_end as [|x after_eq].
  { exists []. split; [reflexivity|]. apply os_lines_no_eq.
    apply (lines_no_char "="%char s); [exact Hls|]. rewrite app_nil_r in Ek. rewrite Ek. exact Hkey. }
  subst x.
  destruct (Nat.eqb (length key) 0) eqn:Ekl.
  { apply Nat.eqb_eq in Ekl. destruct key; [|discriminate]. simpl in Ek.
    exists qs. split; [exact Hloop|]. change qs with ([] ++ qs).
    constructor; [|exact Hqs]. destruct line as [|y line].
    - apply ol_no_eq. tauto.
    - rewrite Ek in Es. inversion Es; subst. apply ol_no_key. }
  apply Nat.eqb_neq in Ekl.
  destruct (length line <? length key)%nat eqn:Elt.
  { apply Nat.ltb_lt in Elt. exists qs. split; [exact Hloop|]. change qs with ([] ++ qs).
    constructor; [|exact Hqs]. apply ol_no_eq. intros Hin. apply Hkey.
    assert (line = firstn (length line) key).
    { apply (f_equal (firstn (length line))) in Es. rewrite Ek in Es at 1.
      rewrite firstn_app in Es. replace (length line - length key)%nat with O in Es by lia.
      rewrite firstn_app, Nat.sub_diag, firstn_all in Es. simpl in Es. rewrite !app_nil_r in Es. congruence. }
    rewrite H in Hin.
    rewrite <- (firstn_skipn (length line) key). apply in_app_iff; left; exact Hin. }
  apply Nat.ltb_ge in Elt. match goal with |- context [os_release_loop f ?t] => change (os_release_loop f t) with (os_release_loop f rest) end.
  rewrite Hloop.
  set (value := firstn (length line - length key - 1) after_eq).
  assert (Hline2 : line = key ++ "="%char :: value).
  { assert (Hx : key ++ "="%char :: after_eq = line ++ rest_nl) by congruence.
    assert (Hlt : (length key < length line)%nat).
    { destruct (Nat.eq_dec (length key) (length line)) as [He|]; [exfalso|lia].
      assert (Hnth : nth_error (key ++ "="%char :: after_eq) (length key) = Some "="%char).
      { rewrite nth_error_app2, Nat.sub_diag by lia. reflexivity. }
      rewrite Hx, He, nth_error_app2, Nat.sub_diag in Hnth by lia.
      destruct rest_nl; simpl in *; [discriminate|]. inversion Hnth; subst; discriminate. }
    apply (f_equal (firstn (length line))) in Hx.
    rewrite (firstn_app (length line) line), Nat.sub_diag, firstn_all in Hx. simpl in Hx.
    rewrite app_nil_r in Hx. rewrite firstn_app in Hx.
    rewrite firstn_all2 in Hx by lia.
    unfold value. destruct (length line - length key)%nat as [|k] eqn:Ekk; [lia|].
    simpl in Hx. simpl. rewrite Nat.sub_0_r. symmetry; exact Hx. }
  exists ((key, unescape_osinfo_value value) :: qs). split; [reflexivity|].
  change ((key, unescape_osinfo_value value) :: qs) with ([(key, unescape_osinfo_value value)] ++ qs).
  constructor; [|exact Hqs]. rewrite Hline2. apply ol_pair.
  - destruct key; [simpl in Ekl; congruence | discriminate].
  - exact Hkey.
  - destruct key as [|k0 key]; [simpl in Ekl; congruence|]. unfold s in Ek. injection Ek as Ek0 _. simpl. congruence.
  - apply unquoted_unescape.
Qed.

Lemma os_release_correct input ls : lines_of input ls ->
  exists ps, sr_parse_os_release input = Ok ps /\ os_lines ls ps.
Proof. intros H. apply os_release_loop_ok; [reflexivity | exact H]. Qed.

Lemma os_line_fun l p q : os_line l p -> os_line l q -> p = q.
Proof.
  assert (Hspl : forall (a b c d : str), ~ In "="%char a -> ~ In "="%char c -> a ++ "="%char :: b = c ++ "="%char :: d -> a = c /\ b = d).
  { induction a as [|x a IH]; intros b [|y c] d Ha Hc He; simpl in *; inversion He; subst; auto.
    - exfalso; apply Hc; left; reflexivity.
    - exfalso; apply Ha; left; reflexivity.
    - destruct (IH b c d) as [-> ->]; auto. }
  intros Hp Hq.
  inversion Hp as [|l1 Hn1|r1|k1 raw1 v1 Hne1 Hk1 Hh1 Hu1]; subst;
  inversion Hq as [|l2 Hn2|r2|k2 raw2 v2 Hne2 Hk2 Hh2 Hu2 E2]; subst; auto;
    try (exfalso; match goal with H : ~ In _ (_ ++ _) |- _ => apply H, in_app_iff; right; left; reflexivity end);
    try (destruct k1; simpl in *; congruence); try (destruct k2; simpl in *; congruence);
    try (exfalso; destruct k2 as [|x k2]; [congruence|]; injection E2 as -> _; apply Hk2; left; reflexivity);
    try (exfalso; destruct k1 as [|x k1]; [congruence|]; simpl in *; injection H as Hx _; apply Hk1; left; congruence).
  destruct (Hspl _ _ _ _ Hk1 Hk2 (eq_sym E2)) as [-> ->].
  rewrite (unquoted_fun _ _ _ Hu1 Hu2). reflexivity.
Qed.
Lemma os_lines_fun ls p q : os_lines ls p -> os_lines ls q -> p = q.
Proof.
  intros H; revert q; induction H; intros q Hq; inversion Hq; subst; [reflexivity|].
  f_equal; [eapply os_line_fun; eauto | auto].
Qed.

(** ** Indentation by lines *)

Lemma join_cons l ls : ls <> [] -> join_lines (l :: ls) = l ++ nl :: join_lines ls.
Proof. destruct ls; [congruence | reflexivity]. Qed.

Lemma pad_nonempty n ls : ls <> [] -> pad_lines n ls <> [].
Proof. destruct ls as [|l [|]]; simpl; congruence. Qed.

Lemma indent_except_first_lines n : forall ls, ls <> [] -> Forall (fun l => ~ In nl l) ls ->
  sr_indent_except_first_line (join_lines ls) n =
  match ls with
  | [] => []
  | l :: ls' => join_lines (l :: pad_lines n ls')
  end.
Proof.
  induction ls as [|l ls IH]; intros Hne Hf; [congruence|]. inversion Hf as [|? ? Hl Hls]; subst.
  destruct ls as [|l2 ls].
  - simpl. apply indent_line; exact Hl.
  - rewrite join_cons by discriminate. rewrite indent_app_line by exact Hl.
    cbn [sr_indent_except_first_line]. rewrite ascii_eqb_refl.
    rewrite IH by (discriminate || exact Hls).
    destruct ls as [|l3 ls].
    + cbn [pad_lines join_lines app]. destruct l2; [reflexivity|]. reflexivity.
    + assert (Hz : join_lines (l2 :: l3 :: ls) <> []).
      { rewrite join_cons by discriminate. destruct l2; discriminate. }
      change (pad_lines n (l2 :: l3 :: ls)) with ((spaces n ++ l2) :: pad_lines n (l3 :: ls)).
      assert (Hp : pad_lines n (l3 :: ls) <> []) by (apply pad_nonempty; discriminate).
      rewrite (join_cons l) by discriminate.
      rewrite (join_cons l2 (pad_lines n (l3 :: ls))) by exact Hp.
      rewrite (join_cons (spaces n ++ l2) (pad_lines n (l3 :: ls))) by exact Hp.
      destruct (join_lines (l2 :: l3 :: ls)); [congruence|].
      rewrite <- app_assoc. reflexivity.
Qed.

Lemma indent_lines n ls : ls <> [] -> Forall (fun l => ~ In nl l) ls ->
  sr_indent (join_lines ls) n = join_lines (pad_lines n ls).
Proof.
  intros Hne Hf. unfold sr_indent. rewrite indent_except_first_lines by assumption.
  destruct ls as [|l ls]; [congruence|]. destruct ls as [|l2 ls].
  - simpl. destruct l; reflexivity.
  - rewrite join_cons by discriminate. change (pad_lines n (l :: l2 :: ls)) with ((spaces n ++ l) :: pad_lines n (l2 :: ls)).
    assert (Hp : pad_lines n (l2 :: ls) <> []) by (apply pad_nonempty; discriminate).
    rewrite (join_cons l (pad_lines n (l2 :: ls))), (join_cons (spaces n ++ l)) by exact Hp.
    rewrite <- app_assoc. destruct l; reflexivity.
Qed.

Lemma join_lines_exists s : exists ls, ls <> [] /\ Forall (fun l => ~ In nl l) ls /\ s = join_lines ls.
Proof.
  remember (length s) as n eqn:Hn. assert (Hle : (length s <= n)%nat) by lia. clear Hn.
  revert s Hle; induction n as [|n IH]; intros s Hle.
  - destruct s; [|simpl in Hle; lia]. exists [[]]. repeat split; [discriminate|]. constructor; auto.
  - destruct (strchrnul s nl) as [a b] eqn:E. apply strchrnul_spec in E as (-> & Ha & Hb).
    destruct b as [|x b].
    + exists [a]. rewrite app_nil_r. repeat split; [discriminate | constructor; auto].
    + subst x. destruct (IH b) as (ls & Hne & Hf & ->); [rewrite app_length in Hle; simpl in Hle; lia|].
      exists (a :: ls). repeat split; [discriminate | constructor; auto | rewrite join_cons by exact Hne; reflexivity].
Qed.

Lemma join_lines_inj : forall ls1 ls2, ls1 <> [] -> ls2 <> [] ->
  Forall (fun l => ~ In nl l) ls1 -> Forall (fun l => ~ In nl l) ls2 ->
  join_lines ls1 = join_lines ls2 -> ls1 = ls2.
Proof.
  assert (Hspl : forall (a b c d : str), ~ In nl a -> ~ In nl c -> a ++ nl :: b = c ++ nl :: d -> a = c /\ b = d).
  { induction a as [|x a IH]; intros b [|y c] d Ha Hc He; simpl in *; inversion He; subst; auto.
    - exfalso; apply Hc; left; reflexivity.
    - exfalso; apply Ha; left; reflexivity.
    - destruct (IH b c d) as [-> ->]; auto. }
  induction ls1 as [|l1 ls1 IH]; intros ls2 H1 H2 F1 F2 He; [congruence|].
  destruct ls2 as [|l2 ls2]; [congruence|].
  inversion F1 as [|? ? N1 F1']; inversion F2 as [|? ? N2 F2']; subst.
  destruct ls1 as [|m1 ls1], ls2 as [|m2 ls2].
  - simpl in He; congruence.
  - rewrite (join_cons l2) in He by discriminate. simpl in He. subst l1.
    exfalso; apply N1, in_app_iff; right; left; reflexivity.
  - rewrite (join_cons l1) in He by discriminate. simpl in He. subst l2.
    exfalso; apply N2, in_app_iff; right; left; reflexivity.
  - rewrite !join_cons in He by discriminate.
    destruct (Hspl _ _ _ _ N1 N2 He) as [-> Hj]. f_equal. apply IH; auto; discriminate.
Qed.

Lemma forallb_mem_Forall set s : forallb (fun c => mem c set) s = true -> Forall (fun c => In c set) s.
Proof. rewrite forallb_forall, Forall_forall. intros H x Hx. apply mem_In, H, Hx. Qed.

Lemma uint64_max_refused : exists s run rest v,
  max_run (is_numeral_char decimal_digit) s run rest /\ numeral decimal_digit 10 run v /\
  (v <= 18446744073709551615)%N /\ sr_parse_uint64 s = None.
Proof.
  pose (s := L "18446744073709551615").
  assert (Hf : Forall (fun c => In c digits10) s) by (apply forallb_mem_Forall; vm_compute; reflexivity).
  exists s, s, [], 18446744073709551615%N. split; [|split; [|split; [lia | vm_compute; reflexivity]]].
  - split; [rewrite app_nil_r; reflexivity|]. split; [|exact I].
    eapply Forall_impl; [|exact Hf]. intros c. apply (in_set_iff _ _ digit_val_dec digits10_dec).
  - replace 18446744073709551615%N with (horner 10 s) by (vm_compute; reflexivity).
    apply (horner_numeral _ _ _ digit_val_dec digits10_dec); [discriminate | exact Hf].
Qed.
