(** * Proofs: report types, operating system names, problem directories. *)
From Verif Require Import Base Types UtilsModel UtilsSpec UtilsProofs JsonProofs CmpModel CmpSpec CmpProofs NormSpec RpmModel RpmSpec RpmProofs RpmProofs2 RpmProofs3 RpmProofs4 SystemModel SystemSpec.
From Coq Require Import Sorted.
Open Scope nat_scope.

(** ** Report types *)
Lemma type_roundtrip t : t < 8 -> sr_report_type_from_string (Some (sr_report_type_to_string t)) = t.
Proof. intros H. do 8 (destruct t as [|t]; [vm_compute; reflexivity|]). lia. Qed.
Lemma g_strcmp0_eq a b : (g_strcmp0 (Some a) b =? 0)%Z = true <-> b = Some a.
Proof.
  rewrite Z.eqb_eq. destruct b as [b|]; cbn [g_strcmp0]; [|split; discriminate].
  rewrite strcmp_zero. split; [intros ->; reflexivity|intros E; injection E as ->; reflexivity].
Qed.
Lemma type_from s t : sr_report_type_from_string s = t <->
  (exists name, In (t, name) type_names /\ s = Some name) \/ (t = 0 /\ forall u name, In (u, name) type_names -> s <> Some name).
Proof.
  unfold sr_report_type_from_string, report_types. cbn [from_string_loop].
  repeat match goal with |- context [(g_strcmp0 (Some ?x) s =? 0)%Z] =>
    let E := fresh "E" in destruct (g_strcmp0 (Some x) s =? 0)%Z eqn:E; [apply g_strcmp0_eq in E; subst s|] end.
  2-8: split; [intros <-; left; eexists; split; [|reflexivity]; cbn; tauto|intros [(name & Hi & He)|(-> & H)];
     [|exfalso; eapply H; [|reflexivity]; cbn; eauto 10]].
  2-8: cbn [In type_names] in Hi; repeat (destruct Hi as [Hi|Hi]; [injection Hi as Ht Hn; subst name; first [exact Ht|exfalso; discriminate He]|]); contradiction.
  - split.
    + intros <-. right. split; [reflexivity|]. intros u name Hi He. cbn [In type_names] in Hi.
      repeat (destruct Hi as [Hi|Hi]; [injection Hi as Ht Hn; subst name; discriminate He|]). contradiction.
    + intros [(name & Hi & He)|(-> & H)]; [|reflexivity]. cbn [In type_names] in Hi.
      repeat (destruct Hi as [Hi|Hi]; [injection Hi as Ht Hn; subst name; discriminate He|]). contradiction.
  - assert (N : forall u name, In (u, name) type_names -> s <> Some name).
    { intros u name Hi ->. cbn [In type_names] in Hi.
      repeat (destruct Hi as [Hi|Hi]; [injection Hi as Ht Hn; subst name;
        match goal with E : (g_strcmp0 _ _ =? 0)%Z = false |- _ => solve [vm_compute in E; discriminate E] end|]).
      contradiction. }
    split; [intros <-; right; auto|]. intros [(name & Hi & He)|(-> & H)]; [elim (N _ _ Hi He)|reflexivity].
Qed.
Lemma abrt_ok s : abrt_type s (sr_abrt_type_from_type s).
Proof.
  unfold sr_abrt_type_from_type.
  repeat match goal with |- context [starts_with ?x s] =>
    let E := fresh "E" in destruct (starts_with x s) eqn:E; [apply starts_with_iff in E as [r ->]; left; eexists _, r; split; [cbn; eauto 10|reflexivity]|] end.
  right. split; [reflexivity|]. intros u word rest Hi ->. cbn [In abrt_words] in Hi.
  repeat (destruct Hi as [Hi|Hi]; [injection Hi as Ht Hn; subst word;
    match goal with E : starts_with _ _ = false |- _ => solve [cbn in E; discriminate E] end|]).
  contradiction.
Qed.
Lemma abrt_unique s t u : abrt_type s t -> abrt_type s u -> t = u.
Proof.
  intros [(w & r & Hi & ->)|(-> & H)] [(w' & r' & Hi' & He)|(-> & H')]; [| | |reflexivity].
  - cbn [In abrt_words] in Hi, Hi'.
    repeat (destruct Hi as [Hi|Hi]; [injection Hi as Ht Hn; subst w; repeat (destruct Hi' as [Hi'|Hi']; [injection Hi' as Ht' Hn'; subst w'; first [congruence|exfalso; discriminate He]|]); contradiction|]).
    contradiction.
  - elim (H' _ _ _ Hi eq_refl).
  - elim (H _ _ _ Hi' He).
Qed.
Lemma abrt_never_js s : sr_abrt_type_from_type s <> REPORT_JAVASCRIPT.
Proof. unfold sr_abrt_type_from_type. repeat (destruct (starts_with _ _); [discriminate|]). discriminate. Qed.

(** ** strstr *)
Lemma strstr_first hay needle : needle <> [] ->
  match strstr hay needle with
  | Some (a, b) => first_at needle hay a b
  | None => ~ infix needle hay
  end.
Proof.
  intros Hn. induction hay as [|c hay IH].
  - cbn [strstr]. destruct needle as [|x n]; [congruence|]. cbn [starts_with]. intros (a & b & E).
    apply (f_equal (@length _)) in E. rewrite !app_length in E. cbn in E. lia.
  - cbn [strstr]. destruct (starts_with needle (c :: hay)) eqn:E.
    + apply starts_with_iff in E as [r E]. rewrite E. split; [|intros; cbn; lia]. cbn [app]. f_equal. now rewrite skipn_at.
    + assert (E' : forall b, c :: hay <> needle ++ b).
      { intros b Eb. assert (starts_with needle (c :: hay) = true) by (apply starts_with_iff; eauto). congruence. }
      destruct (strstr hay needle) as [[a b]|].
      * destruct IH as [-> IH]. split; [reflexivity|]. intros a' b' Ea. destruct a' as [|x a'].
        -- elim (E' _ Ea).
        -- cbn [app] in Ea. injection Ea as <- Ea. specialize (IH _ _ Ea). cbn [length]. lia.
      * intros (a & b & Ea). destruct a as [|x a]; [elim (E' _ Ea)|]. cbn [app] in Ea. injection Ea as <- Ea. apply IH. exists a, b. assumption.
Qed.
Lemma first_at_unique word text a b a' b' : first_at word text a b -> first_at word text a' b' -> a = a' /\ b = b'.
Proof.
  intros [E M] [E' M']. assert (X := M _ _ E'). assert (Y := M' _ _ E).
  assert (Z : length a = length a') by lia. rewrite E in E'.
  assert (F := f_equal (firstn (length a)) E'). rewrite firstn_app, firstn_all, Nat.sub_diag in F. cbn [firstn] in F. rewrite app_nil_r in F.
  rewrite Z, firstn_app, firstn_all, Nat.sub_diag in F. cbn [firstn] in F. rewrite app_nil_r in F. subst a'.
  apply app_inv_head in E'. apply app_inv_head in E'. auto.
Qed.
Lemma strstr_eval word text a b : word <> [] -> first_at word text a b -> strstr text word = Some (a, b).
Proof.
  intros Hn H. pose proof (strstr_first text word Hn) as K. destruct (strstr text word) as [[a' b']|].
  - destruct (first_at_unique _ _ _ _ _ _ K H) as [-> ->]. reflexivity.
  - elim K. destruct H as [-> _]. exists a, b. reflexivity.
Qed.

(** ** Letters *)
Lemma tolower_lower c : lower_case c (tolower c).
Proof.
  unfold tolower. destruct ((65 <=? code c)%N && (code c <=? 90)%N) eqn:E.
  - left. apply andb_prop in E as [E1 E2]. apply N.leb_le in E1, E2.
    exists (N.to_nat (code c - 65)). unfold code in *.
    assert (X : forallb (fun k => match nth_error upper (N.to_nat (k - 65)), nth_error lower (N.to_nat (k - 65)) with
       | Some x, Some y => Ascii.eqb x (ascii_of_N k) && Ascii.eqb y (ascii_of_N (k + 32)) | _, _ => false end)
       (map (fun i => N.of_nat (65 + i)) (seq 0 26)) = true) by (vm_compute; reflexivity).
    rewrite forallb_forall in X. specialize (X (N_of_ascii c)).
    destruct (nth_error upper _), (nth_error lower _); try (cut (false = true); [discriminate|apply X; clear X]).
    1:{ cut (Ascii.eqb a (ascii_of_N (N_of_ascii c)) && Ascii.eqb a0 (ascii_of_N (N_of_ascii c + 32)) = true).
        { intros Y. apply andb_prop in Y as [Y1 Y2]. apply Ascii.eqb_eq in Y1, Y2. rewrite ascii_N_embedding in Y1. subst. auto. }
        apply X; clear X. apply in_map_iff. exists (N.to_nat (N_of_ascii c - 65)). split; [lia|]. apply in_seq. lia. }
    all: apply in_map_iff; exists (N.to_nat (N_of_ascii c - 65)); split; [lia|]; apply in_seq; lia.
  - right. split; [|reflexivity]. intros Hi.
    assert (X : forallb (fun x => (65 <=? code x)%N && (code x <=? 90)%N) upper = true) by (vm_compute; reflexivity).
    rewrite forallb_forall in X. specialize (X c Hi). congruence.
Qed.
Lemma lower_case_fun c d : lower_case c d -> d = tolower c.
Proof.
  assert (U : NoDup upper). { apply (NoDup_count_occ' ascii_dec). intros x Hx. assert (X : forallb (fun x => Nat.eqb (count_occ ascii_dec upper x) 1) upper = true) by (vm_compute; reflexivity).
    rewrite forallb_forall in X. specialize (X x Hx). now apply Nat.eqb_eq in X. }
  intros H. pose proof (tolower_lower c) as K. destruct H as [(i & A & B)|(A & B)], K as [(j & C & D)|(C & D)].
  - assert (i = j). { eapply (NoDup_nth_error upper); [assumption|apply nth_error_Some; congruence|congruence]. } subst j. congruence.
  - elim C. eapply nth_error_In; eassumption.
  - elim A. eapply nth_error_In; eassumption.
  - congruence.
Qed.
Lemma same_letter_iff c d : same_letter c d <-> tolower c = tolower d.
Proof.
  split.
  - intros (e & A & B). apply lower_case_fun in A, B. congruence.
  - intros E. exists (tolower c). split; [apply tolower_lower|]. rewrite E. apply tolower_lower.
Qed.
Lemma nocase_iff p s : starts_with_nocase p s = true <-> exists q r, s = q ++ r /\ Forall2 same_letter p q.
Proof.
  revert s. induction p as [|x p IH]; intros s; cbn [starts_with_nocase].
  - split; [intros _; exists [], s; split; [reflexivity|constructor]|reflexivity].
  - destruct s as [|y s].
    + split; [discriminate|]. intros (q & r & E & F). inversion F; subst. discriminate.
    + rewrite andb_true_iff, Ascii.eqb_eq, IH, <- same_letter_iff. split.
      * intros [A (q & r & -> & F)]. exists (y :: q), r. split; [reflexivity|]. constructor; assumption.
      * intros (q & r & E & F). inversion F as [|? z ? q' A B]; subst. cbn [app] in E. injection E as <- E. split; [assumption|eauto].
Qed.
Lemma map_lower l : Forall2 lower_case l (map tolower l).
Proof. induction l; constructor; [apply tolower_lower|assumption]. Qed.
Lemma lower_map l m : Forall2 lower_case l m -> m = map tolower l.
Proof. induction 1; cbn; [reflexivity|]. apply lower_case_fun in H. congruence. Qed.

(** ** System release *)
Lemma dotted_iff c : is_digit c || Ascii.eqb c "." = true <-> dotted_number c.
Proof. unfold dotted_number. rewrite orb_true_iff, is_digit_iff, Ascii.eqb_eq. reflexivity. Qed.
Lemma dotted_run s a b : span (fun c => is_digit c || Ascii.eqb c ".") s = (a, b) -> max_run dotted_number s a b.
Proof.
  intros E. apply span_spec in E as (-> & A & B). split; [reflexivity|]. split.
  - eapply Forall_impl; [|exact A]. intros c. apply dotted_iff.
  - destruct b as [|c b]; [exact Logic.I|]. intros K. apply dotted_iff in K. congruence.
Qed.
Lemma release_correct text :
  match sr_operating_system_parse_etc_system_release text with
  | (true, Some name, Some version) => system_release text name version
  | (false, _, None) => forall name version, ~ system_release text name version
  | _ => False
  end.
Proof.
  unfold sr_operating_system_parse_etc_system_release.
  pose proof (strstr_first text (L " release ") ltac:(discriminate)) as S1.
  destruct (strstr text (L " release ")) as [[before after]|].
  2:{ intros name version (b & a & _ & _ & [E _] & _). apply S1. exists b, a. assumption. }
  destruct (starts_with_nocase (L "Red Hat Enterprise Linux") text) eqn:R.
  - apply nocase_iff in R. destruct (span _ after) as [version rest] eqn:Ev. apply dotted_run in Ev.
    exists before, after, version, rest. split; [assumption|]. split; [left; split; [exact R|reflexivity]|]. split; [assumption|].
    destruct version; reflexivity.
  - assert (NR : ~ is_rhel text) by (intros K; apply nocase_iff in K; congruence).
    destruct before as [|c before].
    + intros name version (b & a & n & r & F & [[K _]|(_ & K & _)] & _); [contradiction|]. apply K.
      destruct (first_at_unique _ _ _ _ _ _ S1 F) as [<- _]. reflexivity.
    + destruct (span _ after) as [version rest] eqn:Ev. apply dotted_run in Ev.
      exists (c :: before), after, version, rest. split; [assumption|]. split; [right; split; [exact NR|]; split; [discriminate|apply map_lower]|].
      split; [assumption|]. destruct version; reflexivity.
Qed.
Lemma release_unique text n v n' v' : system_release text n v -> system_release text n' v' -> n = n' /\ v = v'.
Proof.
  intros (b & a & m & r & F & N & M & ->) (b' & a' & m' & r' & F' & N' & M' & ->).
  destruct (first_at_unique _ _ _ _ _ _ F F') as [<- <-].
  assert (m = m') as <- by (eapply (proj1 (max_run_unique _ _ _ _ _ _ M M'))).
  split; [|reflexivity].
  destruct N as [[N ->]|(N & _ & N1)], N' as [[N' ->]|(N' & _ & N1')]; try contradiction; [reflexivity|].
  apply lower_map in N1, N1'. congruence.
Qed.
Lemma release_accepts text name version : system_release text name version ->
  sr_operating_system_parse_etc_system_release text = (true, Some name, Some version).
Proof.
  intros H. pose proof (release_correct text) as K. destruct (sr_operating_system_parse_etc_system_release text) as [[[|] [n|]] [v|]]; try contradiction.
  - destruct (release_unique _ _ _ _ _ H K) as [-> ->]. reflexivity.
  - elim (K _ _ H).
  - elim (K _ _ H).
Qed.

(** ** os-release *)
Lemma last_of_snoc key ps old new k v new' : last_of key ps old new ->
  new' = (if str_eqb k key then Some v else new) -> last_of key (ps ++ [(k, v)]) old new'.
Proof.
  intros H ->. destruct (str_eqb k key) eqn:E.
  - apply str_eqb_eq in E. subst k. right. exists ps, v, []. repeat split. intros w [].
  - assert (K : k <> key) by (intros ->; rewrite str_eqb_refl in E; discriminate).
    destruct H as [[-> H]|(a & w & b & -> & -> & H)].
    + left. split; [reflexivity|]. intros w X. apply in_app_or in X as [X|[X|[]]]; [elim (H _ X)|congruence].
    + right. exists a, w, (b ++ [(k, v)]). split; [rewrite <- app_assoc; reflexivity|]. split; [reflexivity|].
      intros u X. apply in_app_or in X as [X|[X|[]]]; [elim (H _ X)|congruence].
Qed.
Lemma rawhide_snoc ps k v : is_rawhide (ps ++ [(k, v)]) <-> is_rawhide ps \/ k = L "VERSION" /\ infix (L "(Rawhide)") v.
Proof.
  split.
  - intros (w & X & I1). apply in_app_or in X as [X|[X|[]]]; [left; exists w; auto|]. injection X as -> ->. auto.
  - intros [(w & X & I1)|[-> I1]]; [exists w; split; [apply in_or_app; auto|assumption]|exists v; split; [apply in_or_app; right; now left|assumption]].
Qed.
Lemma first_of_keep key ps k v new : k <> key \/ new <> None -> first_of key ps new -> first_of key (ps ++ [(k, v)]) new.
Proof.
  intros H [[-> X]|(a & w & b & -> & -> & X)].
  - destruct H as [H|H]; [|congruence]. left. split; [reflexivity|]. intros w Y. apply in_app_or in Y as [Y|[Y|[]]]; [elim (X _ Y)|congruence].
  - right. exists a, w, (b ++ [(k, v)]). rewrite <- app_assoc. auto.
Qed.
Lemma first_of_new key ps v : first_of key ps None -> first_of key (ps ++ [(key, v)]) (Some v).
Proof. intros [[_ X]|(a & w & b & _ & E & _)]; [|discriminate]. right. exists ps, v, []. auto. Qed.

Ltac keys H := repeat match goal with
  | |- context [str_eqb ?k ?c] => let E := fresh "E" in destruct (str_eqb k c) eqn:E; [apply str_eqb_eq in E; subst k|]
  end.
Lemma described_step ps os os' kv : described ps os os' -> described (ps ++ [kv]) os (os_release_callback os' kv).
Proof.
  destruct kv as [k v]. intros (H1 & H2 & H3 & H4 & H5 & H6 & H7).
  assert (RW : (match strstr v (L "(Rawhide)") with Some _ => true | None => false end) = true <-> infix (L "(Rawhide)") v).
  { pose proof (strstr_first v (L "(Rawhide)") ltac:(discriminate)) as K. destruct (strstr v _) as [[a b]|]; [|split; [discriminate|contradiction]].
    split; [intros _; destruct K as [-> _]; exists a, b; reflexivity|reflexivity]. }
  set (rw := match strstr v (L "(Rawhide)") with Some _ => true | None => false end) in *.
  assert (F : os_release_callback os' (k, v) = mk_os
     (if str_eqb k (L "ID") then Some v else os_name os')
     (if str_eqb k (L "VERSION_ID") then match os_version os' with None => Some v | x => x end
      else if str_eqb k (L "VERSION") && rw then Some (L "rawhide") else os_version os')
     (os_architecture os')
     (if str_eqb k (L "CPE_NAME") then Some v else os_cpe os') (os_uptime os') (os_desktop os')
     (if str_eqb k (L "VARIANT_ID") then Some v else os_variant os')).
  { unfold os_release_callback. fold rw. destruct os' as [n ver ar cp up de va]; cbn [os_name os_version os_architecture os_cpe os_uptime os_desktop os_variant].
    repeat match goal with |- context [str_eqb k ?c] => let E := fresh "E" in destruct (str_eqb k c) eqn:E; [apply str_eqb_eq in E; subst k; cbn [andb]|cbn [andb]] end;
      try reflexivity; try discriminate; destruct ver, rw; reflexivity. }
  rewrite F. unfold described. cbn [os_name os_version os_architecture os_cpe os_uptime os_desktop os_variant].
  split; [eapply last_of_snoc; [eassumption|reflexivity]|]. split; [|split; [eapply last_of_snoc; [eassumption|reflexivity]|]; split; [eapply last_of_snoc; [eassumption|reflexivity]|auto]].
  rewrite rawhide_snoc.
  destruct (str_eqb k (L "VERSION_ID")) eqn:Ek.
  - apply str_eqb_eq in Ek. subst k. destruct H2 as [[R ->]|[R H2]]; [left; auto|]. right.
    split; [intros [X|[X _]]; [auto|discriminate]|]. destruct H2 as [[N E]|[N E]].
    + left. split; [assumption|]. rewrite E. destruct (os_version os); congruence.
    + right. split; [assumption|]. destruct (os_version os'); [apply first_of_keep; [right; discriminate|assumption]|now apply first_of_new].
  - destruct (str_eqb k (L "VERSION") && rw) eqn:Er.
    + apply andb_prop in Er as [Er Er']. apply str_eqb_eq in Er. left. split; [right; split; [assumption|now apply RW]|reflexivity].
    + assert (NR : ~ (k = L "VERSION" /\ infix (L "(Rawhide)") v)).
      { intros [-> X]. apply RW in X. rewrite X, str_eqb_refl in Er. discriminate. }
      destruct H2 as [[R ->]|[R H2]]; [left; auto|]. right. split; [tauto|]. destruct H2 as [H2|[N E]]; [left; assumption|].
      right. split; [assumption|]. apply first_of_keep; [|assumption]. left. intros ->. rewrite str_eqb_refl in Ek. discriminate.
Qed.
Lemma described_nil os : described [] os os.
Proof.
  split; [left; split; [reflexivity|intros v []]|]. split.
  { right. split; [intros (v & [] & _)|]. destruct (os_version os) eqn:E; [left; split; [discriminate|reflexivity]|].
    right. split; [reflexivity|]. left. split; [reflexivity|intros v []]. }
  do 2 (split; [left; split; [reflexivity|intros v []]|]). auto.
Qed.
Lemma described_fold ps os : described ps os (fold_left os_release_callback ps os).
Proof.
  induction ps as [|kv ps IH] using rev_ind; [apply described_nil|]. rewrite fold_left_app. cbn [fold_left]. now apply described_step.
Qed.
Lemma os_release_described text os : exists ls ps ok os', lines_of text ls /\ os_lines ls ps /\
  sr_operating_system_parse_etc_os_release text os = Ok (ok, os') /\ described ps os os' /\
  (ok = true <-> os_name os' <> None /\ os_version os' <> None).
Proof.
  destruct (lines_of_exists text) as [ls Hls]. destruct (os_release_correct text ls Hls) as (ps & E & Hps).
  unfold sr_operating_system_parse_etc_os_release. rewrite E. cbn [bind]. do 4 eexists. split; [exact Hls|]. split; [exact Hps|].
  split; [reflexivity|]. split; [apply described_fold|].
  destruct (os_name _), (os_version _); split; try discriminate; try (intros [X Y]; congruence); try (intros _; split; discriminate); reflexivity.
Qed.
