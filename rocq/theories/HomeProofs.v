(** * Proofs: another user's name changes nothing. *)
From Verif Require Import Base Types NormTables UtilsModel UtilsSpec UtilsProofs CmpModel NormModel NormSpec NormProofs CrashModel ParseSpec TextModel SystemModel ReportModel HomeSpec.
Open Scope nat_scope.

(** ** What is found in a path *)
Definition plain_inside (pat : str) : bool :=
  match pat with
  | [] => true
  | _ :: r => forallb (fun c => negb (Ascii.eqb c "/")) (removelast r)
  end.
Lemma looked_for_plain : forallb plain_inside looked_for = true.
Proof. vm_compute. reflexivity. Qed.
Lemma found_split pat a rest : plain_inside pat = true -> found_in pat (a ++ "/"%char :: rest) -> found_in pat (a ++ ["/"%char]) \/ found_in pat ("/"%char :: rest).
Proof.
  intros P (x & y & E).
  destruct (le_lt_dec (length a) (length x)) as [H|H].
  - right. exists (skipn (length a) x), y. apply (f_equal (skipn (length a))) in E. rewrite skipn_app, skipn_all, Nat.sub_diag in E. cbn [skipn app] in E.
    rewrite E, skipn_app. now replace (length a - length x) with 0 by lia.
  - assert (Ex : a = x ++ skipn (length x) a).
    { apply (f_equal (firstn (length x))) in E. rewrite firstn_app, firstn_app, firstn_all, Nat.sub_diag in E. cbn [firstn] in E. rewrite app_nil_r in E.
      replace (length x - length a) with 0 in E by lia. cbn [firstn] in E. rewrite app_nil_r in E. rewrite <- E at 1. now rewrite firstn_skipn. }
    set (b := skipn (length x) a) in *. assert (Lb : length b > 0) by (unfold b; rewrite skipn_length; lia). clearbody b. subst a. rewrite <- app_assoc in E. apply app_inv_head in E.
    destruct (le_lt_dec (length pat) (length b + 1)) as [K|K].
    + left. exists x, (skipn (length pat) (b ++ ["/"%char])). rewrite <- app_assoc. f_equal. rewrite <- (firstn_skipn (length pat) (b ++ ["/"%char])) at 1. f_equal.
      apply (f_equal (firstn (length pat))) in E. rewrite (firstn_app _ pat), firstn_all, Nat.sub_diag in E. cbn [firstn] in E. rewrite app_nil_r in E. rewrite <- E at 2.
      change (b ++ "/"%char :: rest) with (b ++ ["/"%char] ++ rest). rewrite app_assoc, (firstn_app _ (b ++ ["/"%char])).
      replace (length pat - length (b ++ ["/"%char])) with 0 by (rewrite app_length; cbn [length]; lia). cbn [firstn]. now rewrite app_nil_r.
    + exfalso. destruct b as [|c b]; [cbn in Lb; lia|]. destruct pat as [|d pat]; [cbn in K; lia|]. cbn [plain_inside] in P. cbn [app] in E. apply (f_equal (@tl _)) in E. cbn [tl app] in E. cbn [length] in K.
      assert (N : nth_error (removelast pat) (length b) = Some "/"%char).
      { assert (Q : nth_error pat (length b) = Some "/"%char).
        { rewrite <- (nth_error_app1 pat y) by lia. rewrite <- E. rewrite nth_error_app2, Nat.sub_diag by lia. reflexivity. }
        destruct (@exists_last _ pat ltac:(intros ->; cbn in K; lia)) as (q & z & ->). rewrite removelast_last. rewrite app_length in K. cbn [length] in K. now rewrite nth_error_app1 in Q by lia. }
      apply nth_error_In in N. rewrite forallb_forall in P. apply P in N. cbn in N. discriminate N.
Qed.
Lemma home_split u rest : home u rest = (L "/home/" ++ u) ++ "/"%char :: rest.
Proof. unfold home. now rewrite <- app_assoc. Qed.
Lemma strstr_home u rest pat : ordinary u -> In pat looked_for -> NormModel.strstr (home u rest) pat = NormModel.strstr ("/"%char :: rest) pat.
Proof.
  intros [S O] I'. destruct pat as [|c pat]; [reflexivity|]. apply eq_true_iff_eq. rewrite !strstr_iff. rewrite home_split. split; intros H.
  - destruct (found_split (c :: pat) (L "/home/" ++ u) rest) as [F|F].
    + apply (proj1 (forallb_forall _ _) looked_for_plain). exact I'.
    + destruct H as (a & b & E). exists a, b. exact E.
    + destruct (O (c :: pat) I' ltac:(discriminate)). rewrite home_split. exact F.
    + destruct F as (a & b & E). exists a, b. exact E.
  - destruct H as (a & b & E). rewrite E. exists ((L "/home/" ++ u) ++ a), b. apply app_assoc.
Qed.
Lemma strstr_alike p q pat : path_alike (Some p) (Some q) -> In pat looked_for -> NormModel.strstr p pat = NormModel.strstr q pat.
Proof.
  intros [E|(u & v & rest & U & V & E1 & E2)] I'; [congruence|]. assert (X : p = home u rest) by congruence. assert (Y : q = home v rest) by congruence.
  rewrite X, Y, (strstr_home u rest pat U I'), (strstr_home v rest pat V I'). reflexivity.
Qed.
Lemma file_match_alike p q files : path_alike p q -> incl files looked_for -> file_match p files = file_match q files.
Proof.
  intros A J. destruct p as [p|], q as [q|]; try reflexivity.
  - cbn [file_match]. induction files as [|x files IH]; [reflexivity|]. cbn [existsb]. rewrite (strstr_alike p q x A), IH; [reflexivity| |].
    + intros y Y. apply J. now right.
    + apply J. now left.
  - destruct A as [A|(u & v & r & _ & _ & _ & A)]; discriminate A.
  - destruct A as [A|(u & v & r & _ & _ & A & _)]; discriminate A.
Qed.
Lemma any_call_alike tb n p q : path_alike p q -> (forall r, In r tb -> incl (snd r) looked_for) -> any_call tb n p = any_call tb n q.
Proof.
  intros A J. unfold any_call. induction tb as [|r tb IH]; [reflexivity|]. cbn [existsb]. rewrite IH by (intros x X; apply J; now right).
  f_equal. unfold call_match. destruct n as [n|]; [|reflexivity]. destruct (str_eqb n (fst r)); [|reflexivity]. apply file_match_alike; [exact A|]. apply J. now left.
Qed.
Lemma incl_table (tb : list (str * list str)) r : In r tb -> incl (snd r) (concat (map snd tb)).
Proof. intros H x X. apply in_concat. exists (snd r). split; [now apply in_map|exact X]. Qed.
Lemma incl_removable : incl (concat (map snd removable_table)) looked_for. Proof. unfold looked_for. apply incl_appl, incl_refl. Qed.
Lemma incl_above : incl (concat (map snd above_table)) looked_for. Proof. unfold looked_for. apply incl_appr, incl_appl, incl_refl. Qed.
Lemma incl_gdb_exit : incl (concat (map snd gdb_exit_table)) looked_for. Proof. unfold looked_for. do 2 apply incl_appr. apply incl_appl, incl_refl. Qed.
Lemma incl_core_exit : incl (concat (map snd core_exit_table)) looked_for. Proof. unfold looked_for. do 3 apply incl_appr. apply incl_appl, incl_refl. Qed.
Lemma incl_arch : incl arch_functions looked_for. Proof. unfold looked_for. do 4 apply incl_appr. apply incl_appl, incl_refl. Qed.
Lemma incl_sys : incl [L "/sysdeps/"; L "/sysdeps"; L "libc.so"] looked_for. Proof. unfold looked_for. do 5 apply incl_appr. apply incl_refl. Qed.
Lemma above_alike n p q : path_alike p q -> is_removable_glibc_with_above n p = is_removable_glibc_with_above n q.
Proof. intros A. apply any_call_alike; [exact A|]. intros r R. exact (incl_tran (incl_table _ r R) incl_above). Qed.
Lemma removable_alike n p q : path_alike p q -> sr_gdb_frame_is_removable n p = sr_gdb_frame_is_removable n q.
Proof.
  intros A. unfold sr_gdb_frame_is_removable. destruct n as [n|]; [|reflexivity].
  assert (E : forall r, in_word_set n = Some r -> file_match p (snd r) = file_match q (snd r)).
  { intros r R. apply find_some in R. apply file_match_alike; [exact A|]. exact (incl_tran (incl_table _ r (proj1 R)) incl_removable). }
  destruct p as [p|], q as [q|]; try reflexivity.
  - destruct (in_word_set n) as [r|]; [now apply E|reflexivity].
  - destruct A as [A|(u & v & r & _ & _ & _ & A)]; discriminate A.
  - destruct A as [A|(u & v & r & _ & _ & A & _)]; discriminate A.
Qed.
Lemma find_same {A} (p q : A -> bool) l : (forall x, In x l -> p x = q x) -> find p l = find q l.
Proof. intros H. induction l as [|x l IH]; [reflexivity|]. cbn [find]. rewrite <- (H x) by now left. destruct (p x); [reflexivity|]. apply IH. intros y Y. apply H. now right. Qed.
Lemma rename_alike n p q : path_alike p q -> find_new_function_name_glibc n p = find_new_function_name_glibc n q.
Proof.
  intros A. unfold find_new_function_name_glibc. apply find_same. intros func Fu. apply any_call_alike; [exact A|].
  intros r R x X. unfold arch_variants in R. apply in_app_or in R. destruct R as [R|[R|[]]].
  - apply in_map_iff in R. destruct R as (suf & <- & _). cbn [snd] in X. destruct X as [<-|[<-|[<-|[]]]]; [now apply incl_arch|apply incl_sys; now left|apply incl_sys; right; right; now left].
  - subst r. cbn [snd] in X. destruct X as [<-|[<-|[<-|[]]]]; [now apply incl_arch|apply incl_sys; right; now left|apply incl_sys; right; right; now left].
Qed.

(** ** The steps of normalization respect a relation of frames *)
Section Related.
Context {F : Type} (R : F -> F -> Prop).
Lemma find_exit_rel (p : F -> bool) : (forall x y, R x y -> p x = p y) -> forall l l', Forall2 R l l' -> forall i r, find_exit_frame p i l r = find_exit_frame p i l' r.
Proof. intros H l l' F2. induction F2 as [|x y l l' X F2 IH]; intros i r; cbn [find_exit_frame]; [reflexivity|]. now rewrite (H x y X), IH. Qed.
Lemma skipn_rel : forall i l l', Forall2 R l l' -> Forall2 R (skipn i l) (skipn i l').
Proof. induction i as [|i IH]; intros l l' H; [exact H|]. destruct H; [constructor|]. now apply IH. Qed.
Lemma cut_exit_rel p l l' : (forall x y, R x y -> p x = p y) -> Forall2 R l l' -> Forall2 R (cut_exit p l) (cut_exit p l').
Proof.
  intros H F2. unfold cut_exit. rewrite (find_exit_rel p H l l' F2). destruct (find_exit_frame p 0 l' None) as [i|]; [|exact F2].
  apply (skipn_rel i) in F2. destruct F2; [constructor|assumption].
Qed.
Lemma map_rel {G} (Q : G -> G -> Prop) (g : F -> G) l l' : (forall x y, R x y -> Q (g x) (g y)) -> Forall2 R l l' -> Forall2 Q (map g l) (map g l').
Proof. intros H. induction 1; cbn; constructor; auto. Qed.
Lemma sweep_rel (p a : F -> bool) : (forall x y, R x y -> p x = p y) -> (forall x y, R x y -> a x = a y) ->
  forall l l', Forall2 R l l' -> forall k k', Forall2 R k k' -> Forall2 R (sweep p a k l) (sweep p a k' l').
Proof.
  intros H1 H2 l l' F2. induction F2 as [|x y l l' X F2 IH]; intros k k' K; cbn [sweep]; [exact K|]. rewrite (H1 x y X), (H2 x y X).
  assert (K' : Forall2 R (if a y then [] else k) (if a y then [] else k')) by (destruct (a y); [constructor|exact K]).
  destruct (p y || a y); [now apply IH|]. apply IH. apply Forall2_app; [exact K'|]. constructor; [exact X|constructor].
Qed.
Lemma drop_first_rel (p : F -> bool) l l' : (forall x y, R x y -> p x = p y) -> Forall2 R l l' -> Forall2 R (drop_first p l) (drop_first p l').
Proof. intros H F2. destruct F2 as [|x y l l' X F2]; cbn [drop_first]; [constructor|]. rewrite (H x y X). destruct (p y); [exact F2|now constructor]. Qed.
Lemma drop_last_rel (p : F -> bool) l l' : (forall x y, R x y -> p x = p y) -> Forall2 R l l' -> Forall2 R (drop_last p l) (drop_last p l').
Proof.
  intros H F2. induction F2 as [|x y l l' X F2 IH]; [constructor|]. destruct F2 as [|x2 y2 l l' X2 F2].
  - cbn [drop_last]. rewrite (H x y X). destruct (p y); [constructor|]. constructor; [exact X|constructor].
  - change (Forall2 R (x :: drop_last p (x2 :: l)) (y :: drop_last p (y2 :: l'))). now constructor.
Qed.
Lemma merge_rel (s : F -> F -> bool) l l' : (forall x y x' y', R x x' -> R y y' -> s x y = s x' y') -> Forall2 R l l' -> Forall2 R (merge_recursive s l) (merge_recursive s l').
Proof.
  intros H. assert (M : forall l l', Forall2 R l l' -> forall p p', R p p' -> Forall2 R (merge_from s p l) (merge_from s p' l')).
  { intros a a' F2. induction F2 as [|x y a a' X F2 IH]; intros p p' P; cbn [merge_from]; [constructor|]. rewrite (H p x p' y P X). destruct (s p' y); [now apply IH|].
    constructor; [exact X|now apply IH]. }
  intros F2. destruct F2 as [|x y a a' X F2]; cbn [merge_recursive]; [constructor|]. constructor; [exact X|now apply M].
Qed.
End Related.
Lemma rel_eq {A} (l l' : list A) : Forall2 eq l l' -> l = l'.
Proof. induction 1; congruence. Qed.

(** ** core *)
Lemma anonymize_alike p q : path_alike p q -> anonymize_path p = anonymize_path q.
Proof.
  intros [E|(u & v & rest & [U _] & [V _] & -> & ->)]; [now rewrite E|]. unfold home. now rewrite (anonymize_home u rest U), (anonymize_home v rest V).
Qed.
Lemma core_with_alike f g n m i j : core_alike f g -> n = m -> path_alike i j -> core_alike (core_with f n i) (core_with g m j).
Proof. intros (E1 & E2 & E3 & E4 & E5 & E6 & E7) -> A. unfold core_alike, core_with. cbn. now repeat split. Qed.
Lemma core_exit_alike f g : core_alike f g -> sr_core_thread_is_exit_frame f = sr_core_thread_is_exit_frame g.
Proof.
  intros (E1 & E2 & E3 & E4 & E5 & E6 & A). unfold sr_core_thread_is_exit_frame. 
  assert (J : forall r, In r core_exit_table -> incl (snd r) looked_for) by (intros r R; exact (incl_tran (incl_table _ r R) incl_core_exit)).
  induction core_exit_table as [|r tb IH]; [reflexivity|]. cbn [existsb]. rewrite IH by (intros x X; apply J; now right). f_equal.
  unfold sr_core_frame_calls_func. rewrite E4. destruct (cf_function_name f) as [n|]; [|reflexivity]. destruct (str_eqb n (fst r)); [|reflexivity]. f_equal.
  apply file_match_alike; [exact A|]. apply J. now left.
Qed.
Lemma core_above_alike f g : core_alike f g -> core_removable_with_above f = core_removable_with_above g.
Proof.
  intros A. unfold core_removable_with_above. rewrite (core_exit_alike f g A). destruct A as (E1 & E2 & E3 & E4 & E5 & E6 & A). rewrite E4. now rewrite (above_alike _ _ _ A).
Qed.
Lemma core_removable_alike f g : core_alike f g -> core_removable f = core_removable g.
Proof. intros (E1 & E2 & E3 & E4 & E5 & E6 & A). unfold core_removable. rewrite E4. now apply removable_alike. Qed.
Lemma core_normalize_alike l l' : Forall2 core_alike l l' -> sr_normalize_core_frames l = sr_normalize_core_frames l'.
Proof.
  intros H. unfold sr_normalize_core_frames.
  apply (cut_exit_rel core_alike sr_core_thread_is_exit_frame _ _ core_exit_alike) in H.
  apply (map_rel core_alike core_alike core_prefix) in H.
  2: { intros f g A. unfold core_prefix. apply core_with_alike; [exact A| |apply A]. destruct A as (_ & _ & _ & E & _). now rewrite E. }
  apply (map_rel core_alike core_alike core_rename) in H.
  2: { intros f g A. unfold core_rename. pose proof A as (_ & _ & _ & E & _ & _ & P). rewrite E, <- (rename_alike _ _ _ P).
       destruct (find_new_function_name_glibc (cf_function_name f) (cf_file_name f)); [|exact A]. now apply core_with_alike. }
  apply (sweep_rel core_alike core_removable core_removable_with_above core_removable_alike core_above_alike _ _) with (k := []) (k' := []) in H; [|constructor].
  apply (map_rel core_alike eq core_anonymize) in H.
  2: { intros f g (E1 & E2 & E3 & E4 & E5 & E6 & P). unfold core_anonymize, core_with. rewrite E1, E2, E3, E4, E5, E6. now rewrite (anonymize_alike _ _ P). }
  apply rel_eq in H. now rewrite H.
Qed.
