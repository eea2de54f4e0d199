(** * Proofs about the Java exception parser: printed exceptions are read back. *)
From Verif Require Import Base Types UtilsSpec UtilsModel UtilsProofs RpmSpec RpmProofs RpmProofs4 LookupProofs JsonModel TextModel ParseSpec ParseModel ParseProofs RubyParseProofs JsParseProofs PyParseSpec PyParseProofs JavaParseModel JavaParseSpec JavaParseProofs JavaParseProofs2.
Open Scope nat_scope.

Lemma anonymized_same p : ~ begins (L "/home/") p -> anonymized p p.
Proof. intros H. right. split; [|reflexivity]. intros u r _ ->. apply H. eexists. reflexivity. Qed.
Definition source_of (f : java_frame) : str := if vf_is_native f then L "Native Method" else match vf_file_name f with Some n => n | None => L "Unknown Source" end.
Definition number_of (f : java_frame) : str := if (vf_file_line f =? 0)%Z then [] else L ":" ++ dec (vf_file_line f).
Definition name_of (f : java_frame) : str := match vf_name f with Some n => n | None => [] end.
Lemma number_shown f q : (0 <= vf_file_line f < 2 ^ 32)%Z -> java_number (number_of f ++ L ")" ++ q) (vf_file_line f) (L ")" ++ q).
Proof.
  intros H. unfold number_of. destruct (Z.eqb_spec (vf_file_line f) 0) as [E|E].
  - left. cbn [app]. split; [intros [z Ez]; discriminate Ez|]. auto.
  - right. left. exists (dec (vf_file_line f)), (Z.to_N (vf_file_line f)). split; [rewrite <- app_assoc; reflexivity|]. split.
    + apply print_number32. lia.
    + split; [lia|]. cbn. intros X. apply X. reflexivity.
Qed.
Lemma source_shown f q : java_showable f -> java_source (L "(" ++ source_of f ++ number_of f ++ L ")" ++ q) (vf_is_native f) (vf_file_name f) (vf_file_line f) (L ")" ++ q).
Proof.
  intros (_ & _ & Hl & _ & Hnat & Hf & _). right. exists (source_of f), (number_of f ++ L ")" ++ q). split; [reflexivity|].
  assert (Hw : without (L ":)") (source_of f)).
  { unfold source_of. destruct (vf_is_native f); [repeat (apply Forall_cons; [cbn; intuition discriminate|]); apply Forall_nil|]. destruct (vf_file_name f) as [n|]; [|repeat (apply Forall_cons; [cbn; intuition discriminate|]); apply Forall_nil].
    destruct (Hf n eq_refl) as (_ & Hw & _). eapply without_incl; [|exact Hw]. intros c Hc. apply in_or_app. left. exact Hc. }
  split; [exact Hw|]. split. { unfold number_of. destruct (_ =? _)%Z; cbn; auto. }
  split; [|split; [|apply number_shown; exact Hl]]; unfold source_of; destruct (vf_is_native f) eqn:En.
  - split; [intros _; exists []; reflexivity|reflexivity].
  - split; [discriminate|]. intros H. exfalso. destruct (vf_file_name f) as [n|]; [destruct (Hf n eq_refl) as (_ & _ & H1 & _); contradiction|]. destruct H as [z Ez]. discriminate Ez.
  - left. split; [auto|]. right. left. exists []. reflexivity.
  - destruct (vf_file_name f) as [n|]; [right|left; split; [reflexivity|]; right; right; exists []; reflexivity]. destruct (Hf n eq_refl) as (H1 & _ & H2 & H3 & H4). repeat (split; [assumption|]). exists n. split; [apply anonymized_same; exact H4|reflexivity].
Qed.
Lemma line_shown f q : java_showable f -> java_url (L ")" ++ q) (vf_class_path f) -> java_line (name_of f ++ L "(" ++ source_of f ++ number_of f ++ L ")" ++ q) f.
Proof.
  intros H Hu. pose proof H as (He & Hm & _ & Hn & _). exists (name_of f), (L "(" ++ source_of f ++ number_of f ++ L ")" ++ q), (L ")" ++ q). split; [reflexivity|].
  assert (Hw : without (L "(") (name_of f) /\ optional (name_of f) (vf_name f)). { unfold name_of. destruct (vf_name f) as [n|]; [|split; [constructor|reflexivity]]. destruct (Hn n eq_refl) as (H1 & _ & H2 & _). split; [apply (without_one "("%char); exact H2|destruct n; [contradiction|reflexivity]]. }
  split; [apply Hw|]. split; [left; reflexivity|]. split; [apply Hw|]. split; [apply source_shown; exact H|]. split; [exact Hu|]. auto.
Qed.
Lemma position_spec c a b : ~ In c a -> position c (a ++ c :: b) = length a.
Proof. induction a as [|x a IH]; intros H; cbn [position app length]; [rewrite Ascii.eqb_refl; reflexivity|]. destruct (Ascii.eqb_spec x c) as [->|_]; [exfalso; apply H; left; reflexivity|]. rewrite IH; [reflexivity|]. intros Hi. apply H. right. exact Hi. Qed.
Lemma position_after c a b : ~ In c a -> length a <= position c (a ++ b).
Proof. induction a as [|x a IH]; intros H; cbn [position app length]; [lia|]. destruct (Ascii.eqb_spec x c) as [->|_]; [exfalso; apply H; left; reflexivity|]. assert (~ In c a) by (intros Hi; apply H; right; exact Hi). specialize (IH H0). lia. Qed.
Definition url_of (f : java_frame) : str := match vf_class_path f with
       | None => L " [unknown]"
       | Some p => L " [" ++ (if Nat.ltb (position "/" p) (position ":" p) then L "file:" else []) ++ p ++ L "]"
       end.
Lemma url_shown f : java_showable f -> java_url (L ")" ++ url_of f) (vf_class_path f).
Proof.
  intros (_ & _ & _ & _ & _ & _ & Hp). unfold url_of. right. destruct (vf_class_path f) as [p|].
  2:{ exists (L ") "), (L "unknown]"). split; [reflexivity|]. split; [cbn; intuition discriminate|]. left. split; [cbn; intuition discriminate|reflexivity]. }
  destruct (Hp p eq_refl) as (Hw & Hh & H). exists (L ") "), ((if Nat.ltb (position "/" p) (position ":" p) then L "file:" else []) ++ p ++ L "]"). split; [reflexivity|]. split; [cbn; intuition discriminate|]. right.
  assert (Hne : ~ In "]"%char p) by (intros Hi; apply (without_In _ _ Hw _ Hi); left; reflexivity).
  assert (Hpn : p <> []) by (intros ->; destruct H as [(a & b & E & _)|(a & b & E & _)]; destruct a; discriminate E).
  assert (Ht : match p with [] => Some p = None | _ => exists shown, anonymized p shown /\ Some p = Some shown end) by (destruct p; [contradiction|]; eexists; split; [apply anonymized_same; exact Hh|reflexivity]).
  destruct H as [(a & b & E & Ha1 & Ha2)|(scheme & r & E & Hs1 & Hs2 & Hj & Hf)].
  - assert (Elt : (position "/" p <? position ":" p) = true). { apply Nat.ltb_lt. rewrite E, position_spec by exact Ha2. replace (a ++ "/"%char :: b) with ((a ++ ["/"%char]) ++ b) by (rewrite <- app_assoc; reflexivity). assert (H : ~ In ":"%char (a ++ ["/"%char])) by (apply in_app_not; split; [exact Ha1|cbn; intuition discriminate]). pose proof (position_after _ _ b H) as Hl. rewrite app_length in Hl. cbn in Hl. lia. }
    rewrite Elt. exists (L "file"), (p ++ L "]"). split; [reflexivity|]. split; [cbn; intuition discriminate|]. right. split; [discriminate|]. exists p, (L "]"). split; [left; auto|]. split; [exact Hne|]. split; [left; reflexivity|]. exact Ht.
  - assert (Elt : (position "/" p <? position ":" p) = false). { apply Nat.ltb_ge. rewrite E, position_spec by exact Hs1. apply position_after. exact Hs2. }
    rewrite Elt. cbn [app]. exists scheme, (r ++ L "]"). split; [rewrite E, <- app_assoc; reflexivity|]. split; [exact Hs1|]. right. split; [exact Hj|]. exists p, (L "]"). split; [right; split; [exact Hf|]; rewrite E, <- app_assoc; reflexivity|]. split; [exact Hne|]. split; [left; reflexivity|]. exact Ht.
Qed.
Lemma plain_url f : vf_class_path f = None -> java_url (L ")" ++ []) (vf_class_path f).
Proof. intros ->. left. split; [cbn; intuition discriminate|reflexivity]. Qed.
Lemma written_text f : java_showable f -> sr_java_frame_append_to_str f = [tab] ++ L "at " ++ name_of f ++ L "(" ++ source_of f ++ number_of f ++ L ")" ++ url_of f.
Proof.
  intros (He & _). unfold sr_java_frame_append_to_str. rewrite He. unfold name_of, source_of, number_of, url_of. destruct (vf_file_name f), (vf_is_native f); reflexivity.
Qed.
Lemma show_text f : (0 <= vf_file_line f)%Z -> java_show print_N f = [tab] ++ L "at " ++ name_of f ++ L "(" ++ source_of f ++ number_of f ++ L ")".
Proof.
  intros H. unfold java_show, name_of, source_of, number_of. reflexivity.
Qed.
(** The two ways in which a frame is written. *)
Inductive java_shows : java_frame -> str -> Prop :=
| js_satyr f : java_showable f -> java_shows f (sr_java_frame_append_to_str f)
| js_java f : java_showable f -> vf_class_path f = None -> java_shows f (java_show print_N f).
Lemma shows_line f t : java_shows f t -> exists line, t = [tab] ++ L "at " ++ line /\ java_line line f /\ ~ In nl line /\ not_blank_first line /\ line <> [].
Proof.
  assert (Hgo : forall f q, java_showable f -> java_url (L ")" ++ q) (vf_class_path f) -> ~ In nl q -> let line := name_of f ++ L "(" ++ source_of f ++ number_of f ++ L ")" ++ q in java_line line f /\ ~ In nl line /\ not_blank_first line /\ line <> []).
  { clear. intros f q H Hu Hq line. pose proof H as (_ & _ & Hl & Hn & _ & Hf & _). split; [apply line_shown; assumption|]. split.
    - unfold line. rewrite !in_app_iff. intros [Hi|[Hi|[Hi|[Hi|[Hi|Hi]]]]].
      + unfold name_of in Hi. destruct (vf_name f) as [n|]; [|destruct Hi]. destruct (Hn n eq_refl) as (_ & _ & _ & X). contradiction.
      + destruct Hi as [Hi|[]]. discriminate Hi.
      + unfold source_of in Hi. destruct (vf_is_native f); [cbn in Hi; intuition discriminate|]. destruct (vf_file_name f) as [n|]; [|cbn in Hi; intuition discriminate]. destruct (Hf n eq_refl) as (_ & X & _). apply (without_In _ _ X _ Hi). cbn. auto.
      + unfold number_of in Hi. destruct (_ =? _)%Z; [destruct Hi|]. apply in_app_iff in Hi as [[Hi|[]]|Hi]; [discriminate Hi|]. revert Hi. unfold dec. apply print_N_no. reflexivity.
      + destruct Hi as [Hi|[]]. discriminate Hi.
      + contradiction.
    - split; [|unfold line; destruct (name_of f); discriminate]. unfold line, name_of. destruct (vf_name f) as [n|]; [|cbn; intros X; apply is_space_iff in X; discriminate X]. destruct (Hn n eq_refl) as (X & Y & _). destruct n; [contradiction|exact Y]. }
  intros [f' H|f' H Hc]; clear f t; rename f' into f.
  - eexists. split; [apply written_text; exact H|]. apply Hgo; [exact H|apply url_shown; exact H|]. unfold url_of. pose proof H as (_ & _ & _ & _ & _ & _ & Hp). destruct (vf_class_path f) as [p|]; [|cbn; intuition discriminate].
    destruct (Hp p eq_refl) as (X & _). rewrite !in_app_iff. intros [Hi|[Hi|[Hi|Hi]]]; [cbn in Hi; intuition discriminate|destruct (_ <? _); cbn in Hi; intuition discriminate|apply (without_In _ _ X _ Hi); cbn; auto|cbn in Hi; intuition discriminate].
  - exists (name_of f ++ L "(" ++ source_of f ++ number_of f ++ L ")"). split; [apply show_text; apply H|]. rewrite <- (app_nil_r (L ")")). apply Hgo; [exact H|apply plain_url; exact Hc|intros []].
Qed.
Lemma blank_tab : blank [tab].
Proof. constructor; [cbn; auto|constructor]. Qed.
Lemma at_not_blank s : not_blank_first (L "at " ++ s).
Proof. cbn. intros H. apply is_space_iff in H. discriminate H. Qed.
Lemma shows_frame f t rest : java_shows f t -> java_frame_text (t ++ nl :: rest) f rest /\ exists r, past_blanks (t ++ nl :: rest) r /\ begins (L "at ") r /\ java_frame_text r f rest.
Proof.
  intros H. apply shows_line in H as (line & -> & Hl & Hn & Hb & Hne).
  assert (Hpb : past_blanks (L " " ++ line ++ nl :: rest) (line ++ nl :: rest)).
  { exists (L " "). split; [reflexivity|]. split; [constructor; [cbn; auto|constructor]|]. destruct line; [contradiction|exact Hb]. }
  assert (Hfirst : forall a, blank a -> ~ In "a"%char a -> first_at (L "at") (a ++ L "at " ++ line ++ nl :: rest) (L "at" ++ L " " ++ line ++ nl :: rest)).
  { intros a _ Ha. exists a. split; [reflexivity|]. split; [eexists; reflexivity|]. intros a' r' E [z ->]. destruct (Nat.le_gt_cases (length a) (length a')) as [Hle|Hgt]; [exact Hle|]. exfalso.
    apply Ha. apply (f_equal (fun l => nth_error l (length a'))) in E. rewrite nth_error_app1 in E by exact Hgt. rewrite nth_error_app2, Nat.sub_diag in E by lia. cbn in E. apply nth_error_In in E. exact E. }
  assert (Hr : forall a, blank a -> ~ In "a"%char a -> java_frame_text (a ++ L "at " ++ line ++ nl :: rest) f rest).
  { intros a H1 H2. exists (L " " ++ line ++ nl :: rest), (line ++ nl :: rest), line. split; [apply Hfirst; assumption|]. split; [exact Hpb|]. split; [split; [exact Hn|left; reflexivity]|exact Hl]. }
  split; [rewrite <- !app_assoc; apply (Hr [tab]); [apply blank_tab|cbn; intuition discriminate]|].
  exists (L "at " ++ line ++ nl :: rest). split; [exists [tab]; rewrite <- !app_assoc; split; [reflexivity|]; split; [apply blank_tab|apply at_not_blank]|]. split; [eexists; reflexivity|]. apply (Hr []); [constructor|intros []].
Qed.
Theorem java_frame_roundtrip f t rest : java_shows f t -> sr_java_frame_parse (t ++ nl :: rest) = Ok (f, rest).
Proof. intros H. apply java_frame_iff. apply (shows_frame _ _ _ H). Qed.
Theorem java_frame_roundtrip_end f t : java_shows f t -> sr_java_frame_parse t = Ok (f, []).
Proof.
  intros H. apply java_frame_iff. apply shows_line in H as (line & -> & Hl & Hn & Hb & Hne). exists (L " " ++ line), line, line.
  split. { exists [tab]. split; [reflexivity|]. split; [eexists; reflexivity|]. intros a' r' E [z ->]. destruct a'; [discriminate E|cbn; lia]. }
  split; [exists (L " "); split; [reflexivity|]; split; [constructor; [cbn; auto|constructor]|exact Hb]|]. split; [split; [exact Hn|right; auto]|exact Hl].
Qed.

(** ** Chains *)

Lemma lines_shown fs texts tail next : Forall2 java_shows fs texts -> java_lines tail [] next -> java_lines (concat (map (fun t => t ++ [nl]) texts) ++ tail) fs next.
Proof.
  intros H Hn. induction H as [|f t fs ts Hf _ IH]; [exact Hn|]. cbn [map concat]. rewrite <- !app_assoc. cbn [app].
  destruct (shows_frame f t (concat (map (fun t => t ++ [nl]) ts) ++ tail) Hf) as (_ & r & Hb & [z Ez] & Hr).
  eapply jl_frame; [destruct t; discriminate|exact Hb| | | |exact Hr|exact IH]; rewrite Ez; intros [w Ew]; discriminate Ew.
Qed.
Lemma head_shown k body : link_ok java_shows k -> java_head (jk_name k ++ match jk_message k with Some m => L ": " ++ m | None => [] end ++ [nl] ++ body) (jk_name k) (jk_message k) body.
Proof.
  intros (Hne & Hw & Hb & Hm & _). set (after := match jk_message k with Some m => L ": " ++ m | None => [] end ++ [nl] ++ body). exists (jk_name k ++ after), after.
  split; [exists []; split; [reflexivity|]; split; [constructor|]; destruct (jk_name k); [contradiction|exact Hb]|]. split; [reflexivity|]. split; [exact Hne|]. split; [exact Hw|]. unfold after. destruct (jk_message k) as [m|].
  - destruct (Hm m eq_refl) as (H1 & H2 & H3). split; [left; reflexivity|]. left. exists (L " " ++ m ++ nl :: body), (m ++ nl :: body), m. split; [rewrite <- !app_assoc; reflexivity|]. split.
    + exists (L " "). split; [reflexivity|]. split; [constructor; [cbn; auto|constructor]|]. destruct m; [contradiction|exact H3].
    + split; [split; [exact H2|left; reflexivity]|]. destruct m; [contradiction|reflexivity].
  - split; [cbn; auto|]. right. split; [intros [z Ez]; discriminate Ez|]. exists []. split; [split; [intros []|left; reflexivity]|reflexivity].
Qed.
Lemma past_indented_lines ls q : Forall indented ls -> not_blank_first q -> past_indented (concat (map (fun l => l ++ [nl]) ls) ++ q) q.
Proof.
  intros H Hq. induction H as [|l ls (Hn & c & r & -> & Hc) _ IH]; [constructor; exact Hq|]. cbn [map concat]. rewrite <- !app_assoc. cbn [app]. eapply pi_line; [exact Hc| |exact IH].
  exists (c :: r). split; [exact Hn|]. left. reflexivity.
Qed.
(** What follows an exception: nothing, or the causes. *)
Lemma elided_after n q : not_blank_first q -> ~ In nl n -> ~ begins (L "Suppressed: ") q -> java_after (L "... " ++ n ++ nl :: q) q.
Proof.
  intros Hq Hn Hs. exists q, q. split; [exists (L "... " ++ n); split; [rewrite in_app_iff; intros [Hi|Hi]; [cbn in Hi; intuition discriminate|contradiction]|left; rewrite <- app_assoc; reflexivity]|].
  split; [exists []; split; [reflexivity|]; split; [constructor|exact Hq]|]. left. auto.
Qed.
Lemma suppressed_after n s ls q : not_blank_first q -> ~ In nl n -> ~ In nl s -> Forall indented ls ->
  java_after (L "... " ++ n ++ nl :: [tab] ++ L "Suppressed: " ++ s ++ nl :: concat (map (fun l => l ++ [nl]) ls) ++ q) q.
Proof.
  intros Hq Hn Hs Hl. set (r := s ++ nl :: concat (map (fun l => l ++ [nl]) ls) ++ q). exists ([tab] ++ L "Suppressed: " ++ r), (L "Suppressed: " ++ r).
  split; [exists (L "... " ++ n); split; [rewrite in_app_iff; intros [Hi|Hi]; [cbn in Hi; intuition discriminate|contradiction]|left; rewrite <- app_assoc; reflexivity]|].
  split; [exists [tab]; split; [reflexivity|]; split; [apply blank_tab|cbn; intros H; apply is_space_iff in H; discriminate H]|].
  right. split; [eexists; reflexivity|]. exists (concat (map (fun l => l ++ [nl]) ls) ++ q). split; [|apply past_indented_lines; assumption].
  exists (L "Suppressed: " ++ s). split; [rewrite in_app_iff; intros [Hi|Hi]; [cbn in Hi; intuition discriminate|contradiction]|]. left. unfold r. rewrite <- app_assoc. reflexivity.
Qed.
Lemma elided_lines r : begins (L "... ") r -> java_lines ([tab] ++ r) [] (elided r).
Proof. intros [z ->]. apply jl_elided; [discriminate| |left; eexists; reflexivity]. exists [tab]. split; [reflexivity|]. split; [apply blank_tab|]. cbn. intros H. apply is_space_iff in H. discriminate H. Qed.
Theorem chain_shown ks : forall k, link_ok java_shows k -> Forall (link_ok java_shows) ks ->
  java_exception (chain_text k ks) (concat (map link_frames (rev (k :: ks)))) [].
Proof.
  induction ks as [|k' ks IH]; intros k Hk Hks; unfold chain_text; cbn [causes_text].
  - cbn [rev app map concat]. rewrite !app_nil_r. unfold link_frames, link_text. pose proof (head_shown k (concat (map (fun t => t ++ [nl]) (jk_texts k)) ++ jk_elision k) Hk) as Hh. destruct Hk as (_ & _ & _ & _ & Hfs & Hel).
    destruct Hel as [|n Hn|n s ls Hn Hs Hl].
    + eapply je_last; [exact Hh|]. apply lines_shown; [exact Hfs|constructor].
    + eapply je_elided; [exact Hh|apply lines_shown; [exact Hfs|apply elided_lines; eexists; reflexivity]| |intros [z Ez]; discriminate Ez]. apply elided_after; [exact Logic.I|exact Hn|intros [z Ez]; discriminate Ez].
    + eapply je_elided; [exact Hh|apply lines_shown; [exact Hfs|apply elided_lines; eexists; reflexivity]| |intros [z Ez]; discriminate Ez].
      pose proof (suppressed_after n s ls [] Logic.I Hn Hs Hl) as H. rewrite app_nil_r in H. exact H.
  - inversion Hks as [|? ? Hk' Hks']; subst. specialize (IH k' Hk' Hks'). unfold chain_text in IH. cbn [rev]. cbn [rev] in IH. rewrite map_app, concat_app. cbn [map concat]. rewrite app_nil_r. set (inner := concat (map link_frames (rev ks ++ [k']))) in *. clearbody inner.
    set (more := link_text k' ++ causes_text ks) in *. clearbody more. unfold link_frames, link_text. rewrite <- !app_assoc.
    pose proof (head_shown k (concat (map (fun t => t ++ [nl]) (jk_texts k)) ++ jk_elision k ++ L "Caused by: " ++ more) Hk) as Hh. rewrite <- ?app_assoc in Hh. destruct Hk as (_ & _ & _ & _ & Hfs & Hel).
    assert (Hcb : not_blank_first (L "Caused by: " ++ more)) by (cbn; intros H; apply is_space_iff in H; discriminate H).
    destruct Hel as [|n Hn|n s ls Hn Hs Hl].
    + eapply je_cause; [exact Hh| |exact IH]. apply lines_shown; [exact Hfs|]. apply jl_cause; [discriminate|]. exists []. split; [reflexivity|]. split; [constructor|exact Hcb].
    + rewrite <- !app_assoc in Hh. rewrite <- !app_assoc. eapply je_elided_cause; [exact Hh|apply lines_shown; [exact Hfs|apply elided_lines; eexists; reflexivity]| |exact IH]. apply elided_after; [exact Hcb|exact Hn|intros [z Ez]; discriminate Ez].
    + rewrite <- !app_assoc in Hh. rewrite <- !app_assoc. eapply je_elided_cause; [exact Hh|apply lines_shown; [exact Hfs|apply elided_lines; eexists; reflexivity]| |exact IH]. exact (suppressed_after n s ls _ Hcb Hn Hs Hl).
Qed.
Lemma name_not_mark k ks : link_ok java_shows k -> ~ begins thread_mark (chain_text k ks).
Proof.
  intros (Hne & Hw & _) [z E].
  assert (Hstop : exists c q, chain_text k ks = jk_name k ++ c :: q /\ (c = ":"%char \/ c = nl)). { unfold chain_text, link_text. rewrite <- !app_assoc. destruct (jk_message k) as [m|]; eexists; eexists; (split; [reflexivity|]); auto. }
  destruct Hstop as (c & q & E2 & Hc). rewrite E2 in E. assert (Hq : stops_at (L ": " ++ [tab; nl]) (c :: q)) by (destruct Hc as [->| ->]; cbn; auto).
  pose proof (skip_cspan_val _ _ _ Hw Hq) as E3. rewrite E in E3. assert (E4 : sr_skip_char_cspan (L ": " ++ [tab; nl]) (thread_mark ++ z) = (length (L "Exception"), L " in thread """ ++ z)).
  { change (thread_mark ++ z) with (L "Exception" ++ L " in thread """ ++ z). apply skip_cspan_val; [repeat (apply Forall_cons; [cbn; intuition discriminate|]); apply Forall_nil|cbn; auto]. }
  rewrite E4 in E3. apply (f_equal (fun x => cur (snd x))) in E3. cbn in E3. destruct Hc as [->| ->]; discriminate E3.
Qed.
Theorem java_roundtrip name k ks : without [dquote; nl] name -> link_ok java_shows k -> Forall (link_ok java_shows) ks ->
  sr_java_stacktrace_parse (L "Exception in thread " ++ [dquote] ++ name ++ [dquote] ++ L " " ++ chain_text k ks) =
    Ok (mk_java_stacktrace [mk_java_thread (Some name) (concat (map link_frames (rev (k :: ks))))], []) /\
  sr_java_stacktrace_parse (chain_text k ks) = Ok (mk_java_stacktrace [mk_java_thread None (concat (map link_frames (rev (k :: ks))))], []).
Proof.
  intros Hn Hk Hks. pose proof (chain_shown ks k Hk Hks) as H. unfold sr_java_stacktrace_parse. split.
  - assert (E : sr_java_thread_parse (L "Exception in thread " ++ [dquote] ++ name ++ [dquote] ++ L " " ++ chain_text k ks) = Ok (mk_java_thread (Some name) (concat (map link_frames (rev (k :: ks)))), [])).
    { apply java_thread_iff. left. exists name, (L " " ++ chain_text k ks), (concat (map link_frames (rev (k :: ks)))). split; [reflexivity|]. split; [exact Hn|]. split; [|reflexivity].
      assert (Hb : forall s, past_blanks (L " " ++ chain_text k ks) s <-> past_blanks (chain_text k ks) s). { intros s. rewrite !past_blanks_eval. unfold sr_skip_whitespace. cbn [L list_ascii_of_string app span]. change (is_space sp) with true. cbv iota. destruct (span is_space (chain_text k ks)). reflexivity. }
      assert (Hh : forall n m b, java_head (chain_text k ks) n m b -> java_head (L " " ++ chain_text k ks) n m b). { intros n m b (r & after & Hp & X). exists r, after. split; [apply Hb; exact Hp|exact X]. }
      revert H. generalize (concat (map link_frames (rev (k :: ks)))) as frames, (@nil ascii) as rest. intros frames rest H. inversion H; subst; [eapply je_last|eapply je_elided|eapply je_elided_cause|eapply je_cause]; eauto. }
    rewrite E. reflexivity.
  - assert (E : sr_java_thread_parse (chain_text k ks) = Ok (mk_java_thread None (concat (map link_frames (rev (k :: ks)))), [])). { apply java_thread_iff. right. split; [apply name_not_mark; exact Hk|]. eauto. }
    rewrite E. reflexivity.
Qed.
(** What satyr writes for a thread with one exception is read back. *)
Lemma text_loop_frames fs : Forall java_showable fs -> forall exc out, java_text_loop fs exc out = (exc ++ concat (map (fun t => t ++ [nl]) (map sr_java_frame_append_to_str fs)), out).
Proof.
  induction 1 as [|f fs (Hf & _) _ IH]; intros exc out; cbn [java_text_loop map concat]; [rewrite app_nil_r; reflexivity|]. rewrite Hf. cbn [andb]. cbv iota. rewrite IH, <- !app_assoc. reflexivity.
Qed.
Theorem java_written_roundtrip tname name message fs : without [dquote; nl] tname ->
  name <> [] -> without (L ": " ++ [tab; nl]) name -> not_blank_first name -> (forall m, message = Some m -> m <> [] /\ ~ In nl m /\ not_blank_first m) -> Forall java_showable fs ->
  let t := mk_java_thread (Some tname) (java_exception_frame name message :: fs) in sr_java_thread_parse (sr_java_thread_append_to_str t) = Ok (t, []).
Proof.
  intros Ht Hn Hw Hb Hm Hfs t. set (k := mk_java_link name message fs (map sr_java_frame_append_to_str fs) []).
  assert (Hk : link_ok java_shows k). { repeat (split; [assumption|]). split; [|constructor]. unfold k. cbn [jk_frames jk_texts]. clear -Hfs. induction Hfs as [|f fs Hf _ IH]; constructor; [constructor; exact Hf|exact IH]. }
  destruct (java_roundtrip tname k [] Ht Hk ltac:(constructor)) as [E _].
  assert (Et : sr_java_thread_append_to_str t = L "Exception in thread " ++ [dquote] ++ tname ++ [dquote] ++ L " " ++ chain_text k []).
  { unfold sr_java_thread_append_to_str, t. cbn [vt_frames vt_name java_text_loop java_exception_frame vf_is_exception]. rewrite Nat.ltb_irrefl. cbn [andb]. cbv iota. rewrite (text_loop_frames _ Hfs). unfold chain_text, link_text, k. cbn [causes_text jk_name jk_message jk_texts jk_elision].
    rewrite !app_nil_r. unfold sr_java_frame_append_to_str at 1. cbn [java_exception_frame vf_is_exception vf_name vf_message app]. rewrite <- !app_assoc. reflexivity. }
  rewrite Et. unfold sr_java_stacktrace_parse in E. destruct (sr_java_thread_parse _) as [[t' r]| |]; [|discriminate E|discriminate E]. cbn [bind] in E. injection E as -> ->.
  unfold k, t, link_frames. cbn [rev app map concat jk_name jk_message jk_frames]. rewrite app_nil_r. reflexivity.
Qed.
