(** * Proofs about the Python locations: the whole. *)
From Verif Require Import Base Types UtilsSpec UtilsModel UtilsProofs JsonModel RpmProofs4 ParseSpec ParseModel ParseProofs RubyParseProofs JsParseProofs PyParseModel PyParseSpec PyParseProofs LocParseModel LocParseSpec LocParseProofs LocParseProofs5 PyLocModel PyLocSpec PyLocProofs.
Open Scope nat_scope.

(** ** Searching *)
Lemma place_ok fuel : forall hay needle lc, match strstr_loop fuel hay needle lc with
  | Ok (_, lc') => strstr_place fuel hay needle lc = lc'
  | Fail => exists pre, behind_last (cur needle) hay pre /\ strstr_place fuel hay needle lc = eat_all lc pre
  | UB => True
  end.
Proof.
  induction fuel as [|fuel IH]; intros hay needle lc; [exact Logic.I|]. cbn [strstr_loop strstr_place]. unfold sr_strchr_location. destruct (strchr_loc hay (cur needle) (1, 0)%Z) as [[h clc]|] eqn:E.
  2:{ apply strchr_loc_none in E. exists []. split; [left; auto|reflexivity]. }
  apply strchr_loc_some in E as (pre & Hh & Hp & Hn & ->). cbv zeta. destruct (starts_with needle h); [reflexivity|]. rewrite Hp. set (h' := skipn 1 h) in *. rewrite <- eat_all_add.
  specialize (IH h' needle (loc_eat_char (eat_all lc pre) (cur needle))). destruct (strstr_loop fuel h' needle _) as [[r lc']| |]; [exact IH| |exact Logic.I].
  destruct IH as (pre' & Hb & Epl). rewrite Epl. exists (pre ++ cur needle :: pre'). split.
  - right. destruct Hb as [[Hno ->]|(a & r & Ea & Hno & ->)].
    + exists pre, h'. auto.
    + exists (pre ++ cur needle :: a), r. rewrite Hh, Ea, <- !app_assoc. auto.
  - rewrite eat_all_app. reflexivity.
Qed.
Lemma behind_last_fun c s p p' : behind_last c s p -> behind_last c s p' -> p = p'.
Proof.
  intros [[Hn ->]|(a & r & -> & Hr & ->)] [[Hn' ->]|(a' & r' & E & Hr' & ->)]; auto.
  - exfalso. apply Hn. rewrite E. apply in_elt.
  - exfalso. apply Hn'. apply in_elt.
  - f_equal. revert a' E. induction a as [|x a IH]; intros [|y a'] E; [reflexivity| | |].
    + exfalso. injection E as -> E. apply Hr. rewrite E. apply in_elt.
    + exfalso. injection E as -> E. apply Hr'. rewrite <- E. apply in_elt.
    + injection E as -> E. f_equal. exact (IH _ E).
Qed.
Lemma find_cases {B} hay needle l (found : str -> location -> outcome B) missing : needle <> [] ->
  (exists a r ln col, hay = a ++ r /\ first_at needle hay r /\ pos_of a ln col /\ find hay needle l found missing = found r (mk_location ln col (message l))) \/
  ((forall r, ~ first_at needle hay r) /\ exists pre ln col, behind_last (cur needle) hay pre /\ pos_of pre ln col /\ find hay needle l found missing = missing (mk_location ln col (message l))).
Proof.
  intros Hne. unfold find. pose proof (place_ok (S (length hay)) hay needle (1, 0)%Z) as P. destruct needle as [|c n]; [destruct (Hne eq_refl)|]. fold (sr_strstr_location hay (c :: n)) in P.
  change (strstr_loop (S (length hay)) hay (c :: n) (1, 0)%Z) with (sr_strstr_location hay (c :: n)) in P.
  destruct (strstr_first hay (c :: n)) as [(r & lc & E & Hr)|[E Hno]].
  - pose proof (strstr_location_correct hay (c :: n)) as H. rewrite E in *. destruct lc as [ln col]. destruct H as (pre & (Eh & Hb & Hm) & Hpos). rewrite P. left. exists pre, r, ln, col. auto.
  - rewrite E in *. destruct P as (pre & Hb & ->). right. split; [exact Hno|]. exists pre. pose proof (eat_all_pos pre) as Hpos. destruct (eat_all (1, 0)%Z pre) as [ln col]. exists ln, col. auto.
Qed.
(** ** The frames *)
Lemma runs_frames s ws rest : py_run s ws rest -> exists fs, py_frames_text s fs rest /\ length fs = length ws.
Proof.
  induction 1 as [s r Hr Hn|s r f q w ws rest Hr Hf Hw Hrun (fs & IH & El)]; [exists []; split; [apply pft_end; assumption|reflexivity]|]. exists (f :: fs). split; [eapply pft_cons; eassumption|cbn; congruence].
Qed.
Lemma run_fun s ws rest : py_run s ws rest -> forall ws' rest', py_run s ws' rest' -> ws = ws' /\ rest = rest'.
Proof.
  induction 1 as [s r Hr Hn|s r f q w ws rest Hr Hf Hw Hrun IH]; intros ws' rest' H'; inversion H' as [s' r' Hr' Hn'|s' r' f' q' w' ws2 rest2 Hr' Hf' Hw' Hrun']; subst; rewrite (passed_fun _ _ _ Hr' Hr) in *.
  - auto.
  - destruct (Hn _ _ Hf').
  - destruct (Hn' _ _ Hf).
  - destruct (frame_text_fun _ _ _ _ _ Hf Hf') as [<- <-]. rewrite (width_fun _ _ _ Hw Hw'). destruct (IH _ _ Hrun') as [<- <-]. auto.
Qed.
Lemma frames_loc_cases fuel : forall s acc fl l k, length s < fuel -> line fl = 1%Z -> column fl = Z.of_nat k ->
  (exists fs ws rest fl' why, py_frames_text s fs rest /\ py_run s ws rest /\ length fs = length ws /\ py_frame_wrong why rest /\ message fl' = Some why /\
     python_frames_loc fuel s acc fl l = Took (rev fs ++ acc, rest, fl') (right l (Z.of_nat (stairs k ws)))) \/
  (py_runs_out s /\ python_frames_loc fuel s acc fl l = Broken).
Proof.
  induction fuel as [|fuel IH]; intros s acc fl l k Hs Hl Hk; [lia|]. cbn [python_frames_loc]. destruct (pass_cases s) as [(r & Hr & _)|[Hp Ep]].
  2:{ right. split; [apply pro_now; exact Hp|]. rewrite frame_loc_split, Ep. reflexivity. }
  destruct (frame_or_wrong r) as [(f & q & Hf)|[why Hw]].
  - destruct (proj2 (width_iff r)) as [w Hw]; [eauto|]. rewrite (frame_loc_some _ _ _ _ _ fl Hr Hf Hw). cbn [and_then].
    pose proof (passed_length _ _ Hr). pose proof (body_shorter _ _ _ Hf).
    destruct (IH q (f :: acc) (right fl (Z.of_nat w)) (sr_location_add l (line (right fl (Z.of_nat w))) (column (right fl (Z.of_nat w)))) (k + w)) as [(fs & ws & rest & fl' & why & H1 & H2 & H3 & H4 & H5 & ->)|[Ho ->]];
      [lia|exact Hl|cbn; lia| |].
    + left. exists (f :: fs), (w :: ws), rest, fl', why. split; [eapply pft_cons; eassumption|]. split; [eapply run_cons; eassumption|]. split; [cbn; congruence|]. split; [exact H4|]. split; [exact H5|].
      cbn [rev]. rewrite <- app_assoc. cbn [app]. f_equal. destruct l as [ln col m]. unfold right, sr_location_add. cbn. rewrite Hl, Hk. cbn. f_equal. lia.
    + right. split; [eapply pro_later; eassumption|reflexivity].
  - destruct (frame_loc_none _ _ _ fl Hr Hw) as (l' & -> & M). cbn [and_then]. left. exists [], [], r, l', why. assert (N : forall f q, ~ py_frame_text r f q) by (intros f q; exact (frame_wrong_none _ _ _ _ Hw)).
    split; [apply pft_end; assumption|]. split; [apply run_end; assumption|]. split; [reflexivity|]. split; [exact Hw|]. split; [exact M|]. cbn. rewrite right_0. reflexivity.
Qed.
(** ** The whole *)
Lemma below_fun text s1 s2 : py_below text s1 -> py_below text s2 -> s1 = s2.
Proof. intros [->|[-> N1]] [E2|[E2 N2]]; subst; auto; try (injection E2 as ->; reflexivity); exfalso; [apply N2|apply N1]; eexists; reflexivity. Qed.
Lemma below_skip text : py_below text (snd (sr_skip_char nl text)).
Proof. destruct (skip_char_cases nl text) as [(q & -> & E)|[Hn E]]; rewrite E; [left|right]; auto. Qed.
Lemma place_start text r ln col : py_place text r ln col -> py_start text r.
Proof.
  intros [s1 a ln' col' Hb E Hf _|s1 q a ln' col' Hb Hno Hs Eq Hf _]; exists s1; (split; [exact Hb|]); [left; exact Hf|right]. split; [exact Hno|]. exists q. auto.
Qed.
Lemma app_inv_tail_pos (a a' r : str) ln col ln' col' : a ++ r = a' ++ r -> pos_of a ln col -> pos_of a' ln' col' -> ln = ln' /\ col = col'.
Proof. intros E. apply app_inv_tail in E. subst. apply pos_of_fun. Qed.
Lemma place_fun text r ln col r' ln' col' : py_place text r ln col -> py_place text r' ln' col' -> r = r' /\ ln = ln' /\ col = col'.
Proof.
  intros H H'. assert (r' = r) as -> by (apply (start_fun text); eapply place_start; eassumption). split; [reflexivity|].
  destruct H as [s1 a l c Hb E Hf Hp|s1 q a l c Hb Hno Hs Eq Hf Hp], H' as [s1' a' l' c' Hb' E' Hf' Hp'|s1' q' a' l' c' Hb' Hno' Hs' Eq' Hf' Hp']; rewrite (below_fun _ _ _ Hb' Hb) in *.
  - rewrite E in E'. destruct (app_inv_tail_pos _ _ _ _ _ _ _ E' Hp Hp') as [<- <-]. auto.
  - destruct (Hno' _ Hf).
  - destruct (Hno _ Hf').
  - rewrite (first_at_fun _ _ _ _ Hs' Hs) in *. rewrite Eq in Eq'. exact (app_inv_tail_pos _ _ _ _ _ _ _ Eq' Hp Hp').
Qed.
Definition py_loc_spec (text : str) (o : outcome (python_stacktrace * str)) : Prop :=
  match o with
  | Took (t, rest) l => py_text text t rest /\ exists r ws after ln col, py_place text r ln col /\ py_run r ws after /\ l = mk_location ln (col + Z.of_nat (stairs 0 ws)) None
  | Refused l => exists why ln col, py_wrong text why ln col /\ l = mk_location ln col (Some why)
  | Broken => exists r, py_start text r /\ py_runs_out r
  end.
Lemma frames_told text r ln col : py_place text r ln col -> py_loc_spec text (
  and_then (python_frames_loc (S (length r)) r [] sr_location_init (mk_location ln col None)) (fun '(frames, s, frame_location) l =>
  match frames with
  | [] => Refused (mk_location (line l) (column l) (message frame_location))
  | _ =>
    match sr_parse_char_cspan [":"%char; nl] s with
    | None => Refused (says l (L "Unable to find the ':\n' characters identifying the end of exception name."))
    | Some (exception_name, s) => Took (mk_python_stacktrace (Some exception_name) frames, s) l
    end
  end)).
Proof.
  intros Hp. destruct (frames_loc_cases (S (length r)) r [] sr_location_init (mk_location ln col None) 0) as [(fs & ws & rest & fl & why & H1 & H2 & H3 & H4 & H5 & ->)|[Ho ->]]; [lia|reflexivity|reflexivity| |].
  2:{ exists r. split; [eapply place_start; exact Hp|exact Ho]. }
  cbn [and_then]. rewrite app_nil_r. destruct fs as [|f fs].
  - cbn [rev]. destruct ws as [|w ws]; [|discriminate H3]. inversion H1 as [s0 r0 Hr0 Hn0|]; subst. exists why, ln, col. split; [eapply pw_frame; eassumption|]. rewrite H5. cbn. f_equal. lia.
  - destruct (rev (f :: fs)) as [|x xs] eqn:Er; [apply (f_equal (@length _)) in Er; rewrite rev_length in Er; discriminate Er|]. rewrite <- Er. clear x xs Er.
    destruct (sr_parse_char_cspan [":"%char; nl] rest) as [[class after]|] eqn:Ec.
    + apply cspan_iff in Ec as (-> & Hne & Hw & Hs). split.
      * exists r, (f :: fs), class, (class ++ after). split; [eapply place_start; exact Hp|]. split; [exact H1|]. split; [discriminate|]. auto 10.
      * exists r, ws, (class ++ after), ln, col. split; [exact Hp|]. split; [exact H2|reflexivity].
    + apply cspan_none in Ec. eexists _, ln, _. split; [eapply pw_name; [exact Hp|exact H2|destruct ws; discriminate|exact Ec]|reflexivity].
Qed.
Theorem py_loc text : py_loc_spec text (python_stacktrace_loc text sr_location_init).
Proof.
  unfold python_stacktrace_loc. pose proof (below_skip text) as Hb. destruct (sr_skip_char nl text) as [b s1]. cbn [snd] in Hb. fold header.
  set (l0 := if b then right sr_location_init 1 else sr_location_init). assert (M : message l0 = None) by (unfold l0; destruct b; reflexivity). clearbody l0.
  match goal with |- context [find s1 header l0 ?f ?m] => destruct (find_cases s1 header l0 f m ltac:(discriminate)) as [(a & r & ln & col & Es & Hf & Hpos & ->)|[Hno (pre & ln & col & Hl & Hpos & ->)]] end.
  - pose proof Hf as (_ & _ & [r' ->] & _). rewrite skipn_app_exact. cbn [and_then line message]. rewrite M. apply frames_told. eapply pp_header; eassumption.
  - cbn [message]. match goal with |- context [find text ?n ?l1 ?f ?m] => destruct (find_cases text n l1 f m ltac:(discriminate)) as [(a & q & ln2 & col2 & Es & Hs & Hpos2 & ->)|[Hno2 (pre2 & ln2 & col2 & Hl2 & Hpos2 & ->)]] end.
    + cbn [message]. match goal with |- context [find q ?n ?l1 ?f ?m] => destruct (find_cases q n l1 f m ltac:(discriminate)) as [(a3 & r & ln3 & col3 & Eq & Hf & Hpos3 & ->)|[Hno3 (pre3 & ln3 & col3 & Hl3 & Hpos3 & ->)]] end.
      * cbn [and_then message]. rewrite M. apply frames_told. eapply pp_syntax; eassumption.
      * cbn [and_then]. eexists _, _, _. split; [eapply pw_syntax; eassumption|reflexivity].
    + cbn [and_then]. eexists _, _, _. split; [eapply pw_header; eassumption|reflexivity].
Qed.

(** ** There is one reason and one place *)
Lemma wrong_cases text why ln col : py_wrong text why ln col ->
  ((forall r, ~ py_start text r) /\ ((why = L "Traceback header not found." /\ (forall x, ~ first_at (L "invalid syntax (") text x) /\ exists pre, behind_last "i" text pre /\ pos_of pre ln col) \/
     (why = L "Frame with invalid line not found." /\ exists q pre, first_at (L "invalid syntax (") text q /\ behind_last " " q pre /\ pos_of pre ln col))) \/
  (exists r ws after ln' col', py_place text r ln' col' /\ py_run r ws after /\ ln = ln' /\ col = (col' + Z.of_nat (stairs 0 ws))%Z /\
     ((ws = [] /\ py_frame_wrong why after) \/ (ws <> [] /\ why = L "Unable to find the ':\n' characters identifying the end of exception name." /\ stops_at [":"%char; nl] after))).
Proof.
  intros [s1 pre l c Hb Hno Hn2 Hl Hp|s1 q pre l c Hb Hno Hs Hn2 Hl Hp|w r s l c Hp Hr Hw|r ws after l c Hp Hrun Hne Hs].
  - left. split; [|left; eauto]. intros r (s2 & Hb2 & H). rewrite (below_fun _ _ _ Hb2 Hb) in H. destruct H as [H|[_ (q & H & _)]]; [exact (Hno _ H)|exact (Hn2 _ H)].
  - left. split; [|right; eauto 10]. intros r (s2 & Hb2 & H). rewrite (below_fun _ _ _ Hb2 Hb) in H. destruct H as [H|[_ (q' & H & H')]]; [exact (Hno _ H)|]. rewrite (first_at_fun _ _ _ _ H Hs) in H'. exact (Hn2 _ H').
  - right. exists r, [], s, l, c. split; [exact Hp|]. split; [apply run_end; [exact Hr|intros f q; exact (frame_wrong_none _ _ _ _ Hw)]|]. split; [reflexivity|]. split; [cbn; lia|]. left. auto.
  - right. exists r, ws, after, l, c. auto 10.
Qed.
Theorem py_wrong_fun text why ln col why' ln' col' : py_wrong text why ln col -> py_wrong text why' ln' col' -> why = why' /\ ln = ln' /\ col = col'.
Proof.
  intros H H'. destruct (wrong_cases _ _ _ _ H) as [[Hn C]|(r & ws & after & l & c & Hp & Hrun & -> & -> & C)], (wrong_cases _ _ _ _ H') as [[Hn' C']|(r' & ws' & after' & l' & c' & Hp' & Hrun' & -> & -> & C')].
  - destruct C as [(-> & N & pre & Hb & Hp)|(-> & q & pre & Hq & Hb & Hp)], C' as [(-> & N' & pre' & Hb' & Hp')|(-> & q' & pre' & Hq' & Hb' & Hp')].
    + rewrite (behind_last_fun _ _ _ _ Hb' Hb) in Hp'. split; [reflexivity|]. exact (pos_of_fun _ _ _ _ _ Hp Hp').
    + destruct (N _ Hq').
    + destruct (N' _ Hq).
    + rewrite (first_at_fun _ _ _ _ Hq' Hq) in Hb'. rewrite (behind_last_fun _ _ _ _ Hb' Hb) in Hp'. split; [reflexivity|]. exact (pos_of_fun _ _ _ _ _ Hp Hp').
  - destruct (Hn r'). eapply place_start. exact Hp'.
  - destruct (Hn' r). eapply place_start. exact Hp.
  - destruct (place_fun _ _ _ _ _ _ _ Hp Hp') as (<- & <- & <-). destruct (run_fun _ _ _ Hrun _ _ Hrun') as [<- <-]. split; [|auto].
    destruct C as [[E C]|(E & -> & C)], C' as [[E' C']|(E' & -> & C')]; try contradiction; [exact (frame_wrong_fun _ _ _ C C')|reflexivity].
Qed.
Lemma wrong_no_text text why ln col : py_wrong text why ln col -> forall t rest, ~ py_text text t rest.
Proof.
  intros H t rest (r & fs & class & after & Hst & Hfs & Hne & -> & Hc & Hw & Hs & _). destruct (wrong_cases _ _ _ _ H) as [[Hn _]|(r' & ws & after' & l & c & Hp & Hrun & _ & _ & C)]; [exact (Hn _ Hst)|].
  rewrite (start_fun _ _ _ (place_start _ _ _ _ Hp) Hst) in Hrun. destruct (runs_frames _ _ _ Hrun) as (fs' & Hfs' & El). destruct (frames_text_fun _ _ _ Hfs _ _ Hfs') as [<- <-].
  destruct C as [[-> _]|(_ & _ & C)]; [destruct fs; [exact (Hne eq_refl)|discriminate El]|]. destruct class as [|x class]; [exact (Hc eq_refl)|]. inversion Hw as [|? ? Hx _]; subst. exact (Hx C).
Qed.
Lemma wrong_no_end text why ln col : py_wrong text why ln col -> forall r, py_start text r -> ~ py_runs_out r.
Proof.
  intros H r Hst Ho. destruct (wrong_cases _ _ _ _ H) as [[Hn _]|(r' & ws & after' & l & c & Hp & Hrun & _ & _ & C)]; [exact (Hn _ Hst)|].
  rewrite (start_fun _ _ _ (place_start _ _ _ _ Hp) Hst) in Hrun. destruct (runs_frames _ _ _ Hrun) as (fs' & Hfs' & El). exact (runs_out_excl _ _ _ Hfs' Ho).
Qed.
Lemma text_no_end text t rest : py_text text t rest -> forall r, py_start text r -> ~ py_runs_out r.
Proof. intros (r & fs & class & after & Hst & Hfs & _) r' Hst' Ho. rewrite (start_fun _ _ _ Hst' Hst) in Ho. exact (runs_out_excl _ _ _ Hfs Ho). Qed.
Theorem py_refused_iff text l : python_stacktrace_loc text sr_location_init = Refused l <-> exists why ln col, py_wrong text why ln col /\ l = mk_location ln col (Some why).
Proof.
  pose proof (py_loc text) as H. split; [intros E; rewrite E in H; exact H|]. intros (why & ln & col & Hw & ->). destruct (python_stacktrace_loc text sr_location_init) as [[t rest] l|l|]; cbn in H.
  - destruct H as [H _]. destruct (wrong_no_text _ _ _ _ Hw _ _ H).
  - destruct H as (why' & ln' & col' & Hw' & ->). destruct (py_wrong_fun _ _ _ _ _ _ _ Hw Hw') as (-> & -> & ->). reflexivity.
  - destruct H as (r & Hr & Ho). destruct (wrong_no_end _ _ _ _ Hw _ Hr Ho).
Qed.
Lemma py_broken_iff text : python_stacktrace_loc text sr_location_init = Broken <-> exists r, py_start text r /\ py_runs_out r.
Proof.
  pose proof (py_loc text) as H. split; [intros E; rewrite E in H; exact H|]. intros (r & Hr & Ho). destruct (python_stacktrace_loc text sr_location_init) as [[t rest] l|l|]; cbn in H; [| |reflexivity].
  - destruct H as [H _]. destruct (text_no_end _ _ _ H _ Hr Ho).
  - destruct H as (why & ln & col & Hw & _). destruct (wrong_no_end _ _ _ _ Hw _ Hr Ho).
Qed.
(** ** Without the location *)
Theorem forget_py text : forget (python_stacktrace_loc text sr_location_init) = sr_python_stacktrace_parse text.
Proof.
  pose proof (py_loc text) as H. destruct (python_stacktrace_loc text sr_location_init) as [[t rest] l|l|]; cbn [forget py_loc_spec] in *; symmetry.
  - apply py_iff. exact (proj1 H).
  - destruct H as (why & ln & col & Hw & _). destruct (sr_python_stacktrace_parse text) as [[t rest]| |] eqn:E; [|reflexivity|].
    + apply py_iff in E. destruct (wrong_no_text _ _ _ _ Hw _ _ E).
    + apply py_UB_iff in E as (r & Hr & Ho). destruct (wrong_no_end _ _ _ _ Hw _ Hr Ho).
  - apply py_UB_iff. exact H.
Qed.
Theorem py_total text :
  (exists t rest, parse_wrapper python_stacktrace_loc text = Ok (inl t) /\ py_text text t rest /\ forall why ln col, ~ py_wrong text why ln col) \/
  (exists why ln col, parse_wrapper python_stacktrace_loc text = Ok (inr (L "Line " ++ print_Z ln ++ L ", column " ++ print_Z col ++ L ": " ++ why)) /\ py_wrong text why ln col /\ forall t rest, ~ py_text text t rest) \/
  (parse_wrapper python_stacktrace_loc text = UB /\ exists r, py_start text r /\ py_runs_out r).
Proof.
  pose proof (py_loc text) as H. unfold parse_wrapper. destruct (python_stacktrace_loc text sr_location_init) as [[t rest] l|l|]; cbn [py_loc_spec] in H.
  - left. exists t, rest. split; [reflexivity|]. split; [exact (proj1 H)|]. intros why ln col Hw. exact (wrong_no_text _ _ _ _ Hw _ _ (proj1 H)).
  - right. left. destruct H as (why & ln & col & Hw & ->). exists why, ln, col. split; [reflexivity|]. split; [exact Hw|]. exact (wrong_no_text _ _ _ _ Hw).
  - right. right. auto.
Qed.
Theorem py_error text m : parse_wrapper python_stacktrace_loc text = Ok (inr m) <-> exists why ln col, py_wrong text why ln col /\ m = L "Line " ++ print_Z ln ++ L ", column " ++ print_Z col ++ L ": " ++ why.
Proof.
  split.
  - intros E. destruct (py_total text) as [(t & rest & E' & _)|[(why & ln & col & E' & Hw & _)|[E' _]]]; rewrite E' in E; try discriminate E. injection E as <-. eauto.
  - intros (why & ln & col & Hw & ->). destruct (py_total text) as [(t & rest & _ & _ & N)|[(why' & ln' & col' & E & Hw' & _)|(_ & r & Hr & Ho)]].
    + destruct (N _ _ _ Hw).
    + destruct (py_wrong_fun _ _ _ _ _ _ _ Hw Hw') as (-> & -> & ->). exact E.
    + destruct (wrong_no_end _ _ _ _ Hw _ Hr Ho).
Qed.
(** ** The places told *)
Lemma pos_after_header a ln col : pos_of a ln col -> pos_of (a ++ header) (ln + 1) 0.
Proof.
  intros H. apply pos_of_eat_all in H. pose proof (eat_all_pos (a ++ header)) as G. rewrite eat_all_app, H in G. exact G.
Qed.
Lemma pos_below_newline a ln col : pos_of a ln col -> pos_of (nl :: a) (ln + 1) col.
Proof.
  intros (b & t & -> & Hn & Hb & -> & ->). exists (nl :: b), t. split; [reflexivity|]. split; [exact Hn|]. split; [right; destruct Hb as [->|[b' ->]]; [exists []|exists (nl :: b')]; reflexivity|].
  split; [|reflexivity]. cbn [count_occ]. destruct (ascii_dec nl nl); [lia|contradiction].
Qed.
Theorem place_true text pre r s1 ln col : text = pre ++ r -> py_below text s1 -> first_at header s1 (header ++ r) -> py_place text r ln col ->
  if match text with c :: _ => Ascii.eqb c nl | [] => false end then pos_of pre ln col else pos_of pre (ln - 1) col.
Proof.
  intros E Hb Hf Hp. destruct Hp as [s2 a l c Hb' E' Hf' Hpos|s2 q a l c Hb' Hno _ _ _ _]; rewrite (below_fun _ _ _ Hb' Hb) in *; [|destruct (Hno _ Hf)].
  pose proof (pos_after_header _ _ _ Hpos) as G. rewrite app_assoc in E'. destruct Hb as [->|[-> Hn]].
  - cbn. assert (pre = nl :: (a ++ header)) as ->. { apply (app_inv_tail r). rewrite <- E, E'. reflexivity. } replace (l + 2)%Z with (l + 1 + 1)%Z by lia. apply pos_below_newline. exact G.
  - assert (pre = a ++ header) as ->. { apply (app_inv_tail r). rewrite <- E, E'. reflexivity. } replace (l + 2 - 1)%Z with (l + 1)%Z by lia.
    destruct text as [|x text]; [exact G|]. destruct (Ascii.eqb_spec x nl) as [->|_]; [|exact G]. destruct Hn. exists text. reflexivity.
Qed.
(** Frames that follow one another: the columns of all lines so far are added up. *)
Theorem py_frame_told s l : match python_frame_loc s l with
  | Took (Some f, q) l' => exists r w, py_passed s r /\ py_frame_text r f q /\ py_width r w /\ l' = mk_location (line l) (column l + Z.of_nat w) (message l)
  | Took (None, r) l' => py_passed s r /\ exists why, py_frame_wrong why r /\ message l' = Some why
  | Refused _ => False
  | Broken => pointers s
  end.
Proof.
  destruct (pass_cases s) as [(r & Hr & _)|[Hp Ep]]; [|rewrite frame_loc_split, Ep; exact Hp]. destruct (frame_or_wrong r) as [(f & q & Hf)|[why Hw]].
  - destruct (proj2 (width_iff r)) as [w Hw]; [eauto|]. rewrite (frame_loc_some _ _ _ _ _ l Hr Hf Hw). exists r, w. auto.
  - destruct (frame_loc_none _ _ _ l Hr Hw) as (l' & -> & M). eauto.
Qed.
