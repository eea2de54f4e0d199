(** * Locations in gdb texts: frames and threads. *)
From Verif Require Import Base Types UtilsModel UtilsSpec UtilsProofs ParseModel ParseSpec ParseProofs JsParseProofs PyParseProofs KoopsSpec KoopsProofs KoopsProofs2
  GdbParseModel GdbParseSpec GdbParseProofs GdbParseProofs2 GdbParseProofs3 GdbParseProofs4 GdbParseProofs5 GdbParseProofs6 LocParseModel LocParseProofs GdbLocModel GdbLocSpec GdbLocProofs GdbLocProofs2.
Open Scope nat_scope.

(** ** Headers of frames *)
Lemma start_adv s x r : sr_gdb_frame_parse_frame_start s = Some (x, r) -> exists p, s = p ++ r /\ forall l, right l (chars s r) = moved l p.
Proof.
  intros H. apply frame_start_some in H as (n & _ & t1 & t2 & -> & (ds & -> & (Hn & _) & _) & k & -> & _).
  exists (L "#" ++ ds ++ repeat sp (S k)). split; [rewrite <- !app_assoc; reflexivity|]. intros l.
  replace (L "#" ++ ds ++ repeat sp (S k) ++ r) with ((L "#" ++ ds ++ repeat sp (S k)) ++ r) by (rewrite <- !app_assoc; reflexivity). rewrite chars_app. apply moved_right.
  intros K. apply in_app_or in K as [K|K]; [cbn in K; intuition discriminate|]. apply in_app_or in K as [K|K]; [|apply repeat_spec in K; discriminate].
  apply (numeral_horner decimal_digit 10 _ digit_val_dec) in Hn as (_ & _ & Hn). rewrite Forall_forall in Hn. apply Hn in K. apply mem_In in K. discriminate K.
Qed.
Lemma start_at s n t p l : frame_start s n t -> s = p ++ t -> sr_gdb_frame_parse_frame_start s = Some (Z.of_N n, t) /\ right l (chars s t) = moved l p.
Proof.
  intros H E. apply frame_start_iff in H. split; [exact H|]. destruct (start_adv _ _ _ H) as (q & Eq & Hq). rewrite Hq. f_equal. rewrite E in Eq. apply app_inv_tail in Eq. congruence.
Qed.
Lemma not_located_at t l : not_located t -> exists a l', sr_gdb_frame_parse_address_in_function t = (a, Fail) /\ gdb_address_loc t l = (a, Refused l').
Proof.
  intros [H1 H2]. pose proof (address_at t l) as A. destruct (sr_gdb_frame_parse_address_in_function t) as [a x] eqn:E. pose proof (located_cases _ _ _ E) as [_ C]. destruct A as (o & Eo & A).
  destruct x as [[[name type] r]| |]; [exfalso; exact (H1 _ _ _ _ C)| |exfalso; exact (H2 C)]. destruct A as [l' ->]. eauto.
Qed.
Lemma no_call_at t l : (forall name type r, ~ function_call t name type r) -> ~ function_call_off t -> exists l', gdb_call_loc t l = Refused l'.
Proof.
  intros H1 H2. pose proof (call_at t l) as A. destruct (call_cases t) as [(name & type & u & Hc & _)|[[Hc _]|(_ & _ & E)]]; [exfalso; exact (H1 _ _ _ Hc)|contradiction|]. rewrite E in A. exact A.
Qed.
Lemma file_took s f m q w l : file_location s f m q -> s = w ++ q -> gdb_file_loc s l = Took (f, m, q) (moved l w).
Proof.
  intros H E. apply file_location_iff in H. pose proof (file_at s l) as A. rewrite H in A. cbn [of_option agrees snd] in A. destruct A as (p & Ep & ->). do 2 f_equal. rewrite E in Ep. apply app_inv_tail in Ep. congruence.
Qed.
Lemma file_refused s l : no_file s -> exists l', gdb_file_loc s l = Refused l'.
Proof.
  intros H. pose proof (file_at s l) as A. destruct (location_cases s) as [(f & m & r & K & _)|[_ E]]; [exfalso; exact (H _ _ _ K)|]. rewrite E in A. exact A.
Qed.
Lemma file_some s f m q : file_location s f m q -> exists w, s = w ++ q.
Proof. intros H. apply file_location_iff in H. pose proof (file_at s sr_location_init) as A. rewrite H in A. destruct A as (p & Ep & _). exists p. exact Ep. Qed.
Lemma header_counts_at s u l : header_counts s u -> exists x, gdb_header_loc s l = Took x (moved l u).
Proof.
  intros (p & n & t & Es & Hs & H). destruct (start_at _ _ _ _ l Hs Es) as [E0 E1]. unfold gdb_header_loc. rewrite E0, E1.
  destruct H as [(v & r & Hv & H)|[(Hn & v & r & f & m & q & w & Hv & Hf & Er & ->)|(Hn & [r Et] & ->)]].
  - destruct (located_counts_at _ _ _ sr_location_init Hv) as (a & name & type & _ & ->). destruct H as [(f & m & q & w & Hf & Er & ->)|[Hf ->]].
    + rewrite (file_took _ _ _ _ _ _ Hf Er). rewrite !add_moved, !moved_app, <- ?app_assoc. eexists. reflexivity.
    + destruct (file_refused _ sr_location_init Hf) as [l' ->]. rewrite add_moved, moved_app. eexists. reflexivity.
  - destruct (not_located_at _ sr_location_init Hn) as (a & l' & _ & ->). destruct (call_counts_at _ _ _ sr_location_init Hv) as (name & type & _ & ->).
    rewrite (file_took _ _ _ _ _ _ Hf Er). rewrite !add_moved, !moved_app, <- ?app_assoc. eexists. reflexivity.
  - destruct (not_located_at _ sr_location_init Hn) as (a & l' & _ & ->).
    destruct (no_call_at t sr_location_init) as [l'' ->].
    { intros name type q Hc. apply (call_of_angle _ _ _ _ Hc). exists r. exact Et. }
    { intros Hc. apply function_call_exact in Hc. rewrite Et in Hc. discriminate Hc. }
    rewrite Et. destruct (skip_string_cases (L "<signal handler called>") (L "<signal handler called>" ++ r)) as [(r' & E & ->)|[K _]]; [|exfalso; apply K; eexists; reflexivity]. apply app_inv_head in E as <-.
    change (0 <? length (L "<signal handler called>")) with true. cbv iota. rewrite moved_right by (apply nl_not_in; reflexivity). rewrite moved_app. eexists. reflexivity.
Qed.
Lemma frame_wrong_at why s u l : frame_wrong why s u -> gdb_header_loc s l = Refused (says (moved l u) why).
Proof.
  intros [s' H|s' p n t v r Es Hs Hn Hv Hf|s' p n t Es Hs Hn H1 H2 H3]; unfold gdb_header_loc.
  - destruct (sr_gdb_frame_parse_frame_start s') as [[x r]|] eqn:E; [apply frame_start_some in E as (n & _ & K); exfalso; exact (H _ _ K)|]. rewrite moved_nil. reflexivity.
  - destruct (start_at _ _ _ _ l Hs Es) as [-> ->]. destruct (not_located_at _ sr_location_init Hn) as (a & l' & _ & ->). destruct (call_counts_at _ _ _ sr_location_init Hv) as (name & type & _ & ->).
    destruct (file_refused _ sr_location_init Hf) as [l'' ->]. rewrite add_moved, moved_app. reflexivity.
  - destruct (start_at _ _ _ _ l Hs Es) as [-> ->]. destruct (not_located_at _ sr_location_init Hn) as (a & l' & _ & ->). destruct (no_call_at _ sr_location_init H1 H2) as [l'' ->].
    destruct (skip_string_cases (L "<signal handler called>") t) as [(r & -> & _)|[_ ->]]; [exfalso; apply H3; eexists; reflexivity|]. reflexivity.
Qed.
Lemma header_at s l : match sr_gdb_frame_parse_header s with
  | Ok (f, r) => exists u, header_counts s u /\ gdb_header_loc s l = Took (f, r) (moved l u)
  | Fail => exists why u, frame_wrong why s u /\ gdb_header_loc s l = Refused (says (moved l u) why)
  | UB => gdb_header_loc s l = Broken
  end.
Proof.
  unfold sr_gdb_frame_parse_header, gdb_header_loc. destruct (sr_gdb_frame_parse_frame_start s) as [[x t]|] eqn:E0.
  2:{ eexists _, []. rewrite moved_nil. split; [|reflexivity]. apply fw_start. intros n t H. apply frame_start_iff in H. congruence. }
  destruct (start_adv _ _ _ E0) as (p & Ep & Hp). rewrite Hp. apply frame_start_some in E0 as (n & -> & H0).
  pose proof (address_at t sr_location_init) as A. destruct (sr_gdb_frame_parse_address_in_function t) as [a x] eqn:E1. destruct A as (o & -> & A). apply located_cases in E1 as [_ H1]. destruct x as [[[name type] u]| |].
  - destruct A as (v & Hv & ->). rewrite add_moved, moved_app. pose proof (file_at u sr_location_init) as F. destruct (location_cases u) as [(f & m & r & Hl & El)|[Hl El]]; rewrite El in *; cbn [of_option agrees snd] in F.
    + destruct F as (w & Ew & ->). rewrite add_moved, moved_app, <- app_assoc. exists (p ++ v ++ w). split; [|reflexivity]. exists p, n, t. split; [exact Ep|]. split; [exact H0|]. left. exists v, u. split; [exact Hv|]. left. exists f, m, r, w. auto.
    + destruct F as [l' ->]. exists (p ++ v). split; [|reflexivity]. exists p, n, t. split; [exact Ep|]. split; [exact H0|]. left. exists v, u. split; [exact Hv|]. right. auto.
  - destruct A as [l' ->]. pose proof (call_at t sr_location_init) as C. destruct (call_cases t) as [(name & type & u & Hc & Ec)|[[Hc Ec]|(Hc & Hc' & Ec)]]; rewrite Ec in *.
    + destruct C as (v & Hv & ->). rewrite add_moved, moved_app. pose proof (file_at u sr_location_init) as F. destruct (location_cases u) as [(f & m & r & Hl & El)|[Hl El]]; rewrite El in *; cbn [of_option agrees snd] in F.
      * destruct F as (w & Ew & ->). rewrite add_moved, moved_app, <- app_assoc. exists (p ++ v ++ w). split; [|reflexivity]. exists p, n, t. split; [exact Ep|]. split; [exact H0|]. right. left. split; [exact H1|]. exists v, u, f, m, r, w. auto.
      * destruct F as [l'' ->]. eexists _, (p ++ v). split; [|reflexivity]. eapply fw_misses; eauto.
    + rewrite C. reflexivity.
    + destruct C as [l'' ->]. destruct (skip_string_cases (L "<signal handler called>") t) as [(r & Et & ->)|[Hs ->]].
      * change (0 <? length (L "<signal handler called>")) with true. cbv iota. rewrite moved_right by (apply nl_not_in; reflexivity). rewrite moved_app. exists (p ++ L "<signal handler called>"). split; [|reflexivity].
        exists p, n, t. split; [exact Ep|]. split; [exact H0|]. right. right. split; [exact H1|]. split; [exists r; exact Et|reflexivity].
      * cbn [Nat.ltb Nat.leb]. eexists _, p. split; [|reflexivity]. eapply fw_variant; eauto.
  - rewrite A. reflexivity.
Qed.

(** ** Frames *)
Lemma find_at s a b : forall l, exists p, s = p ++ findfirstabnul s a b /\ findfirstabnul_loc s a b l = (findfirstabnul s a b, moved l p).
Proof.
  induction s as [|c r IH]; intros l; [exists []; rewrite moved_nil; auto|]. cbn [findfirstabnul findfirstabnul_loc].
  destruct (starts_with a (c :: r)); [exists []; rewrite moved_nil; auto|]. destruct (starts_with b (c :: r)); [exists []; rewrite moved_nil; auto|].
  destruct (IH (sr_location_eat_char l c)) as (p & E & ->). exists (c :: p). split; [cbn [app]; f_equal; exact E|]. rewrite moved_char, moved_app. reflexivity.
Qed.
Lemma frame_loc_steps s l : exists c, s = c ++ skip_entry s /\ gdb_frame_loc s l = and_then (gdb_header_loc s l) (fun '(f, _) l => Took (f, skip_entry s) (moved l c)).
Proof.
  unfold gdb_frame_loc, skip_entry. destruct (find_at s (nl :: L "#") (nl :: L "Thread") l) as (p & E & _). destruct (findfirstabnul s (nl :: L "#") (nl :: L "Thread")) as [|c r] eqn:K.
  - exists p. split; [exact E|]. destruct (gdb_header_loc s l) as [[f q] l'|l'|]; [|reflexivity|reflexivity]. cbn [and_then]. destruct (find_at s (nl :: L "#") (nl :: L "Thread") l') as (p' & E' & ->). rewrite K in *.
    rewrite app_nil_r in E, E'. subst p p'. reflexivity.
  - exists (p ++ [c]). split; [rewrite <- app_assoc; exact E|]. destruct (gdb_header_loc s l) as [[f q] l'|l'|]; [|reflexivity|reflexivity]. cbn [and_then]. destruct (find_at s (nl :: L "#") (nl :: L "Thread") l') as (p' & E' & ->). rewrite K in *.
    rewrite moved_char, moved_app. rewrite E in E'. apply app_inv_tail in E' as ->. reflexivity.
Qed.
Lemma gdb_frame_at s l : match sr_gdb_frame_parse s with
  | Ok (f, r) => exists h c, header_counts s h /\ s = c ++ r /\ gdb_frame_loc s l = Took (f, r) (moved l (h ++ c))
  | Fail => exists why u, frame_wrong why s u /\ gdb_frame_loc s l = Refused (says (moved l u) why)
  | UB => gdb_frame_loc s l = Broken
  end.
Proof.
  rewrite frame_steps. destruct (frame_loc_steps s l) as (c & Ec & ->). pose proof (header_at s l) as A. destruct (sr_gdb_frame_parse_header s) as [[f r]| |]; cbn [bind].
  - destruct A as (u & Hu & ->). cbn [and_then]. exists u, c. split; [exact Hu|]. split; [exact Ec|]. rewrite moved_app. reflexivity.
  - destruct A as (why & u & Hw & ->). exists why, u. split; [exact Hw|reflexivity].
  - rewrite A. reflexivity.
Qed.
Lemma frame_counts_at s f r h c l : gdb_frame_text s f r -> header_counts s h -> s = c ++ r -> gdb_frame_loc s l = Took (f, r) (moved l (h ++ c)).
Proof.
  intros Hf Hh Ec. pose proof (proj2 (proj1 (frame_exact s) f r) Hf) as E. rewrite frame_steps in E. destruct (header_counts_at _ _ l Hh) as [x Ex]. destruct (frame_loc_steps s l) as (c' & Ec' & ->).
  pose proof (header_at s l) as A. destruct (sr_gdb_frame_parse_header s) as [[f' r']| |]; cbn [bind] in E; try discriminate. injection E as -> Er. destruct A as (u & _ & A). rewrite Ex in A. rewrite Ex.
  injection A as -> _. cbn [and_then]. rewrite Er, moved_app. rewrite Er in Ec'. rewrite Ec in Ec'. apply app_inv_tail in Ec' as ->. reflexivity.
Qed.
Lemma frame_refused_at why s u l : frame_wrong why s u -> gdb_frame_loc s l = Refused (says (moved l u) why).
Proof. intros H. unfold gdb_frame_loc. rewrite (frame_wrong_at _ _ _ _ H). reflexivity. Qed.
