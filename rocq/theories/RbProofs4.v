(** * The Ruby binding: what the histories show. *)
From Verif Require Import Base Types JsonSpec JsonModel JsonTypesModel ReportModel CrashModel SystemModel TextModel AbrtModel JsonMsgModel JsonMsgProofs5 RbModel RbSpec RbProofs RbProofs2 RbProofs3.
Open Scope nat_scope.

Section Shown.
Variable tokener : str -> option json.
Variable message : str -> str.
Variable sha1 : str -> str.
Variables package_name package_version : str.
Notation reading := (report_from_text tokener message package_name package_version).
Notation run := (run tokener message sha1 package_name package_version).
Notation value_step := (value_step tokener message sha1 package_name package_version).
Notation values := (values tokener message sha1 package_name package_version).
Notation read_with_message := (read_with_message tokener message package_name package_version).
Notation dangles := (dangles tokener message sha1 package_name package_version).
Notation dangles_from := (dangles_from tokener message sha1 package_name package_version).

Lemma as_values h vs xs : values [] h = Ok (vs, xs) -> ~ dangles h -> exists st, run start h = Ok (st, xs).
Proof.
  intros V D. destruct (run_values tokener message sha1 package_name package_version h [] [] [] [] inv_start) as (_ & R).
  rewrite dangles_is in D. specialize (R D). rewrite V in R. destruct R as (m & os & lk & R & _). eexists. exact R.
Qed.
Lemma run_ub h : forall m os vs lk, inv m os vs lk -> run (mk_machine m os) h = UB -> values vs h = UB \/ dangles_from vs h.
Proof.
  induction h as [|e h IH]; intros m os vs lk HI R; [discriminate R|].
  pose proof (step_ok tokener message sha1 package_name package_version m os vs lk e HI) as ST. unfold step_goes in ST. cbn [RbSpec.values RbModel.run] in R |- *.
  destruct (value_step vs e) as [[vs' x]| |] eqn:VE; cbn [bind].
  - pose proof (dangles_cons _ _ _ _ _ vs e h vs' x VE) as DC. destruct ST as [(D & _)|(_ & m' & os' & lk' & ST & HI' & _)]; [right; apply DC; left; exact D|].
    rewrite ST in R. cbn [bind] in R. destruct (run (mk_machine m' os') h) as [[st xs]| |] eqn:R'; try discriminate R.
    destruct (IH _ _ _ _ HI' R') as [V|D]; [left; rewrite V; reflexivity|right; apply DC; right; exact D].
  - rewrite ST in R. discriminate R.
  - left. reflexivity.
Qed.
Lemma run_ok h : forall m os vs lk st xs, inv m os vs lk -> run (mk_machine m os) h = Ok (st, xs) -> exists vs' lk', values vs h = Ok (vs', xs) /\ inv (memory st) (objects st) vs' lk' /\
  (clean tokener message package_name package_version h -> lk' = lk).
Proof.
  intros m os vs lk st xs HI R. destruct (run_values tokener message sha1 package_name package_version h m os vs lk HI) as (R1 & R2).
  assert (D : ~ dangles_from vs h) by (intros D; rewrite (R1 D) in R; discriminate R). specialize (R2 D).
  destruct (values vs h) as [[vs' ys]| |]; try congruence. destruct R2 as (m' & os' & lk' & E & HI' & C). assert (st = mk_machine m' os' /\ xs = ys) as (-> & ->) by (split; congruence).
  exists vs', lk'. split; [reflexivity|]. split; [exact HI'|exact C].
Qed.
Lemma undefined h : run start h = UB <-> values [] h = UB \/ dangles h.
Proof.
  rewrite dangles_is. split; [exact (run_ub h _ _ _ _ inv_start)|].
  destruct (run_values tokener message sha1 package_name package_version h [] [] [] [] inv_start) as (R1 & R2). intros [V|D]; [|exact (R1 D)].
  destruct (run start h) as [[st xs]| |] eqn:R; [|exfalso|reflexivity].
  - destruct (run_ok h _ _ _ _ _ _ inv_start R) as (vs' & lk' & E & _). congruence.
  - assert (D : ~ dangles_from [] h) by (intros D; specialize (R1 D); unfold start in R; congruence). specialize (R2 D). rewrite V in R2. unfold start in R. congruence.
Qed.
Lemma no_leak h st xs : run start h = Ok (st, xs) -> (forall json, In (New json) h -> ~ read_with_message json) ->
  NoDup (flat_map (owned (memory st)) (objects st)) /\ forall a, in_use (memory st) a <-> exists o x, nth_error (objects st) o = Some x /\ In a (owned (memory st) x).
Proof.
  intros R C. destruct (run_ok h _ _ _ _ _ _ inv_start R) as (vs & lk & _ & HI & CL). rewrite (CL C) in HI. split; [exact (i_once _ _ _ _ HI)|].
  intros a. rewrite (i_all _ _ _ _ HI). cbn [app]. unfold holding. rewrite in_flat_map. split.
  - intros (x & X & A). apply In_nth_error in X. destruct X as (o & X). exists o, x. split; assumption.
  - intros (o & x & X & A). exists x. split; [exact (nth_error_In _ _ X)|exact A].
Qed.
Lemma leaks h st xs : run start h = Ok (st, xs) -> exists lk, NoDup (lk ++ flat_map (owned (memory st)) (objects st)) /\
  forall a, in_use (memory st) a <-> In a lk \/ exists x, In x (objects st) /\ In a (owned (memory st) x).
Proof.
  intros R. destruct (run_ok h _ _ _ _ _ _ inv_start R) as (vs & lk & _ & HI & _). exists lk. split; [exact (i_once _ _ _ _ HI)|].
  intros a. rewrite (i_all _ _ _ _ HI). rewrite in_app_iff. unfold holding. rewrite in_flat_map. reflexivity.
Qed.

(** ** Values *)
Lemma values_app a : forall vs b, values vs (a ++ b) = bind (values vs a) (fun '(w, xs) => bind (values w b) (fun '(w, ys) => Ok (w, xs ++ ys))).
Proof.
  induction a as [|e a IH]; intros vs b; cbn [app RbSpec.values bind].
  - destruct (values vs b) as [[w ys]| |]; reflexivity.
  - destruct (value_step vs e) as [[w x]| |]; cbn [bind]; try reflexivity. rewrite IH. destruct (values w a) as [[w1 xs]| |]; cbn [bind]; try reflexivity.
    destruct (values w1 b) as [[w2 ys]| |]; reflexivity.
Qed.
Lemma values_length a : forall vs w xs, values vs a = Ok (w, xs) -> length xs = length a.
Proof.
  induction a as [|e a IH]; intros vs w xs E; cbn [RbSpec.values] in E; [injection E as <- <-; reflexivity|].
  destruct (value_step vs e) as [[w1 x]| |]; try discriminate E. cbn [bind] in E. destruct (values w1 a) as [[w2 ys]| |] eqn:V; try discriminate E. cbn in E. injection E as <- <-.
  cbn. f_equal. exact (IH _ _ _ V).
Qed.
Lemma step_keeps vs e vs' x o v : value_step vs e = Ok (vs', x) -> e <> Collect o -> nth_error vs o = Some v -> nth_error vs' o = Some v.
Proof.
  intros E N V. destruct e as [j|p|p|p opts|p]; cbn [RbSpec.value_step] in E.
  - destruct (reading j) as [[r m]| |]; try discriminate E. cbn in E. destruct m, r; injection E as <- _; try exact V; apply grown; exact V.
  - destruct (nth_error vs p) as [[r|s f|t|]|]; try (injection E as <- _; exact V). destruct (rep_stacktrace r) as [s|]; [|injection E as <- _; exact V].
    destruct (known_type s); injection E as <- _; [apply grown|]; exact V.
  - destruct (nth_error vs p) as [[r|s f|t|]|]; try (injection E as <- _; exact V). destruct (sr_stacktrace_find_crash_thread s) as [t|]; injection E as <- _; [apply grown|]; exact V.
  - destruct (nth_error vs p) as [[r|s f|t|]|]; try (injection E as <- _; exact V). destruct (sr_thread_get_duphash _ _ _ _ _) as [h| |]; try discriminate E. cbn in E. injection E as <- _. exact V.
  - assert (D : o <> p) by congruence. destruct (nth_error vs p) as [[r|s f|t|]|] eqn:P; try (injection E as <- _; exact V);
      (assert (EV : vs' = firstn p vs ++ VGone :: skipn (S p) vs) by congruence; rewrite EV, replace_other; [exact V|exact D|exact (some_lt _ _ _ P)]).
Qed.
Lemma values_keep h : forall vs vs' xs o v, values vs h = Ok (vs', xs) -> ~ In (Collect o) h -> nth_error vs o = Some v -> nth_error vs' o = Some v.
Proof.
  induction h as [|e h IH]; intros vs vs' xs o v E N V; cbn [RbSpec.values] in E; [injection E as <- _; exact V|].
  destruct (value_step vs e) as [[w x]| |] eqn:S1; try discriminate E. cbn [bind] in E. destruct (values w h) as [[w2 ys]| |] eqn:V2; try discriminate E. cbn in E. injection E as <- _.
  apply (IH _ _ _ _ _ V2); [intros C; apply N; right; exact C|]. apply (step_keeps _ _ _ _ _ _ S1); [intros C; apply N; left; exact C|exact V].
Qed.
Lemma values_mid vs a e b vs' xs : values vs (a ++ e :: b) = Ok (vs', xs) -> exists w ys w' x zs, values vs a = Ok (w, ys) /\ value_step w e = Ok (w', x) /\ values w' b = Ok (vs', zs) /\ nth_error xs (length a) = Some x /\ xs = ys ++ x :: zs.
Proof.
  rewrite values_app. destruct (values vs a) as [[w ys]| |] eqn:A; try discriminate. cbn [bind RbSpec.values]. destruct (value_step w e) as [[w' x]| |] eqn:S1; try discriminate. cbn [bind].
  destruct (values w' b) as [[w2 zs]| |] eqn:B; try discriminate. cbn. intros E. injection E as <- <-. exists w, ys, w', x, zs. repeat split; try assumption.
  rewrite nth_error_app2; rewrite (values_length _ _ _ _ A); [rewrite Nat.sub_diag; reflexivity|lia].
Qed.
Lemma new_value w text w' o : value_step w (New text) = Ok (w', Object o) -> exists r, reading text = Ok (Some r, None) /\ nth_error w' o = Some (VReport r).
Proof.
  cbn [RbSpec.value_step]. destruct (reading text) as [[r m]| |]; try discriminate. cbn. intros E. destruct m, r as [r|]; try discriminate E. injection E as <- <-. exists r. split; [reflexivity|]. apply put_first.
Qed.
Lemma trace_value w p w' o : value_step w (GetStacktrace p) = Ok (w', Object o) -> exists r s, nth_error w p = Some (VReport r) /\ rep_stacktrace r = Some s /\ nth_error w' o = Some (VTrace s p).
Proof.
  cbn [RbSpec.value_step]. destruct (nth_error w p) as [[r|s f|t|]|]; try discriminate. destruct (rep_stacktrace r) as [s|] eqn:RS; [|discriminate]. destruct (known_type s); try discriminate. intros E. injection E as <- <-.
  exists r, s. split; [reflexivity|]. split; [exact RS|]. apply put_first.
Qed.
Lemma thread_value w p w' o : value_step w (FindCrashThread p) = Ok (w', Object o) -> exists s f t, nth_error w p = Some (VTrace s f) /\ sr_stacktrace_find_crash_thread s = Some t /\ nth_error w' o = Some (VThread t).
Proof.
  cbn [RbSpec.value_step]. destruct (nth_error w p) as [[r|s f|t|]|]; try discriminate. destruct (sr_stacktrace_find_crash_thread s) as [t|] eqn:F; try discriminate. intros E. injection E as <- <-.
  exists s, f, t. split; [reflexivity|]. split; [exact F|]. apply put_first.
Qed.
(** The hash of a thread obtained from a text, whatever happens in between. *)
Lemma pipeline h0 h1 h2 h3 text opts st xs o1 o2 o3 :
  run start (h0 ++ New text :: h1 ++ GetStacktrace o1 :: h2 ++ FindCrashThread o2 :: h3 ++ [Duphash o3 opts]) = Ok (st, xs) ->
  nth_error xs (length h0) = Some (Object o1) -> nth_error xs (length h0 + S (length h1)) = Some (Object o2) ->
  nth_error xs (length h0 + S (length h1 + S (length h2))) = Some (Object o3) ->
  ~ In (Collect o1) h1 -> ~ In (Collect o2) h2 -> ~ In (Collect o3) h3 ->
  exists r s t h ys, reading text = Ok (Some r, None) /\ rep_stacktrace r = Some s /\ sr_stacktrace_find_crash_thread s = Some t /\
    sr_thread_get_duphash sha1 t (chosen (opt_frames opts) 0%Z) (Some (chosen (opt_prefix opts) [])) (chosen (opt_flags opts) 1%N) = Ok h /\
    xs = ys ++ [match h with Some h => Text h | None => Raised (L "Failed to compute duphash") end].
Proof.
  intros R A1 A2 A3 N1 N2 N3. destruct (run_ok _ _ _ _ _ _ _ inv_start R) as (vs & lk & V & _). clear R st lk.
  apply values_mid in V. destruct V as (w0 & y0 & w0' & x0 & z0 & V0 & S0 & V & E0 & ->). rewrite E0 in A1. injection A1 as ->.
  destruct (new_value _ _ _ _ S0) as (r & RD & W0).
  assert (L0 : length y0 = length h0) by exact (values_length _ _ _ _ V0).
  rewrite nth_error_app2, L0 in A2, A3 by lia. replace (length h0 + S (length h1) - length h0) with (S (length h1)) in A2 by lia.
  replace (length h0 + S (length h1 + S (length h2)) - length h0) with (S (length h1 + S (length h2))) in A3 by lia. cbn [nth_error] in A2, A3.
  apply values_mid in V. destruct V as (w1 & y1 & w1' & x1 & z1 & V1 & S1 & V & E1 & ->). rewrite E1 in A2. injection A2 as ->.
  pose proof (values_keep _ _ _ _ _ _ V1 N1 W0) as W1. destruct (trace_value _ _ _ _ S1) as (r' & s & P1 & RS & W1'). assert (r' = r) by congruence. subst r'.
  assert (L1 : length y1 = length h1) by exact (values_length _ _ _ _ V1).
  rewrite nth_error_app2, L1 in A3 by lia. replace (length h1 + S (length h2) - length h1) with (S (length h2)) in A3 by lia. cbn [nth_error] in A3.
  apply values_mid in V. destruct V as (w2 & y2 & w2' & x2 & z2 & V2 & S2 & V & E2 & ->). rewrite E2 in A3. injection A3 as ->.
  pose proof (values_keep _ _ _ _ _ _ V2 N2 W1') as W2. destruct (thread_value _ _ _ _ S2) as (s' & f & t & P2 & F & W2'). assert (s' = s) by congruence. subst s'.
  apply values_mid in V. destruct V as (w3 & y3 & w3' & x3 & z3 & V3 & S3 & V & _ & ->). cbn in V. injection V as <- <-.
  pose proof (values_keep _ _ _ _ _ _ V3 N3 W2') as W3. cbn [RbSpec.value_step] in S3. rewrite W3 in S3.
  destruct (sr_thread_get_duphash _ _ _ _ _) as [h| |] eqn:DH in S3; try discriminate S3. cbn in S3. injection S3 as _ <-.
  exists r, s, t, h, (y0 ++ Object o1 :: y1 ++ Object o2 :: y2 ++ Object o3 :: y3). repeat split; try assumption.
  rewrite <- !app_assoc. cbn [app]. rewrite <- !app_assoc. cbn [app]. rewrite <- !app_assoc. reflexivity.
Qed.
(** The texts of the exceptions. *)
Lemma values_raised h : forall vs vs' xs x, values vs h = Ok (vs', xs) -> In (Raised x) xs ->
  (exists json m, In (New json) h /\ (exists r, reading json = Ok (r, Some m)) /\ x = L "Failed to parse JSON: " ++ m) \/
  x = L "Invalid report type" \/ x = L "Could not find crash thread" \/ x = L "Failed to compute duphash".
Proof.
  induction h as [|e h IH]; intros vs vs' xs x E X; cbn [RbSpec.values] in E; [injection E as <- <-; destruct X|].
  destruct (value_step vs e) as [[w y]| |] eqn:S1; try discriminate E. cbn [bind] in E. destruct (values w h) as [[w2 ys]| |] eqn:V2; try discriminate E. cbn in E. injection E as <- <-.
  destruct X as [->|X].
  - clear IH V2. destruct e as [j|p|p|p opts|p]; cbn [RbSpec.value_step] in S1.
    + destruct (reading j) as [[r m]| |] eqn:RD; try discriminate S1. cbn in S1. destruct m as [m|]; [injection S1 as _ <-; left; exists j, m; split; [left; reflexivity|]; split; [exists r; exact RD|reflexivity]|].
      destruct r as [r|]; [discriminate S1|]. exfalso. destruct (text_outcome _ _ _ _ _ _ _ RD) as [(_ & _ & N)|(root & _ & _ & N & _)]; [discriminate N|exact (N eq_refl eq_refl)].
    + destruct (nth_error vs p) as [[r|s f|t|]|]; try discriminate S1. destruct (rep_stacktrace r) as [s|]; try discriminate S1. destruct (known_type s); try discriminate S1. injection S1 as _ <-. tauto.
    + destruct (nth_error vs p) as [[r|s f|t|]|]; try discriminate S1. destruct (sr_stacktrace_find_crash_thread s); try discriminate S1. injection S1 as _ <-. tauto.
    + destruct (nth_error vs p) as [[r|s f|t|]|]; try discriminate S1. destruct (sr_thread_get_duphash _ _ _ _ _) as [[q|]| |]; try discriminate S1. injection S1 as _ <-. tauto.
    + destruct (nth_error vs p) as [[r|s f|t|]|]; discriminate S1.
  - destruct (IH _ _ _ _ V2 X) as [(j & m & J & RM & EX)|H]; [left; exists j, m; split; [right; exact J|]; split; assumption|right; exact H].
Qed.
Lemma raised h st xs x : run start h = Ok (st, xs) -> In (Raised x) xs ->
  (exists json m, In (New json) h /\ (exists r, reading json = Ok (r, Some m)) /\ x = L "Failed to parse JSON: " ++ m) \/
  x = L "Invalid report type" \/ x = L "Could not find crash thread" \/ x = L "Failed to compute duphash".
Proof. intros R X. destruct (run_ok h _ _ _ _ _ _ inv_start R) as (vs & lk & V & _). exact (values_raised _ _ _ _ _ V X). Qed.
End Shown.

(** ** Structures *)
Lemma layout_prefix size align from l r : exists q, offsets size align from (l ++ r) = offsets size align from l ++ q.
Proof.
  revert from. induction l as [|t l IH]; intros from; [exists (offsets size align from r); reflexivity|]. cbn. destruct (IH ((from + align t - 1) / align t * align t + size t)) as (q & E). exists q. rewrite E. reflexivity.
Qed.
Lemma offsets_length size align l : forall from, length (offsets size align from l) = length l.
Proof. induction l as [|t l IH]; intros from; [reflexivity|]. cbn. rewrite IH. reflexivity. Qed.
Lemma layout_agrees size align i name t : nth_error ruby_layout i = Some (name, t) ->
  nth_error c_layout i = Some (name, t) /\ nth_error (offsets size align 0 (map snd ruby_layout)) i = nth_error (offsets size align 0 (map snd c_layout)) i.
Proof.
  intros E. assert (C : c_layout = ruby_layout ++ [("auth_entries", Pointer); ("serial", UInt32)]%string) by reflexivity. split.
  - rewrite C. apply grown. exact E.
  - rewrite C, map_app. destruct (layout_prefix size align 0 (map snd ruby_layout) (map snd [("auth_entries", Pointer); ("serial", UInt32)]%string)) as (q & ->).
    rewrite nth_error_app1; [reflexivity|]. rewrite offsets_length, map_length. exact (some_lt _ _ _ E).
Qed.
