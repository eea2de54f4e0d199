(** * The Ruby binding: histories. *)
From Verif Require Import Base Types JsonSpec JsonModel JsonTypesModel ReportModel CrashModel SystemModel TextModel AbrtModel JsonMsgModel JsonMsgProofs5 RbModel RbSpec RbProofs RbProofs2.
Open Scope nat_scope.

Lemma released m os vs lk o x v : inv m os vs lk -> nth_error os o = Some x -> nth_error vs o = Some v -> x <> Collected ->
  exists m', release m x = Ok m' /\ inv m' (set_object o Collected os) (firstn o vs ++ VGone :: skipn (S o) vs) lk.
Proof.
  intros HI HO HV NC. pose proof (i_goes _ _ _ _ HI _ _ _ HO HV) as G.
  assert (ONE : forall a b, owned m x = [a] -> nth_error m a = Some b -> b <> Gone -> release m x = freed m a ->
    exists m', release m x = Ok m' /\ inv m' (set_object o Collected os) (firstn o vs ++ VGone :: skipn (S o) vs) lk).
  { intros a b OW E N R. exists (set a Gone m). split; [rewrite R; exact (free_ok _ _ _ E N)|].
    apply (inv_free m _ os vs lk o x HI HO); rewrite OW.
    - intros c [<-|[]]. apply set_same. exact (some_lt _ _ _ E).
    - intros c D. apply set_other; [cbn in D; intuition|exact (some_lt _ _ _ E)]. }
  destruct x as [a|a|a|], v as [r|s from|t|]; cbn in G; try (destruct G; fail); [| | |contradiction NC; reflexivity].
  - destruct G as (_ & G). destruct (rep_stacktrace r) as [s|].
    + destruct G as (t & A & T). pose proof (owned_report _ _ _ _ A) as OW.
      assert (D : a <> t) by (intros ->; congruence). pose proof (some_lt _ _ _ A) as LA. pose proof (some_lt _ _ _ T) as LT.
      exists (set a Gone (set t Gone m)). split.
      * cbn [release]. unfold sr_report_free. rewrite A. unfold sr_stacktrace_free. rewrite T. rewrite (free_ok _ _ _ T) by discriminate. cbn [bind].
        apply (free_ok _ _ (BReport r (Some t))); [|discriminate]. rewrite set_other by assumption. exact A.
      * assert (LE : length (set t Gone m) = length m) by (apply replace_length; exact LT).
        apply (inv_free m _ os vs lk o (RbReport a) HI HO); rewrite OW.
        -- intros c [<-|[<-|[]]]; [apply set_same; lia|]. rewrite set_other by (congruence || lia). apply set_same. exact LT.
        -- intros c N. cbn in N. rewrite set_other by (intuition || lia). apply set_other; [intuition|exact LT].
    + apply (ONE a (BReport r None)); [cbn; rewrite G; reflexivity|exact G|discriminate|]. cbn [release]. unfold sr_report_free. rewrite G. reflexivity.
  - destruct G as (home & A & _). apply (ONE a (BTrace s home)); [reflexivity|exact A|discriminate|]. cbn [release]. unfold sr_stacktrace_free. rewrite A. reflexivity.
  - apply (ONE a (BThread t)); [reflexivity|exact G|discriminate|]. cbn [release]. unfold sr_thread_free. rewrite G. reflexivity.
Qed.

Section Histories.
Variable tokener : str -> option json.
Variable message : str -> str.
Variable sha1 : str -> str.
Variables package_name package_version : str.
Notation reading := (report_from_text tokener message package_name package_version).
Notation step := (step tokener message sha1 package_name package_version).
Notation run := (run tokener message sha1 package_name package_version).
Notation value_step := (value_step tokener message sha1 package_name package_version).
Notation values := (values tokener message sha1 package_name package_version).
Notation read_with_message := (read_with_message tokener message package_name package_version).
Notation dangles := (dangles tokener message sha1 package_name package_version).

Lemma reading_fine text r e : reading text = Ok (Some r, e) -> report_fine r.
Proof.
  intros E. destruct (text_outcome _ _ _ _ _ _ _ E) as [(_ & N & _)|(root & _ & _ & _ & _ & G & _)]; [discriminate N|]. exact (report_facts _ _ _ _ (G r eq_refl)).
Qed.
Definition placed (m : list block) (r : report) : list block :=
  match rep_stacktrace r with None => [BReport r None] | Some s => [BTrace s (length m); BReport r (Some (length m))] end.
Lemma placed_real m r : Forall (fun b => b <> Gone) (placed m r).
Proof. unfold placed. destruct (rep_stacktrace r); repeat constructor; discriminate. Qed.
Definition placed_at (m : list block) (r : report) : nat := match rep_stacktrace r with None => length m | Some _ => S (length m) end.
Lemma place_is m r : place_report m r = (m ++ placed m r, placed_at m r).
Proof. unfold place_report, placed, placed_at. destruct (rep_stacktrace r); reflexivity. Qed.

(** The step that goes wrong. *)
Definition dangling (vs : list shown) (e : op) : Prop :=
  exists o c i from, e = FindCrashThread o /\ nth_error vs o = Some (VTrace (SCore c) from) /\ cs_crash_thread c = Some i /\ nth_error vs from = Some VGone.
Definition step_goes (m : list block) (os : list object) (vs : list shown) (lk : list nat) (e : op) : Prop :=
  match value_step vs e with
  | UB => step (mk_machine m os) e = UB
  | Fail => step (mk_machine m os) e = Fail
  | Ok (vs', x) =>
    (dangling vs e /\ step (mk_machine m os) e = UB) \/
    (~ dangling vs e /\ exists m' os' lk', step (mk_machine m os) e = Ok (mk_machine m' os', x) /\ inv m' os' vs' lk' /\
       (lk' = lk \/ exists json, e = New json /\ read_with_message json))
  end.
Ltac calm := intros (? & ? & ? & ? & ? & _); discriminate.

Lemma step_new m os vs lk json : inv m os vs lk -> step_goes m os vs lk (New json).
Proof.
  intros HI. unfold step_goes. cbn [RbSpec.value_step RbModel.step]. unfold report_new.
  destruct (reading json) as [[r e]| |] eqn:R; cbn [bind memory objects]; try reflexivity.
  destruct r as [r|].
  - rewrite place_is. cbn [bind]. destruct e as [e|].
    + right. split; [calm|]. do 3 eexists. split; [reflexivity|]. split; [apply (inv_leak _ _ _ _ _ HI); apply placed_real|]. right. exists json. split; [reflexivity|]. exists r, e. exact R.
    + right. split; [calm|]. exists (m ++ placed m r), (os ++ [RbReport (placed_at m r)]), lk.
      split; [unfold new_object; cbn; rewrite (i_length _ _ _ _ HI); reflexivity|]. split; [|left; reflexivity].
      apply (inv_grow _ _ _ _ _ _ _ HI (placed_real m r)).
      * cbn. split; [exact (reading_fine _ _ _ R)|]. unfold placed, placed_at. destruct (rep_stacktrace r) as [s|].
        -- exists (length m). split; [apply put_second|apply put_first].
        -- apply put_first.
      * unfold placed, placed_at. destruct (rep_stacktrace r) as [s|].
        -- rewrite (owned_report _ _ _ _ (put_second _ _ _ _)). cbn. constructor 3.
        -- cbn. rewrite put_first. constructor. constructor.
  - destruct e as [e|]; cbn [bind]; right; (split; [calm|]); exists m, os, lk; (split; [reflexivity|]); (split; [exact HI|left; reflexivity]).
Qed.
Lemma same_size m os vs lk o : inv m os vs lk -> nth_error vs o = None -> nth_error os o = None.
Proof. intros HI V. apply nth_error_None. apply nth_error_None in V. rewrite (i_length _ _ _ _ HI). exact V. Qed.
Lemma step_trace m os vs lk o : inv m os vs lk -> step_goes m os vs lk (GetStacktrace o).
Proof.
  intros HI. unfold step_goes. cbn [RbSpec.value_step RbModel.step objects].
  destruct (nth_error vs o) as [v|] eqn:V.
  2:{ rewrite (same_size _ _ _ _ _ HI V). right. split; [calm|]. exists m, os, lk. split; [reflexivity|]. split; [exact HI|left; reflexivity]. }
  destruct (inv_object _ _ _ _ _ _ HI V) as (x & O & G). rewrite O.
  destruct x as [a|a|a|], v as [r|s from|t|]; cbn in G; try (destruct G; fail); try (right; split; [calm|]; exists m, os, lk; split; [reflexivity|]; split; [exact HI|left; reflexivity]).
  unfold report_stacktrace. cbn [memory]. destruct G as (RF & G). destruct (rep_stacktrace r) as [s|] eqn:RS.
  - destruct G as (t & A & T). rewrite A. destruct (RF s RS) as (TY & U). rewrite <- TY, known_types.
    destruct (known_type s).
    + unfold stacktrace_dup. rewrite T, Nat.eqb_refl. cbn [bind objects]. right. split; [calm|].
      exists (m ++ [BTrace s t]), (os ++ [RbTrace (length m)]), lk. split; [unfold new_object; rewrite (i_length _ _ _ _ HI); reflexivity|]. split; [|left; reflexivity].
      apply (inv_grow _ _ _ _ _ _ _ HI); [repeat constructor; discriminate| |reflexivity]. cbn. exists t. split; [apply put_first|]. split; [exact U|].
      left. exists r, a. split; [apply grown; exact V|]. split; [exact RS|]. split; apply grown; assumption.
    + right. split; [calm|]. exists m, os, lk. split; [reflexivity|]. split; [exact HI|left; reflexivity].
  - rewrite G. right. split; [calm|]. exists m, os, lk. split; [reflexivity|]. split; [exact HI|left; reflexivity].
Qed.
Lemma step_crash m os vs lk o : inv m os vs lk -> step_goes m os vs lk (FindCrashThread o).
Proof.
  intros HI. unfold step_goes. cbn [RbSpec.value_step RbModel.step objects].
  destruct (nth_error vs o) as [v|] eqn:V.
  2:{ rewrite (same_size _ _ _ _ _ HI V). right. split; [intros (o' & c & i & f & E & V' & _); injection E as <-; congruence|]. exists m, os, lk. split; [reflexivity|]. split; [exact HI|left; reflexivity]. }
  destruct (inv_object _ _ _ _ _ _ HI V) as (x & O & G). rewrite O.
  destruct x as [a|a|a|], v as [r|s from|t|]; cbn in G; try (destruct G; fail);
    try (right; split; [intros (o' & c & i & f & E & V' & _); injection E as <-; congruence|]; exists m, os, lk; split; [reflexivity|]; split; [exact HI|left; reflexivity]).
  destruct G as (home & A & U & OR). unfold stacktrace_find_crash_thread. cbn [memory]. rewrite A. pose proof (crash_value a s home U) as CV.
  destruct (crash_thread_at a s home) as [[b i]|] eqn:CA.
  - destruct CV as (B & t & T & F). rewrite F.
    assert (OK : nth_error m b = Some (BTrace s home) \/ nth_error m b = Some (BTrace s b) -> ~ dangling vs (FindCrashThread o) ->
      exists m' os' lk', (do (m1, dup) <- sr_thread_dup m b i; new_object m1 os (RbThread dup)) = Ok (mk_machine m' os', Object (length vs)) /\ inv m' os' (vs ++ [VThread t]) lk' /\ (lk' = lk \/ exists json, FindCrashThread o = New json /\ read_with_message json)).
    { intros MB _. exists (m ++ [BThread t]), (os ++ [RbThread (length m)]), lk. split.
      - unfold sr_thread_dup, new_object. destruct MB as [->| ->]; rewrite T; cbn; rewrite (i_length _ _ _ _ HI); reflexivity.
      - split; [|left; reflexivity]. apply (inv_grow _ _ _ _ _ _ _ HI); [repeat constructor; discriminate| |reflexivity]. cbn. apply put_first. }
    destruct (named s) eqn:NS.
    + subst b. destruct OR as [(r & rb & VF & RS & OF & MB)|(VF & MG)].
      * right. assert (ND : ~ dangling vs (FindCrashThread o)) by (intros (o' & c & k & f & E & V' & _ & G); injection E as <-; congruence). split; [exact ND|].
        apply OK; [right|exact ND]. pose proof (i_goes _ _ _ _ HI _ _ _ OF VF) as GF. cbn in GF. destruct GF as (_ & GF). rewrite RS in GF. destruct GF as (t' & A' & T'). congruence.
      * left. split; [|unfold sr_thread_dup; rewrite MG; reflexivity].
        destruct s as [c| | | | | |]; try discriminate NS. cbn in NS. destruct (cs_crash_thread c) as [k|] eqn:CT; [|discriminate NS]. exists o, c, k, from. repeat split; assumption.
    + subst b. right. assert (ND : ~ dangling vs (FindCrashThread o)).
      { intros (o' & c & k & f & E & V' & CT & _). injection E as <-. assert (s = SCore c) by congruence. subst s. cbn in NS. rewrite CT in NS. discriminate NS. }
      split; [exact ND|]. apply OK; [left; exact A|exact ND].
  - rewrite CV. right. split.
    + intros (o' & c & k & f & E & V' & CT & _). injection E as <-. assert (s = SCore c) by congruence. subst s. cbn in CA. rewrite CT in CA. discriminate CA.
    + exists m, os, lk. split; [reflexivity|]. split; [exact HI|left; reflexivity].
Qed.
Lemma step_hash m os vs lk o opts : inv m os vs lk -> step_goes m os vs lk (Duphash o opts).
Proof.
  intros HI. unfold step_goes. cbn [RbSpec.value_step RbModel.step objects].
  destruct (nth_error vs o) as [v|] eqn:V.
  2:{ rewrite (same_size _ _ _ _ _ HI V). right. split; [calm|]. exists m, os, lk. split; [reflexivity|]. split; [exact HI|left; reflexivity]. }
  destruct (inv_object _ _ _ _ _ _ HI V) as (x & O & G). rewrite O.
  destruct x as [a|a|a|], v as [r|s from|t|]; cbn in G; try (destruct G; fail); try (right; split; [calm|]; exists m, os, lk; split; [reflexivity|]; split; [exact HI|left; reflexivity]).
  unfold thread_duphash. cbn [memory]. rewrite G. unfold chosen.
  destruct (sr_thread_get_duphash _ _ _ _ _) as [h| |]; cbn [bind]; try reflexivity.
  right. split; [calm|]. exists m, os, lk. split; [reflexivity|]. split; [exact HI|left; reflexivity].
Qed.
Lemma step_collect m os vs lk o : inv m os vs lk -> step_goes m os vs lk (Collect o).
Proof.
  intros HI. unfold step_goes. cbn [RbSpec.value_step RbModel.step objects].
  destruct (nth_error vs o) as [v|] eqn:V.
  2:{ rewrite (same_size _ _ _ _ _ HI V). right. split; [calm|]. exists m, os, lk. split; [reflexivity|]. split; [exact HI|left; reflexivity]. }
  destruct (inv_object _ _ _ _ _ _ HI V) as (x & O & G). rewrite O.
  assert (C : x <> Collected -> v <> VGone -> exists m' os' lk', (do m1 <- release m x; Ok (mk_machine m1 (set_object o Collected os), Done)) = Ok (mk_machine m' os', Done) /\
     inv m' os' (firstn o vs ++ VGone :: skipn (S o) vs) lk' /\ (lk' = lk \/ exists json, Collect o = New json /\ read_with_message json)).
  { intros N _. destruct (released _ _ _ _ _ _ _ HI O V N) as (m' & R & HI'). exists m', (set_object o Collected os), lk. rewrite R. split; [reflexivity|]. split; [exact HI'|left; reflexivity]. }
  destruct x as [a|a|a|], v as [r|s from|t|]; cbn in G; try (destruct G; fail); right; (split; [calm|]); try (apply C; discriminate).
  exists m, os, lk. split; [reflexivity|]. split; [exact HI|left; reflexivity].
Qed.
Lemma step_ok m os vs lk e : inv m os vs lk -> step_goes m os vs lk e.
Proof. intros HI. destruct e; [apply step_new|apply step_trace|apply step_crash|apply step_hash|apply step_collect]; exact HI. Qed.

(** ** Histories *)
Definition dangles_from (vs : list shown) (h : list op) : Prop :=
  exists h1 e h2 vs1 xs, h = h1 ++ e :: h2 /\ values vs h1 = Ok (vs1, xs) /\ dangling vs1 e.
Definition clean (h : list op) : Prop := forall json, In (New json) h -> ~ read_with_message json.
Lemma dangles_cons vs e h vs' x : value_step vs e = Ok (vs', x) -> dangles_from vs (e :: h) <-> dangling vs e \/ dangles_from vs' h.
Proof.
  intros E. split.
  - intros ([|e1 h1] & d & h2 & vs1 & xs & HH & HV & HD).
    + injection HH as <- <-. injection HV as <- _. left. exact HD.
    + injection HH as <- ->. cbn [RbSpec.values] in HV. rewrite E in HV. cbn [bind] in HV. destruct (values vs' h1) as [[w ys]| |] eqn:W; try discriminate HV. cbn in HV.
      injection HV as <- _. right. exists h1, d, h2, w, ys. split; [reflexivity|]. split; [exact W|exact HD].
  - intros [HD|(h1 & d & h2 & vs1 & xs & -> & HV & HD)].
    + exists [], e, h, vs, []. split; [reflexivity|]. split; [reflexivity|exact HD].
    + exists (e :: h1), d, h2, vs1, (x :: xs). split; [reflexivity|]. split; [|exact HD]. cbn [RbSpec.values]. rewrite E. cbn [bind]. rewrite HV. reflexivity.
Qed.
Lemma dangles_stuck vs e h : (forall r, value_step vs e <> Ok r) -> ~ dangling vs e -> ~ dangles_from vs (e :: h).
Proof.
  intros N D ([|e1 h1] & d & h2 & vs1 & xs & HH & HV & HD).
  - injection HH as <- <-. injection HV as <- _. exact (D HD).
  - injection HH as <- ->. cbn [RbSpec.values] in HV. destruct (value_step vs e) as [r| |]; [exact (N r eq_refl)|discriminate HV|discriminate HV].
Qed.
Lemma dangling_steps vs e : dangling vs e -> exists r, value_step vs e = Ok r.
Proof. intros (o & c & i & f & -> & _). cbn [RbSpec.value_step]. eexists. reflexivity. Qed.
Theorem run_values h : forall m os vs lk, inv m os vs lk ->
  (dangles_from vs h -> run (mk_machine m os) h = UB) /\
  (~ dangles_from vs h -> match values vs h with
     | Ok (vs', xs) => exists m' os' lk', run (mk_machine m os) h = Ok (mk_machine m' os', xs) /\ inv m' os' vs' lk' /\ (clean h -> lk' = lk)
     | Fail => run (mk_machine m os) h = Fail
     | UB => run (mk_machine m os) h = UB
     end).
Proof.
  induction h as [|e h IH]; intros m os vs lk HI.
  - split.
    + intros ([|e1 h1] & d & h2 & vs1 & xs & HH & _); discriminate HH.
    + intros _. cbn. exists m, os, lk. split; [reflexivity|]. split; [exact HI|reflexivity].
  - pose proof (step_ok m os vs lk e HI) as ST. unfold step_goes in ST. cbn [RbSpec.values RbModel.run].
    destruct (value_step vs e) as [[vs' x]| |] eqn:VE.
    + pose proof (dangles_cons vs e h vs' x VE) as DC. destruct ST as [(D & ST)|(ND & m' & os' & lk' & ST & HI' & LK)].
      * split; [intros _; rewrite ST; reflexivity|]. intros N. exfalso. apply N. apply DC. left. exact D.
      * rewrite ST. cbn [bind]. destruct (IH m' os' vs' lk' HI') as (I1 & I2). split.
        -- intros D. apply DC in D. destruct D as [D|D]; [contradiction|]. rewrite (I1 D). reflexivity.
        -- intros N. assert (N' : ~ dangles_from vs' h) by (intros D; apply N; apply DC; right; exact D). specialize (I2 N').
           destruct (values vs' h) as [[vs2 xs]| |]; cbn [bind].
           ++ destruct I2 as (m2 & os2 & lk2 & R & HI2 & CL). exists m2, os2, lk2. rewrite R. split; [reflexivity|]. split; [exact HI2|].
              intros C. rewrite CL by (intros j J; apply C; right; exact J). destruct LK as [LK|(json & -> & RM)]; [exact LK|]. exfalso. exact (C json (or_introl eq_refl) RM).
           ++ rewrite I2. reflexivity.
           ++ rewrite I2. reflexivity.
    + split; [|intros _; rewrite ST; reflexivity]. intros D. exfalso. revert D. apply dangles_stuck; [congruence|]. intros D. destruct (dangling_steps vs e D). congruence.
    + split; intros; rewrite ST; reflexivity.
Qed.
Lemma dangles_is h : dangles h <-> dangles_from [] h.
Proof.
  split.
  - intros (h1 & o & h2 & vs & xs & c & i & f & E & V & A & B & C). exists h1, (FindCrashThread o), h2, vs, xs. split; [exact E|]. split; [exact V|]. exists o, c, i, f. repeat split; assumption.
  - intros (h1 & e & h2 & vs & xs & E & V & (o & c & i & f & -> & A & B & C)). exists h1, o, h2, vs, xs, c, i, f. repeat split; assumption.
Qed.
End Histories.
