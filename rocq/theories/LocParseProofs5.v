(** * Proofs about the locations: Ruby stack traces, and what a caller is told. *)
From Verif Require Import Base Types UtilsSpec UtilsModel UtilsProofs JsonModel JsonReaders ParseSpec ParseModel ParseProofs RubyParseModel RubyParseSpec RubyParseProofs JsParseModel JsParseSpec JsParseProofs LocParseModel LocParseSpec LocParseProofs LocParseProofs2 LocParseProofs3 LocParseProofs4.
Open Scope nat_scope.

(** One frame: what was read. *)
Lemma ruby_frame_step s l :
  match ruby_frame_loc s l with
  | Took (f, rest) l' => exists text lost, s = text ++ rest /\ ruby_frame_text (text ++ rest) f rest /\ ruby_frame_read text rest lost /\ moved l (length text) lost l' /\ text <> []
  | Refused l' => exists why pre suf short, s = pre ++ suf /\ ruby_frame_wrong why pre suf short /\ placed l l' (length pre) short why
  | Broken => False
  end.
Proof.
  pose proof (ruby_frame_place s l) as P. pose proof (forget_ruby_frame s l) as G. destruct (ruby_frame_loc s l) as [[f rest] l'|l'|]; cbn [forget] in G; [|exact P|exact P].
  symmetry in G. apply frame_iff in G. destruct P as (head & levels & lost & after & name & special & E & H1 & H2 & H3 & H4).
  assert (exists text, s = text ++ rest /\ text <> []) as (text & Es & Hne).
  { exists (head ++ L "`" ++ levels ++ (if special then L "<" ++ name ++ L ">'" else name ++ L "'")). split; [|destruct head; discriminate]. rewrite E. destruct H3 as (_ & _ & H3). destruct special; [rewrite H3|destruct H3 as [-> _]]; rewrite <- !app_assoc; reflexivity. }
  exists text, lost. split; [exact Es|]. rewrite <- Es. split; [exact G|]. split; [exists head, levels, after, name, special; rewrite <- Es; auto|]. split; [|exact Hne].
  replace (length s - length rest) with (length text) in H4 by (rewrite Es, app_length; lia). exact H4.
Qed.
Lemma ruby_frames_place fuel : forall s l, length s < fuel -> column l = 0%Z ->
  match ruby_frames_loc fuel s l with
  | Took _ _ => True
  | Refused l' => exists lines fs cur suf why short, s = lines ++ cur ++ suf /\ ruby_lines lines fs (cur ++ suf) /\
      l' = mk_location (line l + Z.of_nat (length fs)) (Z.of_nat (length cur) - short) (Some why) /\
      ((cur = [] /\ short = 0%Z /\ suf <> [] /\ ~ begins (tab :: L "from ") suf /\ why = L "Frame header not found.") \/
       (exists pre, cur = tab :: L "from " ++ pre /\ ruby_frame_wrong why pre suf short) \/
       (exists text, cur = tab :: L "from " ++ text /\ ruby_frame_read text suf short /\ suf <> [] /\ ~ begins [nl] suf /\ why = L "Expected newline after stacktrace frame."))
  | Broken => False
  end.
Proof.
  induction fuel as [|fuel IH]; intros s l Hs Hl; [lia|]. cbn [ruby_frames_loc]. destruct s as [|c0 s0]; [exact Logic.I|]. set (s := c0 :: s0) in *. assert (Hne : s <> []) by discriminate. clearbody s. clear c0 s0.
  destruct (skip_string_cases (tab :: L "from ") s) as [(r & -> & E)|[Hno E]]; rewrite E.
  2:{ exists [], [], [], s, (L "Frame header not found."), 0%Z. split; [reflexivity|]. split; [constructor|]. split; [unfold says; rewrite Hl; cbn [length]; f_equal; lia|]. left. auto 6. }
  change (length (tab :: L "from ")) with 6. cbv iota beta. change (Z.of_nat 6) with 6%Z. pose proof (ruby_frame_step r (right l 6)) as F.
  destruct (ruby_frame_loc r (right l 6)) as [[f t] l1|l1|]; cbn [and_then]; [| |exact F].
  2:{ destruct F as (why & pre & suf & short & -> & Hw & ->). exists [], [], (tab :: L "from " ++ pre), suf, why, short. split; [cbn [app]; rewrite <- ?app_assoc; cbn [app]; rewrite <- ?app_assoc; reflexivity|]. split; [constructor|].
      split; [|right; left; eauto]. cbn [right line column]. rewrite Hl. f_equal; cbn [length]; [lia|]. rewrite app_length. change (length (L "from ")) with 5. lia. }
  destruct F as (text & lost & -> & Htext & Hread & Hm & Htne). assert (Hlt : length t < fuel) by (rewrite !app_length in Hs; cbn [length] in Hs; destruct text; [congruence|cbn [length] in Hs; lia]).
  destruct (skip_char_cases nl t) as [(u & -> & Eu)|[Hnn Eu]]; rewrite Eu; cbn [negb andb].
  - specialize (IH u (next_line l1)). destruct (ruby_frames_loc fuel u (next_line l1)) as [[fs z] l2|l2|]; cbn [and_then]; [exact Logic.I| |].
    + destruct IH as (lines & fs & cur & suf & why & short & -> & Hlines & -> & Hcase); [cbn [length] in Hlt; lia|reflexivity|].
      exists (tab :: L "from " ++ text ++ nl :: lines), (f :: fs), cur, suf, why, short. split; [cbn [app]; rewrite <- ?app_assoc; cbn [app]; rewrite <- ?app_assoc; reflexivity|]. split; [constructor; assumption|].
      split; [|exact Hcase]. destruct Hm as [Hm _]. cbn [right line] in Hm. cbn [next_line line]. rewrite Hm. f_equal. cbn [length]. lia.
    + apply IH; [cbn [length] in Hlt; lia|reflexivity].
  - destruct t as [|c t]; cbn [negb].
    + destruct fuel; [cbn [length] in *; lia|]. exact Logic.I.
    + exists [], [], (tab :: L "from " ++ text), (c :: t), (L "Expected newline after stacktrace frame."), lost. split; [cbn [app]; rewrite <- ?app_assoc; cbn [app]; rewrite <- ?app_assoc; reflexivity|]. split; [constructor|].
      split; [|right; right; exists text; split; [reflexivity|]; split; [exact Hread|]; split; [discriminate|]; auto]. destruct Hm as [Hm1 Hm2]. cbn [right line column] in Hm1, Hm2. unfold says. rewrite Hm1, Hm2, Hl.
      f_equal; cbn [length]; [lia|]. rewrite app_length. change (length (L "from ")) with 5. lia.
Qed.
Definition class_loc (buf : str) (l : location) : outcome str :=
  let no_newline := Refused (says (right l (-1)) (L "Unable to find the new line character after the end of exception class")) in
  let no_bracket := Refused (says (right l (-2)) (L "Unable to find the ')' character identifying the end of exception class")) in
  match length buf with
  | O => no_newline
  | S p =>
    look c <- byte_at buf p;
    if negb (Ascii.eqb c nl) then no_newline else
    match p with
    | O => no_bracket
    | S p =>
      look c <- byte_at buf p;
      if negb (Ascii.eqb c ")") then no_bracket else
      let buf := firstn p buf in
      look p <- back_while (fun c => negb (Ascii.eqb c "(")) buf p;
      let exception_name := skipn p buf in
      match exception_name with
      | [] => Refused (says l no_class)
      | _ =>
        match p with
        | O => Refused (says l no_class)
        | S p => look c <- byte_at buf p; if negb (Ascii.eqb c "(") then Refused (says l no_class) else Took exception_name l
        end
      end
    end
  end.
Lemma class_forget buf l : forget (class_loc buf l) = ruby_class buf.
Proof.
  unfold class_loc, ruby_class. destruct (length buf) as [|p]; [reflexivity|]. apply forget_see; [auto with sure|]. intros c _. destruct (negb _); [reflexivity|]. destruct p as [|p]; [reflexivity|].
  apply forget_see; [auto with sure|]. intros c2 _. destruct (negb _); [reflexivity|]. apply forget_see; [auto with sure|]. intros q _. destruct (skipn q _); [reflexivity|]. destruct q as [|q]; [reflexivity|].
  apply forget_see; [auto with sure|]. intros c3 _. destruct (negb _); reflexivity.
Qed.
Lemma class_place buf l : buf <> [] ->
  match class_loc buf l with
  | Took class l' => l' = l /\ ruby_message buf class
  | Refused l' =>
      (l' = mk_location (line l) (column l - 1) (Some (L "Unable to find the new line character after the end of exception class")) /\ ~ ends [nl] buf) \/
      (l' = mk_location (line l) (column l - 2) (Some (L "Unable to find the ')' character identifying the end of exception class")) /\ ends [nl] buf /\ ~ ends (L ")" ++ [nl]) buf) \/
      (l' = mk_location (line l) (column l) (Some no_class) /\ ends (L ")" ++ [nl]) buf /\ forall class, ~ ruby_message buf class)
  | Broken => False
  end.
Proof.
  intros Hne. pose proof (class_forget buf l) as G. pose proof (class_not_UB buf) as NU. pose proof (class_iff buf) as CI. revert G. unfold class_loc.
  destruct (snoc_cases buf) as [->|(b1 & c1 & ->)]; [congruence|].
  rewrite app_length. cbn [length]. rewrite Nat.add_1_r. pose proof (byte_at_last b1 c1 []) as E0. rewrite app_nil_r in E0. rewrite E0. cbn [see].
  destruct (Ascii.eqb_spec c1 nl) as [->|H1]; cbn [negb].
  2:{ intros _. left. split; [reflexivity|]. intros [r E]. apply app_inj_tail in E as [_ E]. contradiction. }
  destruct (snoc_cases b1) as [->|(b2 & c2 & ->)].
  { intros _. right. left. split; [reflexivity|]. split; [exists []; reflexivity|]. intros [[|x [|y r]] E]; discriminate E. }
  rewrite app_length. cbn [length]. rewrite Nat.add_1_r, byte_at_last. cbn [see].
  destruct (Ascii.eqb_spec c2 ")") as [->|H2]; cbn [negb].
  2:{ intros _. right. left. split; [reflexivity|]. split; [eexists; reflexivity|]. intros [r E]. rewrite app_assoc in E. apply app_inj_tail in E as [E _]. apply app_inj_tail in E as [_ E]. contradiction. }
  set (rest := see _ _). intros G. destruct rest as [class l'|l'|] eqn:Er; cbn [forget] in G.
  - symmetry in G. apply CI in G as (m & G & Hm). split; [|exists m; auto]. unfold rest in Er. destruct (back_while _ _ _) as [q| |]; cbn [see] in Er; [|discriminate..]. destruct (skipn q _); [discriminate|].
    destruct q as [|q]; [discriminate|]. destruct (byte_at _ q) as [c3| |]; cbn [see] in Er; [|discriminate..]. destruct (negb _); [discriminate|]. injection Er as _ <-. reflexivity.
  - right. right. split; [|split; [exists b2; rewrite <- app_assoc; reflexivity|]].
    + unfold rest in Er. destruct (back_while _ _ _) as [q| |]; cbn [see] in Er; [|discriminate..]. destruct (skipn q _); [injection Er as <-; reflexivity|].
      destruct q as [|q]; [injection Er as <-; reflexivity|]. destruct (byte_at _ q) as [c3| |]; cbn [see] in Er; [|discriminate..]. destruct (negb _); [injection Er as <-; reflexivity|discriminate].
    + intros class Hm. apply CI in Hm. congruence.
  - exact (NU (eq_sym G)).
Qed.
Lemma ruby_place s :
  match ruby_stacktrace_loc s sr_location_init with
  | Took _ _ => True
  | Refused l' => exists why start cur suf n short, s = start ++ cur ++ suf /\ ruby_wrong why start cur suf n short /\ l' = mk_location n (Z.of_nat (length cur) - short) (Some why)
  | Broken => False
  end.
Proof.
  unfold ruby_stacktrace_loc. pose proof (ruby_frame_step s sr_location_init) as F. destruct (ruby_frame_loc s sr_location_init) as [[f t] l1|l1|]; [| |exact F].
  2:{ destruct F as (why & pre & suf & short & -> & Hw & ->). eexists _, [], pre, suf, 1%Z, short. split; [reflexivity|]. split; [apply rw_top; exact Hw|]. reflexivity. }
  destruct F as (top & lost & -> & _ & Htop & [Hm1 Hm2] & _). cbn [sr_location_init line column] in Hm1, Hm2.
  destruct (skip_string_cases (L ": ") t) as [(u & -> & E)|[Hno E]]; rewrite E.
  2:{ eexists _, [], top, t, 1%Z, lost. split; [reflexivity|]. split; [apply rw_colon; assumption|]. unfold says. rewrite Hm1, Hm2. f_equal. }
  change (length (L ": ")) with 2. cbv iota beta. destruct (sr_parse_char_cspan [tab] u) as [[m v]|] eqn:Em.
  2:{ apply cspan_none in Em. eexists _, [], (top ++ L ": "), u, 1%Z, lost. split; [rewrite <- app_assoc; reflexivity|]. split; [apply rw_message; assumption|]. unfold says, right. cbn [line column]. rewrite Hm1, Hm2, app_length. change (length (L ": ")) with 2. f_equal. lia. }
  apply cspan_iff in Em as (-> & Hne & Hw & Hs). set (l2 := right (right l1 (Z.of_nat 2)) (Z.of_nat (length m))).
  assert (Hl2 : line l2 = 1%Z /\ column l2 = (Z.of_nat (length (top ++ L ": " ++ m)) - lost)%Z) by (unfold l2, right; cbn [line column]; rewrite Hm1, Hm2, !app_length; change (length (L ": ")) with 2; split; [reflexivity|lia]).
  destruct Hl2 as [Hl2 Hc2]. clearbody l2.
  pose proof (class_place m l2 Hne) as C.
  assert (Eq : forall (k : str -> location -> outcome (ruby_stacktrace * str)),
    match length m with
    | O => Refused (says (right l2 (-1)) (L "Unable to find the new line character after the end of exception class"))
    | S p =>
      look c <- byte_at m p;
      if negb (Ascii.eqb c nl) then Refused (says (right l2 (-1)) (L "Unable to find the new line character after the end of exception class")) else
      match p with
      | O => Refused (says (right l2 (-2)) (L "Unable to find the ')' character identifying the end of exception class"))
      | S p =>
        look c <- byte_at m p;
        if negb (Ascii.eqb c ")") then Refused (says (right l2 (-2)) (L "Unable to find the ')' character identifying the end of exception class")) else
        let buf := firstn p m in
        look p <- back_while (fun c => negb (Ascii.eqb c "(")) buf p;
        match skipn p buf with
        | [] => Refused (says l2 no_class)
        | _ =>
          match p with
          | O => Refused (says l2 no_class)
          | S p' => look c <- byte_at buf p'; if negb (Ascii.eqb c "(") then Refused (says l2 no_class) else k (skipn p buf) l2
          end
        end
      end
    end = and_then (class_loc m l2) k).
  { intros k. unfold class_loc. destruct (length m) as [|p]; [reflexivity|]. destruct (byte_at m p) as [c| |]; cbn [see]; [|reflexivity..]. destruct (negb _); [reflexivity|]. destruct p as [|p]; [reflexivity|].
    destruct (byte_at m p) as [c2| |]; cbn [see]; [|reflexivity..]. destruct (negb _); [reflexivity|]. cbv zeta. destruct (back_while _ _ _) as [q| |]; cbn [see]; [|reflexivity..]. destruct (skipn q _) as [|x y]; [reflexivity|].
    destruct q as [|q]; [reflexivity|]. destruct (byte_at _ q) as [c3| |]; cbn [see]; [|reflexivity..]. destruct (negb _); reflexivity. }
  specialize (Eq (fun class l => and_then (ruby_frames_loc (S (length v)) v (next_line l)) (fun '(frames, s) l => Took (mk_ruby_stacktrace (Some class) (f :: frames), s) l))). cbv zeta in Eq |- *.
  rewrite Eq. clear Eq. destruct (class_loc m l2) as [class l3|l3|]; cbn [and_then]; [| |exact C].
  2:{ destruct C as [[-> H]|[(-> & H & H')|(-> & H & H')]]; rewrite Hl2, Hc2.
      - eexists _, [], (top ++ L ": " ++ m), v, 1%Z, (lost + 1)%Z. split; [cbn [app]; rewrite <- ?app_assoc; cbn [app]; rewrite <- ?app_assoc; reflexivity|]. split; [apply rw_newline; assumption|]. f_equal. lia.
      - eexists _, [], (top ++ L ": " ++ m), v, 1%Z, (lost + 2)%Z. split; [cbn [app]; rewrite <- ?app_assoc; cbn [app]; rewrite <- ?app_assoc; reflexivity|]. split; [apply rw_paren; assumption|]. f_equal. lia.
      - eexists _, [], (top ++ L ": " ++ m), v, 1%Z, lost. split; [cbn [app]; rewrite <- ?app_assoc; cbn [app]; rewrite <- ?app_assoc; reflexivity|]. split; [apply rw_class; assumption|]. reflexivity. }
  destruct C as [-> Hmsg]. pose proof (ruby_frames_place (S (length v)) v (next_line l2) (Nat.lt_succ_diag_r _) eq_refl) as P.
  destruct (ruby_frames_loc _ v (next_line l2)) as [[fs z] l4|l4|]; cbn [and_then]; [exact Logic.I| |exact P].
  destruct P as (lines & fs & cur & suf & why & short & -> & Hlines & -> & Hcase). cbn [next_line line]. rewrite Hl2.
  exists why, (top ++ L ": " ++ m ++ lines), cur, suf, (2 + Z.of_nat (length fs))%Z, short. split; [cbn [app]; rewrite <- ?app_assoc; cbn [app]; rewrite <- ?app_assoc; reflexivity|]. split; [|f_equal; lia].
  destruct Hcase as [(-> & -> & H1 & H2 & ->)|[(pre & -> & H)|(text & -> & H & H1 & H2 & ->)]].
  - apply (rw_header top lost m class lines fs suf); assumption.
  - cbn [app] in Htop, Hlines. rewrite <- !app_assoc in Htop, Hlines. apply (rw_frame why top lost m class lines fs pre suf short); assumption.
  - cbn [app] in Htop, Hlines. rewrite <- !app_assoc in Htop, Hlines. apply (rw_end top lost m class lines fs text short suf); assumption.
Qed.
(** ** What the caller is told *)
Lemma js_told text m : parse_wrapper js_stacktrace_loc text = Ok (inr m) ->
  exists why pre suf short ln col, text = pre ++ suf /\ js_wrong why pre suf short /\ pos_of pre ln (col + short) /\
    m = L "Line " ++ print_Z ln ++ L ", column " ++ print_Z col ++ L ": The stacktrace does not match any JavaScript dialect".
Proof.
  unfold parse_wrapper, js_stacktrace_loc. pose proof (js_v8_loc text) as H. destruct (js_stacktrace_v8_loc text sr_location_init) as [[[name fs] r] l|l|]; [discriminate| |discriminate].
  destruct H as (why & pre & suf & short & E & Hw & Hp & _). intros Hm. injection Hm as <-. exists why, pre, suf, short, (line l), (column l). repeat (split; [assumption|]). reflexivity.
Qed.
Lemma wrapper_total {A} (parser : str -> location -> outcome (A * str)) (plain : str -> res (A * str)) text :
  (forall l, forget (parser text l) = plain text) -> plain text <> UB ->
  (exists x rest, parse_wrapper parser text = Ok (inl x) /\ plain text = Ok (x, rest)) \/ (exists m, parse_wrapper parser text = Ok (inr m) /\ plain text = Fail).
Proof.
  intros Hf Hub. specialize (Hf sr_location_init). unfold parse_wrapper. destruct (parser text sr_location_init) as [[x r] l|l|]; cbn [forget] in Hf; [left|right|congruence]; eauto.
Qed.
Lemma js_total text : (exists t, parse_wrapper js_stacktrace_loc text = Ok (inl t) /\ js_text text t) \/ ((exists m, parse_wrapper js_stacktrace_loc text = Ok (inr m)) /\ forall t, ~ js_text text t).
Proof.
  destruct (wrapper_total js_stacktrace_loc sr_js_stacktrace_parse text (forget_js text) (js_not_UB text)) as [(t & r & H1 & H2)|(m & H1 & H2)].
  - left. exists t. split; [exact H1|]. pose proof (js_end _ _ _ H2). subst r. apply js_iff. exact H2.
  - right. split; [eauto|]. intros t Ht. apply js_iff in Ht. congruence.
Qed.
Lemma ruby_total text : (exists t, parse_wrapper ruby_stacktrace_loc text = Ok (inl t) /\ ruby_text text t) \/ ((exists m, parse_wrapper ruby_stacktrace_loc text = Ok (inr m)) /\ forall t, ~ ruby_text text t).
Proof.
  destruct (wrapper_total ruby_stacktrace_loc sr_ruby_stacktrace_parse text (forget_ruby text) (ruby_not_UB text)) as [(t & r & H1 & H2)|(m & H1 & H2)].
  - left. exists t. split; [exact H1|]. pose proof (ruby_end _ _ _ H2). subst r. apply ruby_iff. exact H2.
  - right. split; [eauto|]. intros t Ht. apply ruby_iff in Ht. congruence.
Qed.
Lemma ruby_told text m : parse_wrapper ruby_stacktrace_loc text = Ok (inr m) ->
  exists why start cur suf n short, text = start ++ cur ++ suf /\ ruby_wrong why start cur suf n short /\
    m = L "Line " ++ print_Z n ++ L ", column " ++ print_Z (Z.of_nat (length cur) - short) ++ L ": " ++ why.
Proof.
  unfold parse_wrapper. pose proof (ruby_place text) as H. destruct (ruby_stacktrace_loc text sr_location_init) as [[t r] l|l|]; [discriminate| |discriminate].
  destruct H as (why & start & cur & suf & n & short & E & Hw & ->). intros Hm. injection Hm as <-. exists why, start, cur, suf, n, short. auto.
Qed.
Lemma ruby_lines_end lines fs rest : ruby_lines lines fs rest -> lines = [] \/ exists b, lines = b ++ [nl].
Proof.
  induction 1 as [|text f lines fs rest H Hr IH]; [auto|]. right. destruct IH as [->|[b ->]]; [exists (tab :: L "from " ++ text)|exists (tab :: L "from " ++ text ++ nl :: b)]; cbn [app]; rewrite <- ?app_assoc; cbn [app]; rewrite <- ?app_assoc; reflexivity.
Qed.
Lemma ruby_message_end m class : ruby_message m class -> exists b, m = b ++ [nl].
Proof. intros (msg & -> & _). exists (msg ++ L "(" ++ class ++ L ")"). rewrite <- !app_assoc. reflexivity. Qed.
Lemma ruby_start why start cur suf n short : ruby_wrong why start cur suf n short -> (n = 1%Z /\ start = []) \/ exists b, start = b ++ [nl].
Proof.
  assert (K : forall top m class lines fs rest, ruby_message m class -> ruby_lines lines fs rest -> exists b, top ++ L ": " ++ m ++ lines = b ++ [nl]).
  { intros top m class lines fs rest Hm Hl. apply ruby_message_end in Hm as [b ->]. apply ruby_lines_end in Hl as [->|[c ->]]; [exists (top ++ L ": " ++ b); rewrite app_nil_r|exists (top ++ L ": " ++ (b ++ [nl]) ++ c)]; rewrite <- !app_assoc; reflexivity. }
  destruct 1; try (left; split; reflexivity); right; eapply K; eassumption.
Qed.
Lemma ruby_position why start cur suf n short : ruby_wrong why start cur suf n short -> (1 + Z.of_nat (count_occ ascii_dec start nl) = n)%Z -> ~ In nl cur -> pos_of (start ++ cur) n (Z.of_nat (length cur)).
Proof.
  intros H Hn Hc. exists start, cur. split; [reflexivity|]. split; [exact Hc|]. split; [apply ruby_start in H as [[_ ->]|H]; auto|]. split; [|reflexivity].
  rewrite count_occ_app, (proj1 (count_occ_not_In ascii_dec _ _) Hc). lia.
Qed.
