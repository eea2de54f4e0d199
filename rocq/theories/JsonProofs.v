(** * Proofs about the JSON grammar, escaping and indentation. *)
From Verif Require Import Base UtilsModel UtilsSpec UtilsProofs JsonSpec JsonModel.
Open Scope Z_scope.

(** ** String bodies *)

Lemma escape_fun e c1 c2 : escape e c1 -> escape e c2 -> c1 = c2.
Proof. intros H1 H2; inversion H1; subst; inversion H2; subst; reflexivity. Qed.

Lemma jchars_prefix s1 b1 : jchars s1 b1 -> forall s2 b2 r1 r2, jchars s2 b2 ->
  b1 ++ dquote :: r1 = b2 ++ dquote :: r2 -> s1 = s2 /\ b1 = b2 /\ r1 = r2.
Proof.
  induction 1 as [|c s b Hc Hq Hb H IH|e c s b He H IH]; intros s2 b2 r1 r2 H2 Heq;
    inversion H2 as [|c' s' b' Hc' Hq' Hb' Hj'|e' c' s' b' He' Hj']; subst; simpl in Heq;
    try discriminate Heq.
  - injection Heq as ->. auto.
  - injection Heq as E _. congruence.
  - injection Heq as E _. congruence.
  - injection Heq as -> E2. destruct (IH _ _ _ _ Hj' E2) as (-> & -> & ->). auto.
  - injection Heq as E _. congruence.
  - injection Heq as E _. congruence.
  - injection Heq as -> E2. destruct (IH _ _ _ _ Hj' E2) as (-> & -> & ->).
    rewrite (escape_fun _ _ _ He He'). auto.
Qed.

Lemma jchars_fun s1 s2 b : jchars s1 b -> jchars s2 b -> s1 = s2.
Proof.
  intros H1 H2. destruct (jchars_prefix _ _ H1 s2 b [] [] H2 eq_refl) as (-> & _); reflexivity.
Qed.

Lemma jchars_no_control s b : jchars s b -> Forall (fun c => (32 <= code c)%N) b.
Proof.
  induction 1; constructor; auto; [vm_compute; discriminate|].
  constructor; auto. destruct H; vm_compute; discriminate.
Qed.

Lemma jchars_no_nl s b : jchars s b -> ~ In nl b.
Proof.
  intros H Hin. apply jchars_no_control in H. rewrite Forall_forall in H.
  specialize (H _ Hin). vm_compute in H. apply H; reflexivity.
Qed.


Lemma json_escape_correct s : json_safe s -> jchars s (sr_json_escape s).
Proof.
  induction 1 as [|c s Hc Hs IH]; [constructor|].
  unfold sr_json_escape in *. cbn [map concat]. unfold json_escape_char.
  destruct (Ascii.eqb c dquote) eqn:E1; [apply ascii_eqb_true in E1; subst; constructor; [constructor | exact IH]|].
  destruct (Ascii.eqb c nl) eqn:E2; [apply ascii_eqb_true in E2; subst; apply jc_escape; [constructor | exact IH]|].
  destruct (Ascii.eqb c backslash) eqn:E3; [apply ascii_eqb_true in E3; subst; apply jc_escape; [constructor | exact IH]|].
  destruct (Ascii.eqb c cr) eqn:E4; [apply ascii_eqb_true in E4; subst; apply jc_escape; [constructor | exact IH]|].
  destruct (Ascii.eqb c ff) eqn:E5; [apply ascii_eqb_true in E5; subst; apply jc_escape; [constructor | exact IH]|].
  destruct (Ascii.eqb c bs) eqn:E6; [apply ascii_eqb_true in E6; subst; apply jc_escape; [constructor | exact IH]|].
  destruct (Ascii.eqb c tab) eqn:E7; [apply ascii_eqb_true in E7; subst; apply jc_escape; [constructor | exact IH]|].
  apply ascii_eqb_false in E1, E2, E3, E4, E5, E6, E7.
  apply jc_plain; auto. destruct Hc as [Hc|Hc]; [exact Hc|].
  exfalso; repeat destruct Hc as [Hc|Hc]; congruence.
Qed.

Lemma json_escape_app a b : sr_json_escape (a ++ b) = sr_json_escape a ++ sr_json_escape b.
Proof. unfold sr_json_escape. rewrite map_app, concat_app. reflexivity. Qed.

Lemma json_escape_unsafe s v : jchars v (sr_json_escape s) -> json_safe s.
Proof.
  intros H. apply jchars_no_control in H. unfold json_safe. rewrite Forall_forall in *.
  intros c Hc. destruct (N.ltb (code c) 32) eqn:E; [|left; apply N.ltb_ge in E; exact E].
  right. apply N.ltb_lt in E.
  assert (Hin : forall x, In x (json_escape_char c) -> (32 <= code x)%N).
  { intros x Hx. apply H. unfold sr_json_escape. apply in_concat. exists (json_escape_char c).
    split; [apply in_map; exact Hc | exact Hx]. }
  unfold json_escape_char in Hin.
  destruct (Ascii.eqb c dquote) eqn:E1; [apply ascii_eqb_true in E1; subst; vm_compute in E; discriminate|].
  destruct (Ascii.eqb c nl) eqn:E2; [apply ascii_eqb_true in E2; auto|].
  destruct (Ascii.eqb c backslash) eqn:E3; [apply ascii_eqb_true in E3; subst; vm_compute in E; discriminate|].
  destruct (Ascii.eqb c cr) eqn:E4; [apply ascii_eqb_true in E4; auto|].
  destruct (Ascii.eqb c ff) eqn:E5; [apply ascii_eqb_true in E5; auto|].
  destruct (Ascii.eqb c bs) eqn:E6; [apply ascii_eqb_true in E6; auto|].
  destruct (Ascii.eqb c tab) eqn:E7; [apply ascii_eqb_true in E7; auto 6|].
  specialize (Hin c (or_introl eq_refl)). lia.
Qed.

(** ** Numbers *)

Lemma dig_cases c d : dig c = Some d -> 0 <= d <= 9 /\ c = ascii_of_N (48 + Z.to_N d).
Proof.
  destruct c as [[] [] [] [] [] [] [] []]; simpl; intros H; try discriminate H;
    injection H as <-; (split; [lia | reflexivity]).
Qed.
Lemma dig_of_N n : (n < 10)%N -> dig (ascii_of_N (48 + n)) = Some (Z.of_N n).
Proof.
  intros H. assert (Hn : (n = 0 \/ n = 1 \/ n = 2 \/ n = 3 \/ n = 4 \/ n = 5 \/ n = 6 \/ n = 7 \/ n = 8 \/ n = 9)%N) by lia.
  repeat (destruct Hn as [->|Hn]; [reflexivity|]). subst; reflexivity.
Qed.

Lemma jdigits_nonneg z t : jdigits z t -> 0 <= z.
Proof.
  induction 1 as [c d Hd|z t c d H IH Hd]; apply dig_cases in Hd; lia.
Qed.
Lemma jdigits_all z t : jdigits z t -> Forall (fun c => dig c <> None) t /\ t <> [].
Proof.
  induction 1 as [c d Hd|z t c d H IH Hd].
  - split; [constructor; [congruence | constructor] | discriminate].
  - destruct IH as [IH _]. split; [apply Forall_app; split; auto; constructor; [congruence | constructor]|].
    intros He; apply app_eq_nil in He as [_ He]; discriminate.
Qed.
Lemma jdigits_val z t : jdigits z t ->
  z = fold_left (fun a c => a * 10 + match dig c with Some d => d | None => 0 end) t 0.
Proof.
  induction 1 as [c d Hd|z t c d H IH Hd].
  - simpl. rewrite Hd. lia.
  - rewrite fold_left_app, <- IH. simpl. rewrite Hd. reflexivity.
Qed.
Lemma jdigits_fun z1 z2 t : jdigits z1 t -> jdigits z2 t -> z1 = z2.
Proof. intros H1 H2. rewrite (jdigits_val _ _ H1), (jdigits_val _ _ H2). reflexivity. Qed.

Lemma dec_digits_correct fuel : forall n, (N.log2 n < N.of_nat fuel)%N ->
  jdigits (Z.of_N n) (dec_digits fuel n) /\ (0 < n -> hd nul (dec_digits fuel n) <> "0"%char)%N.
Proof.
  induction fuel as [|f IH]; intros n Hf; [simpl in Hf; lia|].
  cbn [dec_digits]. destruct (n <? 10)%N eqn:E.
  - apply N.ltb_lt in E. rewrite N.mod_small by exact E. split.
    + constructor. apply dig_of_N; exact E.
    + intros Hpos. simpl. intros Hc. pose proof (dig_of_N n E) as Hd. rewrite Hc in Hd. simpl in Hd.
      injection Hd. lia.
  - apply N.ltb_ge in E.
    assert (Hlog : (N.log2 (n / 10) < N.of_nat f)%N).
    { assert (H2 : (N.log2 (n / 10) <= N.log2 (n / 2))%N).
      { apply N.log2_le_mono. apply N.div_le_compat_l. lia. }
      assert (H3 : N.log2 (n / 2) = N.pred (N.log2 n)).
      { rewrite <- N.div2_div, N.div2_spec, N.log2_shiftr. lia. }
      assert (H4 : (0 < N.log2 n)%N) by (apply N.log2_pos; lia). lia. }
    destruct (IH (n / 10)%N Hlog) as [IH1 IH2]. split.
    + replace (Z.of_N n) with (Z.of_N (n / 10) * 10 + Z.of_N (n mod 10)).
      * constructor; [exact IH1|]. apply dig_of_N. apply N.mod_lt. lia.
      * pose proof (N.div_mod n 10). lia.
    + intros _. assert (Hq : (0 < n / 10)%N) by (apply N.div_str_pos; lia).
      specialize (IH2 Hq). apply jdigits_all in IH1 as [_ Hne].
      destruct (dec_digits f (n / 10)); [congruence | exact IH2].
Qed.

Lemma print_N_jnat n : jnat (Z.of_N n) (print_N n).
Proof.
  unfold print_N. destruct (dec_digits_correct (S (N.to_nat (N.log2 n))) n) as [H1 H2]; [lia|].
  split; [exact H1|]. intros Hz. destruct (N.eq_dec n 0) as [->|Hn]; [reflexivity|].
  exfalso; apply H2; [lia | exact Hz].
Qed.
Lemma print_Z_jint z : jint z (print_Z z).
Proof.
  unfold print_Z, jint. destruct (z <? 0) eqn:E.
  - right. eexists; split; [reflexivity|]. pose proof (print_N_jnat (Z.to_N (- z))) as H.
    rewrite Z2N.id in H by lia. exact H.
  - left. pose proof (print_N_jnat (Z.to_N z)) as H. rewrite Z2N.id in H by lia. exact H.
Qed.
Lemma print_N_inj a b : print_N a = print_N b -> a = b.
Proof.
  intros H. destruct (print_N_jnat a) as [Ha _], (print_N_jnat b) as [Hb _]. rewrite H in Ha.
  pose proof (jdigits_fun _ _ _ Ha Hb). lia.
Qed.
Lemma print_N_digits n : Forall (fun c => dig c <> None) (print_N n) /\ print_N n <> [].
Proof. destruct (print_N_jnat n) as [H _]. eapply jdigits_all; exact H. Qed.

(** ** First characters, whitespace splitting *)

Lemma ws_app a b : ws a -> ws b -> ws (a ++ b).
Proof. intros; apply Forall_app; auto. Qed.
Lemma ws_nil : ws []. Proof. constructor. Qed.
Lemma ws_spaces n : ws (spaces n).
Proof. induction n; constructor; auto. left; reflexivity. Qed.

Lemma ws_split w1 w2 c1 c2 r1 r2 : ws w1 -> ws w2 -> ~ ws_char c1 -> ~ ws_char c2 ->
  w1 ++ c1 :: r1 = w2 ++ c2 :: r2 -> w1 = w2 /\ c1 = c2 /\ r1 = r2.
Proof.
  revert w2; induction w1 as [|x w1 IH]; intros [|y w2] H1 H2 N1 N2 He; simpl in He; injection He as E1 E2; subst; auto.
  - inversion H2; contradiction.
  - inversion H1; contradiction.
  - inversion H1; inversion H2; subst. destruct (IH w2) as (-> & -> & ->); auto.
Qed.

Definition first_ok (v : json) (c : ascii) : Prop :=
  match v with
  | JNull => c = "n"%char
  | JBool true => c = "t"%char
  | JBool false => c = "f"%char
  | JInt _ => c = "-"%char \/ dig c <> None
  | JStr _ => c = dquote
  | JArr _ => c = "["%char
  | JObj _ => c = "{"%char
  end.

Lemma jint_head z t : jint z t -> exists c r, t = c :: r /\ (c = "-"%char \/ dig c <> None).
Proof.
  intros [[H _]|(t' & -> & _)]; [|eauto].
  apply jdigits_all in H as [Hf Hne]. destruct t as [|c r]; [congruence|].
  inversion Hf; subst; eauto.
Qed.

Lemma jval_head v t : jval v t -> exists c r, t = c :: r /\ first_ok v c.
Proof.
  destruct 1; try (do 2 eexists; split; [reflexivity|]; simpl; reflexivity).
  apply jint_head in H as (c & r & -> & H). eauto.
Qed.
Lemma first_ok_not v c : first_ok v c -> ~ ws_char c /\ c <> "]"%char /\ c <> "}"%char /\ c <> ","%char.
Proof.
  intros H.
  destruct v as [|[]| | | |]; simpl in H; try (subst c; repeat split; try discriminate; intros [?|[?|[?|?]]]; discriminate).
  destruct H as [->|H]; [repeat split; try discriminate; intros [?|[?|[?|?]]]; discriminate|].
  repeat split; try (intros ->; apply H; reflexivity).
  intros [?|[?|[?|?]]]; subst; apply H; reflexivity.
Qed.

Definition nodig (r : str) : Prop := match r with [] => True | c :: _ => dig c = None end.
Lemma nodig_ws w c r : ws w -> dig c = None -> nodig (w ++ c :: r).
Proof.
  intros H Hc; destruct w as [|x w]; [exact Hc|]. inversion H as [|? ? Hx _]; subst.
  destruct Hx as [->|[->|[->| ->]]]; reflexivity.
Qed.

Lemma digit_runs t1 t2 r1 r2 : Forall (fun c => dig c <> None) t1 -> Forall (fun c => dig c <> None) t2 ->
  nodig r1 -> nodig r2 -> t1 ++ r1 = t2 ++ r2 -> t1 = t2 /\ r1 = r2.
Proof.
  revert t2; induction t1 as [|x t1 IH]; intros [|y t2] F1 F2 N1 N2 He; simpl in He; auto.
  - subst r1. inversion F2; subst. simpl in N1. contradiction.
  - subst r2. inversion F1; subst. simpl in N2. contradiction.
  - injection He as -> He. inversion F1; inversion F2; subst. destruct (IH t2) as [-> ->]; auto.
Qed.

Lemma jint_prefix z1 t1 z2 t2 r1 r2 : jint z1 t1 -> jint z2 t2 -> nodig r1 -> nodig r2 ->
  t1 ++ r1 = t2 ++ r2 -> z1 = z2 /\ t1 = t2 /\ r1 = r2.
Proof.
  intros [[H1 _]|(u1 & -> & [H1 _])] [[H2 _]|(u2 & -> & [H2 _])] N1 N2 He.
  - destruct (jdigits_all _ _ H1) as [F1 _], (jdigits_all _ _ H2) as [F2 _].
    destruct (digit_runs _ _ _ _ F1 F2 N1 N2 He) as [-> ->].
    rewrite (jdigits_fun _ _ _ H1 H2). auto.
  - destruct (jdigits_all _ _ H1) as [F1 Hne]. destruct t1 as [|c t1]; [congruence|].
    simpl in He; injection He as -> _. inversion F1; subst. exfalso; apply H3; reflexivity.
  - destruct (jdigits_all _ _ H2) as [F2 Hne]. destruct t2 as [|c t2]; [congruence|].
    simpl in He; injection He as <- _. inversion F2; subst. exfalso; apply H3; reflexivity.
  - simpl in He; injection He as He.
    destruct (jdigits_all _ _ H1) as [F1 _], (jdigits_all _ _ H2) as [F2 _].
    destruct (digit_runs _ _ _ _ F1 F2 N1 N2 He) as [-> ->].
    pose proof (jdigits_fun _ _ _ H1 H2). repeat split; lia.
Qed.

Scheme jval_ind3 := Induction for jval Sort Prop
  with jelems_ind3 := Induction for jelems Sort Prop
  with jmembers_ind3 := Induction for jmembers Sort Prop.
Scheme jval_mind := Minimality for jval Sort Prop
  with jelems_mind := Minimality for jelems Sort Prop
  with jmembers_mind := Minimality for jmembers Sort Prop.
Combined Scheme json_mutind from jval_mind, jelems_mind, jmembers_mind.

Lemma jelems_head l t : jelems l t -> exists w c r v, ws w /\ t = w ++ c :: r /\ first_ok v c.
Proof.
  destruct 1 as [v w1 t w2 Hw1 Hv Hw2|v w1 t w2 l tl Hw1 Hv Hw2 Hl];
    apply jval_head in Hv as (c & r & -> & Hc).
  - exists w1, c, (r ++ w2), v; auto.
  - exists w1, c, (r ++ w2 ++ ","%char :: tl), v; auto.
Qed.
Lemma jmembers_head l t : jmembers l t -> exists w r, ws w /\ t = w ++ dquote :: r.
Proof. destruct 1; eauto. Qed.

Ltac nows := let H := fresh in intros H; destruct H as [H|[H|[H|H]]]; discriminate H.

(** The grammar is unambiguous: a text has at most one value, and the end of the value is
    determined by the text. *)
Lemma grammar_unambiguous :
  (forall v t, jval v t -> forall v' t' r r', jval v' t' -> nodig r -> nodig r' ->
     t ++ r = t' ++ r' -> v = v' /\ t = t' /\ r = r') /\
  (forall l t, jelems l t -> forall l' t' r r', jelems l' t' ->
     t ++ "]"%char :: r = t' ++ "]"%char :: r' -> l = l' /\ t = t' /\ r = r') /\
  (forall l t, jmembers l t -> forall l' t' r r', jmembers l' t' ->
     t ++ "}"%char :: r = t' ++ "}"%char :: r' -> l = l' /\ t = t' /\ r = r').
Proof.
  apply json_mutind.
  - intros v' t' r r' Hv Hr Hr' He.
    destruct Hv as [| | |z' t' Hz'| | | | |]; try (simpl in He; discriminate He).
    + simpl in He. injection He as ->. auto.
    + exfalso. apply jint_head in Hz' as (c & u & -> & Hc). simpl in He. injection He as <- He.
      destruct Hc as [Hc|Hc]; [discriminate Hc | apply Hc; reflexivity].
  - intros v' t' r r' Hv Hr Hr' He.
    destruct Hv as [| | |z' t' Hz'| | | | |]; try (simpl in He; discriminate He).
    + simpl in He. injection He as ->. auto.
    + exfalso. apply jint_head in Hz' as (c & u & -> & Hc). simpl in He. injection He as <- He.
      destruct Hc as [Hc|Hc]; [discriminate Hc | apply Hc; reflexivity].
  - intros v' t' r r' Hv Hr Hr' He.
    destruct Hv as [| | |z' t' Hz'| | | | |]; try (simpl in He; discriminate He).
    + simpl in He. injection He as ->. auto.
    + exfalso. apply jint_head in Hz' as (c & u & -> & Hc). simpl in He. injection He as <- He.
      destruct Hc as [Hc|Hc]; [discriminate Hc | apply Hc; reflexivity].
  - intros z t Hz v' t' r r' Hv Hr Hr' He.
    destruct (jint_head _ _ Hz) as (c & u & Eu & Hc).
    destruct Hv as [| | |z' t' Hz'| | | | |];
      try (exfalso; subst t; simpl in He; injection He as -> He; destruct Hc as [Hc|Hc]; [discriminate Hc | apply Hc; reflexivity]).
    destruct (jint_prefix _ _ _ _ _ _ Hz Hz' Hr Hr' He) as (-> & -> & ->). auto.
  - intros s b Hb v' t' r r' Hv Hr Hr' He.
    destruct Hv as [| | |z' t' Hz'|s' b' Hb'| | | |]; simpl in He; try discriminate He.
    + apply jint_head in Hz' as (c & u & -> & Hc). simpl in He. injection He as <- He.
      exfalso; destruct Hc as [Hc|Hc]; [discriminate Hc | apply Hc; reflexivity].
    + injection He as He. rewrite <- !app_assoc in He. simpl in He.
      destruct (jchars_prefix _ _ Hb _ _ _ _ Hb' He) as (-> & -> & ->). auto.
  - intros w Hw v' t' r r' Hv Hr Hr' He.
    destruct Hv as [| | |z' t' Hz'|s' b' Hb'|w' Hw'|l' t' Hl'| |]; simpl in He; try discriminate He.
    + apply jint_head in Hz' as (c & u & -> & Hc). simpl in He. injection He as <- He.
      exfalso; destruct Hc as [Hc|Hc]; [discriminate Hc | apply Hc; reflexivity].
    + injection He as He. unfold L in He; simpl in He. rewrite <- !app_assoc in He. simpl in He.
      apply ws_split in He as (-> & _ & ->); auto; nows.
    + exfalso. injection He as He. apply jelems_head in Hl' as (w' & c & u & v' & Hw' & -> & Hc).
      unfold L in He; simpl in He. rewrite <- !app_assoc in He. simpl in He.
      destruct (first_ok_not _ _ Hc) as (N1 & N2 & N3 & N4).
      apply ws_split in He as (_ & E & _); auto; solve [congruence | nows].
  - intros l t Hl IH v' t' r r' Hv Hr Hr' He.
    destruct Hv as [| | |z' t' Hz'|s' b' Hb'|w' Hw'|l' t' Hl'| |]; simpl in He; try discriminate He.
    + apply jint_head in Hz' as (c & u & -> & Hc). simpl in He. injection He as <- He.
      exfalso; destruct Hc as [Hc|Hc]; [discriminate Hc | apply Hc; reflexivity].
    + exfalso. injection He as He. apply jelems_head in Hl as (w & c & u & v' & Hw & -> & Hc).
      unfold L in He; simpl in He. rewrite <- !app_assoc in He. simpl in He.
      destruct (first_ok_not _ _ Hc) as (N1 & N2 & N3 & N4).
      apply ws_split in He as (_ & E & _); auto; solve [congruence | nows].
    + injection He as He. unfold L in He; simpl in He. rewrite <- !app_assoc in He. simpl in He.
      destruct (IH _ _ _ _ Hl' He) as (-> & -> & ->). auto.
  - intros w Hw v' t' r r' Hv Hr Hr' He.
    destruct Hv as [| | |z' t' Hz'|s' b' Hb'| | |w' Hw'|l' t' Hl']; simpl in He; try discriminate He.
    + apply jint_head in Hz' as (c & u & -> & Hc). simpl in He. injection He as <- He.
      exfalso; destruct Hc as [Hc|Hc]; [discriminate Hc | apply Hc; reflexivity].
    + injection He as He. unfold L in He; simpl in He. rewrite <- !app_assoc in He. simpl in He.
      apply ws_split in He as (-> & _ & ->); auto; nows.
    + exfalso. injection He as He. apply jmembers_head in Hl' as (w' & u & Hw' & ->).
      unfold L in He; simpl in He. rewrite <- !app_assoc in He. simpl in He.
      apply ws_split in He as (_ & E & _); auto; solve [discriminate | nows].
  - intros l t Hl IH v' t' r r' Hv Hr Hr' He.
    destruct Hv as [| | |z' t' Hz'|s' b' Hb'| | |w' Hw'|l' t' Hl']; simpl in He; try discriminate He.
    + apply jint_head in Hz' as (c & u & -> & Hc). simpl in He. injection He as <- He.
      exfalso; destruct Hc as [Hc|Hc]; [discriminate Hc | apply Hc; reflexivity].
    + exfalso. injection He as He. apply jmembers_head in Hl as (w & u & Hw & ->).
      unfold L in He; simpl in He. rewrite <- !app_assoc in He. simpl in He.
      apply ws_split in He as (_ & E & _); auto; solve [discriminate | nows].
    + injection He as He. unfold L in He; simpl in He. rewrite <- !app_assoc in He. simpl in He.
      destruct (IH _ _ _ _ Hl' He) as (-> & -> & ->). auto.
  - (* je_one *)
    intros v w1 t w2 Hw1 Hv IH Hw2 l' t' r r' Hl' He.
    destruct (jval_head _ _ Hv) as (c & u & Eu & Hc). destruct (first_ok_not _ _ Hc) as (N1 & N2 & N3 & N4).
    destruct Hl' as [v' w1' t' w2' Hw1' Hv' Hw2'|v' w1' t' w2' l' tl' Hw1' Hv' Hw2' Hl'];
      destruct (jval_head _ _ Hv') as (c' & u' & Eu' & Hc'); destruct (first_ok_not _ _ Hc') as (N1' & N2' & N3' & N4').
    + rewrite <- !app_assoc in He.
      assert (Hww : w1 = w1' /\ t ++ w2 ++ "]"%char :: r = t' ++ w2' ++ "]"%char :: r').
      { subst t t'. simpl in He. simpl. apply ws_split in He as (-> & -> & E); auto. rewrite E. auto. }
      destruct Hww as [-> Ht].
      refine (_ (IH _ _ _ _ Hv' _ _ Ht)); [intros (-> & -> & E) | apply nodig_ws; [assumption | reflexivity] ..].
      apply ws_split in E as (-> & _ & ->); auto; nows.
    + exfalso. rewrite <- !app_assoc in He.
      assert (Hww : w1 = w1' /\ t ++ w2 ++ "]"%char :: r = t' ++ w2' ++ ","%char :: tl' ++ "]"%char :: r').
      { subst t t'. simpl in He. simpl. repeat (rewrite <- app_assoc in He; simpl in He). apply ws_split in He as (-> & -> & E); auto. rewrite E. auto. }
      destruct Hww as [-> Ht].
      refine (_ (IH _ _ _ _ Hv' _ _ Ht)); [intros (-> & -> & E) | apply nodig_ws; [assumption | reflexivity] ..].
      apply ws_split in E as (_ & E & _); auto; solve [discriminate | nows].
  - (* je_more *)
    intros v w1 t w2 l tl Hw1 Hv IH Hw2 Hl IHl l' t' r r' Hl' He.
    destruct (jval_head _ _ Hv) as (c & u & Eu & Hc). destruct (first_ok_not _ _ Hc) as (N1 & N2 & N3 & N4).
    destruct Hl' as [v' w1' t' w2' Hw1' Hv' Hw2'|v' w1' t' w2' l' tl' Hw1' Hv' Hw2' Hl'];
      destruct (jval_head _ _ Hv') as (c' & u' & Eu' & Hc'); destruct (first_ok_not _ _ Hc') as (N1' & N2' & N3' & N4').
    + exfalso. rewrite <- !app_assoc in He.
      assert (Hww : w1 = w1' /\ t ++ w2 ++ ","%char :: tl ++ "]"%char :: r = t' ++ w2' ++ "]"%char :: r').
      { subst t t'. simpl in He. simpl. repeat (rewrite <- app_assoc in He; simpl in He). apply ws_split in He as (-> & -> & E); auto. rewrite E. auto. }
      destruct Hww as [-> Ht].
      refine (_ (IH _ _ _ _ Hv' _ _ Ht)); [intros (-> & -> & E) | apply nodig_ws; [assumption | reflexivity] ..].
      apply ws_split in E as (_ & E & _); auto; solve [discriminate | nows].
    + rewrite <- !app_assoc in He.
      assert (Hww : w1 = w1' /\ t ++ w2 ++ ","%char :: tl ++ "]"%char :: r = t' ++ w2' ++ ","%char :: tl' ++ "]"%char :: r').
      { subst t t'. simpl in He. simpl. repeat (rewrite <- app_assoc in He; simpl in He). apply ws_split in He as (-> & -> & E); auto. rewrite E. auto. }
      destruct Hww as [-> Ht].
      refine (_ (IH _ _ _ _ Hv' _ _ Ht)); [intros (-> & -> & E) | apply nodig_ws; [assumption | reflexivity] ..].
      apply ws_split in E as (-> & _ & E); auto; try nows.
      destruct (IHl _ _ _ _ Hl' E) as (-> & -> & ->). auto.
  - (* jm_one *)
    intros k kb v w1 w2 w3 t w4 Hw1 Hk Hw2 Hw3 Hv IH Hw4 l' t' r r' Hl' He.
    destruct (jval_head _ _ Hv) as (c & u & Eu & Hc). destruct (first_ok_not _ _ Hc) as (N1 & N2 & N3 & N4).
    destruct Hl' as [k' kb' v' w1' w2' w3' t' w4' Hw1' Hk' Hw2' Hw3' Hv' Hw4'|k' kb' v' w1' w2' w3' t' w4' l' tl' Hw1' Hk' Hw2' Hw3' Hv' Hw4' Hl'];
      destruct (jval_head _ _ Hv') as (c' & u' & Eu' & Hc'); destruct (first_ok_not _ _ Hc') as (N1' & N2' & N3' & N4');
      repeat (rewrite <- app_assoc in He; simpl in He);
      apply ws_split in He as (-> & _ & He); auto; try nows;
      repeat (rewrite <- app_assoc in He; simpl in He);
      apply (jchars_prefix _ _ Hk _ _ _ _ Hk') in He as (-> & -> & He);
      repeat (rewrite <- app_assoc in He; simpl in He);
      apply ws_split in He as (-> & _ & He); auto; try nows;
      repeat (rewrite <- app_assoc in He; simpl in He).
    + assert (Hww : w3 = w3' /\ t ++ w4 ++ "}"%char :: r = t' ++ w4' ++ "}"%char :: r').
      { subst t t'. simpl in He. simpl. apply ws_split in He as (-> & -> & E); auto. rewrite E. auto. }
      destruct Hww as [-> Ht].
      refine (_ (IH _ _ _ _ Hv' _ _ Ht)); [intros (-> & -> & E) | apply nodig_ws; [assumption | reflexivity] ..].
      apply ws_split in E as (-> & _ & ->); auto; nows.
    + exfalso.
      assert (Hww : w3 = w3' /\ t ++ w4 ++ "}"%char :: r = t' ++ w4' ++ ","%char :: tl' ++ "}"%char :: r').
      { subst t t'. simpl in He. simpl. apply ws_split in He as (-> & -> & E); auto. rewrite E. auto. }
      destruct Hww as [-> Ht].
      refine (_ (IH _ _ _ _ Hv' _ _ Ht)); [intros (-> & -> & E) | apply nodig_ws; [assumption | reflexivity] ..].
      apply ws_split in E as (_ & E & _); auto; solve [discriminate | nows].
  - (* jm_more *)
    intros k kb v w1 w2 w3 t w4 l tl Hw1 Hk Hw2 Hw3 Hv IH Hw4 Hl IHl l' t' r r' Hl' He.
    destruct (jval_head _ _ Hv) as (c & u & Eu & Hc). destruct (first_ok_not _ _ Hc) as (N1 & N2 & N3 & N4).
    destruct Hl' as [k' kb' v' w1' w2' w3' t' w4' Hw1' Hk' Hw2' Hw3' Hv' Hw4'|k' kb' v' w1' w2' w3' t' w4' l' tl' Hw1' Hk' Hw2' Hw3' Hv' Hw4' Hl'];
      destruct (jval_head _ _ Hv') as (c' & u' & Eu' & Hc'); destruct (first_ok_not _ _ Hc') as (N1' & N2' & N3' & N4');
      repeat (rewrite <- app_assoc in He; simpl in He);
      apply ws_split in He as (-> & _ & He); auto; try nows;
      repeat (rewrite <- app_assoc in He; simpl in He);
      apply (jchars_prefix _ _ Hk _ _ _ _ Hk') in He as (-> & -> & He);
      repeat (rewrite <- app_assoc in He; simpl in He);
      apply ws_split in He as (-> & _ & He); auto; try nows;
      repeat (rewrite <- app_assoc in He; simpl in He).
    + exfalso.
      assert (Hww : w3 = w3' /\ t ++ w4 ++ ","%char :: tl ++ "}"%char :: r = t' ++ w4' ++ "}"%char :: r').
      { subst t t'. simpl in He. simpl. apply ws_split in He as (-> & -> & E); auto. rewrite E. auto. }
      destruct Hww as [-> Ht].
      refine (_ (IH _ _ _ _ Hv' _ _ Ht)); [intros (-> & -> & E) | apply nodig_ws; [assumption | reflexivity] ..].
      apply ws_split in E as (_ & E & _); auto; solve [discriminate | nows].
    + assert (Hww : w3 = w3' /\ t ++ w4 ++ ","%char :: tl ++ "}"%char :: r = t' ++ w4' ++ ","%char :: tl' ++ "}"%char :: r').
      { subst t t'. simpl in He. simpl. apply ws_split in He as (-> & -> & E); auto. rewrite E. auto. }
      destruct Hww as [-> Ht].
      refine (_ (IH _ _ _ _ Hv' _ _ Ht)); [intros (-> & -> & E) | apply nodig_ws; [assumption | reflexivity] ..].
      apply ws_split in E as (-> & _ & E); auto; try nows.
      destruct (IHl _ _ _ _ Hl' E) as (-> & -> & ->). auto.
Qed.

Lemma nodig_of_ws w : ws w -> nodig w.
Proof. intros H; destruct w as [|x w]; [exact I|]. inversion H as [|? ? Hx _]; subst.
  destruct Hx as [->|[->|[->| ->]]]; reflexivity. Qed.

Lemma json_text_unique v1 v2 t : json_text v1 t -> json_text v2 t -> v1 = v2.
Proof.
  intros (w1 & t1 & w2 & Hw1 & H1 & Hw2 & E1) (w1' & t2 & w2' & Hw1' & H2 & Hw2' & E2).
  subst t. destruct (jval_head _ _ H1) as (c & u & Eu & Hc), (jval_head _ _ H2) as (c' & u' & Eu' & Hc').
  destruct (first_ok_not _ _ Hc) as (N1 & _), (first_ok_not _ _ Hc') as (N1' & _).
  assert (Hww : t1 ++ w2 = t2 ++ w2').
  { subst t1 t2. simpl in E2. simpl. apply ws_split in E2 as (-> & -> & E); auto. rewrite E. auto. }
  destruct (proj1 grammar_unambiguous _ _ H1 _ _ _ _ H2 (nodig_of_ws _ Hw2) (nodig_of_ws _ Hw2') Hww) as (-> & _).
  reflexivity.
Qed.

(** ** Inserting whitespace after newlines *)

Inductive wsins : str -> str -> Prop :=
| wi_nil : wsins [] []
| wi_char c t t' : wsins t t' -> wsins (c :: t) (c :: t')
| wi_nl w t t' : ws w -> wsins t t' -> wsins (nl :: t) (nl :: w ++ t').

Lemma wsins_app_inv a : forall b t, wsins (a ++ b) t -> exists a' b', t = a' ++ b' /\ wsins a a' /\ wsins b b'.
Proof.
  induction a as [|c a IH]; intros b t H; simpl in H.
  - exists [], t. repeat split; [constructor | exact H].
  - inversion H as [|c0 t0 t' H'|w t0 t' Hw H']; subst.
    + destruct (IH _ _ H') as (a' & b' & -> & Ha & Hb). exists (c :: a'), b'. repeat split; [constructor; exact Ha | exact Hb].
    + destruct (IH _ _ H') as (a' & b' & -> & Ha & Hb). exists (nl :: w ++ a'), b'.
      repeat split; [simpl; rewrite <- app_assoc; reflexivity | constructor; assumption | exact Hb].
Qed.
Lemma wsins_cons_inv c b t : c <> nl -> wsins (c :: b) t -> exists b', t = c :: b' /\ wsins b b'.
Proof. intros Hc H; inversion H; subst; [eauto | congruence]. Qed.
Lemma wsins_nonl a t : ~ In nl a -> wsins a t -> t = a.
Proof.
  revert t; induction a as [|c a IH]; intros t Hn H; inversion H; subst; auto.
  - f_equal. apply IH; auto. intros Hi; apply Hn; right; exact Hi.
  - exfalso; apply Hn; left; reflexivity.
Qed.
Lemma wsins_ws w t : ws w -> wsins w t -> ws t.
Proof.
  intros Hw H; induction H; [exact Hw| |]; inversion Hw; subst.
  - constructor; [assumption | apply IHwsins; assumption].
  - constructor; [assumption|]. apply ws_app; auto.
Qed.
Lemma jint_no_nl z t : jint z t -> ~ In nl t.
Proof.
  intros [[H _]|(t' & -> & [H _])] Hin; [|destruct Hin as [Hin|Hin]; [discriminate|]];
    apply jdigits_all in H as [H _]; rewrite Forall_forall in H; apply (H _ Hin); reflexivity.
Qed.

Lemma wsins_preserves :
  (forall v t, jval v t -> forall t', wsins t t' -> jval v t') /\
  (forall l t, jelems l t -> forall t', wsins t t' -> jelems l t') /\
  (forall l t, jmembers l t -> forall t', wsins t t' -> jmembers l t').
Proof.
  apply json_mutind.
  - intros t' H. apply wsins_nonl in H; [subst; constructor | unfold L; simpl; intuition discriminate].
  - intros t' H. apply wsins_nonl in H; [subst; constructor | unfold L; simpl; intuition discriminate].
  - intros t' H. apply wsins_nonl in H; [subst; constructor | unfold L; simpl; intuition discriminate].
  - intros z t Hz t' H. apply wsins_nonl in H; [subst; constructor; exact Hz | eapply jint_no_nl; exact Hz].
  - intros s b Hb t' H. apply wsins_nonl in H; [subst; constructor; exact Hb|].
    intros [Hi|Hi]; [discriminate|]. apply in_app_iff in Hi as [Hi|[Hi|[]]]; [|discriminate].
    eapply jchars_no_nl; eauto.
  - intros w Hw t' H. apply wsins_cons_inv in H as (b' & -> & H); [|discriminate].
    apply wsins_app_inv in H as (a' & c' & -> & Ha & Hc). apply wsins_nonl in Hc; [|unfold L; simpl; intuition discriminate].
    subst c'. constructor. eapply wsins_ws; eauto.
  - intros l t Hl IH t' H. apply wsins_cons_inv in H as (b' & -> & H); [|discriminate].
    apply wsins_app_inv in H as (a' & c' & -> & Ha & Hc). apply wsins_nonl in Hc; [|unfold L; simpl; intuition discriminate].
    subst c'. apply jv_arr. auto.
  - intros w Hw t' H. apply wsins_cons_inv in H as (b' & -> & H); [|discriminate].
    apply wsins_app_inv in H as (a' & c' & -> & Ha & Hc). apply wsins_nonl in Hc; [|unfold L; simpl; intuition discriminate].
    subst c'. constructor. eapply wsins_ws; eauto.
  - intros l t Hl IH t' H. apply wsins_cons_inv in H as (b' & -> & H); [|discriminate].
    apply wsins_app_inv in H as (a' & c' & -> & Ha & Hc). apply wsins_nonl in Hc; [|unfold L; simpl; intuition discriminate].
    subst c'. apply jv_obj. auto.
  - intros v w1 t w2 Hw1 Hv IH Hw2 t' H.
    apply wsins_app_inv in H as (x1 & y1 & -> & H1 & H). apply wsins_app_inv in H as (x2 & x3 & -> & H2 & H3).
    constructor; eauto using wsins_ws.
  - intros v w1 t w2 l tl Hw1 Hv IH Hw2 Hl IHl t' H.
    apply wsins_app_inv in H as (x1 & y2 & -> & H1 & H). apply wsins_app_inv in H as (x2 & y3 & -> & H2 & H).
    apply wsins_app_inv in H as (x3 & y4 & -> & H3 & H). apply wsins_cons_inv in H as (x4 & -> & H); [|discriminate].
    constructor; eauto using wsins_ws.
  - intros k kb v w1 w2 w3 t w4 Hw1 Hk Hw2 Hw3 Hv IH Hw4 t' H.
    apply wsins_app_inv in H as (x1 & y5 & -> & H1 & H). apply wsins_cons_inv in H as (y' & -> & H); [|discriminate].
    apply wsins_app_inv in H as (x2 & y6 & -> & H2 & H). apply wsins_cons_inv in H as (y'' & -> & H); [|discriminate].
    apply wsins_app_inv in H as (x3 & y7 & -> & H3 & H). apply wsins_cons_inv in H as (y''' & -> & H); [|discriminate].
    apply wsins_app_inv in H as (x4 & y8 & -> & H4 & H). apply wsins_app_inv in H as (x5 & x6 & -> & H5 & H6).
    apply wsins_nonl in H2; [subst x2|eapply jchars_no_nl; exact Hk].
    apply jm_one; eauto using wsins_ws.
  - intros k kb v w1 w2 w3 t w4 l tl Hw1 Hk Hw2 Hw3 Hv IH Hw4 Hl IHl t' H.
    apply wsins_app_inv in H as (x1 & y9 & -> & H1 & H). apply wsins_cons_inv in H as (y' & -> & H); [|discriminate].
    apply wsins_app_inv in H as (x2 & y10 & -> & H2 & H). apply wsins_cons_inv in H as (y'' & -> & H); [|discriminate].
    apply wsins_app_inv in H as (x3 & y11 & -> & H3 & H). apply wsins_cons_inv in H as (y''' & -> & H); [|discriminate].
    apply wsins_app_inv in H as (x4 & y12 & -> & H4 & H). apply wsins_app_inv in H as (x5 & y13 & -> & H5 & H).
    apply wsins_app_inv in H as (x6 & y14 & -> & H6 & H). apply wsins_cons_inv in H as (x7 & -> & H7); [|discriminate].
    apply wsins_nonl in H2; [subst x2|eapply jchars_no_nl; exact Hk].
    apply jm_more; eauto using wsins_ws.
Qed.

Lemma indent_wsins t n : wsins t (sr_indent_except_first_line t n).
Proof.
  induction t as [|c t IH]; [constructor|]. cbn [sr_indent_except_first_line].
  destruct (Ascii.eqb c nl) eqn:E.
  - apply ascii_eqb_true in E; subst. apply wi_nl; [|exact IH].
    destruct t; [constructor | apply ws_spaces].
  - constructor; exact IH.
Qed.

Lemma jval_indent v t n : jval v t -> jval v (sr_indent_except_first_line t n).
Proof. intros H. eapply (proj1 wsins_preserves); [exact H | apply indent_wsins]. Qed.
Lemma jelems_indent v t n : jelems v t -> jelems v (sr_indent_except_first_line t n).
Proof. intros H. eapply (proj1 (proj2 wsins_preserves)); [exact H | apply indent_wsins]. Qed.

Lemma json_text_wsins v t t' : json_text v t -> wsins t t' -> json_text v t'.
Proof.
  intros (w1 & u & w2 & H1 & H & H2 & ->) Hi.
  apply wsins_app_inv in Hi as (x1 & y & -> & Hi1 & Hi). apply wsins_app_inv in Hi as (x2 & x3 & -> & Hi2 & Hi3).
  exists x1, x2, x3. repeat split; eauto using wsins_ws. eapply (proj1 wsins_preserves); eauto.
Qed.
Lemma json_text_ws_before v t w : ws w -> json_text v t -> json_text v (w ++ t).
Proof.
  intros Hw (w1 & u & w2 & H1 & H & H2 & ->). exists (w ++ w1), u, w2.
  repeat split; auto using ws_app. rewrite <- app_assoc; reflexivity.
Qed.
Lemma json_text_ws_after v t w : ws w -> json_text v t -> json_text v (t ++ w).
Proof.
  intros Hw (w1 & u & w2 & H1 & H & H2 & ->). exists w1, u, (w2 ++ w).
  repeat split; auto using ws_app. rewrite <- !app_assoc; reflexivity.
Qed.
Lemma json_text_indent_efl v t n : json_text v t -> json_text v (sr_indent_except_first_line t n).
Proof. intros H. eapply json_text_wsins; [exact H | apply indent_wsins]. Qed.
Lemma json_text_indent v t n : json_text v t -> json_text v (sr_indent t n).
Proof.
  intros H. unfold sr_indent. apply json_text_ws_before; [|apply json_text_indent_efl; exact H].
  destruct t; [constructor | apply ws_spaces].
Qed.
Lemma jval_text v t : jval v t -> json_text v t.
Proof. intros H. exists [], t, []. repeat split; auto; try constructor. rewrite app_nil_r; reflexivity. Qed.

(** ** Building objects the way the library does *)

Lemma jv_quoted s : json_safe s -> jval (JStr s) (json_quoted s).
Proof. intros H. unfold json_quoted. constructor. apply json_escape_correct; exact H. Qed.
Lemma jv_print_N n : jval (JInt (Z.of_N n)) (print_N n).
Proof. constructor. left. apply print_N_jnat. Qed.
Lemma jv_print_Z z : jval (JInt z) (print_Z z).
Proof. constructor. apply print_Z_jint. Qed.

Lemma jget_app k a b : jget k (a ++ b) = match jget k b with Some x => Some x | None => jget k a end.
Proof.
  induction a as [|[k' v] a IH]; simpl; [destruct (jget k b); reflexivity|].
  rewrite IH. destruct (jget k b); reflexivity.
Qed.

(** A member list where each member text carries its own leading separator: the texts
    [s_i ++ "key" ++ ": " ++ value ++ trailing whitespace] with separators ','-initial.  *)
Inductive jfields : list (str * json) -> str -> Prop :=
| jf_nil : jfields [] []
| jf_cons k kb v w1 w2 w3 t w4 l tl : ws w1 -> jchars k kb -> ws w2 -> ws w3 -> jval v t -> ws w4 ->
    jfields l tl ->
    jfields ((k, v) :: l)
      (","%char :: w1 ++ dquote :: kb ++ dquote :: w2 ++ ":"%char :: w3 ++ t ++ w4 ++ tl).

Lemma jfields_app l1 t1 l2 t2 : jfields l1 t1 -> jfields l2 t2 -> jfields (l1 ++ l2) (t1 ++ t2).
Proof.
  induction 1; intros Happ; [exact Happ|]. simpl.
  repeat (rewrite <- app_assoc; simpl). constructor; auto.
Qed.

Lemma jfields_members l t : jfields l t -> l <> [] -> exists r, t = ","%char :: r /\ jmembers l r.
Proof.
  induction 1 as [|k kb v w1 w2 w3 t w4 l tl H1 Hk H2 H3 Hv H4 Hl IH]; intros Hne; [congruence|].
  eexists; split; [reflexivity|]. destruct l as [|x l].
  - inversion Hl; subst. rewrite app_nil_r. apply jm_one; auto.
  - destruct IH as (r & -> & Hr); [discriminate|]. apply jm_more; auto.
Qed.

(** Replacing the first separator by '{' and closing gives the object. *)
Lemma jfields_object l t w : jfields l t -> l <> [] -> ws w ->
  jval (JObj l) ("{"%char :: skipn 1 t ++ w ++ L "}").
Proof.
  intros H Hne Hw. apply jfields_members in H as (r & -> & Hm); [|exact Hne]. simpl.
  assert (Hm' : jmembers l (r ++ w)).
  { clear - Hm Hw. induction Hm as [k kb v w1 w2 w3 t w4|k kb v w1 w2 w3 t w4 l tl H1 H2 H3 H4 H5 H6 H7 IH].
    - repeat (rewrite <- app_assoc; simpl). apply jm_one; auto. apply ws_app; auto.
    - repeat (rewrite <- app_assoc; simpl). apply jm_more; auto. }
  rewrite app_assoc. apply jv_obj. exact Hm'.
Qed.

(** Elements separated the way the library does: [","-initial]. *)
Inductive jitems : list json -> str -> Prop :=
| ji_nil : jitems [] []
| ji_cons v w1 t w2 l tl : ws w1 -> jval v t -> ws w2 -> jitems l tl ->
    jitems (v :: l) (","%char :: w1 ++ t ++ w2 ++ tl).
Lemma jitems_app l1 t1 l2 t2 : jitems l1 t1 -> jitems l2 t2 -> jitems (l1 ++ l2) (t1 ++ t2).
Proof.
  induction 1; intros Happ; [exact Happ|]. simpl. repeat (rewrite <- app_assoc; simpl). constructor; auto.
Qed.
Lemma jitems_elems l t : jitems l t -> l <> [] -> exists r, t = ","%char :: r /\ jelems l r.
Proof.
  induction 1 as [|v w1 t w2 l tl H1 Hv H2 Hl IH]; intros Hne; [congruence|].
  eexists; split; [reflexivity|]. destruct l as [|x l].
  - inversion Hl; subst. rewrite app_nil_r. constructor; auto.
  - destruct IH as (r & -> & Hr); [discriminate|]. constructor; auto.
Qed.
Lemma jelems_ws l t w : jelems l t -> ws w -> jelems l (t ++ w).
Proof.
  induction 1; intros Hw.
  - rewrite <- !app_assoc. constructor; auto using ws_app.
  - repeat (rewrite <- app_assoc; simpl). constructor; auto.
Qed.
Lemma jitems_array l t w : jitems l t -> l <> [] -> ws w ->
  jval (JArr l) ("["%char :: skipn 1 t ++ w ++ L "]").
Proof.
  intros H Hne Hw. apply jitems_elems in H as (r & -> & Hm); [|exact Hne]. simpl.
  rewrite app_assoc. apply jv_arr. apply jelems_ws; assumption.
Qed.

(** ** Readers *)

Lemma json_read_missing {A} o k (conv : json -> option A) d : jget k o = None -> json_read o k conv d = Ok d.
Proof. intros H. unfold json_read. rewrite H. reflexivity. Qed.
