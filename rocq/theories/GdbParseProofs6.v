(** * The gdb parser: threads and stack traces. *)
From Verif Require Import Base Types UtilsModel UtilsSpec UtilsProofs ParseSpec ParseProofs JsParseProofs PyParseProofs KoopsSpec KoopsProofs KoopsProofs2
  GdbParseModel GdbParseSpec GdbParseProofs GdbParseProofs2 GdbParseProofs3 GdbParseProofs4 GdbParseProofs5.
Open Scope nat_scope.

(** ** Titles *)
Lemma lwp_iff s n r : sr_gdb_thread_parse_lwp s = Some (Z.of_N n, r) <-> lwp s n r.
Proof.
  unfold sr_gdb_thread_parse_lwp, lwp. split.
  - destruct (skip_string_cases (L "(LWP ") s) as [(t & -> & ->)|[_ ->]]; [|discriminate]. change (length (L "(LWP ") =? 0) with false. cbv iota.
    destruct (decimal_cases t) as [(v & k & u & Hd & ->)|[_ ->]]; [|discriminate].
    destruct (skip_char_cases ")" u) as [(q & -> & ->)|[_ ->]]; [|discriminate]. intros E. injection E as E <-. assert (v = n) as -> by lia. exists t. auto.
  - intros (t & -> & Hd). rewrite skip_lit. change (length (L "(LWP ") =? 0) with false. cbv iota. apply decimal_iff in Hd as [k ->]. change (L ")" ++ r) with (")"%char :: r). rewrite skip_char_here. reflexivity.
Qed.
Lemma lwp_value s x r : sr_gdb_thread_parse_lwp s = Some (x, r) -> exists n, x = Z.of_N n.
Proof.
  unfold sr_gdb_thread_parse_lwp. destruct (sr_skip_string (L "(LWP ") s) as [m t]. destruct (m =? 0); [discriminate|].
  destruct (sr_parse_uint32 t) as [[[v k] u]|]; [|discriminate]. destruct (sr_skip_char ")" u) as [[] q]; [|discriminate]. intros E. injection E as <- _. eauto.
Qed.
Lemma maybe_lwp_iff tid s tid' r : lwp_or tid s = (tid', r) <-> maybe_lwp tid s tid' r.
Proof.
  unfold lwp_or, maybe_lwp. destruct (sr_gdb_thread_parse_lwp s) as [[x q]|] eqn:E.
  - destruct (lwp_value _ _ _ E) as [n ->]. split.
    + intros H. injection H as <- <-. left. exists n. split; [apply lwp_iff; exact E|reflexivity].
    + intros [(m & H & ->)|(N & _)]; [apply lwp_iff in H; congruence|]. exfalso. apply (N n q). apply lwp_iff. exact E.
  - split.
    + intros H. injection H as <- <-. right. split; [|auto]. intros n q H. apply lwp_iff in H. congruence.
    + intros [(m & H & _)|(_ & -> & ->)]; [apply lwp_iff in H; congruence|reflexivity].
Qed.
Definition id_skip (s : str) : nat * str := let '(n, q) := sr_skip_hexadecimal_0xuint s in if n =? 0 then sr_skip_uint s else (n, q).
Lemma starts_hex r : match r with [] => True | c :: _ => ~ (hexadecimal_digit c <> None) end <-> ~ starts_with_hex r.
Proof. destruct r; cbn; tauto. Qed.
Lemma starts_dec r : match r with [] => True | c :: _ => ~ digit_char c end <-> ~ starts_with_digit r.
Proof. destruct r; cbn; unfold digit_char; tauto. Qed.
Definition hex_id (s r : str) : Prop := exists ds, s = L "0x" ++ ds ++ r /\ ds <> [] /\ Forall (fun c => hexadecimal_digit c <> None) ds /\ ~ starts_with_hex r.
Lemma hex_id_cases s : (exists n r, hex_id s r /\ sr_skip_hexadecimal_0xuint s = (S n, r)) \/
  ((forall es q, s = L "0x" ++ es ++ q -> es <> [] -> ~ Forall (fun c => hexadecimal_digit c <> None) es) /\ sr_skip_hexadecimal_0xuint s = (0, s)).
Proof.
  unfold sr_skip_hexadecimal_0xuint. destruct (skip_char_cases "0" s) as [(t & -> & ->)|[Hb ->]]; cbn [negb].
  2:{ right. split; [|reflexivity]. intros es q -> _. exfalso. apply Hb. eexists. reflexivity. }
  destruct (skip_char_cases "x" t) as [(u & -> & ->)|[Hb ->]]; cbn [negb].
  2:{ right. split; [|reflexivity]. intros es q E _. injection E as ->. exfalso. apply Hb. eexists. reflexivity. }
  unfold sr_skip_hexadecimal_uint. destruct (sr_skip_char_span hexdigits u) as [n r] eqn:E. apply (span_inv _ _ _ _ _ hex_in) in E as (ds & -> & -> & Hf & Hr).
  destruct ds as [|c ds].
  - right. cbn [length app Nat.add Nat.eqb]. split; [|reflexivity]. intros es q Eq Hn F. injection Eq as ->. destruct es as [|x es]; [congruence|]. inversion F. contradiction.
  - left. exists (2 + length ds), r. split; [|reflexivity]. exists (c :: ds). split; [reflexivity|]. split; [discriminate|]. split; [exact Hf|]. apply starts_hex. exact Hr.
Qed.
Lemma hex_id_eval s r : hex_id s r -> exists n, sr_skip_hexadecimal_0xuint s = (S n, r).
Proof.
  intros (ds & -> & Hn & Hf & Hr). destruct (hex_id_cases (L "0x" ++ ds ++ r)) as [(n & q & (es & E & _ & Hf' & Hr') & ->)|[H _]].
  - apply app_inv_head in E. apply starts_hex in Hr, Hr'. destruct (run_fun _ _ _ _ _ Hf Hf' Hr Hr' E) as [_ ->]. eauto.
  - exfalso. exact (H _ _ eq_refl Hn Hf).
Qed.
Lemma identification_cases s : (exists n r, identification s r /\ id_skip s = (S n, r)) \/ ((forall r, ~ identification s r) /\ exists r, id_skip s = (0, r)).
Proof.
  unfold id_skip. destruct (hex_id_cases s) as [(n & r & H & ->)|[H ->]]; cbn [Nat.eqb].
  - left. exists n, r. split; [left; exact H|reflexivity].
  - unfold sr_skip_uint. destruct (sr_skip_char_span digits10 s) as [n r] eqn:E. apply (span_inv _ _ _ _ _ digits_in) in E as (ds & -> & -> & Hf & Hr).
    destruct ds as [|c ds].
    + right. cbn [length app] in *. split; [|eauto]. intros q [(es & Eq & Hn & Hf' & _)|(es & Eq & Hn & Hf' & _)]; [exact (H _ _ Eq Hn Hf')|].
      destruct es as [|x es]; [congruence|]. cbn in Eq. subst r. inversion Hf'. contradiction.
    + left. exists (length ds), r. split; [|reflexivity]. right. exists (c :: ds). split; [reflexivity|]. split; [discriminate|]. split; [exact Hf|]. split; [apply starts_dec; exact Hr|exact H].
Qed.
Lemma identification_eval s r : identification s r -> exists n, id_skip s = (S n, r).
Proof.
  intros H. unfold id_skip. destruct H as [H|(ds & -> & Hn & Hf & Hr & N)].
  - apply hex_id_eval in H as [n ->]. exists n. reflexivity.
  - destruct (hex_id_cases (ds ++ r)) as [(n & q & (es & E & Hn' & Hf' & _) & _)|[_ ->]]; [exfalso; exact (N _ _ E Hn' Hf')|]. cbn [Nat.eqb]. unfold sr_skip_uint.
    apply starts_dec in Hr. rewrite (span_eval _ _ _ _ digits_in Hf Hr). destruct ds; [congruence|]. eexists. reflexivity.
Qed.
Definition in_paren (tid : Z) (s : str) : option (Z * str) :=
  let '(n, r) := sr_skip_string (L "(Thread ") s in
  if n =? 0 then Some (tid, s) else
  let '(n, s) := id_skip r in
  if n =? 0 then None else
  let '(_, s) := sr_skip_char_sequence sp s in
  let '(tid, s) := lwp_or tid s in
  let '(b, s) := sr_skip_char ")" s in
  if b then Some (tid, s) else None.
Definition title (s : str) : option (Z * Z * str) :=
  let '(n, s) := sr_skip_char_sequence sp s in
  if n =? 0 then None else
  match sr_parse_uint32 s with
  | None => None
  | Some (number, _, s) =>
    let '(n, s) := sr_skip_char_sequence sp s in
    if n =? 0 then None else
    let '(tid, s) := lwp_or (gt_tid gdb_thread_new) s in
    match in_paren tid s with
    | None => None
    | Some (tid, s) =>
      let '(n, s) := sr_skip_string (L ":" ++ [nl]) s in
      if n =? 0 then None else Some (Z.of_N number, tid, s)
    end
  end.
Lemma header_steps s : thread_header s = let '(n, r) := sr_skip_string (L "Thread") s in if n =? 0 then Some (0%Z, gt_tid gdb_thread_new, s) else title r.
Proof.
  unfold thread_header, title, in_paren, id_skip. destruct (sr_skip_string (L "Thread") s) as [n r]. destruct (n =? 0); [reflexivity|].
  destruct (sr_skip_char_sequence sp r) as [n1 s1]. destruct (n1 =? 0); [reflexivity|]. destruct (sr_parse_uint32 s1) as [[[v k] s2]|]; [|reflexivity].
  destruct (sr_skip_char_sequence sp s2) as [n2 s3]. destruct (n2 =? 0); [reflexivity|]. destruct (lwp_or (gt_tid gdb_thread_new) s3) as [tid s4].
  destruct (sr_skip_string (L "(Thread ") s4) as [n3 s5]. destruct (n3 =? 0); [reflexivity|].
  destruct (sr_skip_hexadecimal_0xuint s5) as [n4 s6]. destruct (n4 =? 0); reflexivity.
Qed.
Lemma in_paren_iff tid s tid' r : in_paren tid s = Some (tid', r) <->
  (~ begins (L "(Thread ") s /\ tid' = tid /\ r = s) \/
  (exists t6 t7 t8, s = L "(Thread " ++ t6 /\ identification t6 t7 /\ (spaces_to t7 t8 \/ (~ begins [sp] t7 /\ t8 = t7)) /\ maybe_lwp tid t8 tid' (L ")" ++ r)).
Proof.
  unfold in_paren. split.
  - destruct (skip_string_cases (L "(Thread ") s) as [(t6 & -> & ->)|[Hb ->]].
    2:{ cbn [Nat.eqb]. intros E. injection E as <- <-. left. auto. }
    change (length (L "(Thread ") =? 0) with false. cbv iota. destruct (identification_cases t6) as [(n & t7 & Hi & ->)|[_ [q ->]]]; cbn [Nat.eqb]; [|discriminate].
    intros E. right. exists t6, t7. 
    assert (exists n t8, sr_skip_char_sequence sp t7 = (n, t8) /\ (spaces_to t7 t8 \/ (~ begins [sp] t7 /\ t8 = t7))) as (m & t8 & E8 & H8).
    { destruct (spaces_cases t7) as [(m & t8 & H & ->)|[H ->]]; eauto 6. }
    rewrite E8 in E. exists t8. split; [reflexivity|]. split; [exact Hi|]. split; [exact H8|].
    destruct (lwp_or tid t8) as [tid2 t9] eqn:El. destruct (skip_char_cases ")" t9) as [(q & -> & E9)|[_ E9]]; rewrite E9 in E; [|discriminate]. injection E as <- <-. apply maybe_lwp_iff. exact El.
  - intros [(Hb & -> & ->)|(t6 & t7 & t8 & -> & Hi & H8 & Hl)].
    + rewrite (skip_not _ _ Hb). reflexivity.
    + rewrite skip_lit. change (length (L "(Thread ") =? 0) with false. cbv iota. apply identification_eval in Hi as [n ->]. cbn [Nat.eqb].
      assert (exists n, sr_skip_char_sequence sp t7 = (n, t8)) as [m ->].
      { destruct H8 as [H|[H ->]]; [apply spaces_eval in H as [m ->]; eauto|]. destruct (spaces_cases t7) as [(m & q & H' & _)|[_ ->]]; [exfalso; exact (spaces_not _ _ H H')|eauto]. }
      apply maybe_lwp_iff in Hl. rewrite Hl. change (L ")" ++ r) with (")"%char :: r). rewrite skip_char_here. reflexivity.
Qed.
Lemma title_iff s number tid r : title s = Some (number, tid, r) <-> thread_title (L "Thread" ++ s) number tid r.
Proof.
  unfold title, thread_title. split.
  - destruct (spaces_cases s) as [(m & t2 & H1 & ->)|[_ ->]]; cbn [Nat.eqb]; [|discriminate].
    destruct (decimal_cases t2) as [(v & k & t3 & Hd & ->)|[_ ->]]; [|discriminate].
    destruct (spaces_cases t3) as [(m' & t4 & H3 & ->)|[_ ->]]; cbn [Nat.eqb]; [|discriminate].
    destruct (lwp_or (gt_tid gdb_thread_new) t4) as [tid1 t5] eqn:El. apply maybe_lwp_iff in El.
    destruct (in_paren tid1 t5) as [[tid2 t9]|] eqn:Ep; [|discriminate].
    destruct (skip_string_cases (L ":" ++ [nl]) t9) as [(q & -> & ->)|[_ ->]]; [|discriminate]. change (length (L ":" ++ [nl]) =? 0) with false. cbv iota. intros E. injection E as <- <- <-.
    exists v, s, t2, t3, t4, tid1, t5. repeat (split; [assumption || reflexivity|]). apply in_paren_iff in Ep as [(Hb & -> & <-)|(t6 & t7 & t8 & -> & Hi & H8 & Hl)].
    + left. split; [exact Hb|]. split; reflexivity.
    + right. exists t6, t7, t8. split; [reflexivity|]. split; [exact Hi|]. split; [exact H8|]. exact Hl.
  - intros (n & t1 & t2 & t3 & t4 & tid1 & t5 & E & H1 & Hd & -> & H3 & Hl & H). apply app_inv_head in E. subst t1.
    apply spaces_eval in H1 as [m ->]. cbn [Nat.eqb]. apply decimal_iff in Hd as [k ->]. apply spaces_eval in H3 as [m' ->]. cbn [Nat.eqb].
    apply maybe_lwp_iff in Hl. change (gt_tid gdb_thread_new) with no_tid. rewrite Hl.
    assert (in_paren tid1 t5 = Some (tid, (L ":" ++ [nl]) ++ r)) as ->.
    { apply in_paren_iff. destruct H as [(Hb & -> & ->)|(t6 & t7 & t8 & -> & Hi & H8 & Hl')]; [left; auto|]. right. exists t6, t7, t8. auto. }
    rewrite skip_lit. reflexivity.
Qed.
Lemma thread_start_iff s number tid r : thread_header s = Some (number, tid, r) <-> thread_start s number tid r.
Proof.
  rewrite header_steps. unfold thread_start. destruct (skip_string_cases (L "Thread") s) as [(t & -> & ->)|[Hb ->]].
  - change (length (L "Thread") =? 0) with false. cbv iota. rewrite title_iff. split; [intros H; left; split; [exists t; reflexivity|exact H]|].
    intros [[_ H]|[H _]]; [exact H|]. exfalso. apply H. exists t. reflexivity.
  - cbn [Nat.eqb]. split; [intros E; injection E as <- <- <-; right; auto|]. intros [[H _]|(_ & -> & -> & ->)]; [contradiction|reflexivity].
Qed.
Lemma thread_start_fun s n t r n' t' r' : thread_start s n t r -> thread_start s n' t' r' -> n = n' /\ t = t' /\ r = r'.
Proof. intros H H'. apply thread_start_iff in H, H'. rewrite H in H'. injection H' as -> -> ->. auto. Qed.

(** ** Frames of a thread *)
Lemma frame_shorter s f r : gdb_frame_text s f r -> length r < length s.
Proof.
  intros [[q (n & t & (t1 & t2 & -> & _) & _)] H]. destruct H as [(pre & E & _)|[_ ->]]; [|cbn; lia]. rewrite E, app_length. cbn [length]. lia.
Qed.
Lemma frame_cases s : (exists f r, gdb_frame_text s f r /\ sr_gdb_frame_parse s = Ok (f, r)) \/ (frame_header_off s /\ sr_gdb_frame_parse s = UB) \/
  ((forall f r, ~ gdb_frame_text s f r) /\ ~ frame_header_off s /\ sr_gdb_frame_parse s = Fail).
Proof.
  destruct (frame_exact s) as [H1 H2]. destruct (sr_gdb_frame_parse s) as [[f r]| |].
  - left. exists f, r. split; [apply H1; reflexivity|reflexivity].
  - right. right. split; [intros f r H; apply H1 in H; discriminate|]. split; [intros H; apply H2 in H; discriminate|reflexivity].
  - right. left. split; [apply H2; reflexivity|reflexivity].
Qed.
Lemma frames_cases fuel : forall s, length s < fuel -> (exists fs r, frames_text s fs r /\ frames_loop fuel s = Ok (fs, r)) \/ (frames_off s /\ frames_loop fuel s = UB).
Proof.
  induction fuel as [|fuel IH]; intros s Hl; [lia|]. cbn [frames_loop]. destruct (frame_cases s) as [(f & r & H & ->)|[[H ->]|(H & N & ->)]].
  - pose proof (frame_shorter _ _ _ H). destruct (IH r) as [(fs & q & Hf & ->)|[Hf ->]]; [lia| |]; cbn [bind].
    + left. exists (f :: fs), q. split; [eapply ft_more; eassumption|reflexivity].
    + right. split; [eapply fo_more; eassumption|reflexivity].
  - right. split; [apply fo_here; exact H|reflexivity].
  - left. exists [], s. split; [apply ft_end; auto|reflexivity].
Qed.
Lemma frames_eval s fs r : frames_text s fs r -> forall fuel, length s < fuel -> frames_loop fuel s = Ok (fs, r).
Proof.
  induction 1 as [s H N|s f r fs q H Hf IH]; intros [|fuel] Hl; try lia; cbn [frames_loop].
  - destruct (frame_cases s) as [(f & r & H' & _)|[[H' _]|(_ & _ & ->)]]; [exfalso; exact (H _ _ H')|contradiction|reflexivity].
  - pose proof (frame_shorter _ _ _ H). apply frame_exact in H. rewrite H. rewrite IH by lia. reflexivity.
Qed.
Lemma frames_off_eval s : frames_off s -> forall fuel, frames_loop fuel s = UB.
Proof.
  induction 1 as [s H|s f r H Hf IH]; intros [|fuel]; try reflexivity; cbn [frames_loop]; apply frame_exact in H; rewrite H; [reflexivity|]. rewrite IH. reflexivity.
Qed.
Theorem thread_exact s : (forall t r, sr_gdb_thread_parse s = Ok (t, r) <-> thread_text s t r) /\ (sr_gdb_thread_parse s = UB <-> thread_off s).
Proof.
  unfold sr_gdb_thread_parse. destruct (thread_header s) as [[[number tid] q]|] eqn:E.
  2:{ split; [intros t r|]; (split; [discriminate|]).
      - intros (n & d & q & fs & H & _). apply thread_start_iff in H. congruence.
      - intros (n & d & q & H & _). apply thread_start_iff in H. congruence. }
  apply thread_start_iff in E. split; [intros t r; split|split].
  - destruct (frames_cases (S (length q)) q) as [(fs & u & Hf & ->)|[_ ->]]; [lia| |discriminate]. cbn [bind]. destruct fs as [|f fs]; [discriminate|]. intros H. injection H as <- <-.
    exists number, tid, q, (f :: fs). split; [exact E|]. split; [exact Hf|]. split; [discriminate|reflexivity].
  - intros (n & d & q' & fs & H & Hf & Hn & ->). destruct (thread_start_fun _ _ _ _ _ _ _ E H) as (-> & -> & ->). rewrite (frames_eval _ _ _ Hf) by lia. cbn [bind]. destruct fs; [congruence|reflexivity].
  - destruct (frames_cases (S (length q)) q) as [(fs & u & Hf & ->)|[H ->]]; [lia| |]; cbn [bind]; [destruct fs; discriminate|]. intros _. exists number, tid, q. auto.
  - intros (n & d & q' & H & Hf). destruct (thread_start_fun _ _ _ _ _ _ _ E H) as (-> & -> & ->). rewrite (frames_off_eval _ Hf). reflexivity.
Qed.

(** ** Stack traces *)
Lemma frames_le s fs r : frames_text s fs r -> length r <= length s /\ (fs <> [] -> length r < length s).
Proof.
  induction 1 as [s H N|s f r fs q H Hf [IH _]]; [split; [lia|congruence]|]. apply frame_shorter in H. split; [|intros _]; lia.
Qed.
Lemma lwp_shorter s n r : lwp s n r -> length r < length s.
Proof. intros (t & -> & (ds & -> & _)). rewrite !app_length. cbn [length L list_ascii_of_string]. lia. Qed.
Lemma maybe_lwp_le tid s tid' r : maybe_lwp tid s tid' r -> length r <= length s.
Proof. intros [(n & H & _)|(_ & _ & ->)]; [apply lwp_shorter in H; lia|lia]. Qed.
Lemma spaces_le s r : spaces_to s r -> length r <= length s.
Proof. intros (n & -> & _). rewrite app_length. lia. Qed.
Lemma identification_le s r : identification s r -> length r <= length s.
Proof. intros [(ds & -> & _)|(ds & -> & _)]; rewrite !app_length; lia. Qed.
Lemma thread_start_le s n t r : thread_start s n t r -> length r <= length s.
Proof.
  intros [[_ H]|(_ & _ & _ & ->)]; [|lia]. destruct H as (v & t1 & t2 & t3 & t4 & tid1 & t5 & -> & H1 & (ds & -> & _) & _ & H3 & Hl & H).
  apply spaces_le in H1, H3. apply maybe_lwp_le in Hl. rewrite app_length in *. destruct H as [(_ & _ & ->)|(t6 & t7 & t8 & -> & Hi & H8 & Hl')].
  - rewrite app_length in Hl. cbn [length L list_ascii_of_string] in Hl. lia.
  - apply identification_le in Hi. assert (length t8 <= length t7) by (destruct H8 as [H8|[_ ->]]; [apply spaces_le; exact H8|lia]). apply maybe_lwp_le in Hl'. rewrite app_length in *. cbn [length] in Hl'. lia.
Qed.
Lemma thread_shorter s t r : thread_text s t r -> length r < length s.
Proof. intros (n & d & q & fs & H & Hf & Hn & _). apply thread_start_le in H. apply frames_le in Hf as [_ Hf]. specialize (Hf Hn). lia. Qed.
Lemma thread_cases s : (exists t r, thread_text s t r /\ sr_gdb_thread_parse s = Ok (t, r)) \/ (thread_off s /\ sr_gdb_thread_parse s = UB) \/
  ((forall t r, ~ thread_text s t r) /\ ~ thread_off s /\ sr_gdb_thread_parse s = Fail).
Proof.
  destruct (thread_exact s) as [H1 H2]. destruct (sr_gdb_thread_parse s) as [[f r]| |].
  - left. exists f, r. split; [apply H1; reflexivity|reflexivity].
  - right. right. split; [intros f r H; apply H1 in H; discriminate|]. split; [intros H; apply H2 in H; discriminate|reflexivity].
  - right. left. split; [apply H2; reflexivity|reflexivity].
Qed.
Lemma threads_cases fuel : forall s, length s < fuel -> (exists ts r, threads_text s ts r /\ threads_loop fuel s = Ok (ts, r)) \/ (threads_off s /\ threads_loop fuel s = UB).
Proof.
  induction fuel as [|fuel IH]; intros s Hl; [lia|]. cbn [threads_loop]. destruct (thread_cases s) as [(f & r & H & ->)|[[H ->]|(H & N & ->)]].
  - pose proof (thread_shorter _ _ _ H). destruct (IH r) as [(fs & q & Hf & ->)|[Hf ->]]; [lia| |]; cbn [bind].
    + left. exists (f :: fs), q. split; [eapply tt_more; eassumption|reflexivity].
    + right. split; [eapply to_more; eassumption|reflexivity].
  - right. split; [apply to_here; exact H|reflexivity].
  - left. exists [], s. split; [apply tt_end; auto|reflexivity].
Qed.
Lemma threads_eval s ts r : threads_text s ts r -> forall fuel, length s < fuel -> threads_loop fuel s = Ok (ts, r).
Proof.
  induction 1 as [s H N|s f r fs q H Hf IH]; intros [|fuel] Hl; try lia; cbn [threads_loop].
  - destruct (thread_cases s) as [(f & r & H' & _)|[[H' _]|(_ & _ & ->)]]; [exfalso; exact (H _ _ H')|contradiction|reflexivity].
  - pose proof (thread_shorter _ _ _ H). apply thread_exact in H. rewrite H. rewrite IH by lia. reflexivity.
Qed.
Lemma threads_off_eval s : threads_off s -> forall fuel, threads_loop fuel s = UB.
Proof.
  induction 1 as [s H|s f r H Hf IH]; intros [|fuel]; try reflexivity; cbn [threads_loop]; apply thread_exact in H; rewrite H; [reflexivity|]. rewrite IH. reflexivity.
Qed.
Lemma entry_cases word s : (exists r, first_entry word s r /\ after_newline (sr_strstr_location s (nl :: word)) = Ok (Some r)) \/
  (no_entry word s /\ after_newline (sr_strstr_location s (nl :: word)) = Ok None).
Proof.
  pose proof (strstr_location_correct s (nl :: word)) as H. destruct (sr_strstr_location s (nl :: word)) as [[post [l c]]| |]; [|right|contradiction]; cbn [after_newline].
  - left. destruct H as (pre & H & _). pose proof H as (E & [q Eq] & _). cbn [app] in Eq. subst post. exists (word ++ q). split; [|reflexivity]. exists pre. exact H.
  - split; [|reflexivity]. intros r (pre & -> & [q E] & _). exact (H pre q (f_equal (app pre) E)).
Qed.
Lemma first_entry_fun word s r r' : first_entry word s r -> first_entry word s r' -> r = r'.
Proof. intros [p H] [p' H']. destruct (first_split_fun _ _ _ _ _ _ H H') as [_ E]. congruence. Qed.
Lemma trace_start_cases s :
  match sr_gdb_stacktrace_parse_header s with
  | Ok (crash, r) => trace_start s crash r
  | UB => exists t, crash_frame_at s t /\ frame_header_off t
  | Fail => (forall crash r, ~ trace_start s crash r) /\ (forall t, crash_frame_at s t -> ~ frame_header_off t)
  end.
Proof.
  unfold sr_gdb_stacktrace_parse_header. set (frame := fun s : str => do (f, s) <- sr_gdb_frame_parse s; Ok (Some f, s)).
  assert (Frame : forall t, crash_frame_at s t -> (forall r, ~ threads_at s r) -> match frame t with
    | Ok (crash, r) => trace_start s crash r | UB => exists t, crash_frame_at s t /\ frame_header_off t
    | Fail => (forall crash r, ~ trace_start s crash r) /\ (forall t, crash_frame_at s t -> ~ frame_header_off t) end).
  { intros t Ht Hn. unfold frame. destruct (frame_cases t) as [(f & r & H & ->)|[[H ->]|(H & N & ->)]]; cbn [bind].
    - left. exists t, f. auto.
    - exists t. auto.
    - split.
      + intros crash r [(t' & f & Ht' & Hf & _)|[Hr _]]; [|exact (Hn _ Hr)]. rewrite (first_entry_fun _ _ _ _ (proj1 Ht') (proj1 Ht)) in Hf. exact (H _ _ Hf).
      + intros t' Ht'. rewrite (first_entry_fun _ _ _ _ (proj1 Ht') (proj1 Ht)). exact N. }
  destruct (entry_cases (L "Thread ") s) as [(thread & Ht & ->)|[Ht ->]]; cbn [bind];
  destruct (entry_cases (L "#") s) as [(f & Hf & ->)|[Hf ->]]; cbn [bind].
  - destruct (Nat.ltb_spec (length thread) (length f)) as [Hl|Hl].
    + apply Frame.
      * split; [exact Hf|]. intros u Hu. rewrite (first_entry_fun _ _ _ _ Hu Ht). exact Hl.
      * intros r [Hr Hm]. specialize (Hm f Hf). rewrite (first_entry_fun _ _ _ _ Hr Ht) in Hm. lia.
    + right. split; [|reflexivity]. split; [exact Ht|]. intros u Hu. rewrite (first_entry_fun _ _ _ _ Hu Hf). exact Hl.
  - right. split; [|reflexivity]. split; [exact Ht|]. intros u Hu. exfalso. exact (Hf _ Hu).
  - apply Frame.
    + split; [exact Hf|]. intros u Hu. exfalso. exact (Ht _ Hu).
    + intros r [Hr _]. exact (Ht _ Hr).
  - split.
    + intros crash r [(t & f & [Ht' _] & _)|[[Hr _] _]]; [exact (Hf _ Ht')|exact (Ht _ Hr)].
    + intros t [Ht' _]. exfalso. exact (Hf _ Ht').
Qed.
Lemma crash_not_threads s t r : crash_frame_at s t -> threads_at s r -> False.
Proof. intros [H1 H2] [H3 H4]. specialize (H2 _ H3). specialize (H4 _ H1). lia. Qed.
Lemma trace_start_fun s c r c' r' : trace_start s c r -> trace_start s c' r' -> c = c' /\ r = r'.
Proof.
  intros [(t & f & H & Hf & ->)|[H ->]] [(t' & f' & H' & Hf' & ->)|[H' ->]].
  - rewrite (first_entry_fun _ _ _ _ (proj1 H') (proj1 H)) in Hf'. apply frame_exact in Hf, Hf'. rewrite Hf in Hf'. injection Hf' as -> ->. auto.
  - exfalso. exact (crash_not_threads _ _ _ H H').
  - exfalso. exact (crash_not_threads _ _ _ H' H).
  - rewrite (first_entry_fun _ _ _ _ (proj1 H') (proj1 H)). auto.
Qed.
Lemma trace_start_not_off s c r t : trace_start s c r -> crash_frame_at s t -> ~ frame_header_off t.
Proof.
  intros [(t' & f & H & Hf & _)|[H _]] Ht; [|exfalso; exact (crash_not_threads _ _ _ Ht H)].
  rewrite (first_entry_fun _ _ _ _ (proj1 Ht) (proj1 H)). destruct Hf as [[q Hf] _]. exact (header_not_off _ _ _ Hf).
Qed.
Theorem trace_exact s :
  (forall crash ts r, sr_gdb_stacktrace_parse_threads s = Ok (crash, ts, r) <-> trace_text s crash ts r) /\
  (sr_gdb_stacktrace_parse_threads s = UB <-> trace_off s).
Proof.
  unfold sr_gdb_stacktrace_parse_threads. pose proof (trace_start_cases s) as H. destruct (sr_gdb_stacktrace_parse_header s) as [[crash q]| |]; cbn [bind].
  - split; [intros c ts r; split|split].
    + destruct (threads_cases (S (length q)) q) as [(fs & u & Hf & ->)|[_ ->]]; [lia| |discriminate]. cbn [bind]. destruct fs as [|f fs]; [discriminate|]. intros E. injection E as <- <- <-.
      exists q. split; [exact H|]. split; [exact Hf|discriminate].
    + intros (q' & H' & Hf & Hn). destruct (trace_start_fun _ _ _ _ _ H H') as [-> ->]. rewrite (threads_eval _ _ _ Hf) by lia. cbn [bind]. destruct ts; [congruence|reflexivity].
    + destruct (threads_cases (S (length q)) q) as [(fs & u & Hf & ->)|[Ho ->]]; [lia| |]; cbn [bind]; [destruct fs; discriminate|]. intros _. right. exists crash, q. auto.
    + intros [(t & Ht & Ho)|(c & q' & H' & Hf)]; [exfalso; exact (trace_start_not_off _ _ _ _ H Ht Ho)|]. destruct (trace_start_fun _ _ _ _ _ H H') as [-> ->]. rewrite (threads_off_eval _ Hf). reflexivity.
  - destruct H as [H1 H2]. split; [intros c ts r|]; (split; [discriminate|]).
    + intros (q & H & _). exfalso. exact (H1 _ _ H).
    + intros [(t & Ht & Ho)|(c & q & H & _)]; [exfalso; exact (H2 _ Ht Ho)|exfalso; exact (H1 _ _ H)].
  - destruct H as (t & Ht & Ho). split; [intros c ts r; split; [discriminate|]|split; [intros _; left; eauto|reflexivity]].
    intros (q & H & _). exfalso. exact (trace_start_not_off _ _ _ _ H Ht Ho).
Qed.
