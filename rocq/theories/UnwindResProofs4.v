(** * Proofs about UnwindResModel.v: messages *)
From Verif Require Import Base Types UtilsModel UtilsProofs UnwindModel UnwindResModel UnwindResSpec UnwindResProofs UnwindResProofs2 UnwindResProofs3.
Open Scope nat_scope.

Lemma fail_free_msg b e w r e' w' : fail_free b e w = Ok (r, e', w') -> r = None /\ e' = e.
Proof. unfold fail_free. destruct (free b w); cbn [bind]; try discriminate. intros E. injection E as <- <- _. split; reflexivity. Qed.
Lemma fail_close_msg b fd e w r e' w' : fail_close b fd e w = Ok (r, e', w') -> r = None /\ e' = e.
Proof. unfold fail_close. destruct (close fd w); cbn [bind]; try discriminate. apply fail_free_msg. Qed.
Lemma fail_elf_msg b fd eh e w r e' w' : fail_elf b fd eh e w = Ok (r, e', w') -> r = None /\ e' = e.
Proof. unfold fail_elf. destruct (elf_end eh w); cbn [bind]; try discriminate. apply fail_close_msg. Qed.
Lemma fail_dwfl_msg b fd eh d e w r e' w' : fail_dwfl b fd eh d e w = Ok (r, e', w') -> r = None /\ e' = e.
Proof. unfold fail_dwfl. destruct (dwfl_end d w); cbn [bind]; try discriminate. apply fail_elf_msg. Qed.
Lemma set_error_msg e text w b t : forall e' w', set_error e text w = (e', w') -> e' = Some (Some (b, t)) -> t = text.
Proof. unfold set_error. destruct e as [x|]; cbn; intros e' w' E H; [injection E as <- <-; injection H as _ <-; reflexivity|injection E as <- <-; discriminate]. Qed.
Lemma open_says a f w b text w' : open_coredump a f (Some None) w = Ok (None, Some (Some (b, text)), w') -> open_message a f text.
Proof.
  unfold open_coredump. destruct (malloc w) as [b0 w0]. destruct (o_version a) eqn:V; cbn [negb].
  2:{ destruct (set_error _ _ w0) as [e1 w1] eqn:Es. intros H. apply fail_free_msg in H as [_ H]. rewrite (set_error_msg _ _ _ _ _ _ _ Es (eq_sym H)). apply om_version. exact V. }
  destruct (Z.ltb_spec (o_open a) 0) as [O|O].
  { destruct (set_error _ _ w0) as [e1 w1] eqn:Es. intros H. apply fail_free_msg in H as [_ H]. rewrite (set_error_msg _ _ _ _ _ _ _ Es (eq_sym H)). apply om_open; assumption. }
  destruct (o_elf a) eqn:Ef; cbn [negb].
  2:{ destruct (set_error _ _ (opened (o_open a) w0)) as [e1 w1] eqn:Es. intros H. apply fail_close_msg in H as [_ H]. rewrite (set_error_msg _ _ _ _ _ _ _ Es (eq_sym H)). apply om_elf; assumption. }
  destruct (elf_begin (o_open a) (opened (o_open a) w0)) as [eh w1].
  destruct (match o_type a with Some t => (t =? 4)%Z | None => false end) eqn:Ty; cbn [negb].
  2:{ destruct (set_error _ _ w1) as [e2 w2] eqn:Es. intros H. apply fail_elf_msg in H as [_ H]. rewrite (set_error_msg _ _ _ _ _ _ _ Es (eq_sym H)). apply om_type; try assumption. intros X. rewrite X in Ty. discriminate. }
  assert (T4 : o_type a = Some 4%Z) by (destruct (o_type a) as [t|]; [apply Z.eqb_eq in Ty; congruence|discriminate]).
  destruct (dwfl_begin w1) as [d w2]. destruct (Z.eqb_spec (o_report a) (-1)) as [R|R].
  { destruct (set_error _ _ _) as [e3 w3] eqn:Es. intros H. apply fail_dwfl_msg in H as [_ H]. rewrite (set_error_msg _ _ _ _ _ _ _ Es (eq_sym H)). apply om_report; assumption. }
  destruct (Z.eqb_spec (o_report_end a) 0) as [R'|R']; cbn [negb].
  2:{ destruct (set_error _ _ _) as [e3 w3] eqn:Es. intros H. apply fail_dwfl_msg in H as [_ H]. rewrite (set_error_msg _ _ _ _ _ _ _ Es (eq_sym H)). apply om_report_end; assumption. }
  destruct (touch_is (o_modules a) (dwfl_uses d eh w2) _ _ _ _ _ _ (is_self _)) as (head & w3 & E3 & _ & Hm). rewrite E3.
  destruct (Z.eqb_spec (o_getmodules a) (-1)) as [G|G].
  { destruct (set_error _ _ _) as [e4 w4] eqn:Es. intros H. apply fail_dwfl_msg in H as [_ H]. rewrite (set_error_msg _ _ _ _ _ _ _ Es (eq_sym H)). apply om_modules; assumption. }
  destruct head as [|h head]; [|discriminate].
  destruct (set_error _ _ _) as [e4 w4] eqn:Es. intros H. apply fail_dwfl_msg in H as [_ H]. rewrite (set_error_msg _ _ _ _ _ _ _ Es (eq_sym H)). apply om_none; try assumption.
  intros X. apply (mapped_exists _ _ Hm) in X. apply X. reflexivity.
Qed.

Section Process.
Variable addrmodule : Z -> option module.
Variable cxa_demangle : str -> option str.
Variable dwfl_errmsg : str.
Notation getframes_in := (getframes_in addrmodule cxa_demangle dwfl_errmsg).
Notation unwind_thread_in := (unwind_thread_in addrmodule cxa_demangle dwfl_errmsg).
Notation getthreads_in := (getthreads_in addrmodule cxa_demangle dwfl_errmsg).
Lemma getframes_says : forall frames ret w fs r m w', getframes_in frames ret w = Ok (fs, r, m, w') ->
  match m with Some (_, text) => In None frames /\ text = L "dwfl_frame_pc failed: " ++ dwfl_errmsg | None => r = ret \/ r = 2%Z end.
Proof.
  induction frames as [|x frames IH]; intros ret w fs r m w' E; cbn [UnwindResModel.getframes_in] in E.
  - injection E as <- <- <- <-. left. reflexivity.
  - destruct x as [[pc mo]|].
    + destruct (malloc w) as [b w1]. destruct (opt_str_eqb _ _).
      * destruct (free b w1); cbn [bind] in E; try discriminate. injection E as <- <- <- <-. right. reflexivity.
      * destruct (getframes_in frames ret w1) as [[[[fs' r'] m'] w2]| |] eqn:Er; cbn [bind] in E; try discriminate. injection E as <- <- <- <-. specialize (IH _ _ _ _ _ _ Er).
        destruct m' as [[b' text]|]; [|exact IH]. destruct IH. split; [right; assumption|assumption].
    + destruct (malloc w) as [b w1]. injection E as <- <- <- <-. split; [left; reflexivity|reflexivity].
Qed.
Lemma unwind_says u w m w' : unwind_thread_in u w = Ok (None, m, w') -> u_ret u <> 1%Z ->
  match m with Some (_, text) => In None (u_frames u) /\ text = L "dwfl_frame_pc failed: " ++ dwfl_errmsg \/ ~ In (u_ret u) [0; 1; 2; -1]%Z /\ text = L "Unknown error in dwfl_thread_getframes" | None => False end.
Proof.
  unfold UnwindResModel.unwind_thread_in. destruct (malloc w) as [b w0]. destruct (getframes_in (u_frames u) (u_ret u) w0) as [[[[fs r] m1] w1]| |] eqn:Eg; cbn [bind]; try discriminate.
  pose proof (getframes_says _ _ _ _ _ _ _ Eg) as G. intros E Hu. destruct (Z.eqb_spec r 1) as [R|R].
  - destruct (thread_free (b, fs) w1); cbn [bind] in E; try discriminate. injection E as -> _. destruct m as [[b' text]|]; [left; exact G|]. destruct G; congruence.
  - destruct (negb (r =? 0)%Z && negb (r =? 2)%Z && negb (r =? -1)%Z) eqn:C.
    + destruct (malloc w1) as [mb w2]. destruct (thread_free (b, fs) w2); cbn [bind] in E; try discriminate. injection E as <- _.
      destruct m1 as [[b' text]|]; [left; destruct (getframes_is addrmodule cxa_demangle dwfl_errmsg (u_frames u) (u_ret u) _ _ _ _ _ _ _ (is_self w0)) as (fs' & r' & m' & w'' & E' & _ & _ & M1 & _)|].
      * rewrite E' in Eg. injection Eg as _ -> -> _. exfalso. apply R, M1. discriminate.
      * right. split; [|reflexivity]. apply andb_prop in C as [C C3]. apply andb_prop in C as [C1 C2]. apply negb_true_iff, Z.eqb_neq in C1, C2, C3. destruct G as [-> | ->]; [|congruence]. cbn. intuition congruence.
    + destruct (truncate_in fs (length fs) w1) as [[fs' w2]| |]; cbn [bind] in E; discriminate.
Qed.
Lemma getthreads_says : forall us ret w ts r m w', getthreads_in us ret w = Ok (ts, r, m, w') -> Forall (fun u => u_ret u <> 1%Z) us ->
  match m with
  | Some (_, text) => exists before u after, us = before ++ u :: after /\
      (In None (u_frames u) /\ text = L "dwfl_frame_pc failed: " ++ dwfl_errmsg \/ ~ In (u_ret u) [0; 1; 2; -1]%Z /\ text = L "Unknown error in dwfl_thread_getframes")
  | None => r = ret
  end.
Proof.
  induction us as [|u us IH]; intros ret w ts r m w' E Hu; cbn [UnwindResModel.getthreads_in] in E.
  - injection E as <- <- <- <-. reflexivity.
  - inversion Hu as [|x y H1 H2]; subst. destruct (unwind_thread_in u w) as [[[x e] w1]| |] eqn:Eu; cbn [bind] in E; try discriminate. destruct x as [x|].
    + destruct (getthreads_in us ret w1) as [[[[xs r'] m'] w2]| |] eqn:Er; cbn [bind] in E; try discriminate. injection E as <- <- <- <-. specialize (IH _ _ _ _ _ _ Er H2).
      destruct m' as [[b text]|]; [|exact IH]. destruct IH as (before & u' & after & -> & X). exists (u :: before), u', after. split; [reflexivity|exact X].
    + injection E as <- <- <- <-. pose proof (unwind_says _ _ _ _ Eu H1) as X. destruct e as [[b text]|]; [|destruct X]. exists [], u, us. split; [reflexivity|exact X].
Qed.
Lemma parse_says a d f exe w b text w' : sound w -> new_file w (o_open a) -> o_open a <> 0%Z -> honest d ->
  parse_coredump_in addrmodule cxa_demangle dwfl_errmsg a d f exe (Some None) w = Ok (None, Some (Some (b, text)), w') -> open_message a f text \/ openable a /\ unwind_message d dwfl_errmsg text.
Proof.
  intros Sw Nf N0 [Hr Hu]. unfold parse_coredump_in. cbv zeta. cbn [no_error].
  destruct (open_is a f (Some None) w Sw (or_intror eq_refl) Nf) as (r & e1 & w1 & E1 & H1). rewrite E1. cbn [bind]. destruct r as [ch|].
  2:{ cbn [core_handle_free bind]. intros E. injection E as -> ->. left. exact (open_says _ _ _ _ _ _ E1). }
  destruct H1 as (Op & -> & _). intros E. right. split; [exact Op|]. destruct (cd_attach d) eqn:At; cbn [negb] in E.
  2:{ destruct (set_error _ _ _) as [e2 w2] eqn:Es. destruct (core_handle_free _ w2); cbn [bind] in E; try discriminate. injection E as E _.
      rewrite (set_error_msg _ _ _ _ _ _ _ Es E). apply um_attach. exact At. }
  destruct (malloc w1) as [sb w2]. destruct (getthreads_in (cd_threads d) (cd_ret d) w2) as [[[[ts r] m] w3]| |] eqn:Eg; cbn [bind] in E; try discriminate.
  pose proof (getthreads_says _ _ _ _ _ _ _ Eg Hu) as G. destruct (Z.eqb_spec r 0) as [R|R]; cbn [negb] in E.
  { destruct exe as [x|]; [destruct (malloc w3)|]; destruct (core_handle_free _ _); cbn [bind] in E; discriminate. }
  destruct (if (r =? -1)%Z then _ else _) as [[e4 w4]| |] eqn:Ee in E; cbn [bind] in E; try discriminate.
  assert (X : e4 = Some (Some (b, text))). { destruct (threads_free ts w4) as [w5| |]; cbn [bind] in E; try discriminate. destruct (free sb w5) as [w6| |]; cbn [bind] in E; try discriminate.
    destruct (core_handle_free _ w6); cbn [bind] in E; try discriminate. injection E as E _. exact E. }
  clear E. destruct (Z.eqb_spec r (-1)) as [R1|R1]; [|destruct (Z.eqb_spec r 1) as [R2|R2]].
  - match type of Ee with Ok ?s = _ => assert (Es : s = (e4, w4)) by congruence end. rewrite (set_error_msg _ _ _ _ _ _ _ Es X). apply um_threads; [exact At|]. destruct m as [[mb mt]|]; [|congruence].
    destruct (getthreads_is addrmodule cxa_demangle dwfl_errmsg (cd_threads d) (cd_ret d) w2 _ _ _ _ _ _ (is_self w2) Hr Hu) as (ts' & r' & m' & w'' & E' & H). rewrite E' in Eg. injection Eg as _ -> -> _.
    exfalso. revert H. subst r. cbn. intuition (try discriminate; try congruence).
  - unfold pass_error in Ee. destruct m as [[mb mt]|]; [|discriminate]. destruct (set_error (Some None) mt w3) as [e5 w5] eqn:Es. destruct (free mb w5); cbn [bind] in Ee; try discriminate. injection Ee as <- _.
    rewrite (set_error_msg _ _ _ _ _ _ _ Es X). destruct G as (before & u & after & Et & [[G1 G2]|[G1 G2]]); rewrite G2; [eapply um_frame|eapply um_frames]; eassumption || reflexivity.
  - match type of Ee with Ok ?s = _ => assert (Es : s = (e4, w4)) by congruence end. rewrite (set_error_msg _ _ _ _ _ _ _ Es X). apply um_unknown; [exact At|]. destruct m as [[mb mt]|]; [|subst r; cbn; intuition congruence].
    destruct (getthreads_is addrmodule cxa_demangle dwfl_errmsg (cd_threads d) (cd_ret d) w2 _ _ _ _ _ _ (is_self w2) Hr Hu) as (ts' & r' & m' & w'' & E' & H). rewrite E' in Eg. injection Eg as _ -> -> _.
    exfalso. revert H. intuition (try discriminate; try congruence).
Qed.
End Process.
