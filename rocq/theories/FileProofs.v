From Verif Require Import Base Types UtilsModel FileModel FileSpec.
Open Scope nat_scope.

Lemma c_string_text : forall b s, c_string b = s <-> c_text b s.
Proof.
  intros b. induction b as [|c b IH]; intros s; cbn [c_string].
  - split.
    + intros <-. split; [intros []|now left].
    + intros [_ [H|[r H]]]; [exact H|]. destruct s; discriminate.
  - destruct (Ascii.eqb_spec c nul) as [->|N].
    + split.
      * intros <-. split; [intros []|right; now exists b].
      * intros [H [E|[r E]]].
        -- subst. elim H. now left.
        -- destruct s as [|x s]; [reflexivity|]. injection E as <- _. elim H. now left.
    + split.
      * intros <-. destruct (proj1 (IH (c_string b)) eq_refl) as [H K]. split.
        -- intros [E|E]; [now apply N|now apply H].
        -- destruct K as [K|[r K]]; [left; now rewrite <- K|right; exists r; cbn; now rewrite <- K].
      * intros [H [E|[r E]]].
        -- subst s. f_equal. apply IH. split; [intros Hn; apply H; now right|now left].
        -- destruct s as [|x s]; [injection E as -> _; now elim N|]. injection E as <- E. f_equal. apply IH.
           split; [intros Hn; apply H; now right|right; now exists r].
Qed.
Lemma c_text_unique : forall b s t, c_text b s -> c_text b t -> s = t.
Proof. intros b s t H K. apply c_string_text in H, K. congruence. Qed.

Lemma read_iff : forall r s, sr_file_to_string r = Some s <->
  rd_open r = true /\ exists b, rd_size r = Some (N.of_nat (length b)) /\ fits b /\ rd_read r = Some b /\ c_text b s.
Proof.
  intros [o sz rd] s. unfold sr_file_to_string; cbn [rd_open rd_size rd_read]. destruct o; cbn [negb].
  2:{ split; [discriminate|]. intros [H _]. discriminate. }
  destruct sz as [sz|].
  2:{ split; [discriminate|]. intros (_ & b & H & _). discriminate. }
  destruct (N.ltb_spec FILE_SIZE_LIMIT sz) as [Hl|Hl].
  { split; [discriminate|]. intros (_ & b & H & K & _). injection H as ->. unfold fits, FILE_SIZE_LIMIT in *. lia. }
  destruct rd as [b|].
  2:{ split; [discriminate|]. intros (_ & b & _ & _ & H & _). discriminate. }
  destruct (N.eqb_spec (N.of_nat (length b)) sz) as [E|E].
  - split.
    + intros H. injection H as H. split; [reflexivity|]. exists b. split; [now f_equal|]. split; [unfold fits, FILE_SIZE_LIMIT in *; lia|].
      split; [reflexivity|]. now apply c_string_text.
    + intros (_ & b' & _ & _ & Hb & Ht). injection Hb as <-. f_equal. now apply c_string_text.
  - split; [discriminate|]. intros (_ & b' & H & _ & Hb & _). injection Hb as <-. injection H as H. now elim E.
Qed.
Lemma read_exact : forall r bytes s, holds r bytes ->
  (sr_file_to_string r = Some s <-> reads_all r bytes /\ fits bytes /\ c_text bytes s).
Proof.
  intros r bytes s [Hs Hr]. rewrite read_iff. unfold reads_all. split.
  - intros (Ho & b & Hb & Hf & Hd & Ht). destruct (Hr b Hd) as [rest ->]. rewrite Hs in Hb. injection Hb as Hb.
    rewrite app_length in Hb. assert (rest = []) as -> by (destruct rest; [reflexivity|cbn in Hb; lia]).
    rewrite app_nil_r in *. auto.
  - intros ((Ho & Hz & Hd) & Hf & Ht). split; [exact Ho|]. exists bytes. auto.
Qed.
Lemma read_total : forall r bytes, reads_all r bytes -> fits bytes -> exists s, sr_file_to_string r = Some s /\ c_text bytes s.
Proof.
  intros r bytes (Ho & Hz & Hd) Hf. exists (c_string bytes). assert (T : c_text bytes (c_string bytes)) by (now apply c_string_text).
  split; [|exact T]. apply read_iff. split; [exact Ho|]. exists bytes. auto.
Qed.

Lemma firstn_leading : forall n (s : str), leading (firstn n s) s.
Proof. intros n s. exists (skipn n s). symmetry. apply firstn_skipn. Qed.
Lemma write_true : forall w old contents, snd (sr_string_to_file w old contents) = true <->
  wr_open w = true /\ wr_count w = Some (length contents) /\ wr_close w = true.
Proof.
  intros [o c k] old contents. unfold sr_string_to_file; cbn [wr_open wr_count wr_close]. destruct o; cbn [negb snd].
  2:{ split; [discriminate|]. intros [H _]. discriminate. }
  destruct c as [n|]; cbn [snd].
  2:{ split; [discriminate|]. intros (_ & H & _). discriminate. }
  destruct (Nat.eqb_spec (length contents) n) as [E|E]; cbn [negb snd].
  - destruct k; cbn [negb snd]; subst; split; try discriminate; auto. intros (_ & _ & H). discriminate.
  - split; [discriminate|]. intros (_ & H & _). injection H as H. now elim E.
Qed.
Lemma write_final : forall w old contents, snd (sr_string_to_file w old contents) = true ->
  final (fst (sr_string_to_file w old contents)) = Some contents.
Proof.
  intros w old contents H. pose proof (proj1 (write_true _ _ _) H) as (Ho & Hc & Hk).
  unfold sr_string_to_file. rewrite Ho, Hc, Hk. cbn [negb]. rewrite Nat.eqb_refl. cbn [negb fst]. unfold final. cbn. f_equal. apply firstn_all.
Qed.
Lemma write_states : forall w old contents st, In st (fst (sr_string_to_file w old contents)) ->
  st = old \/ exists part, st = Some part /\ leading part contents.
Proof.
  intros [o c k] old contents st. unfold sr_string_to_file; cbn [wr_open wr_count wr_close]. destruct o; cbn [negb fst].
  2:{ intros [<-|[]]. now left. }
  assert (N : leading [] contents) by (now exists contents).
  destruct c as [n|]; cbn [fst].
  2:{ intros [<-|[<-|[]]]; [now left|right; eauto]. }
  replace (fst (if negb (Nat.eqb (length contents) n) then ([old; Some []; Some (firstn n contents)], false)
                else if negb k then ([old; Some []; Some (firstn n contents)], false)
                     else ([old; Some []; Some (firstn n contents)], true)))
    with [old; Some []; Some (firstn n contents)] by (destruct (negb (Nat.eqb (length contents) n)), (negb k); reflexivity).
  intros [<-|[<-|[<-|[]]]]; [now left|right; eauto|right]. exists (firstn n contents). split; [reflexivity|apply firstn_leading].
Qed.
Lemma write_unopened : forall w old contents, wr_open w = false -> sr_string_to_file w old contents = ([old], false).
Proof. intros w old contents H. unfold sr_string_to_file. now rewrite H. Qed.
Lemma write_opened : forall w old contents, wr_open w = true -> exists part,
  final (fst (sr_string_to_file w old contents)) = Some part /\
  part = firstn (match wr_count w with Some n => n | None => 0 end) contents /\ In (Some []) (fst (sr_string_to_file w old contents)).
Proof.
  intros [o c k] old contents H. cbn in H. subst o. unfold sr_string_to_file; cbn [wr_open wr_count wr_close negb].
  destruct c as [n|].
  - exists (firstn n contents). destruct (negb (Nat.eqb (length contents) n)), (negb k); cbn; auto.
  - exists []. cbn. auto.
Qed.
Lemma write_read : forall w old contents r, snd (sr_string_to_file w old contents) = true -> ~ In nul contents -> fits contents ->
  (forall bytes, final (fst (sr_string_to_file w old contents)) = Some bytes -> reads_all r bytes) ->
  sr_file_to_string r = Some contents.
Proof.
  intros w old contents r H Hn Hf Hr. specialize (Hr contents (write_final _ _ _ H)). destruct (read_total _ _ Hr Hf) as (s & E & T).
  rewrite E. f_equal. apply (c_text_unique contents); [exact T|]. split; [exact Hn|now left].
Qed.
