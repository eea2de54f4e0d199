(** * Shared libraries: usual lists are read back. *)
From Verif Require Import Base Types UtilsModel UtilsSpec UtilsProofs RpmModel RpmSpec RpmProofs LookupModel LookupSpec LookupProofs ParseSpec ParseProofs KoopsSpec KoopsProofs GdbParseModel GdbParseSpec GdbParseProofs6 GdbLibModel GdbLibSpec GdbLibProofs.
Open Scope nat_scope.

Lemma prefix_without (c : ascii) w a b : begins w (a ++ c :: b) -> ~ In c w -> begins w a.
Proof.
  intros [q E] N. apply app_eq_app in E as (u & [[-> _]|[-> E]]); [exists u; reflexivity|]. destruct u as [|d u]; [exists []; rewrite !app_nil_r; reflexivity|].
  injection E as <- _. exfalso. apply N. apply in_or_app. right. left. reflexivity.
Qed.
Lemma gap_space ws : gap_of ws -> Forall space_char ws.
Proof. intros [_ H]. eapply Forall_impl; [|exact H]. intros c [->| ->]; apply is_space_iff; reflexivity. Qed.
Lemma gap_first ws r : gap_of ws -> exists c t, ws ++ r = c :: t /\ (c = sp \/ c = tab).
Proof. intros [N H]. destruct ws as [|c ws]; [congruence|]. inversion H. exists c, (ws ++ r). auto. Qed.
Lemma hex_text ds v : hexadecimal64 ds v -> hex_number (L "0x" ++ ds) (Z.of_N v).
Proof.
  intros [H Hv]. exists [], (L "0x"), ds, v. split; [reflexivity|]. split; [auto|]. split; [auto|]. split; [exact H|]. right. left. split; [exact Hv|]. split; [discriminate|reflexivity].
Qed.
Lemma scanned_word ws ds v u : Forall space_char ws -> hexadecimal64 ds v -> ~ starts_with_hex u -> scanned (ws ++ (L "0x" ++ ds) ++ u) (Z.of_N v) u.
Proof.
  intros Hw Hd Hu. exists ws, (L "0x" ++ ds). split; [reflexivity|]. split; [exact Hw|]. split; [apply hex_text, Hd|]. split; [exact Hu|].
  intros [[H|[H|H]] _]; discriminate H.
Qed.
Lemma gap_no_hex ws r : gap_of ws -> ~ starts_with_hex (ws ++ r).
Proof. intros H. destruct (gap_first ws r H) as (c & t & -> & [->| ->]); cbn; intros N; apply N; reflexivity. Qed.
Lemma hex_chars ds v : hexadecimal64 ds v -> Forall address_char ds.
Proof.
  intros [H _]. apply hex_horner in H as (_ & _ & H). eapply Forall_impl; [|exact H]. intros c Hc. left. apply is_hex_iff. exact Hc.
Qed.
Lemma space_chars ws : gap_of ws -> Forall address_char ws.
Proof. intros H. apply gap_space in H. eapply Forall_impl; [|exact H]. intros c Hc. right. left. exact Hc. Qed.
Lemma word_first n word r : status n word -> exists c t, word ++ r = c :: t /\ (c = "Y"%char \/ c = "N"%char).
Proof. intros [[_ ->]|[[_ ->]|[_ ->]]]; eexists _, _; (split; [reflexivity|]); auto. Qed.
Lemma usual_library line l q : library_line_of line l -> library (line ++ nl :: q) l (nl :: q).
Proof.
  intros (fs & ts & w1 & w2 & w3 & word & name & from & to & n & -> & Hf & Ht & H1 & H2 & H3 & Hs & Hn & Hne & Hw & Hy & ->).
  set (u := w3 ++ name ++ nl :: q). exists (Z.of_N from), (Z.of_N to), n, name, (word ++ u), u.
  assert (E : (L "0x" ++ fs ++ w1 ++ L "0x" ++ ts ++ w2 ++ word ++ w3 ++ name) ++ nl :: q = (L "0x" ++ fs) ++ w1 ++ (L "0x" ++ ts) ++ w2 ++ word ++ u) by (unfold u; rewrite <- !app_assoc; reflexivity).
  rewrite E. clear E. split; [|split; [|split; [|split; [exact Hn|split; [right; exists q; reflexivity|reflexivity]]]]].
  - right. split; [|split].
    + intros H. apply (is_space_iff "0") in H. discriminate H.
    + exists (w1 ++ (L "0x" ++ ts) ++ w2 ++ word ++ u), (w2 ++ word ++ u). split.
      * apply (scanned_word []); [constructor|exact Hf|apply gap_no_hex, H1].
      * apply scanned_word; [apply gap_space, H1|exact Ht|apply gap_no_hex, H2].
    + exists ((L "0x" ++ fs) ++ w1 ++ (L "0x" ++ ts) ++ w2). split; [rewrite <- !app_assoc; reflexivity|]. split.
      * assert (Forall address_char (L "0x")) as P by (constructor; [left; discriminate|constructor; [right; right; reflexivity|constructor]]).
        repeat (apply Forall_app; split); try assumption; solve [eapply hex_chars; eassumption|apply space_chars; assumption].
      * destruct (word_first n word u Hs) as (c & t & -> & [->| ->]); intros H; apply address_char_iff in H; discriminate H.
  - destruct Hs as [[-> ->]|[[-> ->]|[-> ->]]]; [right; left|right; right; auto|left; auto]. split; [reflexivity|]. split; [|reflexivity].
    intros Hb. apply Hy. split; [reflexivity|]. destruct H3 as [Hg Hg']. unfold u in Hb. destruct w3 as [|c w3]; [congruence|]. destruct Hb as [x Hx]. injection Hx as -> Hx. inversion Hg' as [|y z _ Hz]; subst.
    destruct w3 as [|c w3]; [|cbn [app] in Hx; injection Hx as -> _; inversion Hz as [|y z [H|H] _]; discriminate H]. cbn [app] in Hx.
    apply (prefix_without nl _ _ q); [exists x; exact Hx|]. intros H. apply mem_In in H. discriminate H.
  - exists w3. split; [reflexivity|]. split; [apply gap_space, H3|]. destruct name as [|c name]; [congruence|exact Hw].
Qed.
Lemma other_no_library s l r : other_line s -> ~ library s l r.
Proof.
  intros Ho (from & to & n & name & t & u & [(W & _)|(_ & (v & w & (ws & number & -> & Hw & (sign & prefix & digits & m & -> & Hs & Hp & Hd & _) & _) & _) & _)] & H).
  - destruct s as [|c s]; [exact W|]. destruct Ho as [Ho _]. contradiction.
  - destruct ws as [|c ws]; [|cbn [app] in Ho; destruct Ho as [Ho _]; inversion Hw; contradiction]. cbn [app] in Ho. apply hex_horner in Hd as (_ & Hne & Hd).
    destruct Hs as [->|[->| ->]]; [|destruct Ho as (_ & _ & Ho); apply Ho; apply mem_In; reflexivity|destruct Ho as (_ & _ & Ho); apply Ho; apply mem_In; reflexivity]. cbn [app] in Ho.
    destruct Hp as [->|[->| ->]]; [|destruct Ho as (_ & Ho & _); discriminate Ho|destruct Ho as (_ & Ho & _); discriminate Ho]. cbn [app] in Ho.
    destruct digits as [|c digits]; [congruence|]. inversion Hd as [|x y Hx _]; subst. apply is_hex_iff in Hx. cbn [app] in Ho. destruct Ho as (_ & Ho & _). congruence.
Qed.
Lemma usual_libraries lines libs rest : Forall2 library_line_of lines libs -> other_line rest -> libraries (concat (map (fun l => l ++ [nl]) lines) ++ rest) libs.
Proof.
  intros H Ho. induction H as [|line l lines libs Hl _ IH]; cbn [map concat app].
  - constructor. intros l r. apply other_no_library, Ho.
  - rewrite <- !app_assoc. cbn [app]. econstructor; [apply usual_library, Hl|exact IH].
Qed.
Lemma usual_title r : title (title_words ++ nl :: r) r.
Proof. apply title_iff. reflexivity. Qed.
Theorem usual_libs pre lines libs rest : at_line_start pre -> (forall a b, pre <> a ++ L "From" ++ b) -> Forall2 library_line_of lines libs -> other_line rest ->
  sr_gdb_sharedlib_parse (pre ++ title_words ++ nl :: concat (map (fun l => l ++ [nl]) lines) ++ rest) = Ok libs.
Proof.
  intros Hs Hp H Ho. apply libs_exact. left. exists (concat (map (fun l => l ++ [nl]) lines) ++ rest). split; [|apply usual_libraries; assumption].
  exists pre, (title_words ++ nl :: concat (map (fun l => l ++ [nl]) lines) ++ rest). split; [reflexivity|]. split; [exact Hs|]. split; [apply usual_title|].
  intros p t r E _ (t1 & _ & _ & -> & _). destruct (le_lt_dec (length pre) (length p)) as [G|G]; [exact G|]. exfalso.
  apply app_eq_app in E as (u & [[-> E]|[-> _]]); [|rewrite app_length in G; lia]. destruct Hs as [X|[q Eq]]; [apply app_eq_nil in X as [-> ->]; cbn in G; lia|].
  assert (Hu : u <> []) by (intros ->; rewrite app_nil_r in G; lia). destruct (exists_last Hu) as (v & x & ->). rewrite app_assoc in Eq. apply app_inj_tail in Eq as [_ ->].
  rewrite <- app_assoc in E. change ([nl] ++ title_words ++ nl :: concat (map (fun l => l ++ [nl]) lines) ++ rest) with (nl :: title_words ++ nl :: concat (map (fun l => l ++ [nl]) lines) ++ rest) in E.
  assert (Hb : begins (L "From") v) by (apply (prefix_without nl _ v (title_words ++ nl :: concat (map (fun l => l ++ [nl]) lines) ++ rest)); [exists t1; symmetry; exact E|intros X; apply mem_In in X; discriminate X]).
  destruct Hb as [w ->]. apply (Hp p (w ++ [nl])). rewrite <- !app_assoc. reflexivity.
Qed.
