(** * Locations in gdb texts: counting, names, calls, addresses and files. *)
From Verif Require Import Base Types UtilsModel UtilsSpec UtilsProofs ParseModel ParseSpec ParseProofs JsParseProofs PyParseProofs KoopsSpec KoopsProofs KoopsProofs2
  GdbParseModel GdbParseSpec GdbParseProofs GdbParseProofs2 GdbParseProofs3 GdbParseProofs4 GdbParseProofs5 LocParseModel LocParseProofs GdbLocModel GdbLocSpec.
Open Scope nat_scope.

(** ** Counting *)
Definition moved (l : location) (u : str) : location := let '(ln, col) := eat_all (line l, column l) u in mk_location ln col (message l).
Lemma location_eta l : mk_location (line l) (column l) (message l) = l.
Proof. destruct l; reflexivity. Qed.
Lemma moved_nil l : moved l [] = l.
Proof. apply location_eta. Qed.
Lemma moved_app l a b : moved (moved l a) b = moved l (a ++ b).
Proof. unfold moved. rewrite eat_all_app. destruct (eat_all (line l, column l) a) as [x y]. cbn [line column message]. reflexivity. Qed.
Lemma moved_char l c : sr_location_eat_char l c = moved l [c].
Proof. reflexivity. Qed.
Lemma moved_message l u : message (moved l u) = message l.
Proof. unfold moved. destruct (eat_all _ u). reflexivity. Qed.
Lemma eat_line lc u : ~ In nl u -> eat_all lc u = (fst lc, (snd lc + Z.of_nat (length u))%Z).
Proof.
  revert lc. induction u as [|c u IH]; intros [x y] H; [cbn; f_equal; lia|]. cbn [eat_all fold_left]. fold (eat_all (loc_eat_char (x, y) c) u). rewrite IH by (intros K; apply H; right; exact K).
  unfold loc_eat_char. destruct (Ascii.eqb c nl) eqn:E; [apply Ascii.eqb_eq in E; exfalso; apply H; left; exact E|]. cbn [fst snd length]. f_equal. lia.
Qed.
Lemma moved_right l u : ~ In nl u -> right l (Z.of_nat (length u)) = moved l u.
Proof. intros H. unfold moved, right. rewrite (eat_line _ _ H). reflexivity. Qed.
Lemma moved_add l u : sr_location_add l (fst (eat_all (1%Z, 0%Z) u)) (snd (eat_all (1%Z, 0%Z) u)) = moved l u.
Proof. unfold sr_location_add, moved. rewrite (eat_all_add (line l, column l)). destruct (eat_all (1%Z, 0%Z) u). reflexivity. Qed.
Lemma moved_init u : moved sr_location_init u = mk_location (fst (eat_all (1%Z, 0%Z) u)) (snd (eat_all (1%Z, 0%Z) u)) None.
Proof. unfold moved. cbn [sr_location_init line column message]. destruct (eat_all (1%Z, 0%Z) u). reflexivity. Qed.
Lemma add_moved l u : add_location l (moved sr_location_init u) = moved l u.
Proof. rewrite moved_init. unfold add_location. cbn [line column]. apply moved_add. Qed.
Lemma moved_pos u ln col : pos_of u ln col -> moved sr_location_init u = mk_location ln col None.
Proof. intros H. rewrite moved_init, (pos_of_eat_all _ _ _ H). reflexivity. Qed.
Lemma pos_moved u : pos_of u (line (moved sr_location_init u)) (column (moved sr_location_init u)).
Proof. rewrite moved_init. apply eat_all_pos. Qed.
Lemma flat_length v : length (flat v) = length v.
Proof. apply map_length. Qed.
Lemma flat_line v : ~ In nl (flat v).
Proof. intros H. apply in_map_iff in H as (c & E & _). destruct (Ascii.eqb c nl) eqn:K; [discriminate|]. subst c. discriminate. Qed.
Lemma moved_flat l v : right l (Z.of_nat (length v)) = moved l (flat v).
Proof. rewrite <- flat_length. apply moved_right, flat_line. Qed.
Lemma right_right l a b : right (right l (Z.of_nat a)) (Z.of_nat b) = right l (Z.of_nat (a + b)).
Proof. unfold right. cbn [line column message]. f_equal. lia. Qed.
Lemma chars_app p r : chars (p ++ r) r = Z.of_nat (length p).
Proof. unfold chars. rewrite app_length. f_equal. lia. Qed.

(** ** Names *)
Lemma braces_app s w r : sr_gdb_frame_parse_function_name_braces s = Ok (w, r) -> s = w ++ r.
Proof.
  destruct s as [|c s]; [discriminate|]. destruct (ascii_dec c "(") as [->|H].
  - change (sr_gdb_frame_parse_function_name_braces ("("%char :: s)) with (brk (S (length s)) in_braces "("%char ")"%char ("("%char :: s)). rewrite brk_open.
    destruct (name_loop_cases (S (length s)) in_braces s) as [(v & t & -> & Hv & ->)|[_ ->]]; [lia| |discriminate]. cbn [bind].
    destruct (skip_char_cases ")" t) as [(q & -> & ->)|[_ ->]]; cbv iota; [|discriminate]. intros E. injection E as <- <-. cbn [L list_ascii_of_string app]. rewrite <- app_assoc. reflexivity.
  - unfold sr_gdb_frame_parse_function_name_braces, bracketed. cbn [sr_skip_char]. apply ascii_eqb_false in H. rewrite H. discriminate.
Qed.
Definition first_part_loc (s : str) (l : location) : outcome (str * str) :=
  and_then (match sr_parse_char_limited (L "~*._" ++ sr_alnum) s with
            | Some (first, r) => if Ascii.eqb first "o" then Took ([], s) l else Took ([first], r) (right l 1)
            | None =>
              match sr_gdb_frame_parse_function_name_braces s with
              | Ok (namechunk, r) => Took (namechunk, r) (right l (chars s r))
              | Fail => Refused (says l (L "Expected function name."))
              | UB => Broken
              end
            end) (fun '(buf0, s) l =>
  look (w, r) <- name_loop (S (length s)) at_top s;
  Took (buf0 ++ w, r) (right l (chars s r))).
Lemma first_loc s l : match first_part s with
  | Ok (v, r) => first_part_loc s l = Took (v, r) (moved l (flat v))
  | Fail => exists l', first_part_loc s l = Refused l'
  | UB => first_part_loc s l = Broken
  end.
Proof.
  assert (K : forall b q l', l' = right l (Z.of_nat (length b)) ->
    match (do (w, r) <- name_loop (S (length q)) at_top q; Ok (b ++ w, r)) with
    | Ok (v, r) => (look (w, r) <- name_loop (S (length q)) at_top q; Took (b ++ w, r) (right l' (chars q r))) = Took (v, r) (moved l (flat v))
    | Fail => exists l'', (look (w, r) <- name_loop (S (length q)) at_top q; Took (b ++ w, r) (right l' (chars q r))) = Refused l''
    | UB => (look (w, r) <- name_loop (S (length q)) at_top q; Took (b ++ w, r) (right l' (chars q r))) = Broken
    end).
  { intros b q l' ->. destruct (top_cases q) as [(w & r & E & Hw & ->)|[Hw ->]]; cbn [bind see]; [|reflexivity]. rewrite E, chars_app, right_right, <- app_length, moved_flat. reflexivity. }
  unfold first_part, first_part_loc. destruct (sr_parse_char_limited (L "~*._" ++ sr_alnum) s) as [[c r]|].
  - destruct (Ascii.eqb c "o"); cbn [bind and_then]; apply K; [|reflexivity]. unfold right. cbn. rewrite Z.add_0_r. symmetry. apply location_eta.
  - destruct (sr_gdb_frame_parse_function_name_braces s) as [[b q]| |] eqn:E; cbn [bind and_then]; [|eauto|reflexivity]. apply K. apply braces_app in E. subst s. rewrite chars_app. reflexivity.
Qed.
Definition first_const_loc (buf0 : str) (space : ascii) (s : str) (l : location) : outcome (str * ascii * str) :=
  let '(n, r) := sr_skip_string (L "const") s in
  if 0 <? n then
    let l := right (sr_location_eat_char l space) (Z.of_nat n) in
    match sr_parse_char_limited sr_space r with
    | None => no_space l
    | Some (space', r) => Took (buf0 ++ space :: L "const", space', r) l
    end
  else Took (buf0, space, s) l.
Lemma const_line : ~ In nl (L "const").
Proof. cbn. intuition discriminate. Qed.
Lemma moved_const l c : right (sr_location_eat_char l c) (Z.of_nat (length (L "const"))) = moved l (c :: L "const").
Proof. rewrite (moved_right _ _ const_line), moved_char, moved_app. reflexivity. Qed.
Lemma first_const_at b c s l : match first_const b c s with
  | Ok (b', c', r) => exists added, b' = b ++ added /\ const_suffix c s added c' r /\ first_const_loc b c s l = Took (b', c', r) (moved l added)
  | Fail => exists l', first_const_loc b c s l = Refused l'
  | UB => first_const_loc b c s l = Broken
  end.
Proof.
  destruct (first_const b c s) as [[[b' c'] r]| |] eqn:E; [| |destruct (first_const_ub _ _ _ E)].
  - pose proof E as E'. apply first_const_iff in E' as (added & -> & H). exists added. split; [reflexivity|]. split; [exact H|]. unfold first_const in E. unfold first_const_loc.
    destruct (skip_string_cases (L "const") s) as [(t & Es & K)|[Hb K]]; rewrite K in *.
    + change (0 <? length (L "const")) with true in *. cbv iota in *. destruct (sr_parse_char_limited sr_space t) as [[x q]|]; [|discriminate].
      destruct H as [(_ & _ & ->)|(Hb & _)]; [|exfalso; apply Hb; rewrite Es; eexists; reflexivity]. rewrite moved_const. injection E as <- <-. reflexivity.
    + cbn [Nat.ltb Nat.leb] in *. destruct H as [(Es & _)|(_ & -> & -> & ->)]; [exfalso; apply Hb; rewrite Es; eexists; reflexivity|]. rewrite app_nil_r, moved_nil. reflexivity.
  - unfold first_const in E. unfold first_const_loc. destruct (sr_skip_string (L "const") s) as [n r]. destruct (0 <? n); [|discriminate]. destruct (sr_parse_char_limited sr_space r) as [[x q]|]; [discriminate|]. eexists. reflexivity.
Qed.
Definition second_part_loc (space : ascii) (s : str) (l : location) : outcome (option str * ascii * str) :=
  match sr_gdb_frame_parse_function_name_chunk false s with
  | UB => Broken
  | Fail => Took (None, space, s) l
  | Ok (namechunk, r) =>
    let l := right (sr_location_eat_char l space) (chars s r) in
    look (w, q) <- name_loop (S (length r)) at_top r;
    let l := right l (chars r q) in
    match sr_parse_char_limited sr_space q with
    | None => no_space l
    | Some (space, q) => Took (Some (namechunk ++ w), space, q) l
    end
  end.
Lemma second_at c s l : match second_part c s with
  | Ok (Some w, c', r) => second_part_loc c s l = Took (Some w, c', r) (moved l (c :: flat w))
  | Ok (None, c', r) => second_part_loc c s l = Took (None, c', r) l
  | Fail => exists l', second_part_loc c s l = Refused l'
  | UB => second_part_loc c s l = Broken
  end.
Proof.
  unfold second_part, second_part_loc. destruct (chunk_cases false s) as [(v & u & -> & Hn & Hv)|[H|H]].
  - rewrite (chunk_run _ _ _ Hv Hn). destruct (top_cases u) as [(w & r & E & Hw & ->)|[Hw ->]]; cbn [bind see]; [|reflexivity]. rewrite chars_app, E, chars_app, right_right, <- app_length, moved_flat, moved_char, moved_app.
    destruct (sr_parse_char_limited sr_space r) as [[x q]|]; [reflexivity|eexists; reflexivity].
  - rewrite (chunk_empty false s H). reflexivity.
  - rewrite (chunk_off _ _ H). reflexivity.
Qed.
Definition last_const_loc (space : ascii) (s : str) (l : location) : outcome (str * str) :=
  let '(n, r) := sr_skip_string (L "const") s in
  if 0 <? n then
    let l := right (sr_location_eat_char l space) (Z.of_nat n) in
    match r with
    | [] => Took (space :: L "const", []) l
    | c :: _ => if mem c sr_space then Took (space :: L "const", r) l else no_space l
    end
  else Took ([], space :: s) l.
Lemma last_at c s l : match last_const c s with
  | Ok (added, r) => last_const_loc c s l = Took (added, r) (moved l added)
  | Fail => exists l', last_const_loc c s l = Refused l'
  | UB => last_const_loc c s l = Broken
  end.
Proof.
  unfold last_const, last_const_loc. destruct (skip_string_cases (L "const") s) as [(t & -> & ->)|[Hb ->]].
  - change (0 <? length (L "const")) with true. cbv iota. rewrite moved_const. destruct t as [|x t]; [reflexivity|]. destruct (mem x sr_space); [reflexivity|eexists; reflexivity].
  - cbn [Nat.ltb Nat.leb]. rewrite moved_nil. reflexivity.
Qed.
Lemma name_loc_steps s l : ~ begins (L "??") s -> gdb_name_loc s l =
  and_then (first_part_loc s l) (fun '(buf0, r) l =>
  match sr_parse_char_limited sr_space r with
  | None => no_space l
  | Some (space, s) =>
    and_then (first_const_loc buf0 space s l) (fun '(buf0, space, s) l =>
    and_then (second_part_loc space s l) (fun '(buf1, space, s) l =>
    and_then (last_const_loc space s l) (fun '(suffix, s) l =>
    match buf1 with
    | Some buf1 => Took (buf1 ++ suffix, Some buf0, s) l
    | None => Took (buf0 ++ suffix, None, s) l
    end)))
  end).
Proof.
  intros H. unfold gdb_name_loc, first_part_loc. pose proof (parse_string_contract (L "??") s) as P.
  destruct (sr_parse_string (L "??") s) as [[n r]|]; [destruct P as [-> _]; exfalso; apply H; eexists; reflexivity|].
  match goal with |- and_then ?o _ = _ => destruct o as [[b q] l'|l'|] end; [|reflexivity|reflexivity].
  cbn [and_then]. destruct (name_loop (S (length q)) at_top q) as [[w r]| |]; reflexivity.
Qed.
Lemma name_at s l : match sr_gdb_frame_parse_function_name s with
  | Ok (name, type, r) => exists u, name_counts s u r /\ gdb_name_loc s l = Took (name, type, r) (moved l u)
  | Fail => exists l', gdb_name_loc s l = Refused l'
  | UB => gdb_name_loc s l = Broken
  end.
Proof.
  destruct (begins_dec (L "??") s) as [[r Hq]|Hq].
  { rewrite (name_marks _ _ Hq). exists (L "??"). split; [left; auto|]. subst s. unfold gdb_name_loc. pose proof (parse_string_contract (L "??") (L "??" ++ r)) as P.
    destruct (sr_parse_string (L "??") (L "??" ++ r)) as [[n q]|]; [|exfalso; exact (P r eq_refl)]. destruct P as [E ->]. apply app_inv_head in E. subst q. f_equal. apply (moved_right l (L "??")). cbn. intuition discriminate. }
  rewrite (name_steps _ Hq), (name_loc_steps _ _ Hq). unfold name_parse. pose proof (first_loc s l) as F.
  destruct (first_cases s) as [(v & r & E & Hv & K)|[[_ K]|K]]; rewrite K in *; cbn [bind]; [rewrite F|rewrite F; reflexivity|destruct F as [l' ->]; cbn [and_then]; eauto].
  cbn [and_then]. rewrite limited_space. destruct r as [|c t]; [eexists; reflexivity|]. destruct (mem c sr_space) eqn:Hc; [|eexists; reflexivity]. apply white_iff in Hc.
  pose proof (first_const_at v c t (moved l (flat v))) as G. destruct (first_const v c t) as [[[b c1] t1]| |] eqn:Ec; cbn [bind]; [|destruct G as [l' ->]; cbn [and_then]; eauto|rewrite G; reflexivity].
  destruct G as (added & -> & Hk & ->). cbn [and_then]. clear K F Ec.
  pose proof (second_at c1 t1 (moved (moved l (flat v)) added)) as G.
  destruct (second_cases c1 t1) as [[H K]|[(w & c2 & t2 & -> & Hw & Hc2 & K)|[[H K]|K]]]; rewrite K in *; cbn [bind]; [| |rewrite G; reflexivity|destruct G as [l' ->]; cbn [and_then]; eauto].
  - rewrite G. cbn [and_then]. rewrite (proj2 (last_const_iff c1 t1 [] (c1 :: t1))) by (left; split; [apply no_second_const; exact H|auto]). cbn [bind].
    pose proof (last_at c1 t1 (moved (moved l (flat v)) added)) as G'. rewrite (proj2 (last_const_iff c1 t1 [] (c1 :: t1))) in G' by (left; split; [apply no_second_const; exact H|auto]). rewrite G'. cbn [and_then].
    exists (flat v ++ added). rewrite moved_nil, moved_app. split; [|reflexivity]. right. split; [exact Hq|]. exists v, c, t, added, c1, t1. repeat (split; [assumption|]). left. auto.
  - rewrite G. cbn [and_then]. pose proof (last_at c2 t2 (moved (moved (moved l (flat v)) added) (c1 :: flat w))) as G'.
    destruct (last_const c2 t2) as [[suffix r]| |] eqn:El; cbn [bind]; [|destruct G' as [l' ->]; cbn [and_then]; eauto|rewrite G'; reflexivity]. rewrite G'. cbn [and_then].
    apply last_const_iff in El. exists (flat v ++ added ++ c1 :: flat w ++ suffix). rewrite !moved_app, <- ?app_assoc. split; [|reflexivity].
    right. split; [exact Hq|]. exists v, c, t, added, c1, (w ++ c2 :: t2). repeat (split; [assumption|]). right. exists w, c2, t2. repeat (split; [assumption || reflexivity|]).
    destruct El as [(Hb & -> & ->)|(-> & Hr & ->)]; [left; rewrite app_nil_r; auto|right; auto].
Qed.
Lemma counts_name s u r : name_counts s u r -> exists name type, function_name s name type r.
Proof.
  intros [(-> & _)|(Hq & v & c & t & added & c1 & t1 & E & Hv & Hc & Hk & [(H & _ & ->)|(w & c2 & t2 & E1 & Hw & Hc2 & H)])].
  - exists (L "??"), None. left. auto.
  - exists (v ++ added), None. right. split; [exact Hq|]. exists v, c, t, added, c1, t1. repeat (split; [assumption|]). left. auto.
  - destruct H as [(Hb & _ & ->)|(-> & Hr & _)]; [exists w, (Some (v ++ added))|exists (w ++ c2 :: L "const"), (Some (v ++ added))]; (right; split; [exact Hq|]);
      eexists v, c, t, added, c1, t1; repeat (split; [assumption|]); right; eexists w, c2, _; (split; [exact E1|]); repeat (split; [assumption || reflexivity|]); [left|right]; auto.
Qed.

Lemma name_counts_at s u r l : name_counts s u r -> exists name type, function_name s name type r /\ gdb_name_loc s l = Took (name, type, r) (moved l u).
Proof.
  intros H. destruct (counts_name _ _ _ H) as (name & type & Hn). exists name, type. split; [exact Hn|]. pose proof (name_at s l) as A. rewrite (name_eval _ _ _ _ Hn) in A.
  destruct A as (u' & H' & ->). do 2 f_equal. clear Hn name type.
  destruct H as [(E & ->)|(Hq & v & c & t & added & c1 & t1 & -> & Hv & Hc & Hk & H)]; destruct H' as [(E' & ->)|(Hq' & v' & c' & t' & added' & c1' & t1' & E' & Hv' & Hc' & Hk' & H')].
  - reflexivity.
  - exfalso. apply Hq'. rewrite E. eexists. reflexivity.
  - exfalso. apply Hq. rewrite E'. eexists. reflexivity.
  - pose proof (first_eval _ _ _ Hv Hc) as F. rewrite E', (first_eval _ _ _ Hv' Hc') in F. injection F as -> -> ->. clear E'.
    pose proof (proj2 (first_const_iff v c t (v ++ added) c1 t1) (ex_intro _ added (conj eq_refl Hk))) as F.
    rewrite (proj2 (first_const_iff v c t (v ++ added') c1' t1') (ex_intro _ added' (conj eq_refl Hk'))) in F. injection F as Ea -> ->. apply app_inv_head in Ea as ->.
    destruct H as [(H & -> & ->)|(w & c2 & t2 & -> & Hw & Hc2 & H)]; destruct H' as [(H' & -> & E)|(w' & c2' & t2' & E & Hw' & Hc2' & H')].
    + reflexivity.
    + exfalso. pose proof (second_none c1 _ H) as F. rewrite E, (second_eval c1 _ _ _ Hw' Hc2') in F. discriminate.
    + exfalso. pose proof (second_none c1 _ H') as F. rewrite (second_eval c1 _ _ _ Hw Hc2) in F. discriminate.
    + pose proof (second_eval c1 _ _ _ Hw Hc2) as F. rewrite E, (second_eval c1 _ _ _ Hw' Hc2') in F. injection F as -> -> ->.
      destruct H as [(Hb & -> & ->)|(-> & Hr & ->)]; destruct H' as [(Hb' & -> & E')|(E' & Hr' & ->)]; [reflexivity| | |reflexivity]; exfalso; [apply Hb; rewrite E'|apply Hb']; eexists; reflexivity.
Qed.
