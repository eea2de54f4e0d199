From Verif Require Import Base Types UtilsProofs JavaParseModel JavaParseSpec JavaParseProofs FunsModel FunsSpec.
Open Scope nat_scope.

Lemma strchr_none : forall c s, ~ In c s -> strchr c s = None.
Proof.
  induction s as [|x r IH]; intros H; [reflexivity|]. simpl. destruct (Ascii.eqb_spec x c) as [->|_].
  - exfalso. apply H. left. reflexivity.
  - apply IH. intro. apply H. right. assumption.
Qed.
Lemma strchr_first : forall c a b, ~ In c a -> strchr c (a ++ c :: b) = Some (c :: b).
Proof.
  induction a as [|x a IH]; intros b H; simpl.
  - rewrite Ascii.eqb_refl. reflexivity.
  - destruct (Ascii.eqb_spec x c) as [->|_]; [exfalso; apply H; left; reflexivity|]. apply IH. intro. apply H. right. assumption.
Qed.
Lemma first_of : forall (c : ascii) s, In c s -> exists a b, s = a ++ c :: b /\ ~ In c a.
Proof.
  induction s as [|x r IH]; intros H; [destruct H|]. destruct (Ascii.eqb_spec x c) as [->|N].
  - exists [], r. split; [reflexivity|intros []].
  - destruct H as [H|H]; [congruence|]. destruct (IH H) as (a & b & -> & A). exists (x :: a), b. split; [reflexivity|].
    intros [E|E]; [congruence|apply A, E].
Qed.
Lemma last_of : forall (c : ascii) s, In c s -> exists a b, s = a ++ c :: b /\ ~ In c b.
Proof.
  induction s as [|x r IH]; intros H; [destruct H|]. destruct (in_dec ascii_dec c r) as [R|R].
  - destruct (IH R) as (a & b & -> & A). exists (x :: a), b. split; [reflexivity|exact A].
  - destruct H as [H|H]; [|contradiction]. subst x. exists [], r. split; [reflexivity|exact R].
Qed.

Lemma last_space_none : forall fuel x a rest libname, ~ In sp a ->
  last_space (S fuel) (x :: a ++ nl :: rest) libname (nl :: rest) = Ok libname.
Proof.
  intros fuel x a rest libname H. cbn [last_space advance bind].
  destruct (in_dec ascii_dec sp rest) as [R|R].
  - destruct (first_of sp rest R) as (p & q & -> & P).
    replace (a ++ nl :: p ++ sp :: q) with ((a ++ nl :: p) ++ sp :: q) by (rewrite <- app_assoc; reflexivity).
    rewrite strchr_first by (apply in_app_not; split; [exact H|intros [E|E]; [discriminate|apply P, E]]).
    replace (length (sp :: q) <? length (nl :: p ++ sp :: q)) with true; [reflexivity|].
    symmetry. apply Nat.ltb_lt. cbn [length]. rewrite app_length. cbn [length]. lia.
  - rewrite strchr_none; [reflexivity|]. apply in_app_not; split; [exact H|]. intros [E|E]; [discriminate|apply R, E].
Qed.
Lemma last_space_some : forall p fuel x q rest libname, length p < fuel -> ~ In sp q ->
  last_space (S fuel) (x :: p ++ sp :: q ++ nl :: rest) libname (nl :: rest) = Ok (sp :: q ++ nl :: rest).
Proof.
  intros p. remember (length p) as n eqn:E. revert p E.
  induction n as [n IH] using lt_wf_ind. intros p E fuel x q rest libname F H. cbn [last_space advance bind].
  destruct (in_dec ascii_dec sp p) as [P|P].
  - destruct (first_of sp p P) as (a & b & -> & A).
    replace ((a ++ sp :: b) ++ sp :: q ++ nl :: rest) with (a ++ sp :: b ++ sp :: q ++ nl :: rest) by (rewrite <- app_assoc; reflexivity).
    rewrite strchr_first by exact A.
    replace (length (sp :: b ++ sp :: q ++ nl :: rest) <? length (nl :: rest)) with false
      by (symmetry; apply Nat.ltb_ge; cbn [length]; rewrite !app_length; cbn [length]; rewrite !app_length; cbn [length]; lia).
    rewrite app_length in E. cbn [length] in E. destruct fuel as [|fuel]; [lia|].
    apply (IH (length b)); [lia|reflexivity|lia|exact H].
  - rewrite strchr_first by exact P.
    replace (length (sp :: q ++ nl :: rest) <? length (nl :: rest)) with false
      by (symmetry; apply Nat.ltb_ge; cbn [length]; rewrite !app_length; cbn [length]; lia).
    destruct fuel as [|fuel]; [lia|]. apply last_space_none, H.
Qed.

Lemma parse_line_eval : forall fuel number line rest name lib, line <> [] -> ~ In nl (tl line) -> fun_line line name lib ->
  parse_funs_loop (S fuel) number (line ++ nl :: rest) =
    if (number =? 2147483647)%Z then UB else
    do frames <- parse_funs_loop fuel (number + 1) rest;
    Ok (mk_gdb_frame (Some name) None number None 4294967295 false ulong_max lib :: frames).
Proof.
  intros fuel number line rest name lib H1 H2 H3. destruct line as [|x a]; [congruence|]. cbn [tl] in H2.
  assert (E : exists libname, last_space (S (length ((x :: a) ++ nl :: rest))) ((x :: a) ++ nl :: rest) (nl :: rest) (nl :: rest) = Ok libname /\
      between ((x :: a) ++ nl :: rest) libname = name /\
      (if length (nl :: rest) + 1 <? length libname
       then Some (firstn (length libname - length (nl :: rest) - 1) (skipn 1 libname)) else None) = lib).
  { destruct H3 as [(E & NS & ->)|(q & E & NE & NS & O)].
    - cbn [tl] in NS. exists (nl :: rest). split; [apply (last_space_none _ x a rest), NS|]. split.
      + subst name. apply between_app.
      + replace (length (nl :: rest) + 1 <? length (nl :: rest)) with false; [reflexivity|]. symmetry. apply Nat.ltb_ge. lia.
    - destruct name as [|y p]; [congruence|]. injection E as <- ->. exists (sp :: q ++ nl :: rest). split; [|split].
      + replace ((x :: p ++ sp :: q) ++ nl :: rest) with (x :: p ++ sp :: q ++ nl :: rest) by (cbn [app]; rewrite <- app_assoc; reflexivity).
        apply last_space_some; [cbn [length]; rewrite app_length; lia|exact NS].
      + replace ((x :: p ++ sp :: q) ++ nl :: rest) with ((x :: p) ++ sp :: q ++ nl :: rest) by (cbn [app]; rewrite <- app_assoc; reflexivity).
        apply between_app.
      + cbn [skipn length]. rewrite app_length. cbn [length]. destruct q as [|z q]; cbn [length].
        * cbn [optional] in O. subst lib. replace (S (length rest) + 1 <? S (0 + S (length rest))) with false; [reflexivity|]. symmetry. apply Nat.ltb_ge. lia.
        * cbn [optional] in O. subst lib. replace (S (length rest) + 1 <? S (S (length q) + S (length rest))) with true by (symmetry; apply Nat.ltb_lt; lia).
          f_equal. replace (S (S (length q) + S (length rest)) - S (length rest) - 1) with (length (z :: q)) by (cbn [length]; lia).
          rewrite firstn_app, Nat.sub_diag, firstn_all. cbn [firstn]. apply app_nil_r. }
  destruct E as (libname & E1 & E2 & E3).
  cbn [parse_funs_loop]. change (at_end ((x :: a) ++ nl :: rest)) with false. cbn iota.
  change (advance ((x :: a) ++ nl :: rest)) with (Ok (a ++ nl :: rest)). cbn [bind].
  rewrite strchr_first by exact H2. rewrite E1. cbn [bind]. cbv zeta. rewrite E3, E2.
  change (advance (nl :: rest)) with (Ok rest). cbn [bind]. reflexivity.
Qed.
Lemma parse_end_eval : forall fuel number s, ~ In nl (tl s) -> parse_funs_loop (S fuel) number s = Ok [].
Proof.
  intros fuel number [|x a] H; [reflexivity|]. cbn [tl] in H. cbn [parse_funs_loop at_end advance bind]. rewrite strchr_none by exact H. reflexivity.
Qed.
Lemma parse_loop_eval : forall s l, funs s l -> forall fuel number, length s < fuel -> (0 <= number <= 2147483647)%Z ->
  parse_funs_loop fuel number s = if (number + Z.of_nat (length l) <=? 2147483647)%Z then Ok (numbered number l) else UB.
Proof.
  induction 1 as [s H|line rest name lib l H1 H2 H3 _ IH]; intros fuel number F N; (destruct fuel as [|fuel]; [lia|]).
  - rewrite parse_end_eval by exact H. cbn [length]. replace (number + Z.of_nat 0 <=? 2147483647)%Z with true; [reflexivity|]. symmetry. apply Z.leb_le. lia.
  - rewrite parse_line_eval with (name := name) (lib := lib) by assumption. rewrite app_length in F. cbn [length] in F.
    destruct (Z.eqb_spec number 2147483647) as [->|NE].
    + cbn [length]. replace (2147483647 + Z.of_nat (S (length l)) <=? 2147483647)%Z with false; [reflexivity|]. symmetry. apply Z.leb_gt. lia.
    + rewrite IH by lia. cbn [length]. replace (number + 1 + Z.of_nat (length l))%Z with (number + Z.of_nat (S (length l)))%Z by lia.
      destruct (_ <=? _)%Z; reflexivity.
Qed.

Lemma fun_line_total : forall line, line <> [] -> exists name lib, fun_line line name lib.
Proof.
  intros [|x a] H; [congruence|]. destruct (in_dec ascii_dec sp a) as [S|S].
  - destruct (last_of sp a S) as (p & q & -> & Q). exists (x :: p), (match q with [] => None | _ => Some q end). right. exists q.
    split; [reflexivity|]. split; [discriminate|]. split; [exact Q|]. destruct q; reflexivity.
  - exists (x :: a), None. left. split; [reflexivity|]. split; [exact S|reflexivity].
Qed.
Lemma funs_total : forall s, exists l, funs s l.
Proof.
  intros s. remember (length s) as n eqn:E. revert s E. induction n as [n IH] using lt_wf_ind. intros s ->.
  destruct (in_dec ascii_dec nl (tl s)) as [H|H].
  - destruct s as [|x a]; [destruct H|]. cbn [tl] in H. destruct (first_of nl a H) as (p & q & -> & P).
    destruct (fun_line_total (x :: p)) as (name & lib & F); [discriminate|].
    destruct (IH (length q)) with (s := q) as (l & Q); [cbn [length]; rewrite app_length; cbn [length]; lia|reflexivity|].
    exists ((name, lib) :: l). apply (funs_line (x :: p) q); [discriminate|exact P|exact F|exact Q].
  - exists []. apply funs_end, H.
Qed.

Definition funs_thread (l : list (str * option str)) : gdb_thread := mk_gdb_thread 4294967295 4294967295 (numbered 0 l).
Lemma parse_eval : forall s l, funs s l ->
  sr_gdb_thread_parse_funs (Some s) = if (Z.of_nat (length l) <=? 2147483647)%Z then Ok (funs_thread l) else UB.
Proof.
  intros s l H. unfold sr_gdb_thread_parse_funs. rewrite (parse_loop_eval s l H) by lia. rewrite Z.add_0_l. destruct (_ <=? _)%Z; reflexivity.
Qed.
Lemma parse_exact : forall s t, sr_gdb_thread_parse_funs (Some s) = Ok t <->
  exists l, funs s l /\ (Z.of_nat (length l) < 2147483648)%Z /\ t = mk_gdb_thread 4294967295 4294967295 (numbered 0 l).
Proof.
  intros s t. split.
  - intros H. destruct (funs_total s) as (l & F). rewrite (parse_eval s l F) in H. destruct (Z.leb_spec (Z.of_nat (length l)) 2147483647); [|discriminate].
    injection H as <-. exists l. split; [exact F|]. split; [lia|reflexivity].
  - intros (l & F & N & ->). rewrite (parse_eval s l F). replace (Z.of_nat (length l) <=? 2147483647)%Z with true; [reflexivity|]. symmetry. apply Z.leb_le. lia.
Qed.
Lemma parse_ub : forall s, sr_gdb_thread_parse_funs (Some s) = UB <-> exists l, funs s l /\ (2147483648 <= Z.of_nat (length l))%Z.
Proof.
  intros s. split.
  - intros H. destruct (funs_total s) as (l & F). exists l. split; [exact F|]. rewrite (parse_eval s l F) in H.
    destruct (Z.leb_spec (Z.of_nat (length l)) 2147483647); [discriminate|lia].
  - intros (l & F & N). rewrite (parse_eval s l F). replace (Z.of_nat (length l) <=? 2147483647)%Z with false; [reflexivity|]. symmetry. apply Z.leb_gt. lia.
Qed.
Lemma funs_length : forall s l, funs s l -> 2 * length l <= length s.
Proof.
  induction 1 as [|line rest name lib l H1 H2 H3 _ IH]; [simpl; lia|]. rewrite app_length. cbn [length]. destruct line; [congruence|]. cbn [length]. lia.
Qed.
Lemma parse_safe : forall s, (Z.of_nat (length s) < 4294967296)%Z -> exists t, sr_gdb_thread_parse_funs (Some s) = Ok t.
Proof.
  intros s H. destruct (funs_total s) as (l & F). pose proof (funs_length s l F). exists (funs_thread l). apply parse_exact. exists l. split; [exact F|]. split; [lia|reflexivity].
Qed.

(** ** Back from a thread. *)
Definition show_fun (e : str * option str) : str := fst e ++ match snd e with Some lib => sp :: lib | None => [] end ++ [nl].
Lemma format_named : forall t, sr_gdb_thread_format_funs t = concat (map show_fun (named t)).
Proof.
  intros [n i fs]. unfold sr_gdb_thread_format_funs, named. cbn [gt_frames]. induction fs as [|f fs IH]; [reflexivity|].
  cbn [map concat flat_map]. rewrite map_app, concat_app, <- IH. f_equal. unfold format_fun, show_fun.
  destruct (gf_function_name f) as [name|]; [|reflexivity]. cbn [map concat fst snd]. rewrite app_nil_r. destruct (gf_library_name f); reflexivity.
Qed.
Lemma tl_no : forall (c : ascii) s, ~ In c s -> ~ In c (tl s).
Proof. intros c [|x s] H E; [destruct E|]. apply H. right. exact E. Qed.
Lemma funs_show : forall l, Forall listable l -> funs (concat (map show_fun l)) l.
Proof.
  induction 1 as [|[name lib] l (H1 & H2 & H3) _ IH]; [apply funs_end; intros []|].
  cbn [map concat fst snd] in *. unfold show_fun at 1. cbn [fst snd].
  replace ((name ++ match lib with Some q => sp :: q | None => [] end ++ [nl]) ++ concat (map show_fun l))
    with ((name ++ match lib with Some q => sp :: q | None => [] end) ++ nl :: concat (map show_fun l))
    by (rewrite <- !app_assoc; reflexivity).
  apply funs_line; [destruct name; [congruence|discriminate]| | |exact IH].
  - apply tl_no, in_app_not; split; [exact H2|]. destruct lib as [q|]; [|intros []]. destruct H3 as (_ & _ & H3). intros [E|E]; [discriminate|apply H3, E].
  - destruct lib as [q|].
    + right. exists q. split; [reflexivity|]. split; [exact H1|]. destruct H3 as (Q & S & _). split; [exact S|]. destruct q; [congruence|reflexivity].
    + left. rewrite app_nil_r. split; [reflexivity|]. split; [apply tl_no, H3|reflexivity].
Qed.
Lemma named_numbered : forall l n i k, named (mk_gdb_thread n i (numbered k l)) = l.
Proof.
  unfold named. cbn [gt_frames]. induction l as [|[name lib] l IH]; intros n i k; [reflexivity|]. cbn [numbered flat_map gf_function_name gf_library_name app]. f_equal. apply (IH n i).
Qed.
Lemma roundtrip : forall t, Forall listable (named t) -> (Z.of_nat (length (named t)) < 2147483648)%Z ->
  exists t', sr_gdb_thread_parse_funs (Some (sr_gdb_thread_format_funs t)) = Ok t' /\ named t' = named t /\ length (gt_frames t') = length (named t).
Proof.
  intros t H N. exists (funs_thread (named t)). split; [|split].
  - apply parse_exact. exists (named t). split; [|split; [exact N|reflexivity]]. rewrite format_named. apply funs_show, H.
  - apply named_numbered.
  - unfold funs_thread. cbn [gt_frames]. generalize 0%Z. induction (named t) as [|[name lib] l IH]; intros k; [reflexivity|]. cbn [numbered length]. f_equal.
    apply IH; [inversion H; assumption|cbn [length] in N; lia].
Qed.
