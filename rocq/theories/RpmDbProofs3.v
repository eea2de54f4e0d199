From Verif Require Import Base Types HeapModel HeapSpec HeapListSpec RpmDbModel RpmDbSpec RpmDbProofs RpmDbProofs2.
Open Scope nat_scope.

Lemma lookup_is f t : In (f, t) lookups -> f = fun lib w key err => get_by lib t w key err.
Proof. intros [X|[X|[]]]; injection X as <- <-; reflexivity. Qed.

Lemma by_found f t lib h log key err ps : In (f, t) lookups -> config_fails lib = false ->
  Forall2 describes (matches lib t key (length key)) ps ->
  exists h' p, f (Some lib) (h, log) key err = Ok ((h', log ++ session (released (6 * length ps))), p, err) /\ found h h' p ps.
Proof.
  intros I C D. rewrite (lookup_is _ _ I). unfold get_by, say. rewrite C. cbn [fst snd].
  destruct (loop_ok h err _ _ h ((log ++ [SetNew]) ++ [IterNew]) None [] D (found_nil h)) as (h' & q & E & F).
  rewrite E. cbn [bind fst snd]. exists h', q. split; [|exact F].
  assert (Ln : length (matches lib t key (length key)) = length ps) by (clear -D; induction D; cbn; congruence).
  unfold session. rewrite Ln, <- !app_assoc. reflexivity.
Qed.
Lemma by_none f t lib h log key err : In (f, t) lookups -> config_fails lib = false -> matches lib t key (length key) = [] ->
  f (Some lib) (h, log) key err = Ok ((h, log ++ session []), None, err).
Proof.
  intros I C M. rewrite (lookup_is _ _ I). unfold get_by, say. rewrite C, M. cbn [fst snd headers_loop bind]. unfold session.
  rewrite <- !app_assoc. reflexivity.
Qed.
Lemma by_lacks f t lib h log key err hs1 hd hs2 ps i m word : In (f, t) lookups -> config_fails lib = false ->
  matches lib t key (length key) = hs1 ++ hd :: hs2 -> Forall2 describes hs1 ps -> lacks hd i m word ->
  exists h' a evs, f (Some lib) (h, log) key err = Ok ((h', log ++ session (released (6 * length ps) ++ evs)), None, Some a) /\
    only_message h h' a (L "Failed to find package " ++ word ++ L ".") /\ says i (no_tag hd m) evs.
Proof.
  intros I C M D La. rewrite (lookup_is _ _ I). unfold get_by, say. rewrite C, M. cbn [fst snd].
  destruct (loop_lacks h err hd hs2 i m word La hs1 ps h ((log ++ [SetNew]) ++ [IterNew]) None [] D (found_nil h)) as (h' & a & evs & E & O & V).
  rewrite E. cbn [bind fst snd]. exists h', a, evs. split; [|split; assumption].
  assert (Ln : length hs1 = length ps) by (clear -D; induction D; cbn; congruence).
  unfold session. rewrite Ln, <- !app_assoc. reflexivity.
Qed.
Lemma message_alone h msg : only_message h (h ++ [CStr msg]) (length h) msg.
Proof.
  split; [split; [rewrite app_length; lia|intros x X; apply nth_error_app1; exact X]|].
  split; [rewrite app_length; cbn; lia|]. split; [rewrite nth_error_app2, Nat.sub_diag by lia; reflexivity|].
  intros x X Ne. rewrite app_length in X. cbn in X. lia.
Qed.
Lemma by_unavailable f t lib h log key err : In (f, t) lookups -> match lib with Some lib => config_fails lib = true | None => True end ->
  exists h' a, f lib (h, log) key err = Ok ((h', log), None, Some a) /\
    only_message h h' a (match lib with Some _ => L "Failed to read RPM configuration files." | None => L "satyr compiled without rpm" end).
Proof.
  intros I C. rewrite (lookup_is _ _ I). unfold get_by, alloc. destruct lib as [lib|].
  - rewrite C. eexists _, _. split; [reflexivity|]. apply message_alone.
  - eexists _, _. split; [reflexivity|]. apply message_alone.
Qed.

Lemma by_no_epoch f t lib h log key err hd : In (f, t) lookups -> config_fails lib = false ->
  In hd (matches lib t key (length key)) -> ~ gives hd EPOCH ->
  exists h' log' a, f (Some lib) (h, log) key err = Ok ((h', log'), None, Some a).
Proof.
  intros I C M G. destruct (answer_cases (matches lib t key (length key))) as [(ps & D)|(hs1 & hd1 & hs2 & ps & i & m & w & E & D & La)].
  - exfalso. clear -D M G. induction D as [|x p hs ps D1 D2 IH]; [destruct M|]. destruct M as [->|M]; [|exact (IH M)].
    destruct D1 as (n & e & v & r & a & tm & _ & X & _). apply G. exists e. exact X.
  - destruct (by_lacks f t lib h log key err hs1 hd1 hs2 ps i m w I C E D La) as (h' & a & evs & X & _). exists h', (log ++ session (released (6 * length ps) ++ evs)), a. exact X.
Qed.
Lemma times_app e a b : times e (a ++ b) = times e a + times e b.
Proof. unfold times. apply count_occ_app. Qed.
Lemma times_released n : times DataNew (released n) = n /\ times DataFree (released n) = n.
Proof. unfold times. induction n as [|n (A & B)]; [split; reflexivity|]. cbn [released count_occ]. cbn. split; congruence. Qed.
Lemma by_leak f t lib h key err hs1 hd hs2 ps i m word : In (f, t) lookups -> config_fails lib = false ->
  matches lib t key (length key) = hs1 ++ hd :: hs2 -> Forall2 describes hs1 ps -> lacks hd i m word -> no_tag hd m ->
  exists h' log' a, f (Some lib) (h, []) key err = Ok ((h', log'), None, Some a) /\ times DataNew log' = S (times DataFree log').
Proof.
  intros I C M D La Nt. destruct (by_lacks f t lib h [] key err hs1 hd hs2 ps i m word I C M D La) as (h' & a & evs & E & _ & V & _).
  eexists _, _, _. split; [exact E|]. rewrite (V Nt). unfold session. cbn [app]. 
  change (SetNew :: IterNew :: ?x) with ([SetNew; IterNew] ++ x). rewrite !times_app.
  destruct (times_released (6 * length ps)) as (-> & ->). destruct (times_released i) as (-> & ->). unfold times. cbn. lia.
Qed.
