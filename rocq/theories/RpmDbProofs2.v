From Verif Require Import Base Types HeapModel HeapSpec HeapProofs HeapProofs2 HeapListModel HeapListSpec HeapListProofs HeapListProofs2 RpmDbModel RpmDbSpec RpmDbProofs.
Open Scope nat_scope.

Lemma info_lacks h log hd err i t word : lacks hd i t word ->
  exists h' m evs, header_to_rpm_info (h, log) hd err = Ok ((h', log ++ evs), None, Some m) /\
    only_message h h' m (L "Failed to find package " ++ word ++ L ".") /\ says i (no_tag hd t) evs.
Proof.
  intros (M & G & B). unfold header_to_rpm_info, package_new, alloc. cbn [fst snd].
  change (h ++ [CObj KRpm [0; 0; 0]%Z [None; None; None; None] [None] None [] None]) with (lay h [0; 0; 0]%Z [] []).
  destruct i as [|i].
  { injection M as <- <-. destruct (get_string_fails h 0 0 [] log hd NAME 0 eq_refl ltac:(cbn; lia) eq_refl G) as (evs & E & V1 & V2).
    rewrite E. cbn [bind negb fst snd]. destruct (name_fails h (log ++ evs)) as (h' & m & E' & O). exists h', m, evs. split; [exact E'|]. split; [exact O|].
    split; assumption. }
  destruct (B 0 _ _ ltac:(lia) eq_refl) as (n & E1).
  rewrite (get_string_ok h 0 0 [] log hd NAME n 0 eq_refl ltac:(cbn; lia) E1). cbn [bind negb app].
  destruct i as [|i].
  { injection M as <- <-. match goal with |- context [header_get_uint32 ?w] => destruct (get_uint32_fails w hd EPOCH eq_refl G) as (evs & E & V1 & V2) end.
    rewrite E. cbn [fst snd]. rewrite <- app_assoc. destruct (fails_ok h 0 0 [n] (log ++ [DataNew; DataFree] ++ evs) (L "Failed to find package epoch.") ltac:(cbn; lia)) as (h' & m & E' & O).
    exists h', m, ([DataNew; DataFree] ++ evs). split; [exact E'|]. split; [exact O|]. split; intros X; [rewrite V1 by exact X|rewrite V2 by exact X]; reflexivity. }
  destruct (B 1 _ _ ltac:(lia) eq_refl) as (e & E2).
  rewrite (get_uint32_ok _ _ _ _ E2). cbn [fst snd]. rewrite (set_num h 0 0 _ 0 e) by lia. cbn [bind set_at].
  destruct i as [|i].
  { injection M as <- <-. match goal with |- context [header_get_string (_, ?l)] => destruct (get_string_fails h e 0 [n] l hd VERSION 1 eq_refl ltac:(cbn; lia) eq_refl G) as (evs & E & V1 & V2) end.
    rewrite E. cbn [bind negb fst snd]. rewrite <- !app_assoc. destruct (fails_ok h e 0 [n] (log ++ released 2 ++ evs) (L "Failed to find package version.") ltac:(cbn; lia)) as (h' & m & E' & O).
    exists h', m, (released 2 ++ evs). split; [exact E'|]. split; [exact O|]. split; intros X; [rewrite V1 by exact X|rewrite V2 by exact X]; reflexivity. }
  destruct (B 2 _ _ ltac:(lia) eq_refl) as (v & E3).
  rewrite (get_string_ok h e 0 [n] _ hd VERSION v 1 eq_refl ltac:(cbn; lia) E3). cbn [bind negb app].
  destruct i as [|i].
  { injection M as <- <-. match goal with |- context [header_get_string (_, ?l)] => destruct (get_string_fails h e 0 [n; v] l hd RELEASE 2 eq_refl ltac:(cbn; lia) eq_refl G) as (evs & E & V1 & V2) end.
    rewrite E. cbn [bind negb fst snd]. rewrite <- !app_assoc. destruct (fails_ok h e 0 [n; v] (log ++ released 3 ++ evs) (L "Failed to find package release.") ltac:(cbn; lia)) as (h' & m & E' & O).
    exists h', m, (released 3 ++ evs). split; [exact E'|]. split; [exact O|]. split; intros X; [rewrite V1 by exact X|rewrite V2 by exact X]; reflexivity. }
  destruct (B 3 _ _ ltac:(lia) eq_refl) as (r & E4).
  rewrite (get_string_ok h e 0 [n; v] _ hd RELEASE r 2 eq_refl ltac:(cbn; lia) E4). cbn [bind negb app].
  destruct i as [|i].
  { injection M as <- <-. match goal with |- context [header_get_string (_, ?l)] => destruct (get_string_fails h e 0 [n; v; r] l hd ARCH 3 eq_refl ltac:(cbn; lia) eq_refl G) as (evs & E & V1 & V2) end.
    rewrite E. cbn [bind negb fst snd]. rewrite <- !app_assoc. destruct (fails_ok h e 0 [n; v; r] (log ++ released 4 ++ evs) (L "Failed to find package architecture.") ltac:(cbn; lia)) as (h' & m & E' & O).
    exists h', m, (released 4 ++ evs). split; [exact E'|]. split; [exact O|]. split; intros X; [rewrite V1 by exact X|rewrite V2 by exact X]; reflexivity. }
  destruct (B 4 _ _ ltac:(lia) eq_refl) as (a & E5).
  rewrite (get_string_ok h e 0 [n; v; r] _ hd ARCH a 3 eq_refl ltac:(cbn; lia) E5). cbn [bind negb app].
  destruct i as [|i]; [|destruct i; discriminate M].
  injection M as <- <-. match goal with |- context [header_get_uint32 ?w] => destruct (get_uint32_fails w hd INSTALLTIME eq_refl G) as (evs & E & V1 & V2) end.
  rewrite E. cbn [fst snd]. rewrite <- !app_assoc. destruct (fails_ok h e 0 [n; v; r; a] (log ++ released 5 ++ evs) (L "Failed to find package installation time.") ltac:(cbn; lia)) as (h' & m & E' & O).
  exists h', m, (released 5 ++ evs). split; [exact E'|]. split; [exact O|]. split; intros X; [rewrite V1 by exact X|rewrite V2 by exact X]; reflexivity.
Qed.

(** Every header either describes a package or lacks a first member *)
Lemma gives_dec hd t : {gives hd t} + {~ gives hd t}.
Proof.
  unfold gives. destruct (numeric t).
  - destruct (h_uint32 hd t) as [[z|]|]; [left; exists z; reflexivity|right; intros (z & X); discriminate X|right; intros (z & X); discriminate X].
  - destruct (h_string hd t) as [[z|]|]; [left; exists z; reflexivity|right; intros (z & X); discriminate X|right; intros (z & X); discriminate X].
Qed.
Lemma header_cases hd : (exists p, describes hd p) \/ (exists i t word, lacks hd i t word).
Proof.
  destruct (gives_dec hd NAME) as [G1|G]; [|right; exists 0, NAME, (L "name"); split; [reflexivity|]; split; [exact G|]; intros; lia].
  destruct (gives_dec hd EPOCH) as [G2|G]; [|right; exists 1, EPOCH, (L "epoch"); split; [reflexivity|]; split; [exact G|]; intros [|j] t' w' J M; [injection M as <- <-; assumption|lia]].
  destruct (gives_dec hd VERSION) as [G3|G]; [|right; exists 2, VERSION, (L "version"); split; [reflexivity|]; split; [exact G|]; intros [|[|j]] t' w' J M; [injection M as <- <-; assumption..|lia]].
  destruct (gives_dec hd RELEASE) as [G4|G]; [|right; exists 3, RELEASE, (L "release"); split; [reflexivity|]; split; [exact G|]; intros [|[|[|j]]] t' w' J M; [injection M as <- <-; assumption..|lia]].
  destruct (gives_dec hd ARCH) as [G5|G]; [|right; exists 4, ARCH, (L "architecture"); split; [reflexivity|]; split; [exact G|]; intros [|[|[|[|j]]]] t' w' J M; [injection M as <- <-; assumption..|lia]].
  destruct (gives_dec hd INSTALLTIME) as [G6|G]; [|right; exists 5, INSTALLTIME, (L "installation time"); split; [reflexivity|]; split; [exact G|]; intros [|[|[|[|[|j]]]]] t' w' J M; [injection M as <- <-; assumption..|lia]].
  left. destruct G1 as (n & E1), G2 as (e & E2), G3 as (v & E3), G4 as (r & E4), G5 as (a & E5), G6 as (t & E6).
  eexists. exists n, e, v, r, a, t. repeat split; try eassumption.
Qed.
Lemma describes_not_lacks hd p i t word : describes hd p -> lacks hd i t word -> False.
Proof.
  intros (n & e & v & r & a & t0 & E1 & E2 & E3 & E4 & E5 & E6 & _) (M & G & _). apply G. unfold gives.
  destruct i as [|[|[|[|[|[|i]]]]]]; [injection M as <- <-; cbn [numeric]; eexists; eassumption..|destruct i; discriminate M].
Qed.

(** ** The loop *)
Lemma released_app a b : released (a + b) = released a ++ released b.
Proof. induction a; cbn; [reflexivity|now rewrite IHa]. Qed.
Lemma found_nil h : found h h None [].
Proof. split; [split; [lia|reflexivity]|]. exists []. split; [constructor|]. split; [constructor|]. split; [constructor|]. intros x. cbn. split; [tauto|lia]. Qed.
Lemma append_package h0 h p ps e t n v r a : found h0 h p ps ->
  exists h' q, list_append (lay h [e; t; 0%Z] [n; v; r; a] []) p (Some (length h)) = Ok (h', q) /\
    found h0 h' q (ps ++ [mk_rpm_package (Some n) e (Some v) (Some r) (Some a) t ROLE_UNKNOWN []]).
Proof.
  intros ((Le & Ol) & l & O & P & N & F).
  pose proof (lay_own h [e; t; 0%Z] [n; v; r; a] [] ltac:(cbn; lia)) as On.
  set (h1 := lay h [e; t; 0%Z] [n; v; r; a] []) in *. set (en := (length h, _, _)) in On.
  destruct (lay_foot h 5) as (N5 & F5). assert (L1 : length h1 = length h + 5) by (unfold h1; rewrite lay_length; cbn; lia).
  assert (O1 : own_list h1 KRpm p l).
  { eapply own_list_same; [exact O|]. intros x Hx. apply F in Hx. unfold h1. apply lay_old. lia. }
  assert (O2 : own_list h1 KRpm (Some (length h)) [en]).
  { change (length h) with (e_addr en). econstructor; [exact On|constructor]. }
  assert (Fe : foot [en] = map (fun i => length h + i) (seq 0 5)) by (unfold foot, en; cbn [map concat e_foot snd]; rewrite app_nil_r; reflexivity).
  assert (S2 : separate (foot l ++ foot [en])).
  { rewrite Fe. apply NoDup_app2; [exact N|exact N5|]. intros x X Y. apply F in X. apply F5 in Y. lia. }
  destruct (append_ok h1 KRpm p (Some (length h)) l [en] O1 O2 S2) as (h' & q & E & O' & _ & So & Le').
  exists h', q. split; [exact E|]. split.
  - split; [lia|]. intros x X. rewrite So.
    + unfold h1. rewrite (proj2 (lay_old h _ _ _)) by lia. apply Ol. exact X.
    + intros Y. assert (Z : In x (foot l)).
      { unfold end_of in Y. destruct (rev l) as [|e0 r0] eqn:R; [destruct Y|]. destruct Y as [<-|[]].
        assert (I : In e0 l) by (apply in_rev; rewrite R; left; reflexivity).
        unfold foot. apply in_concat. exists (e_foot e0). split; [apply in_map; exact I|].
        clear -O I. revert p O. induction l as [|b l IH]; intros p O; [destruct I|]. inversion O as [|? n ? ? Oe Ol]; subst. destruct I as [->|I]; [eapply own_foot; exact Oe|eapply IH; eassumption]. }
      apply F in Z. lia.
  - exists (l ++ [en]). split; [exact O'|]. split; [|split].
    + apply Forall2_app; [exact P|]. constructor; [|constructor]. unfold en. cbn [e_val fst snd].
      exact (is_package_intro e t 0%Z (Some n) (Some v) (Some r) (Some a) [] [] (Forall2_nil _)).
    + rewrite foot_app. exact S2.
    + intros x. rewrite foot_app, Fe, in_app_iff, F, F5, Le', L1. lia.
Qed.
Lemma loop_ok h0 err : forall hs qs h log p ps, Forall2 describes hs qs -> found h0 h p ps ->
  exists h' q, headers_loop (h, log) hs p err = Ok ((h', log ++ released (6 * length hs)), q, err) /\ found h0 h' q (ps ++ qs).
Proof.
  induction hs as [|hd hs IH]; intros qs h log p ps D F; inversion D as [|? q0 ? qs' D1 D2]; subst.
  - exists h, p. cbn [headers_loop length Nat.mul released]. rewrite !app_nil_r. split; [reflexivity|exact F].
  - cbn [headers_loop]. destruct (info_ok h log hd q0 err D1) as (n & e & v & r & a & t & -> & E). rewrite E. cbn [bind fst snd].
    destruct (append_package h0 h p ps e t n v r a F) as (h1 & p1 & E1 & F1). rewrite E1. cbn [bind].
    destruct (IH qs' h1 (log ++ released 6) p1 _ D2 F1) as (h' & q & E2 & F2). exists h', q. rewrite E2. split.
    + rewrite <- app_assoc, <- released_app. cbn [length]. replace (6 * S (length hs)) with (6 + 6 * length hs) by lia. reflexivity.
    + rewrite <- app_assoc in F2. exact F2.
Qed.
Lemma loop_lacks h0 err hd hs2 i t word : lacks hd i t word -> forall hs qs h log p ps, Forall2 describes hs qs -> found h0 h p ps ->
  exists h' m evs, headers_loop (h, log) (hs ++ hd :: hs2) p err = Ok ((h', log ++ released (6 * length hs) ++ evs), None, Some m) /\
    only_message h0 h' m (L "Failed to find package " ++ word ++ L ".") /\ says i (no_tag hd t) evs.
Proof.
  intros La. induction hs as [|hd1 hs IH]; intros qs h log p ps D F; inversion D as [|? q0 ? qs' D1 D2]; subst.
  - cbn [app headers_loop]. destruct (info_lacks h log hd err i t word La) as (h1 & m & evs & E & (Ok1 & Mr & Mm & Fr) & V). rewrite E. cbn [bind fst snd].
    destruct F as ((Le & Ol) & l & O & P & N & F). destruct Ok1 as (Le1 & Ol1).
    assert (O1 : own_list h1 KRpm p l).
    { eapply own_list_same; [exact O|]. intros x Hx. apply F in Hx. apply Ol1. lia. }
    destruct (sr_package_free_ok h1 p l ps O1 P N) as (h2 & E2 & Le2 & So & Fd). rewrite E2. cbn [bind].
    exists h2, m, evs. split; [reflexivity|]. split; [|exact V].
    assert (Nm : ~ In m (foot l)) by (intros X; apply F in X; lia).
    split; [split; [lia|]|].
    + intros x X. rewrite So by (intros Y; apply F in Y; lia). rewrite Ol1 by lia. apply Ol. exact X.
    + split; [lia|]. split; [rewrite So by exact Nm; exact Mm|]. intros x X Ne.
      destruct (le_lt_dec (length h) x) as [B|B].
      * unfold freed. rewrite So by (intros Y; apply F in Y; lia). apply Fr; [lia|exact Ne].
      * apply Fd. apply F. lia.
  - cbn [app headers_loop]. destruct (info_ok h log hd1 q0 err D1) as (n & e & v & r & a & t1 & -> & E). rewrite E. cbn [bind fst snd].
    destruct (append_package h0 h p ps e t1 n v r a F) as (h1 & p1 & E1 & F1). rewrite E1. cbn [bind].
    destruct (IH qs' h1 (log ++ released 6) p1 _ D2 F1) as (h' & m & evs & E2 & F2 & V). exists h', m, evs. rewrite E2. split; [|split; assumption].
    rewrite <- app_assoc, (app_assoc (released 6)), <- released_app. cbn [length]. replace (6 * S (length hs)) with (6 + 6 * length hs) by lia. reflexivity.
Qed.

(** Every database answer is all packages, or packages up to the first header that lacks a member *)
Lemma answer_cases : forall hs, (exists ps, Forall2 describes hs ps) \/
  (exists hs1 hd hs2 ps i t word, hs = hs1 ++ hd :: hs2 /\ Forall2 describes hs1 ps /\ lacks hd i t word).
Proof.
  induction hs as [|hd hs IH]; [left; exists []; constructor|]. destruct (header_cases hd) as [(p & D)|(i & t & w & La)].
  - destruct IH as [(ps & D2)|(hs1 & hd1 & hs2 & ps & i & t & w & -> & D2 & La)].
    + left. exists (p :: ps). constructor; assumption.
    + right. exists (hd :: hs1), hd1, hs2, (p :: ps), i, t, w. split; [reflexivity|]. split; [constructor; assumption|exact La].
  - right. exists [], hd, hs, [], i, t, w. split; [reflexivity|]. split; [constructor|exact La].
Qed.
