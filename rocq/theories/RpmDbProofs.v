From Verif Require Import Base Types HeapModel HeapSpec HeapProofs HeapProofs2 HeapListModel HeapListSpec HeapListProofs HeapListProofs2 RpmDbModel RpmDbSpec.
Open Scope nat_scope.

(** ** Reading and writing the cells laid after [h] *)
Lemma nth_lay (h t : heap) i n : i = length h + n -> nth_error (h ++ t) i = nth_error t n.
Proof. intros ->. rewrite nth_error_app2 by lia. f_equal. lia. Qed.
Lemma put_lay (h t : heap) c c' : put (h ++ c :: t) (length h) c' = h ++ c' :: t.
Proof. induction h; cbn; [reflexivity|now rewrite IHh]. Qed.
Lemma get_lay (h t : heap) c : c <> CFree -> get (h ++ c :: t) (length h) = Ok c.
Proof. intros N. apply get_live; [|exact N]. rewrite (nth_lay h _ _ 0) by lia. reflexivity. Qed.

Definition obj (scal : list Z) (ps : list (option addr)) : cell := CObj KRpm scal ps [None] None [] None.
Lemma set_str_lay h t scal ps i p : set_package_str (h ++ obj scal ps :: t) (length h) i p = Ok (h ++ obj scal (set_at ps i p) :: t).
Proof. unfold set_package_str, set_cell. rewrite get_lay by discriminate. cbn [bind obj]. rewrite put_lay. reflexivity. Qed.
Lemma set_num_lay h t scal ps i z : set_package_num (h ++ obj scal ps :: t) (length h) i z = Ok (h ++ obj (set_at scal i z) ps :: t).
Proof. unfold set_package_num, set_cell. rewrite get_lay by discriminate. cbn [bind obj]. rewrite put_lay. reflexivity. Qed.

(** ** The strings read so far, laid one after another *)
Definition cells_of (ss : list str) : heap := map CStr ss.
Definition ptrs (h : heap) (ss : list str) : list (option addr) := map (fun i => Some (S (length h) + i)) (seq 0 (length ss)).
Definition pad {A} (l : list (option A)) : list (option A) := l ++ repeat None (4 - length l).
Definition lay (h : heap) (scal : list Z) (ss : list str) (rest : heap) : heap :=
  h ++ obj scal (pad (ptrs h ss)) :: cells_of ss ++ rest.

Lemma lay_strs h scal ss rest : length ss <= 4 ->
  own_strs (lay h scal ss rest) (pad (ptrs h ss)) (pad (map Some ss)) (map (fun i => S (length h) + i) (seq 0 (length ss))).
Proof.
  intros B. unfold lay.
  destruct ss as [|a [|b [|c [|d [|e ss]]]]]; cbn in B; try lia; unfold pad, ptrs; cbn [length seq map app repeat Nat.sub];
    repeat first [apply os_nil | apply os_null | apply os_str;
      [first [rewrite (nth_lay h _ _ 1) by lia | rewrite (nth_lay h _ _ 2) by lia | rewrite (nth_lay h _ _ 3) by lia | rewrite (nth_lay h _ _ 4) by lia]; reflexivity|]].
Qed.

Lemma lay_own h scal ss rest : length ss <= 4 ->
  own (lay h scal ss rest) KRpm None (length h, Val scal (pad (map Some ss)) None [[]], map (fun i => length h + i) (seq 0 (S (length ss)))).
Proof.
  intros B. cbn [seq map]. rewrite Nat.add_0_r, <- seq_shift, map_map.
  rewrite (map_ext (fun x => length h + S x) (fun i => S (length h) + i)) by (intros; lia).
  replace (length h :: _) with (length h :: map (fun i => S (length h) + i) (seq 0 (length ss)) ++ [] ++ []) by (rewrite !app_nil_r; reflexivity).
  eapply own_obj.
  - unfold lay. rewrite (nth_lay h _ _ 0) by lia. reflexivity.
  - unfold pad, ptrs. rewrite app_length, repeat_length, map_length, seq_length. cbn [length str_ops]. lia.
  - apply lay_strs. exact B.
  - constructor.
  - exact (ok_cons _ KConsistency true [] None [] [] [] [] (ol_nil _ _) (fun X => ltac:(discriminate X)) (ok_nil _)).
Qed.
Lemma lay_foot (h : heap) n : NoDup (map (fun i => length h + i) (seq 0 n)) /\
  forall x, In x (map (fun i => length h + i) (seq 0 n)) <-> length h <= x < length h + n.
Proof.
  split.
  - apply FinFun.Injective_map_NoDup; [intros a b; lia|apply seq_NoDup].
  - intros x. rewrite in_map_iff. split.
    + intros (i & <- & I). apply in_seq in I. lia.
    + intros I. exists (x - length h). split; [lia|]. apply in_seq. lia.
Qed.
Lemma lay_length h scal ss rest : length (lay h scal ss rest) = length h + S (length ss) + length rest.
Proof. unfold lay, cells_of. rewrite app_length. cbn [length]. rewrite app_length, map_length. lia. Qed.
Lemma lay_old h scal ss rest : old_kept h (lay h scal ss rest).
Proof. split; [rewrite lay_length; lia|]. intros x X. unfold lay. apply nth_error_app1. exact X. Qed.
Definition half (name : option str) (v r a : option str) (e t : Z) : rpm_package := mk_rpm_package name e v r a t ROLE_UNKNOWN [].
Lemma lay_package e t ss : length ss <= 4 -> exists p, is_package (Val [e; t; 0%Z] (pad (map Some ss)) None [[]]) p.
Proof.
  intros B. destruct ss as [|a [|b [|c [|d [|x ss]]]]]; cbn in B; try lia; eexists; apply is_package_intro; constructor.
Qed.

(** Freeing a package that has been filled in part *)
Lemma free_lay h e t ss rest : length ss <= 4 ->
  exists h', sr_rpm_package_free (lay h [e; t; 0%Z] ss rest) (Some (length h)) false = Ok h' /\
    length h' = length (lay h [e; t; 0%Z] ss rest) /\
    (forall x, length h <= x < length h + S (length ss) -> freed h' x) /\
    (forall x, ~ (length h <= x < length h + S (length ss)) -> nth_error h' x = nth_error (lay h [e; t; 0%Z] ss rest) x).
Proof.
  intros B. destruct (lay_package e t ss B) as (p & P). destruct (lay_foot h (S (length ss))) as (N & F).
  destruct (sr_package_free_single _ _ _ _ (lay_own h [e; t; 0%Z] ss rest B) P N) as (h' & E & Le & So & Fr).
  exists h'. split; [exact E|]. split; [exact Le|]. split.
  - intros x X. apply Fr. apply F. exact X.
  - intros x X. apply So. intros I. apply X. apply F. exact I.
Qed.

(** ** The header's answers *)
Lemma get_string_ok h e t ss log hd g s i : i = length ss -> length ss < 4 -> h_string hd g = Some (Some s) ->
  header_get_string (lay h [e; t; 0%Z] ss [], log) hd g (length h) i = Ok ((lay h [e; t; 0%Z] (ss ++ [s]) [], log ++ [DataNew; DataFree]), true).
Proof.
  intros -> B E. unfold header_get_string, say. rewrite E. cbn [fst snd alloc]. unfold alloc. rewrite lay_length. unfold lay at 1.
  rewrite <- app_assoc. cbn [app]. rewrite set_str_lay. cbn [bind fst snd]. rewrite <- app_assoc. cbn [app]. f_equal. f_equal. f_equal; [|rewrite <- app_assoc; reflexivity].
  unfold lay, cells_of. rewrite map_app, <- !app_assoc. cbn [map app]. f_equal. f_equal. f_equal.
  destruct ss as [|a [|b [|c [|d ss]]]]; cbn in B; try lia; unfold pad, ptrs; cbn [length seq map app repeat Nat.sub set_at]; repeat first [reflexivity | match goal with |- Some _ = Some _ => apply f_equal; lia | |- _ :: _ = _ :: _ => apply f_equal2 end].
Qed.
Lemma get_string_fails h e t ss log hd g i : i = length ss -> length ss < 4 -> numeric g = false -> ~ gives hd g ->
  exists evs, header_get_string (lay h [e; t; 0%Z] ss [], log) hd g (length h) i = Ok ((lay h [e; t; 0%Z] ss [], log ++ evs), false) /\
    (no_tag hd g -> evs = [DataNew]) /\ (~ no_tag hd g -> evs = [DataNew; DataFree]).
Proof.
  intros -> B Nu G. unfold gives, no_tag in *. rewrite Nu in *. unfold header_get_string, say. cbn [fst snd].
  destruct (h_string hd g) as [[s|]|].
  - destruct G. exists s. reflexivity.
  - exists [DataNew; DataFree]. split; [|split; [discriminate|reflexivity]]. unfold lay. rewrite set_str_lay. cbn [bind fst snd]. rewrite <- app_assoc. cbn [app]. f_equal. f_equal. f_equal.
    f_equal. f_equal. f_equal. destruct ss as [|a [|b [|c [|d ss]]]]; cbn in B; try lia; reflexivity.
  - exists [DataNew]. split; [reflexivity|]. split; [reflexivity|]. intros X. destruct X. reflexivity.
Qed.
Lemma get_uint32_ok w hd g z : h_uint32 hd g = Some (Some z) -> header_get_uint32 w hd g = ((fst w, snd w ++ [DataNew; DataFree]), Some z).
Proof. intros E. unfold header_get_uint32, say. rewrite E. cbn [fst snd]. rewrite <- app_assoc. reflexivity. Qed.
Lemma get_uint32_fails w hd g : numeric g = true -> ~ gives hd g ->
  exists evs, header_get_uint32 w hd g = ((fst w, snd w ++ evs), None) /\ (no_tag hd g -> evs = [DataNew]) /\ (~ no_tag hd g -> evs = [DataNew; DataFree]).
Proof.
  intros Nu G. unfold gives, no_tag in *. rewrite Nu in *. unfold header_get_uint32, say. cbn [fst snd].
  destruct (h_uint32 hd g) as [[s|]|].
  - destruct G. exists s. reflexivity.
  - exists [DataNew; DataFree]. split; [rewrite <- app_assoc; reflexivity|split; [discriminate|reflexivity]].
  - exists [DataNew]. split; [reflexivity|]. split; [reflexivity|]. intros X. destruct X. reflexivity.
Qed.
Lemma set_num h e t ss i z : i < 2 ->
  set_package_num (lay h [e; t; 0%Z] ss []) (length h) i z = Ok (lay h (set_at [e; t; 0%Z] i z) ss []).
Proof. intros B. unfold lay. apply set_num_lay. Qed.

Lemma fails_ok h e t ss log msg : length ss <= 4 ->
  exists h' m, info_fails (lay h [e; t; 0%Z] ss [], log) (length h) msg = Ok ((h', log), None, Some m) /\ only_message h h' m msg.
Proof.
  intros B. unfold info_fails, alloc. cbn [fst snd].
  assert (X : lay h [e; t; 0%Z] ss [] ++ [CStr msg] = lay h [e; t; 0%Z] ss [CStr msg]).
  { unfold lay. rewrite <- app_assoc. cbn [app]. rewrite app_nil_r. reflexivity. }
  rewrite X. destruct (free_lay h e t ss [CStr msg] B) as (h' & E & Le & Fr & So).
  replace (sr_rpm_package_free _ _ _) with (Ok h' : res heap) by (symmetry; exact E). cbn [bind].
  exists h', (length (lay h [e; t; 0%Z] ss [])). split; [reflexivity|]. rewrite lay_length in Le. cbn [length] in Le.
  rewrite lay_length. cbn [length]. unfold only_message. split.
  { split; [lia|]. intros x Hx. rewrite So by lia. apply lay_old. exact Hx. }
  split; [lia|]. split.
  - rewrite So by lia. rewrite <- X. replace (length h + S (length ss) + 0) with (length (lay h [e; t; 0%Z] ss [])) by (rewrite lay_length; reflexivity). apply alloc_at.
  - intros x Hx Ne. apply Fr. lia.
Qed.
Lemma name_fails h log : exists h' m, (do h0 <- sr_rpm_package_free (lay h [0; 0; 0]%Z [] []) (Some (length h)) false;
    let '(h1, m) := alloc h0 (CStr (L "Failed to find package name.")) in Ok ((h1, log : list event), None : option addr, Some m)) = Ok ((h', log), None, Some m) /\
  only_message h h' m (L "Failed to find package name.").
Proof.
  destruct (free_lay h 0 0 [] [] ltac:(cbn; lia)) as (h' & E & Le & Fr & So). rewrite E. cbn [bind]. unfold alloc.
  rewrite lay_length in Le. cbn [length] in *. eexists _, _. split; [reflexivity|]. split.
  { split; [rewrite app_length; lia|]. intros x Hx. rewrite nth_error_app1 by lia. rewrite So by lia. apply lay_old. exact Hx. }
  split; [rewrite app_length; cbn; lia|]. split; [apply alloc_at|].
  intros x Hx Ne. rewrite app_length in Hx. cbn in Hx. unfold freed. rewrite nth_error_app1 by lia. apply Fr. lia.
Qed.

(** ** One header *)
Lemma info_ok h log hd p err : describes hd p ->
  exists n e v r a t, p = mk_rpm_package (Some n) e (Some v) (Some r) (Some a) t ROLE_UNKNOWN [] /\
    header_to_rpm_info (h, log) hd err = Ok ((lay h [e; t; 0%Z] [n; v; r; a] [], log ++ released 6), Some (length h), err).
Proof.
  intros (n & e & v & r & a & t & E1 & E2 & E3 & E4 & E5 & E6 & P). exists n, e, v, r, a, t. split; [exact P|].
  unfold header_to_rpm_info, package_new, alloc. cbn [fst snd].
  change (h ++ [CObj KRpm [0; 0; 0]%Z [None; None; None; None] [None] None [] None]) with (lay h [0; 0; 0]%Z [] []).
  rewrite (get_string_ok h 0 0 [] log hd NAME n 0 eq_refl ltac:(cbn; lia) E1). cbn [bind negb app].
  rewrite (get_uint32_ok _ _ _ _ E2). cbn [fst snd]. rewrite (set_num h 0 0 _ 0 e) by lia. cbn [bind set_at].
  rewrite (get_string_ok h e 0 [n] _ hd VERSION v 1 eq_refl ltac:(cbn; lia) E3). cbn [bind negb app].
  rewrite (get_string_ok h e 0 [n; v] _ hd RELEASE r 2 eq_refl ltac:(cbn; lia) E4). cbn [bind negb app].
  rewrite (get_string_ok h e 0 [n; v; r] _ hd ARCH a 3 eq_refl ltac:(cbn; lia) E5). cbn [bind negb app].
  rewrite (get_uint32_ok _ _ _ _ E6). cbn [fst snd]. rewrite (set_num h e 0 _ 1 t) by lia. cbn [bind set_at].
  rewrite <- !app_assoc. reflexivity.
Qed.
