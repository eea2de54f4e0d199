From Verif Require Import Base HeapModel HeapSpec PyAttrModel PyAttrSpec.
Open Scope Z_scope.

(** UTF-8 *)
Lemma ord_chr z : 0 <= z < 256 -> ord (chr z) = z.
Proof. intros H. unfold ord, chr. rewrite N_ascii_embedding; lia. Qed.
Lemma chr_ord a : chr (ord a) = a.
Proof. unfold ord, chr. rewrite N2Z.id. apply ascii_N_embedding. Qed.
Lemma ord_range a : 0 <= ord a < 256.
Proof. unfold ord. pose proof (N_ascii_bounded a). lia. Qed.
Ltac ltb := repeat match goal with
  | |- context [?a <? ?b] => (rewrite (proj2 (Z.ltb_lt a b)) by lia) || (rewrite (proj2 (Z.ltb_ge a b)) by lia)
  | |- context [?a <=? ?b] => (rewrite (proj2 (Z.leb_le a b)) by lia) || (rewrite (proj2 (Z.leb_gt a b)) by lia)
  end.
Ltac divmod := repeat match goal with
  | |- context [?a / ?b] => let q := fresh "q" in let r := fresh "r" in let E := fresh in let R := fresh in
      pose proof (Z.div_mod a b ltac:(lia)) as E; pose proof (Z.mod_pos_bound a b ltac:(lia)) as R
  end.
Lemma utf8_char_ok c b : 0 <= c < 1114112 -> utf8_char c = Some b -> utf8_one c b.
Proof.
  intros R H. unfold utf8_char in H.
  destruct (Z.ltb_spec c 128); [injection H as <-; constructor; lia|].
  destruct (Z.ltb_spec c 2048).
  - injection H as <-. pose proof (Z.div_mod c 64 ltac:(lia)). pose proof (Z.mod_pos_bound c 64 ltac:(lia)).
    replace c with ((c / 64) * 64 + c mod 64) at 1 by lia. constructor; lia.
  - destruct (Z.ltb_spec c 65536).
    + destruct (Z.leb_spec 55296 c); destruct (Z.ltb_spec c 57344); cbn [andb] in H; try discriminate;
      injection H as <-; pose proof (Z.div_mod c 64 ltac:(lia)); pose proof (Z.mod_pos_bound c 64 ltac:(lia));
      pose proof (Z.div_mod (c / 64) 64 ltac:(lia)); pose proof (Z.mod_pos_bound (c / 64) 64 ltac:(lia));
      (assert (E : c / 4096 = c / 64 / 64) by (rewrite Z.div_div; [reflexivity|lia|lia])); rewrite E;
      (replace c with ((c / 64 / 64) * 4096 + ((c / 64) mod 64) * 64 + c mod 64) at 1 by lia); constructor; lia.
    + injection H as <-; pose proof (Z.div_mod c 64 ltac:(lia)); pose proof (Z.mod_pos_bound c 64 ltac:(lia));
      pose proof (Z.div_mod (c / 64) 64 ltac:(lia)); pose proof (Z.mod_pos_bound (c / 64) 64 ltac:(lia));
      pose proof (Z.div_mod (c / 64 / 64) 64 ltac:(lia)); pose proof (Z.mod_pos_bound (c / 64 / 64) 64 ltac:(lia));
      (assert (E : c / 4096 = c / 64 / 64) by (rewrite Z.div_div; [reflexivity|lia|lia]));
      (assert (E' : c / 262144 = c / 64 / 64 / 64) by (rewrite !Z.div_div; [reflexivity|lia|lia|lia|lia])); rewrite E', E;
      (replace c with ((c / 64 / 64 / 64) * 262144 + ((c / 64 / 64) mod 64) * 4096 + ((c / 64) mod 64) * 64 + c mod 64) at 1 by lia); constructor; lia.
Qed.
Lemma as_utf8_ok : forall t s, py_text t -> as_utf8 t = Some s -> utf8 t s.
Proof.
  induction t as [|c t IH]; intros s P H; cbn in H.
  - injection H as <-. constructor.
  - inversion_clear P. destruct (utf8_char c) as [b|] eqn:E; [|discriminate]. destruct (as_utf8 t) as [r|]; [|discriminate]. injection H as <-.
    constructor; [apply utf8_char_ok; assumption|apply IH; [assumption|reflexivity]].
Qed.
Lemma utf8_char_some c : ~ surrogate c -> exists b, utf8_char c = Some b.
Proof.
  intros N. unfold utf8_char, surrogate in *.
  destruct (Z.ltb_spec c 128); [eexists; reflexivity|]. destruct (Z.ltb_spec c 2048); [eexists; reflexivity|]. destruct (Z.ltb_spec c 65536); [|eexists; reflexivity].
  destruct (Z.leb_spec 55296 c); destruct (Z.ltb_spec c 57344); cbn [andb]; try (eexists; reflexivity). lia.
Qed.
Lemma utf8_char_none c : surrogate c -> utf8_char c = None.
Proof. unfold surrogate, utf8_char. intros H. ltb. reflexivity. Qed.
Lemma as_utf8_none t c : In c t -> surrogate c -> as_utf8 t = None.
Proof.
  induction t as [|d t IH]; intros I S; [destruct I|]. cbn. destruct I as [->|I]; [rewrite (utf8_char_none c S); reflexivity|].
  rewrite (IH I S). destruct (utf8_char d); reflexivity.
Qed.
Lemma as_utf8_some t : storable t -> exists s, utf8 t s /\ as_utf8 t = Some s.
Proof.
  intros [P N]. assert (exists s, as_utf8 t = Some s) as [s E].
  { clear P. induction N as [|c t [_ N] _ [s IH]]; [exists []; reflexivity|]. destruct (utf8_char_some c N) as [b E]. exists (b ++ s). cbn. rewrite E, IH. reflexivity. }
  exists s. split; [apply as_utf8_ok; assumption|exact E].
Qed.
Lemma cont_chr x : 0 <= x < 64 -> cont (chr (128 + x)) = Some x.
Proof. intros H. unfold cont. rewrite ord_chr by lia. ltb. cbn [andb]. f_equal. lia. Qed.
Lemma from_utf8_ok : forall t s, utf8 t s -> from_utf8 s = Some t.
Proof.
  intros t s H. induction H as [|c b t s H1 _ IH]; [reflexivity|].
  destruct H1; cbn [app from_utf8]; rewrite ?ord_chr by lia; ltb; cbn [andb orb].
  - rewrite IH. reflexivity.
  - rewrite cont_chr by lia. rewrite IH. cbn. do 2 f_equal. lia.
  - rewrite !cont_chr by lia. replace ((224 + x - 224) * 4096 + y * 64 + z) with (x * 4096 + y * 64 + z) by lia. ltb. cbn [orb].
    destruct (Z.leb_spec 55296 (x * 4096 + y * 64 + z)); destruct (Z.ltb_spec (x * 4096 + y * 64 + z) 57344); cbn [andb orb]; try lia; rewrite IH; reflexivity.
  - rewrite !cont_chr by lia. replace ((240 + w - 240) * 262144 + x * 4096 + y * 64 + z) with (w * 262144 + x * 4096 + y * 64 + z) by lia. ltb. cbn [orb]. rewrite IH. reflexivity.
Qed.
Lemma cont_inv b x : cont b = Some x -> 0 <= x < 64 /\ b = chr (128 + x).
Proof.
  unfold cont. destruct (Z.leb_spec 128 (ord b)); destruct (Z.ltb_spec (ord b) 192); cbn [andb]; try discriminate. intros E. injection E as <-.
  split; [lia|]. replace (128 + (ord b - 128)) with (ord b) by lia. symmetry. apply chr_ord.
Qed.
Lemma chr_off a o : a = chr (o + (ord a - o)).
Proof. replace (o + (ord a - o)) with (ord a) by lia. symmetry. apply chr_ord. Qed.
Lemma from_utf8_inv : forall n s t, (length s <= n)%nat -> from_utf8 s = Some t -> utf8 t s.
Proof.
  induction n as [|n IH]; intros s t Ln H.
  - destruct s; [|cbn in Ln; lia]. cbn in H. injection H as <-. constructor.
  - destruct s as [|a s]; [cbn in H; injection H as <-; constructor|]. cbn in Ln. cbn [from_utf8] in H. pose proof (ord_range a) as Ra.
    destruct (Z.ltb_spec (ord a) 128).
    { destruct (from_utf8 s) as [t'|] eqn:E; [|discriminate]. cbn in H. injection H as <-. rewrite <- (chr_ord a) at 2. change (chr (ord a) :: s) with ([chr (ord a)] ++ s).
      constructor; [constructor; lia|apply IH; [lia|exact E]]. }
    destruct (Z.leb_spec 194 (ord a)); destruct (Z.ltb_spec (ord a) 224); cbn [andb] in H; try lia.
    { destruct s as [|b s]; [discriminate|]. destruct (cont b) as [x|] eqn:Eb; [|discriminate]. apply cont_inv in Eb as [Rx ->]. cbn in Ln.
      destruct (from_utf8 s) as [t'|] eqn:E; [|discriminate]. cbn in H. injection H as <-. rewrite (chr_off a 192) at 2.
      change (chr (192 + (ord a - 192)) :: chr (128 + x) :: s) with ([chr (192 + (ord a - 192)); chr (128 + x)] ++ s). constructor; [constructor; lia|apply IH; [lia|exact E]]. }
    1: { destruct (Z.leb_spec 224 (ord a)); destruct (Z.ltb_spec (ord a) 240); cbn [andb] in H; try lia.
      { destruct s as [|b [|c s]]; try discriminate. destruct (cont b) as [x|] eqn:Eb; [|discriminate]. destruct (cont c) as [y|] eqn:Ec; [|discriminate].
        apply cont_inv in Eb as [Rx ->]. apply cont_inv in Ec as [Ry ->]. cbn in Ln. set (v := (ord a - 224) * 4096 + x * 64 + y) in *.
        destruct (Z.ltb_spec v 2048); cbn [orb] in H; [discriminate|]. destruct (Z.leb_spec 55296 v); destruct (Z.ltb_spec v 57344); cbn [andb] in H; try discriminate.
        all: destruct (from_utf8 s) as [t'|] eqn:E; [|discriminate]; cbn in H; injection H as <-; rewrite (chr_off a 224);
          change (chr (224 + (ord a - 224)) :: chr (128 + x) :: chr (128 + y) :: s) with ([chr (224 + (ord a - 224)); chr (128 + x); chr (128 + y)] ++ s);
          constructor; [constructor; lia|apply IH; [lia|exact E]]. }
      destruct (Z.leb_spec 240 (ord a)); destruct (Z.ltb_spec (ord a) 245); cbn [andb] in H; try lia; try discriminate.
      destruct s as [|b [|c [|d s]]]; try discriminate. destruct (cont b) as [x|] eqn:Eb; [|discriminate]. destruct (cont c) as [y|] eqn:Ec; [|discriminate]. destruct (cont d) as [z|] eqn:Ed; [|discriminate].
      apply cont_inv in Eb as [Rx ->]. apply cont_inv in Ec as [Ry ->]. apply cont_inv in Ed as [Rz ->]. cbn in Ln. set (v := (ord a - 240) * 262144 + x * 4096 + y * 64 + z) in *.
      destruct (Z.ltb_spec v 65536); cbn [orb] in H; [discriminate|]. destruct (Z.leb_spec 1114112 v); [discriminate|].
      destruct (from_utf8 s) as [t'|] eqn:E; [|discriminate]. cbn in H. injection H as <-. rewrite (chr_off a 240).
      change (chr (240 + (ord a - 240)) :: chr (128 + x) :: chr (128 + y) :: chr (128 + z) :: s) with ([chr (240 + (ord a - 240)); chr (128 + x); chr (128 + y); chr (128 + z)] ++ s).
      constructor; [constructor; lia|apply IH; [lia|exact E]]. }
    destruct (Z.leb_spec 224 (ord a)); cbn [andb] in H; try lia. destruct (Z.leb_spec 240 (ord a)); cbn [andb] in H; try lia. discriminate.
Qed.
Lemma from_utf8_iff s t : from_utf8 s = Some t <-> utf8 t s.
Proof. split; [apply (from_utf8_inv (length s)); lia|apply from_utf8_ok]. Qed.
Lemma c_string_id s : Forall (fun a => ord a <> 0) s -> c_string s = s.
Proof. induction 1 as [|a s H _ IH]; [reflexivity|]. cbn. rewrite (proj2 (Z.eqb_neq _ _) H), IH. reflexivity. Qed.
Lemma utf8_no_nul : forall t s, utf8 t s -> Forall (fun c => c <> 0) t -> Forall (fun a => ord a <> 0) s.
Proof.
  intros t s H. induction H as [|c b t s H1 _ IH]; intros F; [constructor|]. inversion_clear F. apply Forall_app. split; [|apply IH; assumption].
  destruct H1; repeat constructor; rewrite ord_chr by lia; lia.
Qed.
