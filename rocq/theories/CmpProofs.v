(** * Lemmas about the comparison functions. *)
From Verif Require Import Base Types CmpModel CmpSpec DistSpec.
Open Scope Z_scope.

Ltac bz := unfold b2z in *; repeat match goal with b : bool |- _ => destruct b end; lia.

Lemma to_int_small x y : small x -> small y -> to_int (x - y) = x - y.
Proof.
  unfold small, to_int, two32; intros Hx Hy. rewrite Z.mod_small by lia. lia.
Qed.
Lemma to_int64_small x y : small x -> small y -> to_int64 (x - y) = x - y.
Proof.
  unfold small, to_int64, two64; intros Hx Hy. rewrite Z.mod_small by lia. lia.
Qed.
Lemma to_int_id z : -2147483648 <= z < 2147483648 -> to_int z = z.
Proof. unfold to_int, two32; intros H. rewrite Z.mod_small by lia. lia. Qed.

Lemma byte_inj a b : byte a = byte b -> a = b.
Proof. unfold byte; intros H. apply Nat2Z.inj in H. rewrite <- (ascii_nat_embedding a), <- (ascii_nat_embedding b). now f_equal. Qed.

Lemma strcmp_refl a : strcmp a a = 0.
Proof. induction a; cbn; [reflexivity|]. now rewrite Ascii.eqb_refl. Qed.
Lemma strcmp_zero a b : strcmp a b = 0 <-> a = b.
Proof.
  revert b; induction a as [|x a IH]; intros [|y b]; cbn; try (split; [lia|discriminate]); [tauto|].
  destruct (Ascii.eqb_spec x y) as [->|N].
  - rewrite IH. split; [now intros ->|now injection 1].
  - split; [|now injection 1]. intros H. exfalso; apply N, byte_inj; lia.
Qed.
Lemma strcmp_flip a b : strcmp b a = - strcmp a b.
Proof.
  revert b; induction a as [|x a IH]; intros [|y b]; cbn; try lia.
  rewrite Ascii.eqb_sym. destruct (Ascii.eqb x y); [apply IH|lia].
Qed.
Lemma strcmp_trans a b c : strcmp a b <= 0 -> strcmp b c <= 0 -> strcmp a c <= 0.
Proof.
  revert b c; induction a as [|x a IH]; intros [|y b] [|z c]; cbn; try lia.
  destruct (Ascii.eqb_spec x y) as [->|N1], (Ascii.eqb_spec y z) as [->|N2]; intros H1 H2.
  - rewrite ?Ascii.eqb_refl. eauto.
  - destruct (Ascii.eqb_spec y z) as [->|_]; [congruence|lia].
  - destruct (Ascii.eqb_spec x z) as [->|_]; [congruence|lia].
  - destruct (Ascii.eqb_spec x z) as [->|_]; [|lia].
    exfalso. apply N1, byte_inj; lia.
Qed.

Definition any {A} (_ : A) : Prop := True.

Lemma orders_strcmp0 : orders any eq g_strcmp0.
Proof.
  split; [|split].
  - intros [a|] [b|] _ _; cbn; try (split; [lia|discriminate]); [|tauto].
    rewrite strcmp_zero. split; [now intros ->|now injection 1].
  - intros [a|] [b|] _ _; cbn; try reflexivity. rewrite strcmp_flip. apply Z.sgn_opp.
  - intros [a|] [b|] [c|] _ _ _; cbn; try lia. apply strcmp_trans.
Qed.
Lemma orders_diff : orders small eq (fun x y => to_int (x - y)).
Proof.
  split; [|split]; intros; rewrite ?to_int_small in * by assumption; try lia.
Qed.
Definition as_signed (z : Z) : Z := if z =? 4294967295 then -1 else z.
Lemma as_signed_ok z : small_or_unknown z -> -1 <= as_signed z < 2147483647.
Proof. unfold small_or_unknown, as_signed. intros [H| ->]; [destruct (Z.eqb_spec z 4294967295); lia|cbn; lia]. Qed.
Lemma as_signed_inj x y : small_or_unknown x -> small_or_unknown y -> as_signed x = as_signed y -> x = y.
Proof. unfold small_or_unknown, as_signed. destruct (Z.eqb_spec x 4294967295), (Z.eqb_spec y 4294967295); lia. Qed.
Lemma to_int_signed x y : small_or_unknown x -> small_or_unknown y -> to_int (x - y) = as_signed x - as_signed y.
Proof.
  intros Hx Hy. pose proof (as_signed_ok x Hx). pose proof (as_signed_ok y Hy).
  assert (exists k, x - y = as_signed x - as_signed y + k * 4294967296).
  { unfold as_signed. destruct (Z.eqb_spec x 4294967295), (Z.eqb_spec y 4294967295).
    - exists 0; lia. - exists 1; lia. - exists (-1); lia. - exists 0; lia. }
  destruct H1 as [k ->]. unfold to_int, two32.
  replace (as_signed x - as_signed y + k * 4294967296 + 2147483648) with (as_signed x - as_signed y + 2147483648 + k * 4294967296) by lia.
  rewrite Z_mod_plus_full, Z.mod_small; lia.
Qed.
Lemma orders_diff_unknown : orders small_or_unknown eq (fun x y => to_int (x - y)).
Proof.
  split; [|split]; intros; rewrite ?to_int_signed in * by assumption; try lia.
  split; [intros; apply as_signed_inj; auto; lia|intros ->; lia].
Qed.
Lemma orders_rdiff : orders small eq (fun x y => to_int (y - x)).
Proof.
  split; [|split]; intros; rewrite ?to_int_small in * by assumption; try lia.
Qed.
Lemma orders_bool : orders any eq (fun x y => b2z x - b2z y).
Proof.
  split; [|split]; intros; unfold b2z in *; repeat match goal with b : bool |- _ => destruct b end;
    try lia; try reflexivity; try tauto; split; intros; try lia; try congruence.
Qed.

(** Comparing a member. *)
Lemma orders_on {A B} (p : A -> B) ok eqv cmp :
  orders ok eqv cmp -> orders (fun x => ok (p x)) (fun x y => eqv (p x) (p y)) (fun x y => cmp (p x) (p y)).
Proof. intros (H1 & H2 & H3). split; [|split]; intros; eauto. Qed.

Lemma orders_sub {A} (ok ok' : A -> Prop) eqv cmp :
  (forall x, ok' x -> ok x) -> orders ok eqv cmp -> orders ok' eqv cmp.
Proof. intros S (H1 & H2 & H3). split; [|split]; intros; eauto. Qed.
Lemma orders_eqv {A} (ok : A -> Prop) (eqv eqv' : A -> A -> Prop) cmp :
  (forall x y, eqv x y <-> eqv' x y) -> orders ok eqv cmp -> orders ok eqv' cmp.
Proof. intros S (H1 & H2 & H3). split; [|split]; intros; eauto. rewrite <- S. eauto. Qed.
Lemma orders_ext {A} (ok : A -> Prop) eqv cmp cmp' :
  (forall x y, ok x -> ok y -> cmp x y = cmp' x y) -> orders ok eqv cmp -> orders ok eqv cmp'.
Proof.
  intros S (H1 & H2 & H3). split; [|split]; intros; rewrite <- ?S in * by assumption; eauto.
Qed.

(** Comparing by [c] first and by [d] where [c] sees no difference. *)
Lemma orders_then {A} (ok : A -> Prop) e1 e2 c d :
  orders ok e1 c -> orders ok e2 d ->
  orders ok (fun x y => e1 x y /\ e2 x y) (fun x y => if c x y =? 0 then d x y else c x y).
Proof.
  intros (C1 & C2 & C3) (D1 & D2 & D3). split; [|split].
  - intros x y Hx Hy. destruct (Z.eqb_spec (c x y) 0) as [E|N].
    + rewrite <- D1, <- C1 by assumption. tauto.
    + rewrite <- C1 by assumption. tauto.
  - intros x y Hx Hy. pose proof (C2 x y Hx Hy) as S.
    destruct (Z.eqb_spec (c x y) 0) as [E|N], (Z.eqb_spec (c y x) 0) as [E'|N']; [auto| | |auto]; lia.
  - intros x y z Hx Hy Hz.
    pose proof (C2 x y Hx Hy) as S1. pose proof (C2 y z Hy Hz) as S2. pose proof (C2 x z Hx Hz) as S3.
    pose proof (C3 x y z Hx Hy Hz) as T1. pose proof (C3 z x y Hz Hx Hy) as T2. pose proof (C3 y z x Hy Hz Hx) as T3.
    pose proof (D3 x y z Hx Hy Hz) as T4.
    destruct (Z.eqb_spec (c x y) 0) as [E|N], (Z.eqb_spec (c y z) 0) as [E'|N'], (Z.eqb_spec (c x z) 0) as [E''|N'']; lia.
Qed.
Lemma orders_trivial {A} (ok : A -> Prop) : orders ok (fun _ _ => True) (fun _ _ => 0).
Proof. split; [|split]; intros; try lia; tauto. Qed.

(** Comparing lists element by element. *)
Lemma frames_cmp_gt {A} (cmp : A -> A -> Z) x l : frames_cmp cmp (x :: l) [] = 1.
Proof. reflexivity. Qed.
Lemma orders_list {A} (ok : A -> Prop) eqv cmp :
  orders ok eqv cmp -> orders (Forall ok) (Forall2 eqv) (frames_cmp cmp).
Proof.
  intros (C1 & C2 & C3). split; [|split].
  - intros l; induction l as [|x l IH]; intros [|y l'] F G; cbn.
    + split; [constructor|reflexivity].
    + split; [lia|]. intros H; inversion H.
    + split; [lia|]. intros H; inversion H.
    + inversion_clear F as [|? ? Fx Fl]. inversion_clear G as [|? ? Gy Gl].
      destruct (Z.eqb_spec (cmp x y) 0) as [E|N].
      * rewrite IH by assumption. split; [constructor; [now apply C1|assumption]|]. now inversion 1.
      * split; [lia|]. inversion 1; subst. exfalso; apply N. now apply C1.
  - intros l; induction l as [|x l IH]; intros [|y l'] F G; cbn; try reflexivity.
    inversion_clear F as [|? ? Fx Fl]. inversion_clear G as [|? ? Gy Gl].
    pose proof (C2 x y Fx Gy) as S.
    destruct (Z.eqb_spec (cmp x y) 0) as [E|N], (Z.eqb_spec (cmp y x) 0) as [E'|N']; [auto| | |auto]; lia.
  - intros l; induction l as [|x l IH]; intros [|y l'] [|z l''] F G K; cbn; try lia.
    inversion_clear F as [|? ? Hx Fl]. inversion_clear G as [|? ? Hy Gl]. inversion_clear K as [|? ? Hz Kl].
    pose proof (C2 x y Hx Hy) as S1. pose proof (C2 y z Hy Hz) as S2. pose proof (C2 x z Hx Hz) as S3.
    pose proof (C3 x y z Hx Hy Hz) as T1. pose proof (C3 z x y Hz Hx Hy) as T2. pose proof (C3 y z x Hy Hz Hx) as T3.
    pose proof (IH l' l'' Fl Gl Kl) as T4.
    destruct (Z.eqb_spec (cmp x y) 0) as [E|N], (Z.eqb_spec (cmp y z) 0) as [E'|N'], (Z.eqb_spec (cmp x z) 0) as [E''|N'']; lia.
Qed.

(** [first_nonzero] as nested tests. *)
Lemma orders_first {A} (ok : A -> Prop) e1 e2 c (d : A -> A -> list Z) :
  orders ok e1 c -> orders ok e2 (fun x y => first_nonzero (d x y)) ->
  orders ok (fun x y => e1 x y /\ e2 x y) (fun x y => first_nonzero (c x y :: d x y)).
Proof. intros C D. exact (orders_then _ _ _ _ _ C D). Qed.
Lemma orders_nil {A} (ok : A -> Prop) : orders ok (fun _ _ => True) (fun _ _ => first_nonzero []).
Proof. apply orders_trivial. Qed.

Lemma any_ok {A B} (ok : A -> Prop) (p : A -> B) : forall x, ok x -> any (p x).
Proof. now intros. Qed.
Ltac member p := eapply (orders_sub _ _ _ _); [|first [apply (orders_on p _ _ _ orders_strcmp0) | apply (orders_on p _ _ _ orders_diff) | apply (orders_on p _ _ _ orders_bool)]]; let H := fresh in intros ? H; first [exact I | exact H | red in H; tauto].
Ltac step p := eapply orders_first; [member p|].
Ltac step_unknown p := eapply orders_first;
  [eapply (orders_sub _ _ _ _); [|apply (orders_on p _ _ _ orders_diff_unknown)]; let H := fresh in intros ? H; red in H; tauto|].

Definition core_small (f : core_frame) : Prop := small (cf_build_id_offset f).
Lemma core_orders :
  orders core_small
    (fun f g => cf_build_id f = cf_build_id g /\ cf_build_id_offset f = cf_build_id_offset g /\
                cf_function_name f = cf_function_name g /\ cf_file_name f = cf_file_name g /\
                cf_fingerprint f = cf_fingerprint g) core_frame_cmp.
Proof.
  eapply orders_eqv; [|unfold core_frame_cmp; step cf_build_id; step cf_build_id_offset; step cf_function_name; step cf_file_name; step cf_fingerprint; apply orders_nil].
  intros; cbn; tauto.
Qed.

Definition python_small (f : python_frame) : Prop := small (pf_file_line f).
Lemma python_orders :
  orders python_small
    (fun f g => pf_function_name f = pf_function_name g /\ pf_file_name f = pf_file_name g /\
                pf_file_line f = pf_file_line g /\ pf_special_function f = pf_special_function g /\
                pf_special_file f = pf_special_file g /\ pf_line_contents f = pf_line_contents g) python_frame_cmp.
Proof.
  eapply orders_eqv; [|unfold python_frame_cmp; step pf_function_name; step pf_file_name; step pf_file_line; step pf_special_function; step pf_special_file; step pf_line_contents; apply orders_nil].
  intros; cbn; tauto.
Qed.

Definition ruby_small (f : ruby_frame) : Prop := small (rf_file_line f) /\ small (rf_block_level f) /\ small (rf_rescue_level f).
Lemma ruby_orders :
  orders ruby_small
    (fun f g => rf_function_name f = rf_function_name g /\ rf_file_name f = rf_file_name g /\
                rf_file_line f = rf_file_line g /\ rf_special_function f = rf_special_function g /\
                rf_block_level f = rf_block_level g /\ rf_rescue_level f = rf_rescue_level g) ruby_frame_cmp.
Proof.
  eapply orders_eqv; [|unfold ruby_frame_cmp; step rf_function_name; step rf_file_name; step rf_file_line; step rf_special_function; step rf_block_level; step rf_rescue_level; apply orders_nil].
  intros; cbn; tauto.
Qed.

Definition js_small (f : js_frame) : Prop := small (jf_file_line f) /\ small (jf_line_column f).
Lemma js_orders :
  orders js_small
    (fun f g => jf_function_name f = jf_function_name g /\ jf_file_name f = jf_file_name g /\
                jf_file_line f = jf_file_line g /\ jf_line_column f = jf_line_column g) js_frame_cmp.
Proof.
  eapply orders_eqv; [|unfold js_frame_cmp; step jf_function_name; step jf_file_name; step jf_file_line; step jf_line_column; apply orders_nil].
  intros; cbn; tauto.
Qed.

Definition koops_small (f : koops_frame) : Prop :=
  small (kf_address f) /\ small (kf_function_offset f) /\ small (kf_function_length f) /\
  small (kf_from_address f) /\ small (kf_from_function_offset f) /\ small (kf_from_function_length f).
Lemma orders_rdiff64 : orders small eq (fun x y => to_int (to_int64 (y - x))).
Proof.
  split; [|split]; intros; rewrite ?to_int64_small, ?to_int_small in * by assumption; try lia.
Qed.
Lemma koops_orders :
  orders koops_small
    (fun f g => kf_address f = kf_address g /\ kf_reliable f = kf_reliable g /\
                kf_function_name f = kf_function_name g /\ kf_function_offset f = kf_function_offset g /\
                kf_function_length f = kf_function_length g /\ kf_module_name f = kf_module_name g /\
                kf_from_address f = kf_from_address g /\ kf_from_function_name f = kf_from_function_name g /\
                kf_from_function_offset f = kf_from_function_offset g /\
                kf_from_function_length f = kf_from_function_length g /\
                kf_from_module_name f = kf_from_module_name g /\ kf_special_stack f = kf_special_stack g) koops_frame_cmp.
Proof.
  assert (NUM : forall (p : koops_frame -> Z) e d, (forall f, koops_small f -> small (p f)) -> orders koops_small e d ->
    orders koops_small (fun f g => p f = p g /\ e f g)
      (fun f g => if to_int (p g - p f) =? 0 then d f g else to_int (p g - p f))).
  { intros p e d S D. apply (orders_then _ (fun f g => p f = p g) e (fun f g => to_int (p g - p f))); [|exact D].
    eapply orders_sub; [|apply (orders_on p _ _ _ orders_rdiff)]. exact S. }
  assert (OFF : forall (p : koops_frame -> Z) e d, (forall f, koops_small f -> small (p f)) -> orders koops_small e d ->
    orders koops_small (fun f g => p f = p g /\ e f g)
      (fun f g => if to_int64 (p g - p f) =? 0 then d f g else to_int (to_int64 (p g - p f)))).
  { intros p e d S D.
    eapply orders_ext; [|apply (NUM p e d S D)]. cbn. intros x y Hx Hy.
    rewrite !to_int64_small, !to_int_small by eauto. reflexivity. }
  assert (NAME : forall (p : koops_frame -> option str) e d, orders koops_small e d ->
    orders koops_small (fun f g => p f = p g /\ e f g)
      (fun f g => if g_strcmp0 (p f) (p g) =? 0 then d f g else g_strcmp0 (p f) (p g))).
  { intros p e d D. apply (orders_then _ (fun f g => p f = p g) e (fun f g => g_strcmp0 (p f) (p g))); [|exact D].
    eapply orders_sub; [|apply (orders_on p _ _ _ orders_strcmp0)]. now intros. }
  assert (BOOL : forall (p : koops_frame -> bool) e d, orders koops_small e d ->
    orders koops_small (fun f g => p f = p g /\ e f g)
      (fun f g => if to_int (b2z (p g) - b2z (p f)) =? 0 then d f g else to_int (b2z (p g) - b2z (p f)))).
  { intros p e d D.
    eapply orders_eqv; [|apply (NUM (fun f => b2z (p f)) e d)]; [|unfold small, b2z; intros f _; destruct (p f); lia|exact D].
    intros x y. unfold b2z. destruct (p x), (p y); split; intros [H K]; split; try assumption; try reflexivity; try discriminate. }
  eapply orders_eqv; [|unfold koops_frame_cmp; cbv zeta;
    eapply (NUM kf_address); [unfold koops_small; tauto|];
    eapply (BOOL kf_reliable);
    eapply (NAME kf_function_name);
    eapply (OFF kf_function_offset); [unfold koops_small; tauto|];
    eapply (OFF kf_function_length); [unfold koops_small; tauto|];
    eapply (NAME kf_module_name);
    eapply (NUM kf_from_address); [unfold koops_small; tauto|];
    eapply (NAME kf_from_function_name);
    eapply (OFF kf_from_function_offset); [unfold koops_small; tauto|];
    eapply (OFF kf_from_function_length); [unfold koops_small; tauto|];
    eapply (NAME kf_from_module_name);
    eapply (NAME kf_special_stack);
    apply orders_trivial].
  intros; cbn; tauto.
Qed.

Definition java_small (f : java_frame) : Prop := small (vf_file_line f).
Lemma java_orders :
  orders java_small
    (fun f g => vf_is_exception f = vf_is_exception g /\ vf_name f = vf_name g /\
                (vf_is_exception f = false ->
                 vf_class_path f = vf_class_path g /\ vf_file_name f = vf_file_name g /\
                 vf_is_native f = vf_is_native g /\ vf_file_line f = vf_file_line g)) java_frame_cmp.
Proof.
  pose (inner := fun f g : java_frame => first_nonzero [
    g_strcmp0 (vf_class_path f) (vf_class_path g); g_strcmp0 (vf_file_name f) (vf_file_name g);
    b2z (vf_is_native f) - b2z (vf_is_native g); to_int (vf_file_line f - vf_file_line g)]).
  assert (I : orders java_small (fun f g => vf_class_path f = vf_class_path g /\ vf_file_name f = vf_file_name g /\
                 vf_is_native f = vf_is_native g /\ vf_file_line f = vf_file_line g) inner).
  { eapply orders_eqv; [|unfold inner; step vf_class_path; step vf_file_name; step vf_is_native; step vf_file_line; apply orders_nil].
    intros; cbn; tauto. }
  assert (X : forall f g, java_frame_cmp f g =
    if negb (Bool.eqb (vf_is_exception f) (vf_is_exception g)) then (if vf_is_exception f then 1 else -1)
    else if g_strcmp0 (vf_name f) (vf_name g) =? 0 then
      (if vf_is_exception f then 0 else inner f g) else g_strcmp0 (vf_name f) (vf_name g)).
  { intros f g. unfold java_frame_cmp, inner. cbn [first_nonzero].
    destruct (negb _); [reflexivity|]. destruct (g_strcmp0 (vf_name f) (vf_name g) =? 0); cbn [negb]; [|reflexivity].
    destruct (vf_is_exception f); [reflexivity|].
    destruct (g_strcmp0 (vf_class_path f) _ =? 0); cbn [negb]; [|reflexivity].
    destruct (g_strcmp0 (vf_file_name f) _ =? 0); cbn [negb]; [|reflexivity].
    destruct (vf_is_native f), (vf_is_native g); cbn; try reflexivity; destruct (Z.eqb_spec (to_int (vf_file_line f - vf_file_line g)) 0); auto. }
  clearbody inner. destruct I as (I1 & I2 & I3). destruct orders_strcmp0 as (N1 & N2 & N3). unfold any in *.
  split; [|split].
  - intros x y Hx Hy. rewrite X. destruct (vf_is_exception x), (vf_is_exception y); cbn; try (split; [lia|intros [? ?]; discriminate]).
    + destruct (Z.eqb_spec (g_strcmp0 (vf_name x) (vf_name y)) 0) as [E|N].
      * split; [intros _; split; [reflexivity|split; [now apply N1|discriminate]]|reflexivity].
      * split; [lia|]. intros (_ & E & _). exfalso; apply N. now apply N1.
    + destruct (Z.eqb_spec (g_strcmp0 (vf_name x) (vf_name y)) 0) as [E|N].
      * rewrite I1 by assumption. apply N1 in E; [|exact Logic.I|exact Logic.I]. tauto.
      * split; [lia|]. intros (_ & E & _). exfalso; apply N. now apply N1.
  - intros x y Hx Hy. rewrite !X. pose proof (N2 (vf_name x) (vf_name y) Logic.I Logic.I) as S. pose proof (I2 x y Hx Hy) as SI.
    destruct (vf_is_exception x), (vf_is_exception y); cbn; try reflexivity;
    destruct (Z.eqb_spec (g_strcmp0 (vf_name x) (vf_name y)) 0) as [E|N],
      (Z.eqb_spec (g_strcmp0 (vf_name y) (vf_name x)) 0) as [E'|N']; try lia.
  - intros x y z Hx Hy Hz. rewrite !X.
    pose proof (I3 x y z Hx Hy Hz) as TI.
    pose proof (N2 (vf_name x) (vf_name y) Logic.I Logic.I) as S1. pose proof (N2 (vf_name y) (vf_name z) Logic.I Logic.I) as S2.
    pose proof (N2 (vf_name x) (vf_name z) Logic.I Logic.I) as S3.
    pose proof (N3 (vf_name x) (vf_name y) (vf_name z) Logic.I Logic.I Logic.I) as T1.
    pose proof (N3 (vf_name z) (vf_name x) (vf_name y) Logic.I Logic.I Logic.I) as T2.
    pose proof (N3 (vf_name y) (vf_name z) (vf_name x) Logic.I Logic.I Logic.I) as T3.
    destruct (vf_is_exception x), (vf_is_exception y), (vf_is_exception z); cbn; try lia;
    destruct (Z.eqb_spec (g_strcmp0 (vf_name x) (vf_name y)) 0) as [E|N],
      (Z.eqb_spec (g_strcmp0 (vf_name y) (vf_name z)) 0) as [E'|N'], (Z.eqb_spec (g_strcmp0 (vf_name x) (vf_name z)) 0) as [E''|N'']; lia.
Qed.

Definition gdb_small (f : gdb_frame) : Prop := small_or_unknown (gf_source_line f) /\ small (gf_number f).
Lemma gdb_orders (compare_number : bool) :
  orders gdb_small
    (fun f g => gf_signal_handler_called f = gf_signal_handler_called g /\
                (gf_signal_handler_called f = false ->
                 gf_function_name f = gf_function_name g /\ gf_function_type f = gf_function_type g /\
                 gf_source_file f = gf_source_file g /\ gf_source_line f = gf_source_line g /\
                 gf_library_name f = gf_library_name g /\
                 (compare_number = true -> gf_number f = gf_number g))) (gdb_frame_cmp compare_number).
Proof.
  pose (inner := fun f g : gdb_frame => first_nonzero ([
      g_strcmp0 (gf_function_name f) (gf_function_name g);
      g_strcmp0 (gf_function_type f) (gf_function_type g);
      g_strcmp0 (gf_source_file f) (gf_source_file g);
      to_int (gf_source_line f - gf_source_line g);
      g_strcmp0 (gf_library_name f) (gf_library_name g)] ++
      (if compare_number then [to_int (gf_number f - gf_number g)] else []))).
  assert (I : orders gdb_small (fun f g => gf_function_name f = gf_function_name g /\ gf_function_type f = gf_function_type g /\
                 gf_source_file f = gf_source_file g /\ gf_source_line f = gf_source_line g /\
                 gf_library_name f = gf_library_name g /\
                 (compare_number = true -> gf_number f = gf_number g)) inner).
  { unfold inner. destruct compare_number; cbn [app].
    - eapply orders_eqv; [|step gf_function_name; step gf_function_type; step gf_source_file; step_unknown gf_source_line; step gf_library_name; step gf_number; apply orders_nil].
      intros; cbn; intuition.
    - eapply orders_eqv; [|step gf_function_name; step gf_function_type; step gf_source_file; step_unknown gf_source_line; step gf_library_name; apply orders_nil].
      intros; cbn; intuition discriminate. }
  assert (X : forall f g, gdb_frame_cmp compare_number f g =
    if gf_signal_handler_called f then (if gf_signal_handler_called g then 0 else 1)
    else if gf_signal_handler_called g then -1 else inner f g) by reflexivity.
  clearbody inner. destruct I as (I1 & I2 & I3). split; [|split].
  - intros x y Hx Hy. rewrite X. destruct (gf_signal_handler_called x), (gf_signal_handler_called y);
      try (split; [lia|intros [? ?]; discriminate]).
    + split; [intros _; split; [reflexivity|discriminate]|reflexivity].
    + rewrite I1 by assumption. tauto.
  - intros x y Hx Hy. rewrite !X. destruct (gf_signal_handler_called x), (gf_signal_handler_called y); cbn; try reflexivity. auto.
  - intros x y z Hx Hy Hz. rewrite !X.
    destruct (gf_signal_handler_called x), (gf_signal_handler_called y), (gf_signal_handler_called z); try lia. eauto.
Qed.

Lemma core_thread_orders :
  orders (fun t => Forall core_small (ct_frames t))
    (fun t u => Forall2 (fun f g => cf_build_id f = cf_build_id g /\ cf_build_id_offset f = cf_build_id_offset g /\
                cf_function_name f = cf_function_name g /\ cf_file_name f = cf_file_name g /\
                cf_fingerprint f = cf_fingerprint g) (ct_frames t) (ct_frames u)) core_thread_cmp.
Proof. apply (orders_on ct_frames _ _ _ (orders_list _ _ _ core_orders)). Qed.
Lemma gdb_thread_orders :
  orders (fun t => small_or_unknown (gt_number t) /\ Forall gdb_small (gt_frames t))
    (fun t u => gt_number t = gt_number u /\
      Forall2 (fun f g => gf_signal_handler_called f = gf_signal_handler_called g /\
                (gf_signal_handler_called f = false ->
                 gf_function_name f = gf_function_name g /\ gf_function_type f = gf_function_type g /\
                 gf_source_file f = gf_source_file g /\ gf_source_line f = gf_source_line g /\
                 gf_library_name f = gf_library_name g /\ gf_number f = gf_number g)) (gt_frames t) (gt_frames u)) gdb_thread_cmp.
Proof.
  eapply orders_eqv; [|eapply orders_ext; [|eapply orders_then;
    [eapply orders_sub; [|apply (orders_on gt_number _ _ _ orders_diff_unknown)]
    |eapply orders_sub; [|apply (orders_on gt_frames _ _ _ (orders_list _ _ _ (gdb_orders true)))]]]].
  - cbn. intros x y. split; intros [H K]; split; try assumption.
    + revert K. generalize (gt_frames x), (gt_frames y). intros l l' F; induction F; constructor; intuition.
    + revert K. generalize (gt_frames x), (gt_frames y). intros l l' F; induction F; constructor; intuition.
  - intros x y _ _. unfold gdb_thread_cmp. destruct (_ =? 0); reflexivity.
  - cbn; tauto.
  - cbn; tauto.
Qed.

Lemma rpm_nvr_orders :
  orders any (fun p q => rp_name p = rp_name q /\ rp_version p = rp_version q /\ rp_release p = rp_release q) rpm_cmp_nvr.
Proof.
  eapply orders_eqv; [|unfold rpm_cmp_nvr; step rp_name; step rp_version; step rp_release; apply orders_nil].
  intros; cbn; tauto.
Qed.
Lemma rpm_nevra_orders :
  orders (fun p => small (rp_epoch p))
    (fun p q => rp_name p = rp_name q /\ rp_epoch p = rp_epoch q /\ rp_version p = rp_version q /\
                rp_release p = rp_release q /\ rp_architecture p = rp_architecture q) rpm_cmp_nevra.
Proof.
  eapply orders_eqv; [|unfold rpm_cmp_nevra; eapply orders_first; [eapply orders_sub; [|apply rpm_nvr_orders]; now intros|step rp_epoch; step rp_architecture; apply orders_nil]].
  intros; cbn; tauto.
Qed.
Lemma rpm_consistency_orders : orders any eq rpm_consistency_cmp.
Proof.
  eapply orders_eqv; [|unfold rpm_consistency_cmp; step rc_path; step rc_owner_changed; step rc_group_changed; step rc_mode_changed; step rc_md5_mismatch; step rc_size_changed; step rc_major_number_changed; step rc_minor_number_changed; step rc_symlink_changed; step rc_modification_time_changed; apply orders_nil].
  intros [] []; cbn. split; [intuition congruence|intros [=]; intuition].
Qed.
Lemma rpm_orders :
  orders (fun p => small (rp_epoch p) /\ small (rp_install_time p))
    (fun p q => rp_name p = rp_name q /\ rp_epoch p = rp_epoch q /\ rp_version p = rp_version q /\
                rp_release p = rp_release q /\ rp_architecture p = rp_architecture q /\
                rp_install_time p = rp_install_time q /\ rp_consistency p = rp_consistency q) rpm_cmp.
Proof.
  assert (L2 : forall A (l l' : list A), Forall2 eq l l' <-> l = l').
  { intros A l l'. split; [induction 1; congruence|intros ->; induction l'; constructor; auto]. }
  eapply orders_eqv; [|eapply orders_ext; [|eapply orders_then;
    [eapply orders_sub; [|apply rpm_nevra_orders]
    |eapply orders_then; [eapply orders_sub; [|apply (orders_on rp_install_time _ _ _ orders_diff)]
      |eapply orders_sub; [|apply (orders_on rp_consistency _ _ _ (orders_list _ _ _ rpm_consistency_orders))]]]]].
  - cbn. intros x y. rewrite L2. tauto.
  - intros x y [_ Hx] [_ Hy]. unfold rpm_cmp. destruct (rpm_cmp_nevra x y =? 0); cbn [negb]; [|reflexivity].
    rewrite to_int64_small, to_int_small by assumption. destruct (_ =? 0); reflexivity.
  - cbn; tauto.
  - cbn; tauto.
  - cbn. intros x _. apply Forall_forall. now intros.
Qed.

(** ** Which distance comparisons are equivalences *)
Lemma first_nonzero_zero l : first_nonzero l = 0 <-> Forall (fun z => z = 0) l.
Proof.
  induction l as [|x l IH]; cbn; [split; [constructor|reflexivity]|].
  destruct (Z.eqb_spec x 0) as [->|N].
  - rewrite IH. split; [now constructor|]. intros H; now inversion H.
  - split; [lia|]. intros H; now inversion H.
Qed.
Lemma strcmp0_zero a b : g_strcmp0 a b = 0 <-> a = b.
Proof. apply (proj1 orders_strcmp0); exact I. Qed.
Lemma to_int_zero a : to_int a = 0 <-> a mod two32 = 0.
Proof.
  unfold to_int, two32. split; intros H.
  - assert (E : (a + 2147483648) mod 4294967296 = 2147483648) by lia.
    pose proof (Z.div_mod (a + 2147483648) 4294967296 ltac:(lia)) as D. rewrite E in D.
    replace a with ((a + 2147483648) / 4294967296 * 4294967296) by lia. apply Z.mod_mul. lia.
  - pose proof (Z.div_mod a 4294967296 ltac:(lia)) as D. rewrite H in D.
    replace (a + 2147483648) with (2147483648 + a / 4294967296 * 4294967296) by lia.
    rewrite Z.mod_add by lia. rewrite Z.mod_small by lia. lia.
Qed.
Lemma to_int_zero_eq a b : 0 <= a < two32 -> 0 <= b < two32 -> (to_int (a - b) = 0 <-> a = b).
Proof.
  intros Ha Hb. rewrite to_int_zero. unfold two32 in *. split.
  - intros H. pose proof (Z.div_mod (a - b) 4294967296 ltac:(lia)) as D. rewrite H in D.
    assert (-1 < (a - b) / 4294967296 < 1); [|lia]. split; [|apply Z.div_lt_upper_bound; lia].
    assert (-1 <= (a - b) / 4294967296) by (apply Z.div_le_lower_bound; lia).
    lia.
  - intros ->. now rewrite Z.sub_diag.
Qed.

(** The members that decide a frame's identity for distances. *)
Definition plain_frame (f : frame) : Prop :=
  match f with FCore _ | FGdb _ => False | FJs f => 0 <= jf_file_line f < two32 | _ => True end.
Definition same_identity (f g : frame) : Prop :=
  match f, g with
  | FPython f, FPython g =>
    pf_function_name f = pf_function_name g /\ pf_file_name f = pf_file_name g /\
    pf_special_function f = pf_special_function g /\ pf_special_file f = pf_special_file g
  | FKoops f, FKoops g => kf_function_name f = kf_function_name g
  | FJava f, FJava g => vf_name f = vf_name g
  | FRuby f, FRuby g =>
    rf_function_name f = rf_function_name g /\ rf_file_name f = rf_file_name g /\
    rf_special_function f = rf_special_function g
  | FJs f, FJs g =>
    jf_file_line f = jf_file_line g /\ jf_function_name f = jf_function_name g /\ jf_file_name f = jf_file_name g
  | _, _ => False
  end.
Lemma b2z_zero a b : b2z a - b2z b = 0 <-> a = b.
Proof. destruct a, b; cbn; split; intros; try lia; congruence. Qed.
Ltac fz := rewrite ?first_nonzero_zero, ?Forall_cons_iff; rewrite ?strcmp0_zero, ?b2z_zero.
Lemma frame_same_plain f g : plain_frame f -> plain_frame g -> (frame_same f g = true <-> same_identity f g).
Proof.
  intros Pf Pg. unfold frame_same. rewrite Z.eqb_eq.
  destruct f as [f|f|f|f|f|f|f], g as [g|g|g|g|g|g|g]; cbn in Pf, Pg; try tauto; cbn [sr_frame_cmp_distance same_identity frame_type];
    try (split; [intros [=]|tauto]).
  - unfold python_frame_cmp_distance. fz. intuition.
  - unfold koops_frame_cmp_distance. fz. tauto.
  - unfold java_frame_cmp_distance. fz. tauto.
  - unfold ruby_frame_cmp_distance. fz. intuition.
  - unfold js_frame_cmp_distance. fz. rewrite to_int_zero_eq by assumption. intuition.
Qed.
