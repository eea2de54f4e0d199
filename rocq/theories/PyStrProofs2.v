(** * Proofs for PyStrModel.v: texts that are read back. *)
From Verif Require Import Base Types UtilsSpec UtilsProofs JsonModel JsonProofs RpmModel RpmProofs4 TextModel RubyParseModel RubyParseSpec RubyParseProofs JavaParseModel JavaParseSpec JavaParseProofs3
  JsParseModel JsParseSpec JsParseProofs HeapModel HeapSpec PyModel PySpec PyAttrModel PyAttrSpec PyBaseModel PyBaseSpec PyNewModel PyNewSpec PyStrModel PyStrSpec PyStrProofs.
Open Scope Z_scope.

Lemma percent_d_small z : 0 <= z < 2 ^ 31 -> percent_d z = dec z.
Proof.
  intros H. unfold percent_d, int32, signed. destruct (Z.ltb_spec z (2 ^ 31)); [|lia]. destruct (Z.ltb_spec z 0); [lia|reflexivity].
Qed.
Lemma ruby_back f file name : ruby_showable f file name -> 0 < rf_file_line f < 2 ^ 31 -> rf_block_level f < 2 ^ 31 -> reads_frame KRubyFrame (ruby_frame_str f) (FRuby f).
Proof.
  intros S L1 L2. split; [reflexivity|]. exists []. apply frame_iff. rewrite <- (app_nil_r (ruby_frame_str f)). apply shown_frame.
  assert (E : ruby_frame_str f = ruby_show_frame print_N f file name); [|rewrite E; constructor; exact S].
  destruct S as (Ef & En & _ & Hb & _). unfold ruby_frame_str, ruby_show_frame. rewrite Ef, En. cbn [opt_text app]. rewrite app_nil_r.
  destruct (Z.eqb_spec (rf_file_line f) 0); [lia|]. rewrite percent_d_small by lia. rewrite <- !app_assoc.
  do 5 f_equal. f_equal. destruct (Z.eqb_spec (rf_block_level f) 1) as [E|E]; [rewrite E; reflexivity|]. destruct (Z.eqb_spec (rf_block_level f) 0) as [E0|E0]; [rewrite E0; reflexivity|].
  destruct (Z.ltb_spec 1 (rf_block_level f)); [|lia]. rewrite percent_d_small by lia. unfold dec. reflexivity.
Qed.
Lemma js_back f : js_showable f -> jf_file_line f < 2 ^ 31 -> jf_line_column f < 2 ^ 31 -> reads_frame KJsFrame (js_frame_str f) (FJs f).
Proof.
  intros S L1 L2. split; [reflexivity|]. exists []. unfold sr_js_frame_parse. rewrite <- (app_nil_r (js_frame_str f)). apply js_frame_roundtrip; [exact S| |exact I].
  destruct S as (Hl & Hc & (file & Ef & _) & _). unfold sr_js_frame_append_to_str, js_frame_str. rewrite Ef. cbn [percent_s bind].
  rewrite !percent_d_small by lia. destruct (jf_function_name f); reflexivity.
Qed.
Lemma java_back f name : java_showable f -> vf_class_path f = None -> vf_name f = Some name -> vf_file_line f < 2 ^ 31 ->
  (vf_is_native f = true -> vf_file_line f = 0) -> (vf_is_native f = false -> vf_file_name f <> None) -> reads_frame KJavaFrame (java_frame_str f) (FJava f).
Proof.
  intros S Cp En L1 Hn Hf. split; [reflexivity|]. exists []. apply java_frame_roundtrip_end.
  assert (E : java_frame_str f = java_show print_N f); [|rewrite E; apply js_java; assumption].
  destruct S as (Ex & _ & Hl & _ & Hnat & _). unfold java_frame_str, java_show. rewrite Ex, En. cbn [opt_text]. rewrite app_nil_r. destruct (vf_is_native f).
  - rewrite Hn, (Hnat eq_refl) by reflexivity. cbn [opt_text Z.eqb app]. rewrite <- !app_assoc. reflexivity.
  - destruct (vf_file_name f) as [file|]; [|exfalso; exact (Hf eq_refl eq_refl)]. cbn [opt_text]. rewrite app_nil_r. rewrite <- !app_assoc.
    destruct (Z.eqb_spec (vf_file_line f) 0); [reflexivity|]. rewrite percent_d_small by lia. reflexivity.
Qed.
Lemma rpm_back name epoch version release architecture : name <> [] -> version <> [] -> release <> [] -> (epoch = 0 -> ~ In ":"%char version) ->
  ~ In "-"%char version -> ~ In "-"%char release -> ~ In "-"%char architecture -> ~ In "."%char architecture -> u32 epoch ->
  sr_rpm_package_parse_nevra (rpm_str (Some name) epoch (Some version) (Some release) (Some architecture)) = Accepted name (Z.to_N epoch) version release architecture.
Proof.
  intros H1 H2 H3 Hc H4 H5 H6 H7 [E1 E2]. unfold rpm_str, opt_text. rewrite app_nil_r. destruct (Z.eqb_spec epoch 0) as [->|E].
  - apply nevra_roundtrip0; auto.
  - rewrite <- !app_assoc. apply nevra_roundtrip; auto. change (2 ^ 32) with 4294967296 in E2. lia.
Qed.
