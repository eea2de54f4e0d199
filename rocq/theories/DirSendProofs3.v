(** * What is lost of a report made from a problem directory. *)
From Coq Require Import Permutation.
From Verif Require Import Base Types UtilsModel UtilsSpec JsonSpec JsonTypesModel JsonTypesSpec NormSpec TextModel RpmModel RpmSpec SystemModel SystemSpec
  ReportModel ReportSpec PyParseSpec RubyParseSpec JavaParseSpec KoopsModel KoopsSpec FileModel AbrtModel AbrtSpec AbrtProofs2
  JsonKeepSpec ResendSpec ParseSendSpec ParseSendProofs ParseSendProofs3 DirSendSpec DirSendProofs DirSendProofs2.
Open Scope Z_scope.

Lemma address_same z : clip_address z = z <-> fits_address z.
Proof. unfold clip_address, fits_address. destruct (z =? ulong_max) eqn:E; [apply Z.eqb_eq in E; tauto|]. apply Z.eqb_neq in E. rewrite clip64_same. unfold fits64. tauto. Qed.
Lemma core_frame_same f : core_frame_as_read f = f <->
  fits_address (cf_address f) /\ fits_address (cf_build_id_offset f) /\ (cf_fingerprint f = None -> cf_fingerprint_hashed f = true).
Proof.
  unfold core_frame_as_read. rewrite <- !address_same. destruct f as [a b o n fn fp h]. cbn. destruct fp; (split; [intros E; injection E; intros; repeat split; congruence|intros (-> & -> & H)]); [reflexivity|].
  now rewrite H.
Qed.
Lemma core_same t : core_as_read t = t <-> trace_fits (SCore t).
Proof.
  unfold core_as_read. cbn [trace_fits]. unfold core_frames.
  transitivity (map (fun t => mk_core_thread (map core_frame_as_read (ct_frames t))) (cs_threads t) = cs_threads t /\ core_crash_as_read t = cs_crash_thread t).
  { split; [destruct t; cbn; intros E; injection E; auto|]. intros (-> & ->). destruct t; reflexivity. }
  assert (C : core_crash_as_read t = cs_crash_thread t <->
    (exists u, written_crash t u /\ ct_frames u <> [] /\ cs_crash_thread t <> None) \/
    (cs_crash_thread t = None /\ forall u, nth_error (cs_threads t) 0 = Some u -> ct_frames u = [])).
  { unfold core_crash_as_read, written_crash. destruct (cs_crash_thread t) as [i|].
    - split.
      + intros E. left. destruct (nth_error (cs_threads t) i) as [u|]; [|discriminate]. exists u. destruct (ct_frames u); [discriminate|]. repeat split; discriminate.
      + intros [(u & -> & N & _)|(E & _)]; [|discriminate]. destruct (ct_frames u); [tauto|reflexivity].
    - destruct (nth_error (cs_threads t) 0) as [u|]; split.
      + intros E. right. split; [reflexivity|]. intros u' X. injection X as <-. destruct (ct_frames u); [reflexivity|discriminate].
      + intros [(_ & _ & _ & N)|(_ & H)]; [tauto|]. now rewrite (H u eq_refl).
      + intros _. right. split; [reflexivity|discriminate].
      + reflexivity. }
  rewrite C. apply and_iff_compat_r. rewrite map_same, List.Forall_concat, List.Forall_map. apply Forall_iff_in. intros [fs] _. cbn.
  transitivity (map core_frame_as_read fs = fs); [split; [congruence|intros ->; reflexivity]|]. rewrite map_same. apply Forall_iff_in. intros f _. apply core_frame_same.
Qed.
Lemma trace_same tokener d type s : holds_trace tokener d type (Some s) -> stacktrace_as_read s = without_reason s <-> trace_fits s.
Proof.
  destruct s as [s|s|s|s|s|s|s]; cbn [holds_trace]; try tauto; intros (_ & H); cbn [stacktrace_as_read without_reason].
  - rewrite <- core_same. split; [congruence|intros ->; reflexivity].
  - destruct H as (text & rest & _ & H). unfold python_as_read. cbn [trace_fits].
    transitivity (map python_frame_as_read (ps_frames s) = ps_frames s); [destruct s; cbn; split; [congruence|intros ->; reflexivity]|].
    rewrite map_same. apply Forall_iff_in. intros f I.
    assert (K : pf_file_name f <> None /\ pf_function_name f <> None).
    { destruct H as (r & fs & class & after & _ & H & _ & _ & _ & _ & _ & ->). cbn in I. apply in_rev in I. clear - H I.
      induction H as [|s r f' q fs rest _ H _ IH]; [destruct I|]. destruct I as [->|I]; [|exact (IH I)].
      destruct H as (path & inner & shown & ds & line & name & a & b & _ & _ & _ & _ & _ & _ & F & _ & _ & G & _). rewrite F, G. split; discriminate. }
    apply python_same; tauto.
  - unfold koops_as_read. cbn [trace_fits].
    transitivity (map koops_frame_as_read (ks_frames s) = ks_frames s); [destruct s; cbn; split; [congruence|intros ->; reflexivity]|].
    rewrite map_same. apply Forall_iff_in. intros f _. apply koops_same.
  - unfold java_as_read. cbn [trace_fits]. unfold java_frames.
    transitivity (map (fun t => mk_java_thread (vt_name t) (map java_frame_as_read (vt_frames t))) (vs_threads s) = vs_threads s); [destruct s; cbn; split; [congruence|intros ->; reflexivity]|].
    rewrite java_maps. apply Forall_iff_in. intros f _. rewrite java_same. unfold fits32. destruct (vf_file_name f); split; try tauto; intros K; try (split; [|intros]); try tauto; try discriminate; try lia.
  - destruct H as (text & _ & H). unfold ruby_as_read. cbn [trace_fits].
    transitivity (map ruby_frame_as_read (rs_frames s) = rs_frames s); [destruct s; cbn; split; [congruence|intros ->; reflexivity]|].
    rewrite map_same. apply Forall_iff_in. intros f I. apply ruby_same.
    destruct H as (f0 & after & message & class & r & fs & H & _ & _ & _ & _ & _ & _ & Hs & ->). cbn in I.
    assert (K : forall s g q, ruby_frame_text s g q -> rf_function_name g <> None).
    { intros s g q (path & shown & ds & line & q' & nt & name & _ & _ & _ & _ & _ & _ & _ & _ & F). rewrite F. discriminate. }
    destruct I as [<-|I]; [exact (K _ _ _ H)|]. clear - Hs I K. induction Hs as [|s g Hg|s g r fs Hg _ IH]; [destruct I| |].
    + destruct I as [<-|[]]. exact (K _ _ _ Hg).
    + destruct I as [<-|I]; [exact (K _ _ _ Hg)|exact (IH I)].
Qed.
Lemma package_same p : rp_consistency p = [] -> package_as_read p = p <-> fits32 (rp_epoch p) /\ fits64 (rp_install_time p).
Proof.
  intros C. unfold package_as_read. rewrite <- clip32_same, <- clip64_same. destruct p. cbn in *. subst. split; [intros E; injection E; auto|intros (-> & ->); reflexivity].
Qed.
Lemma report_same tokener qsort e pn pv d r : safe_files d -> moves qsort -> describes tokener qsort e pn pv d r ->
  report_as_read r = as_received r <-> numbers_fit r.
Proof.
  intros F Q ((t0 & _ & Ty) & (os & O & Eo) & _ & P & _ & T & V & _ & _ & U1 & U2 & _).
  apply (abrt_types tokener pn) in Ty.
  assert (E1 : (if existsb (Nat.eqb (rep_type r)) [1; 2; 3; 4; 6; 7]%nat then rep_type r else 0%nat) = rep_type r).
  { cbn [In] in Ty. destruct Ty as [<-|[<-|[<-|[<-|[<-|[<-|[]]]]]]]; reflexivity. }
  assert (E2 : (if read_with_stacktrace (rep_type r) then option_map stacktrace_as_read (rep_stacktrace r) else None) = option_map stacktrace_as_read (rep_stacktrace r)).
  { unfold read_with_stacktrace. clear E1. destruct (existsb _ _) eqn:X; [reflexivity|]. destruct (rep_stacktrace r) as [s|]; [|reflexivity]. exfalso.
    destruct s; cbn [holds_trace] in T; try tauto; destruct T as (Et & _); rewrite Et in X; discriminate X. }
  assert (E3 : option_map os_as_read (rep_os r) = option_map without_cpe (rep_os r)).
  { rewrite Eo. cbn. unfold os_as_read, without_cpe. rewrite (uptime_zero d _ O). reflexivity. }
  unfold report_as_read, as_received, numbers_fit. rewrite E1, E2, E3, V, U1, U2.
  transitivity (clip32 (rep_serial r) = rep_serial r /\ map package_as_read (rep_packages r) = rep_packages r /\
    option_map stacktrace_as_read (rep_stacktrace r) = option_map without_reason (rep_stacktrace r)).
  { split; [intros X; injection X; auto|]. intros (-> & -> & ->). reflexivity. }
  rewrite clip32_same, map_same. apply and_iff_compat_l.
  assert (PP : Forall (fun x => package_as_read x = x) (rep_packages r) <-> Forall (fun p => fits32 (rp_epoch p) /\ fits64 (rp_install_time p)) (rep_packages r)).
  { apply (packages_good d F _ _ Q) in P. rewrite Forall_forall in P. apply Forall_iff_in. intros p I. apply package_same. apply (P p I). }
  rewrite PP. apply and_iff_compat_l. destruct (rep_stacktrace r) as [s|]; cbn [option_map].
  - apply (trace_same tokener d) in T. split.
    + intros X s' Es. injection Es as <-. apply T. congruence.
    + intros X. f_equal. apply T. exact (X s eq_refl).
  - split; [discriminate|reflexivity].
Qed.
