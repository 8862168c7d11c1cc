From Coq Require Import ZArith Lia List Bool.
From Verif Require Import Base.Outcome Base.Util Model.EitSection Model.EitCollector Model.Options Model.Pcr Model.Commands
  Spec.EitSpec Spec.OptionSpec Spec.ProgramSpec Spec.PipeSpec Proofs.EitSectionProofs Proofs.EitProofs Proofs.EitMain Proofs.OptionProofs Proofs.PcrProofs Proofs.PfProofs.
From Verif Require Model.ProgramFilter Model.EitpfCollector Spec.PfSpec.
Import ListNotations.
Open Scope Z_scope.

Lemma unscheduled : forall mjd o s x, ~ schedule o x -> ec_deliver mjd o s (DSection x) = Ok s.
Proof.
  intros mjd o s x N. cbn [ec_deliver]. unfold ec_handleSection.
  destruct (sn_valid x) eqn:Hv; cbn [negb]; [|reflexivity].
  match goal with |- (if ?c then _ else _) = _ => destruct c eqn:Hk end; [reflexivity|].
  destruct (sn_next x) eqn:Hn; [reflexivity|]. unfold EIT_PAYLOAD_FIXED_SIZE.
  destruct (Z.ltb_spec (zlen (sn_payload x)) 6) as [Hz|Hz]; [reflexivity|].
  destruct (EitSection_parsed x Hz) as (e & He & P). rewrite He. cbn [bind].
  assert (Hs : ei_sid e = sid_of x) by (destruct P as (_ & P1 & _); exact P1). rewrite Hs.
  destruct (negb (ss_IsEmpty (eo_sids o)) && negb (ss_Contain (eo_sids o) (sid_of x))) eqn:H1; [reflexivity|].
  destruct (negb (ss_IsEmpty (eo_xsids o)) && ss_Contain (eo_xsids o) (sid_of x)) eqn:H2; [reflexivity|].
  exfalso. apply N. split; [auto|]. split; [auto|]. split; [auto|]. split; [|split].
  - destruct (Z.leb_spec 80 (sn_tid x)), (Z.leb_spec (sn_tid x) 95); cbn [andb] in Hk.
    + left. apply negb_false_iff in Hk. auto.
    + destruct (Z.leb_spec 96 (sn_tid x)), (Z.leb_spec (sn_tid x) 111); cbn [andb] in Hk; try discriminate.
      right. apply negb_false_iff in Hk. auto.
    + destruct (Z.leb_spec 96 (sn_tid x)), (Z.leb_spec (sn_tid x) 111); cbn [andb] in Hk; try discriminate. lia.
    + destruct (Z.leb_spec 96 (sn_tid x)), (Z.leb_spec (sn_tid x) 111); cbn [andb] in Hk; try discriminate. lia.
  - destruct (eo_sids o) as [|z l]; [auto|]. right. cbn [ss_IsEmpty negb andb] in H1. apply negb_false_iff in H1. apply zmem_In in H1. exact H1.
  - intros I. destruct (eo_xsids o) as [|z l]; [contradiction|]. cbn [ss_IsEmpty negb andb] in H2. apply zmem_false in H2. contradiction.
Qed.

Lemma load_ids : forall a l, ids_given a l -> exists set, LoadSidSet a = Ok set /\ forall x, In x set <-> In x l.
Proof.
  intros [strs|] l H; cbn in H; [destruct H; eapply sids_exact; eauto|]. subst. exists []. split; [reflexivity|tauto].
Qed.
Lemma same_empty : forall (a b : list Z), (forall x, In x a <-> In x b) -> (a = [] <-> b = []).
Proof.
  intros [|x a] [|y b] H; split; intros E; try reflexivity; try discriminate; exfalso; [apply (proj2 (H y)); left; auto|apply (proj1 (H x)); left; auto].
Qed.

Lemma collect_eits_options : forall sids xsids ns xs limit streaming actual others, ids_given sids ns -> ids_given xsids xs ->
  exists o, load_eit_collector sids xsids limit streaming actual others = Ok o /\
    eo_streaming o = streaming /\ (limit = None -> eo_time_limit o = 30000) /\ (forall v, limit = Some v -> eo_time_limit o = v) /\
    (forall x, schedule o x <->
      sn_valid x = true /\ sn_next x = false /\ 6 <= zlen (sn_payload x) /\
      (0x50 <= sn_tid x <= 0x5F /\ others = false \/ 0x60 <= sn_tid x <= 0x6F /\ actual = false) /\
      (ns = [] \/ In (sid_of x) ns) /\ ~ In (sid_of x) xs) /\
    (forall mjd s x, ~ schedule o x -> ec_deliver mjd o s (DSection x) = Ok s).
Proof.
  intros sids xsids ns xs limit streaming actual others S X.
  destruct (load_ids _ _ S) as [s1 [E1 I1]], (load_ids _ _ X) as [s2 [E2 I2]]. unfold load_eit_collector. rewrite E1. cbn [bind]. rewrite E2. cbn [bind].
  eexists. split; [reflexivity|]. split; [reflexivity|]. split; [intros ->; reflexivity|]. split; [intros v ->; reflexivity|]. split.
  - intros x. unfold schedule. cbn [eo_actual eo_others eo_sids eo_xsids]. rewrite !negb_true_iff, (I1 (sid_of x)), (I2 (sid_of x)), (same_empty _ _ I1). tauto.
  - intros. apply unscheduled. auto.
Qed.

Lemma collect_eitpfs_options : forall sids ns streaming present following, ids_given sids ns ->
  exists o, load_eitpf_collector sids streaming present following = Ok o /\ EitpfCollector.po_streaming o = streaming /\
    (forall x, PfSpec.pf_counts o x <->
      sn_valid x = true /\ sn_next x = false /\ sn_tid x = 0x4E /\ 6 <= zlen (sn_payload x) /\ (sn_number x = 0 \/ sn_number x = 1) /\
      (ns = [] \/ In (sid_of x) ns)) /\
    (forall x, PfSpec.pf_selected o x <-> sn_number x = 0 /\ following = false \/ sn_number x = 1 /\ present = false) /\
    (forall mjd s x, ~ PfSpec.pf_counts o x -> EitpfCollector.pf_handleSection mjd o s x = Ok s).
Proof.
  intros sids ns streaming present following S. destruct (load_ids _ _ S) as [s1 [E1 I1]].
  unfold load_eitpf_collector. rewrite E1. cbn [bind].
  eexists. split; [reflexivity|]. split; [reflexivity|]. split; [|split].
  - intros x. unfold PfSpec.pf_counts. cbn [EitpfCollector.po_sids]. rewrite (I1 (sid_of x)), (same_empty _ _ I1). tauto.
  - intros x. unfold PfSpec.pf_selected. cbn. rewrite !negb_true_iff. tauto.
  - intros. apply pf_ignored. auto.
Qed.

Lemma filter_program_options : forall a audio video, Z.abs (pa_clock_time a) < 2 ^ 60 -> (forall w, pa_wait_until a = Some w -> Z.abs w < 2 ^ 60) ->
  LoadComponentTags (pa_audio_tags a) = Ok (Some audio) -> LoadComponentTags (pa_video_tags a) = Ok (Some video) ->
  exists o, load_program_filter a = Ok (Some o) /\
    ProgramFilter.pfo_sid o = pa_sid a mod 65536 /\ ProgramFilter.pfo_eid o = pa_eid a mod 65536 /\
    ProgramFilter.pfo_clock_pid o = pa_clock_pid a mod 65536 /\ ProgramFilter.pfo_clock_pcr o = pa_clock_pcr a /\
    ProgramFilter.pfo_clock_time o = 40587 * 86400000 + 9 * 3600000 + pa_clock_time a /\
    ProgramFilter.pfo_audio_tags o = audio /\ ProgramFilter.pfo_video_tags o = video /\
    (forall v, pa_start_margin a = Some v -> ProgramFilter.pfo_start_margin o = v) /\ (pa_start_margin a = None -> ProgramFilter.pfo_start_margin o = 0) /\
    (forall v, pa_end_margin a = Some v -> ProgramFilter.pfo_end_margin o = v) /\ (pa_end_margin a = None -> ProgramFilter.pfo_end_margin o = 0) /\
    ProgramFilter.pfo_wait_until o = option_map (fun w => 40587 * 86400000 + 9 * 3600000 + w) (pa_wait_until a) /\
    ProgramFilter.pfo_pre_streaming o = pa_pre_streaming a.
Proof.
  intros a audio video T W A V. unfold load_program_filter.
  assert (U : forall u, Z.abs u < 2 ^ 60 -> ConvertUnixTimeToJstTime u = Ok (40587 * 86400000 + 9 * 3600000 + u)).
  { intros u H. change (2 ^ 60) with 1152921504606846976 in H. apply unix_jst_value. lia. }
  rewrite (U _ T). cbn [bind]. rewrite A. cbn [bind]. rewrite V. cbn [bind].
  assert (Wt : match pa_wait_until a with None => Ok None | Some w => let* t := ConvertUnixTimeToJstTime w in Ok (Some t) end
    = Ok (option_map (fun w => 40587 * 86400000 + 9 * 3600000 + w) (pa_wait_until a))).
  { destruct (pa_wait_until a) as [w|]; [|reflexivity]. rewrite (U w (W w eq_refl)). reflexivity. }
  rewrite Wt. cbn [bind]. eexists. split; [reflexivity|].
  repeat split; cbn; try (intros ? ->; reflexivity); try (intros ->; reflexivity).
Qed.
