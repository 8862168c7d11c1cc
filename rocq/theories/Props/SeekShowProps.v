(** C105: seek-start on the stream of a service that changes its streams. *)
From Coq Require Import ZArith Lia List Bool.
From Verif Require Import Base.Outcome Base.Util Model.Sink Model.Ts Model.StartSeeker Model.FileSource Model.StdoutSink Model.Main Spec.SourceSpec Spec.StdoutSpec Spec.PcrSpec
  Spec.FilterSpec Spec.TransSpec Spec.ProgramSpec Spec.SeekSpec Spec.PipeSpec Spec.MainSpec Spec.SeekShowSpec Proofs.SeekProofs Proofs.SeekShowProofs.
From Verif Require Proofs.PipeProofs Proofs.PipeSeek Props.SeekProps Props.PipeProps Props.CommandProps.
Import ListNotations.
Open Scope Z_scope.

(** The options of the command line. *)
Definition given (sid : Z) (d p : option Z) : start_seeker_option :=
  mkSsOption (sid mod 2 ^ 16) (match d with Some v => v | None => 0 end) (match p with Some v => v mod 2 ^ 32 | None => 0 end).

(** A change within the limits: the latest PAT, and everything from the first packet
    of the new PMT on. *)
Theorem C105_cut : forall lib sys sid d p bs n q m0 before z c i j, (forall p, zlen (li_bytes lib p) = 188) -> ~ no_limit d p ->
  has_input sys bs n -> Forall no_error (sy_writes sys) ->
  let o := given sid d p in let ps := views (li_packet lib) [] bs in
  orderly o 0 ps -> sane_seek o -> q <> 0 /\ q <> 0x1FFF ->
  ps = before ++ z :: c -> Forall (calm o 0 q m0) before -> within o m0 before -> tuned_in o 0 q before -> latest_pat o 0 q before i ->
  changes_streams o 0 q m0 z j ->
  exists e y, main lib sys (SeekStart sid d p) n = Some (Ok e) /\ en_code e = 0 /\ znth i ps = Some y /\ p_pid y = 0 /\
    en_stdout e = li_bytes lib y ++ concat (map (li_bytes lib) (zdrop j ps)).
Proof.
  intros lib sys sid d p bs n q m0 before z c i j B N I W o ps O S Q E F Wi Tu La Ch.
  destruct (CommandProps.C90_seek_start lib sys sid d p bs n B N I W O S) as (r & e & K & M & C & Out).
  fold o in K. fold ps in K, Out. rewrite E in K. assert (O' : orderly o 0 (before ++ z :: c)) by (rewrite <- E; exact O).
  rewrite (show_found o 0%nat q m0 Q before z c i j r K O' F Wi Tu La Ch) in Out.
  destruct La as (a & y & ty & b & E2 & Y & Ei & Nb).
  assert (Iy : In y ps) by (rewrite E, E2; apply in_or_app; left; apply in_or_app; right; left; reflexivity).
  destruct (in_znth _ _ _ Iy) as (k & Ek). destruct Y as (Py & Ty & u & L).
  assert (It : In ty (p_tabs y 0)) by (rewrite Ty; left; reflexivity).
  destruct (proj2 (O k y Ek) ty It) as (_ & _ & (y0 & E0 & P0) & _). rewrite Ei in E0.
  exists e, y0. split; [exact M|]. split; [exact C|]. split; [exact E0|]. split; [congruence|].
  rewrite Out. cbn [seek_output]. rewrite E0, map_app, concat_app. cbn [map concat]. rewrite app_nil_r. reflexivity.
Qed.
Print Assumptions C105_cut.

(** No change at all, or a limit is reached first: the whole input. *)
Theorem C105_whole : forall lib sys sid d p bs n q m0, faithful (li_packet lib) (li_bytes lib) -> ~ no_limit d p ->
  has_input sys bs n -> Forall is_byte (input_bytes sys) -> Forall no_error (sy_writes sys) ->
  let o := given sid d p in let ps := views (li_packet lib) [] bs in
  orderly o 0 ps -> sane_seek o -> q <> 0 /\ q <> 0x1FFF ->
  (Forall (calm o 0 q m0) ps \/
   exists before x c, ps = before ++ x :: c /\ Forall (calm o 0 q m0) before /\ calm o 0 q m0 x /\ at_limit o 0 q m0 before x) ->
  exists e, main lib sys (SeekStart sid d p) n = Some (Ok e) /\ en_code e = 0 /\ en_stdout e = concat bs.
Proof.
  intros lib sys sid d p bs n q m0 Fa N I By W o ps O S Q H. destruct Fa as (Fb & Fp & Fz).
  destruct (CommandProps.C90_seek_start lib sys sid d p bs n Fz N I W O S) as (r & e & K & M & C & Out).
  fold o in K. fold ps in K, Out. exists e. split; [exact M|]. split; [exact C|].
  assert (R : exists m, r = Whole m).
  { destruct H as [F|(before & x & c & E & F & Cx & L)]; [exact (show_none o 0%nat q m0 Q ps r K F)|]. rewrite E in K.
    destruct (show_late o 0%nat q m0 Q before x c r K F Cx L (proj1 (proj1 S))) as (m & -> & _). eauto. }
  destruct R as (m & ->). rewrite Out. cbn [seek_output]. unfold ps. rewrite (PipeSeek.views_bytes _ _ Fb bs []); [reflexivity|].
  apply (PipeProofs.packets_are (input_bytes sys)); [apply I|exact By].
Qed.
Print Assumptions C105_whole.

(** When the limit is reached, at most the packets up to there were held back. *)
Theorem C105_held : forall o stage q m0 before x c r, sane_seek o -> q <> 0 /\ q <> 0x1FFF -> seek o stage [] None 0 (before ++ x :: c) r ->
  Forall (calm o stage q m0) before -> calm o stage q m0 x -> at_limit o stage q m0 before x -> held_of r <= zlen before + 1.
Proof.
  intros o stage q m0 before x c r S Q K F Cx L. destruct (show_late o stage q m0 Q before x c r K F Cx L (proj1 (proj1 S))) as (m & -> & Hm). exact Hm.
Qed.
Print Assumptions C105_held.

(** Time is counted in PCRs of the service: if none comes, and --max-packets is not
    given, everything is held back until the input ends. *)
Theorem C105_no_pcr : forall sid d o stage q m0 ps r, ss_LoadOption sid (Some d) None = Some o -> q <> 0 /\ q <> 0x1FFF ->
  seek o stage [] None 0 ps r -> Forall (calm o stage q m0) ps -> pcrs m0 ps = [] -> r = Whole (zlen ps).
Proof.
  intros sid d o stage q m0 ps r L Q K F P. apply (show_endless o stage q m0 Q ps r K F); [|exact P].
  unfold ss_LoadOption in L. destruct (_ && _)%bool; [discriminate|]. injection L as <-. reflexivity.
Qed.
Print Assumptions C105_no_pcr.

(** The stream of C30: PAT at packet 1, PMT at packet 2, the PMT with another video
    stream from packet 4 to packet 6.  seek-start --sid=101 --max-duration=1000
    --max-packets=4294967396 on it: see C90_seek_case, with the output
    of packet 1 and of the packets from 4 on. *)
Definition early_part : list packet := ztake 6 SeekProps.stream_s.
Definition new_pmt : packet := SeekProps.spkt 6 0x1F0 None [(TPmt (Some SeekProps.pmt_b), 4)].

Ltac quietly := intros [H|H]; cbn in H; try discriminate H; intros t It; cbn in It; repeat (destruct It as [<-|It]; [split|]); try contradiction;
  first [intros u pid E0; cbn in E0; first [discriminate E0|injection E0 as <- <-; reflexivity]
  |intros m E0; cbn in E0; first [discriminate E0|injection E0 as <-; split; [reflexivity|intros f Hf pid; reflexivity]]].
Ltac all_calm E := apply Forall_forall; let p := fresh "p" in let I := fresh "I" in intros p I; cbn in I;
  repeat (destruct I as [<-|I]; [unfold calm; rewrite ?E; quietly|]); destruct I.
Lemma early_calm : forall o, sso_sid o = 101 -> Forall (calm o 0 0x1F0 SeekProps.pmt_a) early_part.
Proof.
  intros o E. all_calm E.
Qed.
Lemma other_video : changed_by SeekProps.pmt_a SeekProps.pmt_b.
Proof.
  exists es_video. split; [left; reflexivity|]. split.
  - exists 0x100. exists (mkStream true false 2 false None). split; [left; reflexivity|reflexivity].
  - intros A. destruct (proj1 (A 0x100)) as [e [[I|[]] _]]; [|discriminate].
    exists (mkStream true false 2 false None). split; [left; reflexivity|reflexivity].
Qed.

Example C105_cut_conditions : let o := given 101 (Some 1000) (Some 4294967396) in
  orderly o 0 SeekProps.stream_s /\ sane_seek o /\
  SeekProps.stream_s = early_part ++ new_pmt :: zdrop 7 SeekProps.stream_s /\ Forall (calm o 0 0x1F0 SeekProps.pmt_a) early_part /\
  within o SeekProps.pmt_a early_part /\ tuned_in o 0 0x1F0 early_part /\ latest_pat o 0 0x1F0 early_part 1 /\
  changes_streams o 0 0x1F0 SeekProps.pmt_a new_pmt 4.
Proof.
  cbv zeta. split; [exact SeekProps.orderly_s|]. split; [split; vm_compute; intuition discriminate|]. split; [reflexivity|].
  split; [apply early_calm; reflexivity|]. split; [split; [right; reflexivity|split; [vm_compute; discriminate|cbn; repeat constructor]]|].
  split; [|split].
  - exists [SeekProps.spkt 0 0x100 None []]. do 2 eexists. exists []. do 3 eexists. exists (zdrop 3 early_part). split; [reflexivity|].
    split; [split; [reflexivity|split; [reflexivity|eexists; reflexivity]]|]. split; [reflexivity|split; [reflexivity|split; reflexivity]].
  - exists [SeekProps.spkt 0 0x100 None []]. do 2 eexists. exists (zdrop 2 early_part). split; [reflexivity|].
    split; [split; [reflexivity|split; [reflexivity|eexists; reflexivity]]|]. split; [reflexivity|].
    intros p t I It. cbn in I. repeat (destruct I as [<-|I]; [cbn in It; repeat (destruct It as [<-|It]; [reflexivity|]); try destruct It|]). destruct I.
  - do 2 eexists. split; [split; [reflexivity|split; [reflexivity|split; reflexivity]]|]. split; [exact other_video|reflexivity].
Qed.

(** With --max-packets=5 the limit comes first; with --max-duration=1000 and two
    PCRs a second apart in front of the change likewise. *)
Definition slow_part : list packet :=
  [SeekProps.spkt 0 0x100 None []; SeekProps.spkt 1 0 None [(TPat (Some SeekProps.pat_s), 1)]; SeekProps.spkt 2 0x1F0 None [(TPmt (Some SeekProps.pmt_a), 2)];
   SeekProps.spkt 3 0x100 (Some 7) []; SeekProps.spkt 4 0x120 None []].
Definition second_later : packet := SeekProps.spkt 5 0x100 (Some 27000007) [].
Definition slow_stream : list packet := slow_part ++ [second_later; SeekProps.spkt 6 0x1F0 None [(TPmt (Some SeekProps.pmt_b), 6)]; SeekProps.spkt 7 0x120 None []].
Example C105_late_conditions : at_limit (given 101 None (Some 5)) 0 0x1F0 SeekProps.pmt_a (ztake 4 slow_part) (SeekProps.spkt 4 0x120 None []) /\
  let o := given 101 (Some 1000) None in
  Forall (calm o 0 0x1F0 SeekProps.pmt_a) slow_part /\ calm o 0 0x1F0 SeekProps.pmt_a second_later /\ at_limit o 0 0x1F0 SeekProps.pmt_a slow_part second_later.
Proof.
  split; [left; split; [discriminate|reflexivity]|]. cbv zeta. split; [all_calm (eq_refl 0)|]. split; [unfold calm; quietly|]. right.
  exists [SeekProps.spkt 0 0x100 None []]. do 2 eexists. exists []. do 3 eexists. exists []. do 1 eexists. exists [SeekProps.spkt 4 0x120 None []], 7, 27000007. split; [reflexivity|].
  split; [split; [reflexivity|split; [reflexivity|eexists; reflexivity]]|]. split; [split; [reflexivity|split; [reflexivity|split; reflexivity]]|].
  split; [discriminate|]. split; [reflexivity|]. split; [reflexivity|]. split; [vm_compute; discriminate|]. split; [constructor|]. split; [|reflexivity].
  repeat constructor; discriminate.
Qed.
Example C105_late_case : exists e, main (CommandProps.case_lib slow_stream) (CommandProps.case_sys slow_stream) (SeekStart 101 (Some 1000) None) 3000 = Some (Ok e) /\
  en_code e = 0 /\ en_stdout e = concat (PipeProps.demo_packets 0 slow_stream).
Proof. eexists. split; [vm_compute; reflexivity|]. split; vm_compute; reflexivity. Qed.
(** A tick less, and the change is found. *)
Definition just_in_time : list packet :=
  slow_part ++ [SeekProps.spkt 5 0x100 (Some 27000006) []; SeekProps.spkt 6 0x1F0 None [(TPmt (Some SeekProps.pmt_b), 6)]; SeekProps.spkt 7 0x120 None []].
Example C105_in_time_case : exists e p, main (CommandProps.case_lib just_in_time) (CommandProps.case_sys just_in_time) (SeekStart 101 (Some 1000) None) 3000 = Some (Ok e) /\
  znth 1 (PipeProps.demo_packets 0 just_in_time) = Some p /\ en_stdout e = p ++ concat (zdrop 6 (PipeProps.demo_packets 0 just_in_time)).
Proof. eexists. eexists. split; [vm_compute; reflexivity|]. split; vm_compute; reflexivity. Qed.
(** Without PCRs: the service has none, 1000 ms never pass. *)
Example C105_no_pcr_conditions : exists o, ss_LoadOption 101 (Some 1000) None = Some o /\ Forall (calm o 0 0x1F0 SeekProps.pmt_a) (ztake 3 slow_part) /\ pcrs SeekProps.pmt_a (ztake 3 slow_part) = [].
Proof. eexists. split; [reflexivity|]. split; [all_calm (eq_refl 0)|reflexivity]. Qed.
