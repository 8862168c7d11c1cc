(** Options that say when a command ends. *)
From Coq Require Import ZArith List Bool.
From Verif Require Import Base.Outcome Base.Util Model.EitSection Model.EitCollector Spec.EitSpec.
From Verif Require Model.ProgramFilter.
From Verif Require Import Model.Commands.
Import ListNotations.
Open Scope Z_scope.

(** The value of --time-limit, 30 seconds if it is not given. *)
Definition limit_ms (limit : option Z) : Z := match limit with Some v => v | None => 30000 end.

(** collect-eits with the first pair of --streaming and --time-limit has no more
    time than with the second one. *)
Definition no_later (streaming : bool) (limit : option Z) (streaming' : bool) (limit' : option Z) : Prop :=
  streaming' = true \/ streaming = false /\ limit_ms limit <= limit_ms limit'.

(** Actual and other schedules are about different services: those for which [K]
    is true and those for which it is false. *)
Definition kept_apart (K : Z * Z * Z -> bool) (ds : list delivery) : Prop :=
  forall x, In (DSection x) ds ->
    (0x50 <= sn_tid x <= 0x5F -> K (service_of x) = true) /\ (0x60 <= sn_tid x <= 0x6F -> K (service_of x) = false).

(** The options of filter-program with another --wait-until: as given, and as
    the filter gets them. *)
Definition patient (w : Z) (a : program_args) : program_args :=
  mkProgramArgs (pa_sid a) (pa_eid a) (pa_clock_pid a) (pa_clock_pcr a) (pa_clock_time a) (pa_audio_tags a) (pa_video_tags a)
    (pa_start_margin a) (pa_end_margin a) (Some w) (pa_pre_streaming a).
Definition until (w : Z) (o : ProgramFilter.program_filter_option) : ProgramFilter.program_filter_option :=
  ProgramFilter.mkPfOption (ProgramFilter.pfo_sid o) (ProgramFilter.pfo_eid o) (ProgramFilter.pfo_clock_pid o) (ProgramFilter.pfo_clock_pcr o)
    (ProgramFilter.pfo_clock_time o) (ProgramFilter.pfo_audio_tags o) (ProgramFilter.pfo_video_tags o) (ProgramFilter.pfo_start_margin o)
    (ProgramFilter.pfo_end_margin o) (Some w) (ProgramFilter.pfo_pre_streaming o).
