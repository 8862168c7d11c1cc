(** The clock given to filter-program, read at different moments or wrong. *)
From Coq Require Import ZArith List Bool.
From Verif Require Import Base.Outcome Base.Util Model.Ts Model.Commands Spec.PcrSpec Spec.MainSpec.
Import ListNotations.
Open Scope Z_scope.

(** The same options with another clock, with other margins. *)
Definition with_clock (pcr time : Z) (a : program_args) : program_args :=
  mkProgramArgs (pa_sid a) (pa_eid a) (pa_clock_pid a) pcr time (pa_audio_tags a) (pa_video_tags a)
    (pa_start_margin a) (pa_end_margin a) (pa_wait_until a) (pa_pre_streaming a).
Definition with_margins (start_margin end_margin : Z) (a : program_args) : program_args :=
  mkProgramArgs (pa_sid a) (pa_eid a) (pa_clock_pid a) (pa_clock_pcr a) (pa_clock_time a) (pa_audio_tags a) (pa_video_tags a)
    (Some start_margin) (Some end_margin) (pa_wait_until a) (pa_pre_streaming a).

(** A PCR in its range, times and margins of less than 278 years. *)
Definition sane_args (a : program_args) : Prop :=
  0 <= pa_clock_pcr a < pcr_cycle /\ Z.abs (pa_clock_time a) < 2 ^ 43 /\
  given (fun v => Z.abs v < 2 ^ 44) (pa_start_margin a) /\ given (fun v => Z.abs v < 2 ^ 44) (pa_end_margin a) /\
  given (fun w => Z.abs w < 2 ^ 60) (pa_wait_until a).

(** The PCR [ms] milliseconds after [pcr]. *)
Definition pcr_after (ms pcr : Z) : Z := (pcr + 27000 * ms) mod pcr_cycle.

(** All PMTs of the service name the PCR PID given with --clock-pid. *)
Definition keeps_pcr_pid (a : program_args) (p : packet) : Prop :=
  forall t m, In t (p_tabs p 1) -> tb_body t = TPmt (Some m) -> pmt_sid m = pa_sid a mod 65536 -> pmt_pcr_pid m = pa_clock_pid a mod 65536.
