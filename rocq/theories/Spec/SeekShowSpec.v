(** seek-start on the stream of a service that changes its video or audio streams
    at the beginning of a program. *)
From Coq Require Import ZArith List Bool.
From Verif Require Import Base.Util Model.Sink Model.Ts Model.StartSeeker Spec.PcrSpec Spec.FilterSpec Spec.ProgramSpec Spec.SeekSpec.
Import ListNotations.
Open Scope Z_scope.

Section Show.
Variable o : start_seeker_option.
Variable stage : nat.
Variable q : Z.          (* the PID of the PMT *)
Variable m0 : pmt.       (* the PMT before the change *)

(** A packet completes a PAT that lists the service with this PID; a PMT of the
    service. *)
Definition says_pat (p : packet) (t : table) : Prop :=
  p_pid p = 0 /\ p_tabs p stage = [t] /\ exists u, listing (sso_sid o) (0, tb_body t) = Some (u, q).
Definition says_pmt (p : packet) (t : table) (m : pmt) : Prop :=
  p_pid p = q /\ p_tabs p stage = [t] /\ tb_body t = TPmt (Some m) /\ pmt_sid m = sso_sid o.

(** The same video and audio streams, with the same PCR. *)
Definition same_streams (m m' : pmt) : Prop :=
  pmt_pcr_pid m' = pmt_pcr_pid m /\
  forall f, f = es_video \/ f = es_audio -> forall pid, av_pids f m pid <-> av_pids f m' pid.

(** Before the change: PATs keep the PID of the PMT, PMTs the streams. *)
Definition calm (p : packet) : Prop :=
  p_pid p = 0 \/ p_pid p = q -> forall t, In t (p_tabs p stage) ->
    (forall u pid, listing (sso_sid o) (p_pid p, tb_body t) = Some (u, pid) -> pid = q) /\
    (forall m, service_pmt (sso_sid o) (p_pid p, tb_body t) = Some m -> same_streams m0 m).

(** The PCRs of the service. *)
Definition pcrs (ps : list packet) : list Z :=
  flat_map (fun p => if p_pid p =? pmt_pcr_pid m0 then match p_pcr p with Some v => [v] | None => [] end else []) ps.

(** Within the limits: fewer packets, and less time from one PCR to any later one. *)
Definition within (ps : list packet) : Prop :=
  (sso_max_packets o = 0 \/ zlen ps < sso_max_packets o) /\
  2 * (ticks_per_ms * sso_max_duration o) <= pcr_cycle /\
  ForallOrdPairs (fun v v' => (v' - v) mod pcr_cycle < ticks_per_ms * sso_max_duration o) (pcrs ps).

(** A PAT and later a PMT have come; where the latest PAT starts. *)
Definition tuned_in (ps : list packet) : Prop :=
  exists a y ty b x tx m c, ps = a ++ y :: b ++ x :: c /\ says_pat y ty /\ says_pmt x tx m.
Definition latest_pat (ps : list packet) (i : Z) : Prop :=
  exists a y ty b, ps = a ++ y :: b /\ says_pat y ty /\ tb_first ty = i /\
    forall p t, In p b -> In t (p_tabs p stage) -> listing (sso_sid o) (p_pid p, tb_body t) = None.
(** The packet completes a PMT with other streams, which starts at packet [j]. *)
Definition changes_streams (z : packet) (j : Z) : Prop :=
  exists t m, says_pmt z t m /\ changed_by m0 m /\ tb_first t = j.

(** A limit is reached at the end of [ps ++ [p]]: as many packets, or as much time
    since a PCR that comes after a PAT and a PMT (without a wrap in between). *)
Definition at_limit (ps : list packet) (p : packet) : Prop :=
  (sso_max_packets o <> 0 /\ zlen ps + 1 = sso_max_packets o) \/
  exists a y ty b x tx m c z d v0 v,
    ps = a ++ y :: b ++ x :: c ++ z :: d /\ says_pat y ty /\ says_pmt x tx m /\
    pmt_pcr_pid m0 <> 0x1FFF /\ pcrs [z] = [v0] /\ pcrs [p] = [v] /\
    v0 + ticks_per_ms * sso_max_duration o <= v /\
    Forall (fun w => w <= v0) (pcrs (a ++ y :: b ++ x :: c)) /\
    Forall (fun w => 0 <= w /\ 2 * (v - w) < pcr_cycle) (pcrs (a ++ y :: b ++ x :: c ++ [z])) /\ v < pcr_cycle.

End Show.
