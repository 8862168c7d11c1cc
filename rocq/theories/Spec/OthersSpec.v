(** Packets that do not concern a service. *)
From Coq Require Import ZArith List Bool.
From Verif Require Import Base.Outcome Base.Util Model.Sink Model.FileSource Model.Ts Spec.SourceSpec Spec.FilterSpec Spec.PipeSpec.
Import ListNotations.
Open Scope Z_scope.

(** A table [x] (with the PID it came on) names a PID as belonging to the service:
    as its PMT PID, as a PID in its PMT, or as an EMM PID. *)
Definition names (sid : Z) (x : Z * body) (pid : Z) : Prop :=
  (exists t, listing sid x = Some (t, pid)) \/
  (exists m, service_pmt sid x = Some m /\ (pid = pmt_pcr_pid m \/ In pid (pmt_ca_pids m) \/ In pid (map fst (pmt_entries m)))) \/
  (exists c, a_cat x = Some c /\ In pid (cat_ca_pids c)).

(** [own] holds of the SI PIDs and of all PIDs that tables on PIDs of [own] name. *)
Definition covers (sid : Z) (stage : nat) (own : Z -> Prop) (ps : list packet) : Prop :=
  (forall pid, In pid si_pids -> own pid) /\
  (forall p t pid, In p ps -> own (p_pid p) -> In t (p_tabs p stage) -> names sid (p_pid p, tb_body t) pid -> own pid).

(** Two streams with the same packets, in the same order, on the PIDs of [own];
    [pid_of] gives the PID of a packet. *)
Inductive agree {P} (pid_of : P -> Z) (own : Z -> Prop) : list P -> list P -> Prop :=
| agree_nil : agree pid_of own [] []
| agree_both : forall p ps qs, own (pid_of p) -> agree pid_of own ps qs -> agree pid_of own (p :: ps) (p :: qs)
| agree_left : forall p ps qs, ~ own (pid_of p) -> agree pid_of own ps qs -> agree pid_of own (p :: ps) qs
| agree_right : forall q ps qs, ~ own (pid_of q) -> agree pid_of own ps qs -> agree pid_of own ps (q :: qs).

(** TSDuck's demultiplexer keeps its PIDs apart: what it makes of a packet
    depends on the earlier packets of the same PID only. *)
Definition per_pid {P} (view : list (list Z) -> list Z -> P) : Prop :=
  forall h h' b, filter (fun x => pid_bytes x =? pid_bytes b) h = filter (fun x => pid_bytes x =? pid_bytes b) h' -> view h b = view h' b.

(** Two files [reads] and [reads'] that hold the same packets on the PIDs of
    [own], other packets besides. *)
Definition same_service (view : list (list Z) -> list Z -> packet) (sid : Z) (own : Z -> Prop) (reads reads' : list read_result) : Prop :=
  Forall read_ok reads /\ Forall read_ok reads' /\ Forall is_byte (bytes_of reads) /\ Forall is_byte (bytes_of reads') /\
  exists bs cs, packets_of (bytes_of reads) bs /\ packets_of (bytes_of reads') cs /\
    covers sid 0 own (views view [] bs) /\ agree pid_bytes own bs cs.

(** filter-service, filter-program and record-service on the two files: the same
    failure, or the same exit code and the same output; the state is equal but for
    the packets seen. *)
Definition same_end {S} (a b : option (res (Z * (list (list Z) * S)))) : Prop :=
  match a with
  | None => False
  | Some (Fail f) => b = Some (Fail f)
  | Some (Ok (c, (_, x))) => exists h, b = Some (Ok (c, (h, x)))
  end.

(** Two files that hold the packets [bs] and [cs], the same ones on the PIDs of
    [own]. *)
Definition two_files (own : Z -> Prop) (reads reads' : list read_result) (bs cs : list (list Z)) : Prop :=
  Forall read_ok reads /\ Forall read_ok reads' /\ Forall is_byte (bytes_of reads) /\ Forall is_byte (bytes_of reads') /\
  packets_of (bytes_of reads) bs /\ packets_of (bytes_of reads') cs /\ agree pid_bytes own bs cs.

(** Packet [p] on PID [pid] carries the table [b]. *)
Definition sends (ps : list packet) (pid : Z) (b : body) : Prop :=
  exists p t, In p ps /\ p_pid p = pid /\ In t (p_tabs p 0) /\ tb_body t = b.

(** The PIDs of scan-services: those of the PAT, the NIT and the SDT, and those to
    which PATs move the NIT (the last entry for program 0 counts). *)
Definition scan_pids (own : Z -> Prop) (ps : list packet) : Prop :=
  own 0 /\ own 0x10 /\ own 0x11 /\
  forall u pid, sends ps 0 (TPat (Some u)) -> In (0, pid) (pat_entries u) -> own pid.

(** The PIDs of sync-clocks: those of the PAT, the SDT and the TOT, those of the
    PMTs in the PATs, and those of the PCRs in the PMTs. *)
Definition sync_pids (own : Z -> Prop) (ps : list packet) : Prop :=
  own 0 /\ own 0x11 /\ own 0x14 /\
  (forall u sid pid, sends ps 0 (TPat (Some u)) -> In (sid, pid) (pat_entries u) -> sid <> 0 -> own pid) /\
  (forall q m, own q -> sends ps q (TPmt (Some m)) -> pmt_pcr_pid m <> 0x1FFF -> own (pmt_pcr_pid m)).
