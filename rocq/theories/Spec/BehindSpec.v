(** A command that reads service information, behind filter-service in a pipe. *)
From Coq Require Import ZArith List Bool.
From Verif Require Import Base.Outcome Base.Util Model.Sink Model.Ts Model.FileSource Model.Main
  Spec.SourceSpec Spec.FilterSpec Spec.TwiceSpec Spec.PipeSpec Spec.OthersSpec Spec.MainSpec.
Import ListNotations.
Open Scope Z_scope.

(** The packet completes a PAT without the service. *)
Definition denies (sid : Z) (p : packet) : Prop :=
  p_pid p = 0 /\ exists t, In t (p_tabs p 0) /\ missing sid (0, tb_body t) = true.

(** [before]: up to the first PAT that lists the service; [after]: from the first
    PAT without it. *)
Definition on_air (sid : Z) (before during after : list packet) : Prop :=
  (forall p, In p before -> ~ announces sid p /\ ~ denies sid p) /\
  match during with [] => True | p :: _ => announces sid p end /\
  (forall p, In p during -> ~ denies sid p) /\
  match after with [] => True | p :: _ => denies sid p end.

(** The PIDs of service information other than the PAT. *)
Definition info_pids : list Z := [0x01; 0x10; 0x11; 0x12; 0x13; 0x14; 0x24; 0x29].

(** A generated PAT is made of bytes, with the sync byte and PID 0. *)
Definition true_pats (bytes : packet -> list Z) : Prop :=
  forall p t, Forall is_byte (bytes (gen_pat p t)) /\ sync_at (bytes (gen_pat p t)) 0 /\ pid_bytes (bytes (gen_pat p t)) = 0.

(** The demultiplexers keep the PIDs apart, and those of the collectors hear
    PID 0x12, that of collect-eits PID 0x14 besides. *)
Definition keeps_apart (lib : library) : Prop :=
  per_pid (li_packet lib) /\ per_pid (li_deliveries lib) /\ per_pid (li_sections lib) /\
  (forall h b, ts_packet b -> pid_bytes b <> 0x12 -> pid_bytes b <> 0x14 -> li_deliveries lib h b = []) /\
  (forall h b, ts_packet b -> pid_bytes b <> 0x12 -> li_sections lib h b = []).

(** The commands that read nothing but PIDs 0x12 and 0x14.  collect-eits with a
    time limit of 0, and collect-eitpfs without --sids and --streaming, may stop at
    the first packet whatever it is (C89). *)
Definition reads_events (c : command) : Prop :=
  match c with
  | TrackAirtime _ _ | FilterProgramMetadata _ => True
  | CollectEits _ _ limit streaming _ _ => streaming = true \/ match limit with Some v => 0 < v | None => True end
  | CollectEitpf sids streaming present following =>
      exists ns, ids_given sids ns /\ (streaming = true \/ (ns <> [] /\ present && following = false))
  | _ => False
  end.
