(** A filtered stream filtered again: what the second filter's demultiplexer hears. *)
From Coq Require Import ZArith List Bool.
From Verif Require Import Base.Outcome Base.Util Model.Sink Model.Ts Spec.FilterSpec.
Import ListNotations.
Open Scope Z_scope.

(** The packet completes a PAT that lists the service. *)
Definition announces (sid : Z) (p : packet) : Prop :=
  p_pid p = 0 /\ exists t, In t (p_tabs p 0) /\ listing sid (0, tb_body t) <> None.

(** No CAT, PMT or TOT comes on PID 0, and no PMT PID of the service is 0, 1, 0x14
    or 0x1FFF. *)
Definition well_placed (sid : Z) (ps : list packet) : Prop :=
  forall p t, In p ps -> In t (p_tabs p 0) -> p_pid p = 0 ->
    match tb_body t with TCat _ | TPmt _ | TTot _ => False | _ => True end /\
    forall u q, listing sid (0, tb_body t) = Some (u, q) -> ~ In q [0; 1; 0x14; 0x1FFF].

(** The demultiplexer of the second filter (number 1) completes the same tables as
    that of the first one (number 0), with the same packets.  It is given generated
    PATs on PID 0 and completes one at least whenever the PAT is new. *)
Definition hears_again (sid : Z) (ps : list packet) : Prop :=
  forall p, In p ps -> (p_pid p <> 0 -> p_tabs p 1 = p_tabs p 0) /\ (announces sid p -> (1 <= p_regen p 1)%nat).

(** No CAT (and no stray PMT) on the PIDs of the CAT and the TOT before the first
    PAT that lists the service. *)
Definition pat_first (sid : Z) (ps : list packet) : Prop :=
  forall pre p post t, ps = pre ++ p :: post -> p_pid p = 1 \/ p_pid p = 0x14 -> In t (p_tabs p 0) ->
    a_cat (p_pid p, tb_body t) <> None \/ service_pmt sid (p_pid p, tb_body t) <> None ->
    exists x, In x pre /\ announces sid x.
