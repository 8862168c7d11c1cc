(** No gaps within a PID.  A receiver counts the packets of each PID (the
    continuity counter) and takes a gap for a loss. *)
From Coq Require Import ZArith List Bool.
From Verif Require Import Base.Outcome Model.Ts Model.ProgramFilter Spec.FilterSpec Spec.ProgramSpec Spec.PipeSpec.
Import ListNotations.
Open Scope Z_scope.

(** The packets of a PID. *)
Definition on (pid : Z) (ps : list packet) : list packet := filter (fun p => p_pid p =? pid) ps.

(** [l] is a part of [m] without gaps. *)
Definition stretch {A} (l m : list A) : Prop := exists a b, m = a ++ l ++ b.

(** The tables in a stream, with their PIDs. *)
Definition tables (stage : nat) (ps : list packet) : list (Z * body) :=
  flat_map (fun p => map (fun t => (p_pid p, tb_body t)) (p_tabs p stage)) ps.

(** The tables do not change their mind about [pid]: either all PMTs of the
    service name it or none does; likewise for the CATs; and either all PATs give
    it as the PMT PID of the service or none does. *)
Definition pmt_names (m : pmt) (pid : Z) : Prop :=
  pid = pmt_pcr_pid m \/ In pid (pmt_ca_pids m) \/ In pid (map fst (pmt_entries m)).
Definition unvarying (sid pid : Z) (ts : list (Z * body)) : Prop :=
  (forall x y m n, In x ts -> In y ts -> service_pmt sid x = Some m -> service_pmt sid y = Some n -> pmt_names m pid -> pmt_names n pid) /\
  (forall x y c d, In x ts -> In y ts -> a_cat x = Some c -> a_cat y = Some d -> In pid (cat_ca_pids c) -> In pid (cat_ca_pids d)) /\
  (forall x y t u q r, In x ts -> In y ts -> listing sid x = Some (t, q) -> listing sid y = Some (u, r) -> q = pid -> r = pid).

(** Packets made by the packetizers, which count them. *)
Definition made_pat (p : packet) : Prop := exists t, p_content p = GenPat t.
Definition made_pmt (p : packet) : Prop := exists t i, p_content p = GenPmt t i.

(** A packet of a PMT is followed by its next packet, the last one by the first;
    only a new PMT may begin before the old one is complete. *)
Definition pmt_order (npackets : pmt -> nat) (p q : packet) : Prop :=
  exists t i u j, p_content p = GenPmt t i /\ p_content q = GenPmt u j /\
    (j = O \/ (u = t /\ j = S i mod npackets t)%nat).
Definition in_turn {A} (R : A -> A -> Prop) (l : list A) : Prop :=
  forall a x y b, l = a ++ x :: y :: b -> R x y.

(** filter-program leaves [pid] alone: it is not the PMT PID and not the PID of a
    stream to be removed. *)
Definition left_alone (o : program_filter_option) (pid : Z) (x : Z * body) : Prop :=
  (forall t q, listing (pfo_sid o) x = Some (t, q) -> q <> pid) /\
  (forall m, service_pmt (pfo_sid o) x = Some m -> ~ exists e, In (pid, e) (pmt_streams m) /\ excluded o e) /\
  (pid = 0 -> forall m, service_pmt (pfo_sid o) x = Some m -> pmt_pcr_pid m <> 0).

(** The 188-byte packets of a PID. *)
Definition on_bytes (pid : Z) (bs : list (list Z)) : list (list Z) := filter (fun b => pid_bytes b =? pid) bs.
