(** A stream of clock inputs as an ideal receiver sees it: the real tick
    counter advances, TOTs announce the time of day, and from time to time a
    bogus PCR ("glitch") shows up. *)
From Coq Require Import ZArith List Bool.
From Verif Require Import Spec.PcrSpec Model.Clock.
Import ListNotations.
Open Scope Z_scope.

Inductive item :=
| Tick (d : Z)             (* a genuine PCR, d ticks after the previous genuine one *)
| Tot (time local : Z)     (* a TOT; [local] is the wall clock of the machine *)
| Glitch (pcr : Z).        (* a PCR one second or more away from the previous genuine one *)

(** The calls made on the clock for a stream whose tick counter starts at [x]. *)
Fixpoint ops_of (x : Z) (items : list item) : list clock_op :=
  match items with
  | [] => []
  | Tick d :: r => OpPcr (pcr_at (x + d)) :: ops_of (x + d) r
  | Tot t l :: r => OpTime t l :: ops_of x r
  | Glitch p :: r => OpPcr p :: ops_of x r
  end.

(** The real tick counter at the end of the stream. *)
Fixpoint ticks_after (x : Z) (items : list item) : Z :=
  match items with
  | [] => x
  | Tick d :: r => ticks_after (x + d) r
  | _ :: r => ticks_after x r
  end.

(** The last TOT together with the real tick counter at that moment. *)
Fixpoint last_tot (x : Z) (items : list item) (acc : option (Z * Z)) : option (Z * Z) :=
  match items with
  | [] => acc
  | Tick d :: r => last_tot (x + d) r acc
  | Tot t _ :: r => last_tot x r (Some (t, x))
  | Glitch _ :: r => last_tot x r acc
  end.

(** Admissible streams: genuine PCRs are less than a second apart, glitches are
    at least a second off, come only after the first TOT, and at most four in a
    row.  [sync] says whether a TOT was seen; [n] counts glitches since the last
    genuine PCR that followed a TOT. *)
Fixpoint admissible (x : Z) (sync : bool) (n : Z) (items : list item) : Prop :=
  match items with
  | [] => True
  | Tick d :: r => 0 <= d < ticks_per_s /\ admissible (x + d) sync (if sync then 0 else n) r
  | Tot _ _ :: r => admissible x true n r
  | Glitch p :: r =>
      sync = true /\ n < 4 /\ 0 <= p < pcr_cycle /\ ticks_per_s <= pcr_ahead (pcr_at x) p
      /\ admissible x sync (n + 1) r
  end.

(** Does the clock report ready after the given calls? *)
From Verif Require Import Base.Outcome.
Definition ready_after (h : list clock_op) : bool :=
  match ck_run clock_init h with Ok c => ck_IsReady c | Fail _ => false end.

(** [seen h p t]: since the last PID change or loss of synchronisation in the
    history [h] (a PCR on which a ready clock stops being ready), [p] tells
    whether a PCR and [t] whether a TOT was received. *)
Inductive seen : list clock_op -> bool -> bool -> Prop :=
| seen_nil : seen [] false false
| seen_pid : forall h p t pid, seen h p t -> seen (h ++ [OpSetPid pid]) false false
| seen_tot : forall h p t time local, seen h p t -> seen (h ++ [OpTime time local]) p true
| seen_pcr : forall h p t pcr, seen h p t ->
    (ready_after h = true -> ready_after (h ++ [OpPcr pcr]) = true) ->
    seen (h ++ [OpPcr pcr]) true t
| seen_lost : forall h p t pcr, seen h p t ->
    ready_after h = true -> ready_after (h ++ [OpPcr pcr]) = false ->
    seen (h ++ [OpPcr pcr]) false false.

(** PCR arguments are PCR values. *)
Definition valid_op (op : clock_op) : Prop :=
  match op with OpPcr p => 0 <= p < pcr_cycle | _ => True end.

Definition is_time (op : clock_op) : bool := match op with OpTime _ _ => true | _ => false end.

(** The time the clock reports after the given calls. *)
Definition now_after (ops : list clock_op) (local : Z) : option Z :=
  match ck_run clock_init ops with
  | Ok c => match ck_Now c local with Ok t => Some t | Fail _ => None end
  | Fail _ => None
  end.

(** [burst h l n]: [l] is the latest PCR in [h] that was not a glitch, [n] the
    number of glitches since the latest genuine PCR of a ready clock.  Nothing else
    resets [n]: not a PID change, nor a loss, nor the PCR and TOT that make the
    clock ready again. *)
Inductive burst : list clock_op -> Z -> Z -> Prop :=
| burst_nil : burst [] 0 0
| burst_pid : forall h l n pid, burst h l n -> burst (h ++ [OpSetPid pid]) l n
| burst_tot : forall h l n time local, burst h l n -> burst (h ++ [OpTime time local]) l n
| burst_start : forall h l n p, burst h l n -> ready_after h = false -> burst (h ++ [OpPcr p]) p n
| burst_genuine : forall h l n p, burst h l n -> ready_after h = true -> pcr_ahead l p < ticks_per_s -> burst (h ++ [OpPcr p]) p 0
| burst_glitch : forall h l n p, burst h l n -> ready_after h = true -> ticks_per_s <= pcr_ahead l p -> burst (h ++ [OpPcr p]) l (n + 1).
