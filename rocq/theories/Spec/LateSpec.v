(** The clock that sync-clocks reports, in real time. *)
From Coq Require Import ZArith List Bool.
From Verif Require Import Base.Outcome Base.Util Model.Ts Model.PcrSynchronizer Model.ProgramFilter Spec.PcrSpec Spec.SyncSpec.
Import ListNotations.
Open Scope Z_scope.

(** The tables and PCRs of packets that come at known times. *)
Definition timed_trace (l : list (packet * Z)) : list (ev * Z) := flat_map (fun x => map (fun e => (e, snd x)) (events (fst x))) l.

(** A TOT with the time [x] that comes at [at_], and the next PCR on [pid], which is
    [v] and comes at [later]; no other TOT comes in between. *)
Definition tot_then_pcr (l : list (packet * Z)) (pid x at_ v later : Z) : Prop :=
  exists a b c, timed_trace l = a ++ (Tab 0x14 (TTot (Some x)), at_) :: b ++ (Pcr pid v, later) :: c /\
    forall e u, In (e, u) b -> (forall y, e <> Tab 0x14 (TTot (Some y))) /\ forall w, e <> Pcr pid w.

(** The PCRs on [pid] are those of a clock that shows [K] at the time 0 (see OnAirSpec). *)
Definition ticking (K pid : Z) (l : list (packet * Z)) : Prop :=
  forall v u, In (Pcr pid v, u) (timed_trace l) -> v = (K + u) mod pcr_cycle.

(** TOTs come no earlier than at the time they say and at most [E] ticks later; after
    each of them a PCR comes on [pid] at most [G] ticks later. *)
Definition punctual (E : Z) (l : list (packet * Z)) : Prop :=
  forall x u, In (Tab 0x14 (TTot (Some x)), u) (timed_trace l) -> 27000 * x <= u <= 27000 * x + E.
Definition frequent (pid G : Z) (l : list (packet * Z)) : Prop :=
  forall x at_ v later, tot_then_pcr l pid x at_ v later -> at_ <= later <= at_ + G.

(** A clock that is [late] ticks late. *)
Definition late_clock (o : program_filter_option) (K late : Z) : Prop :=
  pfo_clock_pcr o = (K + (27000 * pfo_clock_time o + late)) mod pcr_cycle.

(** Packets seen by a clock that is [late] ticks late. *)
Definition seen_late (late : Z) (x : packet * Z) : packet * Z := (fst x, snd x - late).
