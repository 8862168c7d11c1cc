(** seek-start behind filter-service in a pipe. *)
From Coq Require Import ZArith List Bool.
From Verif Require Import Base.Util Model.Sink Model.Ts Model.FileSource Model.Main Spec.PcrSpec Spec.FilterSpec Spec.TwiceSpec Spec.TuneSpec Spec.PipeSpec Spec.MainSpec.
Import ListNotations.
Open Scope Z_scope.

(** A packet [p] that filter-service sends, as the second process sees it: with the
    tables that a demultiplexer behind the filter (number 1) in the first process
    would complete.  The packets at which they start are counted anew. *)
Definition seen_as (p q : packet) : Prop :=
  p_pid q = p_pid p /\ p_pcr q = p_pcr p /\ map tb_body (p_tabs q 0) = map tb_body (p_tabs p 1).

(** A table starts at a packet on the PID of the one that completes it, not later. *)
Definition starts_right (qs : list packet) : Prop :=
  forall n p t, znth n qs = Some p -> In t (p_tabs p 0) ->
    0 <= tb_first t <= n /\ exists q, znth (tb_first t) qs = Some q /\ p_pid q = p_pid p.

(** What is asked of the input (TwiceSpec; PCRs within the cycle) and of the
    demultiplexer of the second process.  The PATs may come and go. *)
Definition seeks (lib : library) (view : list (list Z) -> list Z -> packet) (sid : Z) (bs : list (list Z)) : Prop :=
  let ps := views (li_packet lib) [] bs in
  let id := sid mod 2 ^ 16 in
  well_placed id ps /\ pat_first id ps /\
  (forall p v, In p ps -> p_pcr p = Some v -> 0 <= v < pcr_cycle) /\
  forall sent e h, filtered id None 0 anything [] tt ps sent e h tt ->
    Forall2 seen_as sent (views view [] (map (li_bytes lib) sent)) /\ starts_right (views view [] (map (li_bytes lib) sent)).
