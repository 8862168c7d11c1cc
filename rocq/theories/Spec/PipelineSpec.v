(** Two processes in a pipe: filter-service, and a command that reads its output. *)
From Coq Require Import ZArith List Bool.
From Verif Require Import Base.Outcome Base.Util Model.Sink Model.Ts Model.FileSource Model.Main Spec.SourceSpec Spec.FilterSpec Spec.TwiceSpec Spec.TuneSpec Spec.PipeSpec Spec.MainSpec.
Import ListNotations.
Open Scope Z_scope.

(** A packet as the second process sees it.  Its demultiplexers hear the stream
    that filter-service sends, so all of them hear what a demultiplexer behind the
    filter (number 1) in the first process would hear. *)
Definition again (p : packet) : packet :=
  mkPacket (p_content p) (p_pid p) (p_pusi p) (p_pcr p) (p_pts p) (p_dts p) (fun _ => p_tabs p 1) (fun _ => p_regen p 1).

(** The library, which in another process sees other packets. *)
Definition with_packet (lib : library) (view : list (list Z) -> list Z -> packet) : library :=
  mkLibrary view (li_deliveries lib) (li_sections lib) (li_logos lib) (li_closing lib) (li_bytes lib) (li_npackets lib)
    (li_mjd lib) (li_decode lib) (li_name lib) (li_parts lib) (li_parsers lib) (li_block lib) (li_show lib) (li_help lib).

(** A packet has 188 bytes, which do not depend on who hears it. *)
Definition plain_bytes (bytes : packet -> list Z) : Prop :=
  forall p, zlen (bytes p) = 188 /\ bytes (again p) = bytes p.

(** The second process: its standard input is [out], read in pieces of any
    size; the rest of the system may be the same or not. *)
Definition reads_from (sys : system) (out : list Z) (n : nat) : Prop :=
  Forall read_ok (sy_reads sys) /\ input_bytes sys = out /\ (List.length out < n)%nat.

(** What is asked of the input and of the demultiplexers.  First process: see
    TwiceSpec.  Second process: the packets sent start with the sync byte, and it
    sees them as in [again]. *)
Definition pipes (lib : library) (view : list (list Z) -> list Z -> packet) (sid : Z) (bs : list (list Z)) : Prop :=
  let ps := views (li_packet lib) [] bs in
  let id := sid mod 2 ^ 16 in
  well_placed id ps /\ hears_again id ps /\ pat_first id ps /\
  forall sent e h, filtered id None 0 anything [] tt ps sent e h tt ->
    Forall (fun p => sync_at (li_bytes lib p) 0) sent /\ views view [] (map (li_bytes lib) sent) = map again sent.

(** The exit code [one] of a command by itself, with the exit codes of
    filter-service and of the command behind it: that of the last process, or
    that of the first one if the last one ends well. *)
Definition pipe_code (first last one : Z) : Prop := one = last \/ (last = 0 /\ one = first).
