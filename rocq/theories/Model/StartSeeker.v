(** StartSeeker: /repo/src/start_seeker.hh. *)
From Coq Require Import ZArith List Bool.
From Verif Require Import Base.Outcome Base.Util Model.Pcr Model.Sink Model.Ts.
Import ListNotations.
Open Scope Z_scope.

(** start_seeker.hh:17-21 *)
Record start_seeker_option := mkSsOption {
  sso_sid : Z;
  sso_max_duration : Z;
  sso_max_packets : Z }.

(** main.cc:1276-1294 LoadOption(StartSeekerOption); the arguments are those given
    on the command line; None: the help is printed and the program exits.  The
    service id is cut to 16 bits, the number of packets to 32. *)
Definition ss_LoadOption (sid : Z) (max_duration max_packets : option Z) : option start_seeker_option :=
  let duration := match max_duration with Some v => v | None => 0 end in
  let packets := match max_packets with Some v => v mod 2 ^ 32 | None => 0 end in
  if (duration =? 0) && (packets =? 0) then None else Some (mkSsOption (sid mod 2 ^ 16) duration packets).

(** start_seeker.hh:254-267.  The sets of PIDs are kept as sorted lists without
    repetition, so that equality of sets is equality of lists. *)
Record ss_state := mkSs {
  ss_demux : list Z;
  ss_streaming : bool;            (* state_ == kStreaming *)
  ss_packets : list packet;
  ss_pmt_pid : Z;
  ss_pcr_pid : Z;
  ss_video : list Z;
  ss_audio : list Z;
  ss_end_pcr : Z;
  ss_transition : Z;
  ss_pat : Z }.

(** start_seeker.hh:25-29: the constructor. *)
Definition ss_init : ss_state := mkSs (zadd PID_PAT []) false [] PID_NULL PID_NULL [] [] (-1) 0 0.

Definition ss_set_packets (s : ss_state) (ps : list packet) : ss_state :=
  mkSs (ss_demux s) (ss_streaming s) ps (ss_pmt_pid s) (ss_pcr_pid s) (ss_video s) (ss_audio s) (ss_end_pcr s)
    (ss_transition s) (ss_pat s).
Definition ss_set_streaming (s : ss_state) : ss_state :=
  mkSs (ss_demux s) true (ss_packets s) (ss_pmt_pid s) (ss_pcr_pid s) (ss_video s) (ss_audio s) (ss_end_pcr s)
    (ss_transition s) (ss_pat s).
Definition ss_set_end_pcr (s : ss_state) (v : Z) : ss_state :=
  mkSs (ss_demux s) (ss_streaming s) (ss_packets s) (ss_pmt_pid s) (ss_pcr_pid s) (ss_video s) (ss_audio s) v
    (ss_transition s) (ss_pat s).

(** start_seeker.hh:164-200 HandlePat *)
Definition ss_HandlePat (o : start_seeker_option) (s : ss_state) (src first : Z) (t : option pat) : res ss_state :=
  if negb (src =? PID_PAT) then Ok s
  else
    match t with
    | None => Ok s
    | Some t =>
        if pat_tsid t =? 0 then Ok s
        else
          match mfind (sso_sid o) (pat_pmts t) with
          | None => Fail AssertFail
          | Some new_pmt_pid =>
              let d := if negb (ss_pmt_pid s =? PID_NULL) then zrem (ss_pmt_pid s) (ss_demux s) else ss_demux s in
              Ok (mkSs (zadd new_pmt_pid d) (ss_streaming s) (ss_packets s) new_pmt_pid (ss_pcr_pid s) (ss_video s)
                    (ss_audio s) (ss_end_pcr s) (ss_transition s) first)
          end
    end.

(** start_seeker.hh:218-229 *)
Definition pids_of (f : stream -> bool) (t : pmt) : list Z :=
  map fst (filter (fun e => f (snd e)) (pmt_streams t)).

Fixpoint zlist_eqb (a b : list Z) : bool :=
  match a, b with
  | [], [] => true
  | x :: a, y :: b => (x =? y) && zlist_eqb a b
  | _, _ => false
  end.

(** start_seeker.hh:231-239 *)
Definition differ (old new : list Z) : bool :=
  match old with [] => false | _ => negb (zlist_eqb old new) end.

(** start_seeker.hh:202-252 HandlePmt *)
Definition ss_HandlePmt (o : start_seeker_option) (s : ss_state) (first : Z) (t : option pmt) : res ss_state :=
  match t with
  | None => Ok s
  | Some t =>
      if negb (pmt_sid t =? sso_sid o) then Ok s
      else
        let video := pids_of es_video t in
        let audio := pids_of es_audio t in
        let changed := differ (ss_video s) video || differ (ss_audio s) audio in
        if changed then
          Ok (mkSs (zrem PID_PAT (zrem (ss_pmt_pid s) (ss_demux s))) (ss_streaming s) (ss_packets s) PID_NULL
                (pmt_pcr_pid t) video audio (ss_end_pcr s) first (ss_pat s))
        else
          Ok (mkSs (ss_demux s) (ss_streaming s) (ss_packets s) (ss_pmt_pid s) (pmt_pcr_pid t) video audio
                (ss_end_pcr s) (ss_transition s) (ss_pat s))
  end.

(** start_seeker.hh:151-162 handleTable *)
Definition ss_handleTable (o : start_seeker_option) (s : ss_state) (src : Z) (t : table) : res ss_state :=
  match tb_body t with
  | TPat b => ss_HandlePat o s src (tb_first t) b
  | TPmt b => ss_HandlePmt o s (tb_first t) b
  | _ => Ok s
  end.

Section Ss.
Variable o : start_seeker_option.
Variable snk : sink packet.

(** start_seeker.hh:135-145: the loop of SendPackets. *)
Fixpoint ss_send_all (d : sk_state snk) (ps : list packet) : res (sk_state snk * bool) :=
  match ps with
  | [] => Ok (d, true)
  | p :: r =>
      let* (d1, ok) := sk_handle snk d p in
      if ok then ss_send_all d1 r else Ok (d1, false)
  end.
(** start_seeker.hh:135-145 SendPackets *)
Definition ss_SendPackets (s : ss_state) (d : sk_state snk) (index : Z) : res ((ss_state * sk_state snk) * bool) :=
  let* (d1, ok) := ss_send_all d (zdrop index (ss_packets s)) in
  Ok ((ss_set_packets s [], d1), ok).
(** start_seeker.hh:131-133 SendPacket; an index outside the vector is undefined. *)
Definition ss_SendPacket (s : ss_state) (d : sk_state snk) (index : Z) : res (sk_state snk * bool) :=
  match znth index (ss_packets s) with
  | None => Fail Undefined
  | Some p => sk_handle snk d p
  end.

(** start_seeker.hh:90-93, 125-128: all held packets are sent, whatever
    the sink says, and streaming starts. *)
Definition ss_release (s : ss_state) (d : sk_state snk) : res ((ss_state * sk_state snk) * bool) :=
  let* (x, _) := ss_SendPackets s d 0 in
  let (s1, d1) := x in Ok ((ss_set_streaming s1, d1), true).

(** start_seeker.hh:75-129 Seek *)
Definition ss_Seek (s : ss_state) (d : sk_state snk) (p : packet) : res ((ss_state * sk_state snk) * bool) :=
  let s := ss_set_packets s (ss_packets s ++ [p]) in
  if 0 <? ss_transition s then
    let* (d1, _) := ss_SendPacket s d (ss_pat s) in
    let* (x, _) := ss_SendPackets s d1 (ss_transition s) in
    let (s1, d2) := x in Ok ((ss_set_streaming s1, d2), true)
  else if negb (sso_max_packets o =? 0) && (sso_max_packets o =? zlen (ss_packets s)) then ss_release s d
  else
    assert ((sso_max_packets o =? 0) || (zlen (ss_packets s) <? sso_max_packets o)) (
    if (ss_pcr_pid s =? PID_NULL) || negb (ss_pcr_pid s =? p_pid p) then Ok ((s, d), true)
    else
      match p_pcr p with
      | None => Ok ((s, d), true)
      | Some pcr =>
          if ss_end_pcr s <? 0 then
            let* ticks := i64 (sso_max_duration o * kPcrTicksPerMs) in
            let* sum := i64 (pcr + ticks) in
            Ok ((ss_set_end_pcr s (Z.rem sum kPcrUpperBound), d), true)
          else
            let* c := ComparePcr pcr (ss_end_pcr s) in
            if c <? 0 then Ok ((s, d), true) else ss_release s d
      end).

(** start_seeker.hh:53-67 HandlePacket, 147-149 DoStreaming *)
Definition ss_HandlePacket (stage : nat) (x : ss_state * sk_state snk) (p : packet) : res ((ss_state * sk_state snk) * bool) :=
  let (s, d) := x in
  let* s1 := handle_tables (ss_handleTable o) s (p_pid p) (demux_feed (ss_demux s) stage p) in
  if ss_streaming s1 then
    let* (d1, ok) := sk_handle snk d p in Ok ((s1, d1), ok)
  else ss_Seek s1 d p.

(** start_seeker.hh:37-51 *)
Definition start_seeker (stage : nat) : sink packet :=
  mkSink (ss_state * sk_state snk)
    (fun x => let* (d, ok) := sk_start snk (snd x) in Ok ((fst x, d), ok))
    (ss_HandlePacket stage)
    (fun x => let* (y, _) := ss_SendPackets (fst x) (snd x) 0 in let* d := sk_end snk (snd y) in Ok (fst y, d))
    (fun x => sk_exit snk (snd x)).

End Ss.
