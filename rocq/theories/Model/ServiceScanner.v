(** scan-services: /repo/src/service_scanner.hh, with StdoutJsonlSink
    (/repo/src/jsonl_sink.hh:20-32), whose HandleDocument writes the document. *)
From Coq Require Import ZArith List Bool.
From Verif Require Import Base.Outcome Base.Util Model.Sink Model.Ts Model.EitSection.
Import ListNotations.
Open Scope Z_scope.

(** service_scanner.hh:20-23.  A SidSet is the list of its elements. *)
Record sc_option := mkScOption {
  sco_sids : list Z;
  sco_xsids : list Z }.

(** One element of the output array (service_scanner.hh:199-209).
    [sd_key = None] when remoteControlKeyId is left out. *)
Record service_doc := mkServiceDoc {
  sd_nid : Z;
  sd_tsid : Z;
  sd_sid : Z;
  sd_name : Z;
  sd_type : Z;
  sd_logo : Z;
  sd_key : option Z }.

(** service_scanner.hh:236-241: the enabled PIDs of the demultiplexer and the
    tables, and the documents written so far. *)
Record sc_state := mkSc {
  sc_pids : list Z;
  sc_pat : option pat;
  sc_sdt : option sdt;
  sc_nit : option nit;
  sc_out : list (list service_doc) }.

(** service_scanner.hh:31-37 *)
Definition sc_init : sc_state := mkSc [PID_PAT; PID_NIT; PID_SDT] None None None [].

(** service_scanner.hh:69-72 *)
Definition sc_completed (s : sc_state) : bool :=
  match sc_pat s, sc_sdt s, sc_nit s with
  | Some _, Some _, Some _ => true
  | _, _, _ => false
  end.

(** service_scanner.hh:90-117 *)
Definition sc_HandlePat (s : sc_state) (pid : Z) (t : option pat) : sc_state :=
  if negb (pid =? PID_PAT) then s
  else match t with
  | None => s
  | Some t =>
      if pat_tsid t =? 0 then s
      else if negb (pat_nit_pid t =? PID_NULL) && negb (pat_nit_pid t =? PID_NIT) then
        mkSc (zadd (pat_nit_pid t) (zrem PID_NIT (sc_pids s))) (Some t) (sc_sdt s) None (sc_out s)
      else mkSc (sc_pids s) (Some t) (sc_sdt s) (sc_nit s) (sc_out s)
  end.

(** service_scanner.hh:119-129 *)
Definition sc_HandleNit (s : sc_state) (t : option nit) : sc_state :=
  match t with
  | None => s
  | Some t => mkSc (sc_pids s) (sc_pat s) (sc_sdt s) (Some t) (sc_out s)
  end.

(** service_scanner.hh:131-146 *)
Definition sc_HandleSdt (s : sc_state) (t : option sdt) : sc_state :=
  match t with
  | None => s
  | Some t => if sdt_tsid t =? 0 then s else mkSc (sc_pids s) (sc_pat s) (Some t) (sc_nit s) (sc_out s)
  end.

(** service_scanner.hh:74-88 *)
Definition sc_handleTable (s : sc_state) (pid : Z) (t : table) : res sc_state :=
  match tb_body t with
  | TPat t => Ok (sc_HandlePat s pid t)
  | TNit t => Ok (sc_HandleNit s t)
  | TSdt t => Ok (sc_HandleSdt s t)
  | _ => Ok s
  end.

(** tsduck_helper.hh:623-636 IsAudioVideoService *)
Definition IsAudioVideoService (service_type : Z) : bool :=
  zmem service_type [0x01; 0x02; 0xA1; 0xA2; 0xA5; 0xA6; 0xAD].

(** service_scanner.hh:213-234 GetRemoteControlKeyId.  TSDuck keeps the
    transports in a map, so each is listed once; the model takes the first. *)
Fixpoint nit_find (ts : list (Z * Z * option Z)) (tsid onid : Z) : option (option Z) :=
  match ts with
  | [] => None
  | (a, b, k) :: r => if (a =? tsid) && (b =? onid) then Some k else nit_find r tsid onid
  end.
Definition GetRemoteControlKeyId (n : option nit) (t : sdt) : Z :=
  match n with
  | None => 0
  | Some n =>
      match nit_find (nit_transports n) (sdt_tsid t) (sdt_onid t) with
      | Some (Some k) => k
      | _ => 0
      end
  end.

(** service_scanner.hh:183-191 *)
Definition sc_logo_id (v : service) : Z :=
  match sv_logo v with
  | Some (kind, id) => if (kind =? 1) || (kind =? 2) then id else -1
  | None => -1
  end.

(** service_scanner.hh:148-211 CollectServices: the loop over the map [pmts]. *)
Fixpoint sc_collect (o : sc_option) (n : option nit) (t : sdt) (pmts : list (Z * Z)) : list service_doc :=
  match pmts with
  | [] => []
  | (sid, _) :: r =>
      let rest := sc_collect o n t r in
      if negb (ss_IsEmpty (sco_sids o)) && negb (ss_Contain (sco_sids o) sid) then rest
      else if negb (ss_IsEmpty (sco_xsids o)) && ss_Contain (sco_xsids o) sid then rest
      else match mfind sid (sdt_services t) with
      | None => rest
      | Some v =>
          if negb (IsAudioVideoService (sv_type v)) then rest
          else
            let key := GetRemoteControlKeyId n t in
            mkServiceDoc (sdt_onid t) (sdt_tsid t) sid (sv_name v) (sv_type v) (sc_logo_id v)
              (if key =? 0 then None else Some key) :: rest
      end
  end.

Section Scanner.
Variable o : sc_option.

(** service_scanner.hh:59-66 *)
Definition sc_HandlePacket (s : sc_state) (p : packet) : res (sc_state * bool) :=
  let* s1 := handle_tables sc_handleTable s (p_pid p) (demux_feed (sc_pids s) 0 p) in
  Ok (s1, negb (sc_completed s1)).

(** service_scanner.hh:41-50 *)
Definition sc_End (s : sc_state) : res sc_state :=
  if negb (sc_completed s) then Ok s
  else match sc_pat s, sc_sdt s with
  | Some t, Some d => Ok (mkSc (sc_pids s) (sc_pat s) (sc_sdt s) (sc_nit s) (sc_out s ++ [sc_collect o (sc_nit s) d (pat_pmts t)]))
  | _, _ => Ok s
  end.

(** service_scanner.hh:52-57 *)
Definition sc_GetExitCode (s : sc_state) : res Z :=
  Ok (if sc_completed s then EXIT_SUCCESS else EXIT_FAILURE).

Definition sc_sink : sink packet :=
  mkSink sc_state (fun s => Ok (s, true)) sc_HandlePacket sc_End sc_GetExitCode.

End Scanner.
