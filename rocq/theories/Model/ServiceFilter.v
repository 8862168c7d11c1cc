(** ServiceFilter: /repo/src/service_filter.hh. *)
From Coq Require Import ZArith List Bool.
From Verif Require Import Base.Outcome Base.Util Model.Sink Model.Ts.
Import ListNotations.
Open Scope Z_scope.

(** service_filter.hh:25-28 *)
Record service_filter_option := mkSfOption {
  sfo_sid : Z;
  sfo_time_limit : option Z }.

(** service_filter.hh:300-310.  [sf_pat] is the table held by pat_packetizer_. *)
Record sf_state := mkSf {
  sf_demux : list Z;
  sf_pat : option pat;
  sf_psi : list Z;
  sf_content : list Z;
  sf_emm : list Z;
  sf_pmt_pid : Z;
  sf_done : bool;
  sf_error : bool }.

(** service_filter.hh:32-45: the constructor. *)
Definition sf_init (opt : service_filter_option) : sf_state :=
  let d := zadd PID_CAT (zadd PID_PAT []) in
  mkSf (match sfo_time_limit opt with Some _ => zadd PID_TOT d | None => d end)
    None [] [] [] PID_NULL false false.

(** service_filter.hh:105-116 CheckFilterForDrop *)
Definition sf_CheckFilterForDrop (s : sf_state) (pid : Z) : bool :=
  if zmem pid (sf_content s) then false
  else if zmem pid (sf_psi s) then false
  else if zmem pid (sf_emm s) then false
  else true.

(** service_filter.hh:137-209 HandlePat *)
Definition sf_HandlePat (opt : service_filter_option) (s : sf_state) (src : Z) (t : option pat) : res sf_state :=
  if negb (src =? PID_PAT) then Ok s
  else
    match t with
    | None => Ok s
    | Some t =>
        if pat_tsid t =? 0 then Ok s
        else
          match mfind (sfo_sid opt) (pat_pmts t) with
          | None =>
              Ok (mkSf (sf_demux s) (sf_pat s) (sf_psi s) (sf_content s) (sf_emm s) (sf_pmt_pid s) true true)
          | Some new_pmt_pid =>
              let d := if negb (sf_pmt_pid s =? PID_NULL) then zrem (sf_pmt_pid s) (sf_demux s) else sf_demux s in
              let d1 := zadd new_pmt_pid d in
              (* lines 183-189: erase the other services *)
              let pmts := filter (fun e => fst e =? sfo_sid opt) (pat_pmts t) in
              assert (zlen pmts =? 1) (
              assert (match mfind (sfo_sid opt) pmts with Some _ => true | None => false end) (
              let nit := filter (fun e => fst e =? 0) (pat_entries t) in
              let psi := zadd new_pmt_pid (zadd PID_CDT (zadd PID_BIT (zadd PID_TOT (zadd PID_RST
                           (zadd PID_EIT (zadd PID_SDT (zadd PID_NIT (zadd PID_CAT (zadd PID_PAT []))))))))) in
              Ok (mkSf d1 (Some (mkPat (pat_tsid t) (pat_version t) (nit ++ pmts)))
                    psi (sf_content s) (sf_emm s) new_pmt_pid (sf_done s) (sf_error s))))
          end
    end.

(** service_filter.hh:211-229 HandleCat *)
Definition sf_HandleCat (s : sf_state) (t : option cat) : res sf_state :=
  match t with
  | None => Ok s
  | Some t =>
      Ok (mkSf (sf_demux s) (sf_pat s) (sf_psi s) (sf_content s)
            (fold_left (fun f pid => zadd pid f) (cat_ca_pids t) []) (sf_pmt_pid s) (sf_done s) (sf_error s))
  end.

(** service_filter.hh:231-278 HandlePmt *)
Definition sf_HandlePmt (opt : service_filter_option) (s : sf_state) (t : option pmt) : res sf_state :=
  match t with
  | None => Ok s
  | Some t =>
      if negb (pmt_sid t =? sfo_sid opt) then Ok s
      else
        let f1 := zadd (pmt_pcr_pid t) [] in
        let f2 := fold_left (fun f pid => zadd pid f) (pmt_ca_pids t) f1 in
        let f3 := fold_left (fun f e => zadd (fst e) f) (pmt_streams t) f2 in
        Ok (mkSf (sf_demux s) (sf_pat s) (sf_psi s) f3 (sf_emm s) (sf_pmt_pid s) (sf_done s) (sf_error s))
  end.

(** service_filter.hh:280-298 HandleTot, CheckTimeLimit.  [value()] on an empty
    optional throws std::bad_optional_access. *)
Definition sf_HandleTot (opt : service_filter_option) (s : sf_state) (t : option Z) : res sf_state :=
  match t with
  | None => Ok s
  | Some time =>
      match sfo_time_limit opt with
      | None => Fail Uncaught
      | Some limit =>
          if time <? limit then Ok s
          else Ok (mkSf (sf_demux s) (sf_pat s) (sf_psi s) (sf_content s) (sf_emm s) (sf_pmt_pid s) true (sf_error s))
      end
  end.

(** service_filter.hh:118-135 handleTable *)
Definition sf_handleTable (opt : service_filter_option) (s : sf_state) (src : Z) (t : table) : res sf_state :=
  match tb_body t with
  | TPat t => sf_HandlePat opt s src t
  | TCat t => sf_HandleCat s t
  | TPmt t => sf_HandlePmt opt s t
  | TTot t => sf_HandleTot opt s t
  | _ => Ok s
  end.

(** service_filter.hh:74-102 HandlePacket; [stage] is the number of demux_. *)
Definition sf_HandlePacket (stage : nat) (opt : service_filter_option) (snk : sink packet)
    (x : sf_state * sk_state snk) (p : packet) : res ((sf_state * sk_state snk) * bool) :=
  let (s, d) := x in
  let* s1 := handle_tables (sf_handleTable opt) s (p_pid p) (demux_feed (sf_demux s) stage p) in
  if sf_done s1 then Ok ((s1, d), false)
  else
    let pid := p_pid p in
    if sf_CheckFilterForDrop s1 pid then Ok ((s1, d), true)
    else if pid =? PID_PAT then
      match sf_pat s1 with
      | None => Fail AssertFail     (* the packetizer returns a null packet *)
      | Some t => let* (d1, ok) := sk_handle snk d (gen_pat p t) in Ok ((s1, d1), ok)
      end
    else
      assert (negb (pid =? PID_NULL)) (
      let* (d1, ok) := sk_handle snk d p in Ok ((s1, d1), ok)).

(** service_filter.hh:63-72 GetExitCode *)
Definition sf_GetExitCode (snk : sink packet) (x : sf_state * sk_state snk) : res Z :=
  let* code := sk_exit snk (snd x) in
  Ok (if code =? EXIT_SUCCESS then (if sf_error (fst x) then EXIT_FAILURE else code) else code).

(** service_filter.hh:53-61 Start and End pass through. *)
Definition service_filter (stage : nat) (opt : service_filter_option) (snk : sink packet) : sink packet :=
  mkSink (sf_state * sk_state snk)
    (fun x => let* (d, ok) := sk_start snk (snd x) in Ok ((fst x, d), ok))
    (sf_HandlePacket stage opt snk)
    (fun x => let* d := sk_end snk (snd x) in Ok (fst x, d))
    (sf_GetExitCode snk).
