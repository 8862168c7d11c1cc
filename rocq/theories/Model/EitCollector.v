(** collect-eits: /repo/src/eit_collector.hh. *)
From Coq Require Import ZArith List Bool.
From Verif Require Import Base.Outcome Base.Util Model.Sink Model.EitSection.
Import ListNotations.
Open Scope Z_scope.

(** A C++ array, as a function of the index.  [segment_index()] is at most 31,
    [section_index()] and [last_section_index()] at most 7, [table_index()] at
    most 7 for sections whose numbers are bytes, so that every access below is
    inside the array (proved: C37_indices). *)
Definition arr (A : Type) : Type := Z -> A.
Definition upd {A} (f : arr A) (i : Z) (v : A) : arr A := fun j => if j =? i then v else f j.

(** [for (i = lo; i < lo + n; ++i)] *)
Fixpoint range (lo : Z) (n : nat) : list Z :=
  match n with O => [] | S n' => lo :: range (lo + 1) n' end.
(** [for (i = lo; i < hi; ++i)] *)
Definition span (lo hi : Z) : list Z := range lo (Z.to_nat (hi - lo)).

(** eit_collector.hh:23-30 *)
Record eit_option := mkEitOption {
  eo_sids : list Z;
  eo_xsids : list Z;
  eo_time_limit : Z;
  eo_streaming : bool;
  eo_actual : bool;
  eo_others : bool }.

(** eit_collector.hh:203-207 *)
Record table_progress := mkTable {
  tp_collected : arr Z;
  tp_unused : arr Z;
  tp_versions : arr Z;
  tp_completed : bool }.

(** eit_collector.hh:146-147 *)
Definition kNumSections : Z := 256.
Definition kNumSegments : Z := kNumSections / 8.

(** eit_collector.hh:34-38 *)
Definition tp_init : table_progress := mkTable (fun _ => 0) (fun _ => 0) (fun _ => 0xFF) false.

(** eit_collector.hh:42-48 *)
Definition tp_Reset (t : table_progress) : table_progress :=
  mkTable (fold_left (fun c i => upd c i 0) (span 0 kNumSegments) (tp_collected t))
    (fold_left (fun u i => upd u i 0) (span 0 kNumSegments) (tp_unused t))
    (tp_versions t) false.

(** eit_collector.hh:50-55 *)
Definition tp_Unuse (t : table_progress) : table_progress :=
  mkTable (tp_collected t)
    (fold_left (fun u i => upd u i 0xFF) (span 0 kNumSegments) (tp_unused t))
    (tp_versions t) true.

(** eit_collector.hh:181-188 *)
Definition tp_CheckCompleted (c u : arr Z) : bool :=
  forallb (fun i => Z.lor (c i) (u i) =? 0xFF) (span 0 kNumSegments).

(** eit_collector.hh:57-81 *)
Definition tp_Update (t : table_progress) (e : eit_section) : table_progress :=
  let u1 := fold_left (fun u i => upd u i 0xFF) (span (last_segment_index e + 1) kNumSegments) (tp_unused t) in
  let u2 := fold_left (fun u i => upd u (segment_index e) (Z.lor (u (segment_index e)) (Z.shiftl 1 i)))
              (span (last_section_index e + 1) 8) u1 in
  let c := upd (tp_collected t) (segment_index e)
             (Z.lor (tp_collected t (segment_index e)) (Z.shiftl 1 (section_index e))) in
  let v := fold_left (fun v i => upd v i (ei_version e))
             (span (section_index e) (last_section_index e + 1)) (tp_versions t) in
  mkTable c u2 v (tp_CheckCompleted c u2).

(** ts::Time::Fields(t).hour, times being milliseconds since 1858-11-17. *)
Definition hour_of (t : Z) : Z := t / 3600000 mod 24.

(** eit_collector.hh:83-90 *)
Definition tp_UpdateUnused (t : table_progress) (time : Z) : table_progress :=
  let segment := hour_of time / 3 in
  let u := fold_left (fun u i => upd u i 0xFF) (span 0 segment) (tp_unused t) in
  mkTable (tp_collected t) u (tp_versions t) (tp_CheckCompleted (tp_collected t) u).

(** eit_collector.hh:92-103 *)
Definition tp_CheckCollected (t : table_progress) (e : eit_section) : bool :=
  forallb (fun i => negb (tp_versions t i =? 0xFF) && (tp_versions t i =? ei_version e))
    (span (section_index e) (last_section_index e))
  && negb (Z.land (tp_collected t (segment_index e)) (Z.shiftl 1 (section_index e)) =? 0).

(** eit_collector.hh:300-303 *)
Record group_progress := mkGroup {
  gp_tables : arr table_progress;
  gp_last : Z;
  gp_completed : bool }.

(** eit_collector.hh:276 *)
Definition kNumTables : Z := 8.

Definition gp_init : group_progress := mkGroup (fun _ => tp_init) (-1) false.

(** eit_collector.hh:278-289 *)
Definition gp_CheckConsistency (g : group_progress) (e : eit_section) : bool :=
  negb (gp_last g <? 0) && (gp_last g =? last_table_index e).

(** eit_collector.hh:291-298 *)
Definition gp_CheckCompleted (ts : arr table_progress) : bool :=
  forallb (fun i => tp_completed (ts i)) (span 0 kNumTables).

(** eit_collector.hh:217-232 *)
Definition gp_Update (g : group_progress) (e : eit_section) : group_progress :=
  let ts :=
    if gp_CheckConsistency g e then gp_tables g
    else
      let a := fold_left (fun ts i => upd ts i (tp_Reset (ts i))) (span 0 kNumTables) (gp_tables g) in
      fold_left (fun ts i => upd ts i (tp_Unuse (ts i))) (span (last_table_index e + 1) kNumTables) a in
  let ts1 := upd ts (table_index e) (tp_Update (ts (table_index e)) e) in
  mkGroup ts1 (last_table_index e) (gp_CheckCompleted ts1).

(** eit_collector.hh:234-237 *)
Definition gp_UpdateUnused (g : group_progress) (time : Z) : group_progress :=
  let ts := upd (gp_tables g) 0 (tp_UpdateUnused (gp_tables g 0) time) in
  mkGroup ts (gp_last g) (gp_CheckCompleted ts).

(** eit_collector.hh:239-247 *)
Definition gp_CheckCollected (g : group_progress) (e : eit_section) : bool :=
  if gp_last g <? 0 then false
  else if negb (gp_last g =? last_table_index e) then false
  else tp_CheckCollected (gp_tables g (table_index e)) e.

(** eit_collector.hh:249-254 *)
Definition gp_IsCompleted (g : group_progress) : bool :=
  if gp_last g <? 0 then true else gp_completed g.

(** eit_collector.hh:352-353 *)
Record service_progress := mkService {
  sp_basic : group_progress;
  sp_extra : group_progress }.

Definition sp_init : service_progress := mkService gp_init gp_init.

(** eit_collector.hh:313-319 *)
Definition sp_Update (s : service_progress) (e : eit_section) : service_progress :=
  if IsBasic e then mkService (gp_Update (sp_basic s) e) (sp_extra s)
  else mkService (sp_basic s) (gp_Update (sp_extra s) e).

(** eit_collector.hh:321-324 *)
Definition sp_UpdateUnused (s : service_progress) (time : Z) : service_progress :=
  mkService (gp_UpdateUnused (sp_basic s) time) (gp_UpdateUnused (sp_extra s) time).

(** eit_collector.hh:326-331 *)
Definition sp_CheckCollected (s : service_progress) (e : eit_section) : bool :=
  if IsBasic e then gp_CheckCollected (sp_basic s) e else gp_CheckCollected (sp_extra s) e.

(** eit_collector.hh:333-335 *)
Definition sp_IsCompleted (s : service_progress) : bool :=
  gp_IsCompleted (sp_basic s) && gp_IsCompleted (sp_extra s).

(** eit_collector.hh:420-421 *)
Record collect_progress := mkCollect {
  cp_services : list (Z * service_progress);
  cp_completed : bool }.

Definition cp_init : collect_progress := mkCollect [] false.

(** [services_[k]]: the element, inserted with its default value if missing *)
Definition cp_get (c : collect_progress) (k : Z) : service_progress :=
  match mfind k (cp_services c) with Some s => s | None => sp_init end.

(** eit_collector.hh:363-366, 411-418 *)
Definition cp_Update (c : collect_progress) (e : eit_section) : collect_progress :=
  let k := service_triple e in
  let m := minsert k (sp_Update (cp_get c k) e) (cp_services c) in
  mkCollect m (forallb (fun p => sp_IsCompleted (snd p)) m).

(** eit_collector.hh:368-372 ([completed_] is left alone) *)
Definition cp_UpdateUnused (c : collect_progress) (time : Z) : collect_progress :=
  mkCollect (map (fun p => (fst p, sp_UpdateUnused (snd p) time)) (cp_services c)) (cp_completed c).

(** eit_collector.hh:374-379 *)
Definition cp_CheckCollected (c : collect_progress) (e : eit_section) : bool :=
  match mfind (service_triple e) (cp_services c) with
  | None => false
  | Some s => sp_CheckCollected s e
  end.

(** What the demultiplexer hands over while a packet is fed (lines 437-440: only
    the EIT and TOT PIDs are demultiplexed): a section for handleSection, or a
    time table for handleTable, [None] standing for a TOT that is not valid.
    Tables with another table id are ignored by handleTable (lines 523-532) and
    left out.  A packet is the list of its deliveries. *)
Inductive delivery :=
| DSection (s : section)
| DTot (t : option Z).

(** eit_collector.hh:592-600, and the documents written so far.  The start time
    and the progress display only feed the log. *)
Record eit_state := mkEitState {
  ec_has_timestamp : bool;
  ec_timestamp : Z;
  ec_last_updated : Z;
  ec_progress : collect_progress;
  ec_out : list eit_doc }.

(** 0 stands for ts::Time(). *)
Definition ec_init : eit_state := mkEitState false 0 0 cp_init [].

Section Collector.
Variable mjd : list Z -> option Z.
Variable o : eit_option.

(** eit_collector.hh:561-571 WriteEitSection, UpdateProgress *)
Definition ec_write (s : eit_state) (e : eit_section) : res eit_state :=
  let* doc := MakeEitJson mjd e in
  Ok (mkEitState (ec_has_timestamp s) (ec_timestamp s) (ec_timestamp s)
        (cp_Update (ec_progress s) e) (ec_out s ++ [doc])).

(** eit_collector.hh:473-521 handleSection.  TSDuck: TID_EIT_S_ACT is 0x50-0x5F,
    TID_EIT_S_OTH is 0x60-0x6F. *)
Definition ec_handleSection (s : eit_state) (sec : section) : res eit_state :=
  if negb (sn_valid sec) then Ok s
  else
    let tid := sn_tid sec in
    let skip :=
      if (0x50 <=? tid) && (tid <=? 0x5F) then negb (eo_actual o)
      else if (0x60 <=? tid) && (tid <=? 0x6F) then negb (eo_others o)
      else true in
    if skip then Ok s
    else if sn_next sec then Ok s
    else if zlen (sn_payload sec) <? EIT_PAYLOAD_FIXED_SIZE then Ok s
    else
      let* e := EitSection sec in
      if negb (ss_IsEmpty (eo_sids o)) && negb (ss_Contain (eo_sids o) (ei_sid e)) then Ok s
      else if negb (ss_IsEmpty (eo_xsids o)) && ss_Contain (eo_xsids o) (ei_sid e) then Ok s
      else if cp_CheckCollected (ec_progress s) e then Ok s
      else ec_write s e.

(** eit_collector.hh:534-555 HandleTot, HandleTime *)
Definition ec_HandleTot (s : eit_state) (t : option Z) : eit_state :=
  match t with
  | None => s
  | Some time =>
      mkEitState true time
        (if ec_has_timestamp s then ec_last_updated s else time)
        (cp_UpdateUnused (ec_progress s) time) (ec_out s)
  end.

Definition ec_deliver (s : eit_state) (d : delivery) : res eit_state :=
  match d with
  | DSection sec => ec_handleSection s sec
  | DTot t => Ok (ec_HandleTot s t)
  end.

Fixpoint ec_deliver_all (s : eit_state) (ds : list delivery) : res eit_state :=
  match ds with
  | [] => Ok s
  | d :: r => let* s1 := ec_deliver s d in ec_deliver_all s1 r
  end.

(** eit_collector.hh:573-578 *)
Definition ec_IsCompleted (s : eit_state) : bool :=
  if eo_streaming o then false else cp_completed (ec_progress s).

(** eit_collector.hh:580-586 *)
Definition ec_CheckTimeout (s : eit_state) : bool :=
  if eo_streaming o then false
  else eo_time_limit o <=? ec_timestamp s - ec_last_updated s.

(** eit_collector.hh:459-470 HandlePacket *)
Definition ec_HandlePacket (s : eit_state) (p : list delivery) : res (eit_state * bool) :=
  let* s1 := ec_deliver_all s p in
  if ec_IsCompleted s1 then Ok (s1, false)
  else if ec_CheckTimeout s1 then Ok (s1, false)
  else Ok (s1, true).

(** The collector as a sink.  Start (lines 445-448) only takes the wall clock,
    End (450-457) only logs (its signed arithmetic on wall clock times is not
    modelled), GetExitCode is the default of PacketSink
    (/repo/src/packet_sink.hh:14-29). *)
Definition eit_sink : sink (list delivery) :=
  mkSink eit_state (fun s => Ok (s, true)) ec_HandlePacket (fun s => Ok s) (fun _ => Ok EXIT_SUCCESS).

End Collector.

(** eit_collector.hh:431-441: the constructor *)
Definition ec_new (o : eit_option) : res eit_state :=
  assert (eo_actual o || eo_others o) (Ok ec_init).
