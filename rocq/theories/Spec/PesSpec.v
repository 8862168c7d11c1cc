(** What print-pes prints. *)
From Coq Require Import ZArith List Bool.
From Verif Require Import Base.Outcome Base.Util Model.Ts Model.Clock Model.PesPrinter.
Import ListNotations.
Open Scope Z_scope.

(** What is received: time stamps in units of the PCR (a PTS or DTS counts 300 of
    them), and tables. *)
Inductive ev :=
| Stamp (k : stamp) (pid v : Z)
| Tab (pid : Z) (b : body).

(** Pasts are lists with the newest event first. *)

(** The latest PAT with its PID.  Only a PAT on PID 0 tells about services. *)
Fixpoint the_pat (past : list ev) : option (Z * pat) :=
  match past with
  | [] => None
  | Tab pid (TPat (Some t)) :: _ => Some (pid, t)
  | _ :: r => the_pat r
  end.
Definition services (past : list ev) : list (Z * Z) :=
  match the_pat past with
  | Some (pid, t) => if pid =? 0 then pat_pmts t else []
  | None => []
  end.

(** The tables of the packet are received. *)
Definition listens (past : list ev) (pid : Z) : bool :=
  zmem pid [0; 1; 0x12; 0x14] || zmem pid (map snd (services past)).

Definition stamps (p : packet) : list ev :=
  match p_pcr p with Some v => [Stamp SPcr (p_pid p) v] | None => [] end ++
  match p_pts p with Some v => [Stamp SPts (p_pid p) (300 * v)] | None => [] end ++
  match p_dts p with Some v => [Stamp SDts (p_pid p) (300 * v)] | None => [] end.
Definition tables (p : packet) : list ev := map (fun t => Tab (p_pid p) (tb_body t)) (p_tabs p 0).

Fixpoint received (past : list ev) (ps : list packet) : list ev :=
  match ps with
  | [] => past
  | p :: r => received ((if listens past (p_pid p) then rev (tables p) else []) ++ rev (stamps p) ++ past) r
  end.

(** The clock of the PCRs on PID [q]: it starts afresh with each PMT that gives
    [q] as its PCR PID, and gets the PCRs on [q] and the TOTs. *)
Fixpoint calls (q : Z) (past : list ev) : option (list clock_op) :=
  match past with
  | [] => None
  | e :: r =>
      let more op := match calls q r with Some h => Some (h ++ [op]) | None => None end in
      match e with
      | Tab _ (TPmt (Some m)) => if (pmt_pcr_pid m =? q) && negb (q =? 0x1FFF) then Some [OpSetPid q] else calls q r
      | Tab _ (TTot (Some t)) => more (OpTime t 0)
      | Stamp SPcr pid v => if pid =? q then more (OpPcr v) else calls q r
      | _ => calls q r
      end
  end.

(** The time for the PCR value [v] by the clock of [q], if that clock is ready. *)
Definition time_of (past : list ev) (q v : Z) : option Z :=
  match calls q past with
  | None => None
  | Some h =>
      match ck_run clock_init h with
      | Ok c => if ck_IsReady c then match ck_PcrToTime c v with Ok t => Some t | Fail _ => None end else None
      | Fail _ => None
      end
  end.

(** The label of a stream: the first one that fits. *)
Definition tag_among (tags : list Z) (v : stream) : bool :=
  match es_tag v with Some t => existsb (Z.eqb t) tags | None => false end.
Definition labels : list (label * (stream -> bool)) :=
  [ (KAudio, es_audio); (KVideo, es_video); (KSubtitle, es_subtitles);
    (KAribSubtitle, tag_among [0x30; 0x31; 0x32; 0x33; 0x34; 0x35; 0x36; 0x37]);
    (KAribSuperimposedText, tag_among [0x38; 0x39; 0x3A; 0x3B; 0x3C; 0x3D; 0x3E; 0x3F]);
    (KOther, fun _ => true) ].
Definition label_of (v : stream) : label :=
  match find (fun k => snd k v) labels with Some (k, _) => k | None => KOther end.

(** The stream on PID [pid], by the latest PMT that lists it, with the PCR PID. *)
Fixpoint stream_of (pid : Z) (past : list ev) : option (label * Z) :=
  match past with
  | [] => None
  | Tab _ (TPmt (Some m)) :: r =>
      match mfind pid (pmt_streams m) with
      | Some v => Some (label_of v, pmt_pcr_pid m)
      | None => stream_of pid r
      end
  | _ :: r => stream_of pid r
  end.

Fixpoint event_lines (i : Z) (l : list event) : list pp_line :=
  match l with
  | [] => []
  | v :: r => LEvent i (ev_id v) (ev_start v) (ev_start v + 1000 * ev_duration v) (Z.quot (ev_duration v) 60) :: event_lines (i + 1) r
  end.

(** The lines printed for [e]. *)
Definition lines (past : list ev) (e : ev) : list pp_line :=
  match e with
  | Stamp SPcr pid v =>
      match calls pid past with
      | Some _ => [LStamp SPcr pid None (time_of (e :: past) pid v) v]
      | None => []
      end
  | Stamp k pid v =>
      match stream_of pid past with
      | Some (kind, q) => [LStamp k pid (Some kind) (time_of past q v) v]
      | None => [LStamp k pid None None v]
      end
  | Tab pid (TPat (Some t)) => LPat (pat_version t) pid :: map (fun x => LPatEntry (fst x) (snd x)) (pat_pmts t)
  | Tab _ (TCat (Some t)) => [LCat (cat_version t)]
  | Tab _ (TPmt (Some m)) =>
      LPmt (pmt_sid m) (pmt_pcr_pid m) (pmt_version m) ::
      map (fun x => LStream (fst x) (label_of (snd x)) (es_type (snd x))) (pmt_streams m)
  | Tab _ (TEit (Some e)) =>
      if zmem (eit_sid e) (map fst (services past)) then LEit (eit_sid e) (eit_version e) :: event_lines 0 (eit_events e) else []
  | Tab _ (TTot (Some t)) => [LTot t]
  | _ => []
  end.

Fixpoint printed (past : list ev) : list pp_line :=
  match past with
  | [] => []
  | e :: r => printed r ++ lines r e
  end.

(** No PMT is announced on the PIDs of the PAT, CAT, EIT and TOT. *)
Definition proper (p : packet) : Prop :=
  forall x t sid q, In x (p_tabs p 0) -> tb_body x = TPat (Some t) -> In (sid, q) (pat_entries t) -> sid <> 0 ->
    q <> 0 /\ q <> 1 /\ q <> 0x12 /\ q <> 0x14.

(** Values TSDuck delivers: PCRs, 33-bit PTS and DTS, times from 1858 to the year
    2400 or so, and durations. *)
Definition in_range (p : packet) : Prop :=
  (forall v, p_pcr p = Some v -> 0 <= v < 300 * 2 ^ 33) /\
  (forall v, p_pts p = Some v -> 0 <= v < 2 ^ 33) /\
  (forall v, p_dts p = Some v -> 0 <= v < 2 ^ 33) /\
  (forall x t, In x (p_tabs p 0) -> tb_body x = TTot (Some t) -> 0 <= t < 2 ^ 44) /\
  (forall x e v, In x (p_tabs p 0) -> tb_body x = TEit (Some e) -> In v (eit_events e) ->
     0 <= ev_start v < 2 ^ 44 /\ 0 <= ev_duration v < 2 ^ 24).

(** A PAT on PID 0 without services: nothing is read any more. *)
Definition no_service (past : list ev) : Prop := exists t, the_pat past = Some (0, t) /\ pat_pmts t = [].
(** Of the packets [ps] those in [h] are taken: all of them, or those up to the
    first one after which there is no service. *)
Definition takes (ps h : list packet) : Prop :=
  (exists rest, ps = h ++ rest /\ (rest = [] \/ no_service (received [] h))) /\
  forall a b, h = a ++ b -> b <> [] -> ~ no_service (received [] a).
