(** What EIT sections say, what is written for them, and when a collector
    considers them. *)
From Coq Require Import ZArith List Bool.
From Verif Require Import Base.Outcome Base.Util Model.EitSection Model.EitCollector.
Import ListNotations.
Open Scope Z_scope.

Definition byte (b : Z) : Prop := 0 <= b < 256.

(** * Events inside a section (EN 300 468, 5.2.4) *)

Record event := mkEv {
  en_id : Z;              (* event_id, 16 bits *)
  en_time : list Z;       (* start_time, 5 bytes *)
  en_duration : list Z;   (* duration, 3 bytes *)
  en_status : Z;          (* running_status, 3 bits *)
  en_ca : bool;           (* free_CA_mode *)
  en_descs : list Z }.    (* descriptors, length coded on 12 bits *)

Definition event_ok (e : event) : Prop :=
  0 <= en_id e < 65536 /\ zlen (en_time e) = 5 /\ zlen (en_duration e) = 3 /\
  Forall byte (en_duration e) /\
  0 <= en_status e < 8 /\ zlen (en_descs e) < 4096.

Definition encode (e : event) : list Z :=
  [en_id e / 256; en_id e mod 256] ++ en_time e ++ en_duration e ++
  [en_status e * 32 + (if en_ca e then 16 else 0) + zlen (en_descs e) / 256;
   zlen (en_descs e) mod 256] ++ en_descs e.

(** Two decimal digits in a byte. *)
Definition digits (b : Z) : option Z :=
  if (b / 16 <? 10) && (b mod 16 <? 10) then Some (b / 16 * 10 + b mod 16) else None.

(** hh mm ss, in milliseconds; nothing if a digit is not decimal. *)
Definition length_of (l : list Z) : option Z :=
  match l with
  | [h; m; s] =>
      match digits h, digits m, digits s with
      | Some a, Some b, Some c => Some (((a * 60 + b) * 60 + c) * 1000)
      | _, _, _ => None
      end
  | _ => None
  end.

(** Milliseconds between 1858-11-17T00:00 and 1970-01-01T09:00 (JST). *)
Definition jst_unix_epoch : Z := (40587 * 24 + 9) * 3600000.

Definition shown (mjd : list Z -> option Z) (e : event) : event_doc :=
  mkEvent (en_id e)
    (match mjd (en_time e) with Some t => Some (t - jst_unix_epoch) | None => None end)
    (length_of (en_duration e)) (en_ca e) (en_descs e).

(** The decoder of 16-bit day numbers yields times in this range. *)
Definition sane_mjd (mjd : list Z -> option Z) : Prop :=
  forall l t, mjd l = Some t -> 0 <= t < 2 ^ 44.

(** * Sections *)

(** The fields of a section as a stranger would read them.  [consists s ts n sl lt evs rest]:
    the payload of [s] is the transport stream id [ts], the network id [n], the
    last section number of the segment [sl], the last table id [lt], the events
    [evs] and less than 12 bytes of [rest]. *)
Definition consists (s : section) (ts n sl lt : Z) (evs : list event) (rest : list Z) : Prop :=
  sn_payload s = [ts / 256; ts mod 256; n / 256; n mod 256; sl; lt] ++ concat (map encode evs) ++ rest /\
  0 <= ts < 65536 /\ 0 <= n < 65536 /\ Forall event_ok evs /\ zlen rest < 12.

(** The length fields of the section are consistent. *)
Definition consistent (s : section) : Prop :=
  exists ts n sl lt evs rest, consists s ts n sl lt evs rest.

(** The document [d] is the one for section [s]. *)
Definition describes (mjd : list Z -> option Z) (s : section) (d : eit_doc) : Prop :=
  exists ts n sl lt evs rest, consists s ts n sl lt evs rest /\
    d = mkEitDoc n ts (sn_ext s) (sn_tid s) (sn_number s) (sn_last s) sl (sn_version s)
          (map (shown mjd) evs).

(** Identity of the service a section is about: network, transport stream,
    service. *)
Definition word (l : list Z) (n : nat) : Z := nth n l 0 * 256 + nth (S n) l 0.
Definition nid_of (s : section) : Z := word (sn_payload s) 2.
Definition tsid_of (s : section) : Z := word (sn_payload s) 0.
Definition sid_of (s : section) : Z := sn_ext s.
Definition service_of (s : section) : Z * Z * Z := (nid_of s, tsid_of s, sid_of s).

Definition seg_last_of (s : section) : Z := nth 4 (sn_payload s) 0.
Definition last_tid_of (s : section) : Z := nth 5 (sn_payload s) 0.

(** A section as it comes from the wire. *)
Definition wire (s : section) : Prop :=
  0 <= sn_ext s < 65536 /\ byte (sn_tid s) /\ 0 <= sn_version s < 32 /\
  byte (sn_number s) /\ byte (sn_last s) /\
  Forall byte (sn_payload s) /\ zlen (sn_payload s) < 4096 /\ zlen (sn_crc s) = 4.

(** Every delivered section comes from the wire. *)
Definition wires (ds : list delivery) : Prop := forall x, In (DSection x) ds -> wire x.

(** * What collect-eits considers *)

(** A schedule section of a selected service, in force now. *)
Definition schedule (o : eit_option) (s : section) : Prop :=
  sn_valid s = true /\ sn_next s = false /\ 6 <= zlen (sn_payload s) /\
  (0x50 <= sn_tid s <= 0x5F /\ eo_actual o = true \/ 0x60 <= sn_tid s <= 0x6F /\ eo_others o = true) /\
  (eo_sids o = [] \/ In (sid_of s) (eo_sids o)) /\
  ~ In (sid_of s) (eo_xsids o).

(** The sections among the deliveries [ds] for which a document was added to the
    output, in order, when the collector starts from [s]. *)
Fixpoint emitted (mjd : list Z -> option Z) (o : eit_option) (s : eit_state) (ds : list delivery) : list section :=
  match ds with
  | [] => []
  | d :: r =>
      match ec_deliver mjd o s d with
      | Fail _ => []
      | Ok s1 =>
          (match d with
           | DSection x => if zlen (ec_out s1) =? zlen (ec_out s) then [] else [x]
           | DTot _ => []
           end) ++ emitted mjd o s1 r
      end
  end.

(** The tables of one service: table ids that differ in the last four bits are
    different tables. *)
Definition same_table (a b : section) : Prop :=
  service_of a = service_of b /\ sn_tid a mod 16 = sn_tid b mod 16.

(** The half of the sixteen tables (0-7, 8-15) a section belongs to. *)
Definition same_half (a b : section) : Prop :=
  service_of a = service_of b /\ sn_tid a mod 16 / 8 = sn_tid b mod 16 / 8.

Definition same_section (a b : section) : Prop :=
  same_table a b /\ sn_number a = sn_number b.

(** The half of a day's tables has [last_of s] as its last table. *)
Definition last_of (s : section) : Z := last_tid_of s mod 8.

(** [y] is the last one in [out] of the sections of the table of [x] whose
    segment position up to the end of its segment contains position [i].  (The
    position of a section is its number modulo 8; the segment it lies in does
    not matter.) *)
Definition covers (y : section) (i : Z) : Prop := sn_number y mod 8 <= i <= seg_last_of y mod 8.

Definition last_covering (out : list section) (x : section) (i : Z) (y : section) : Prop :=
  exists pre post, out = pre ++ y :: post /\ same_table y x /\ covers y i /\
    forall z, In z post -> same_table z x -> ~ covers z i.

(** The exact condition under which the collector takes [x] for a repetition:
    the section was output, no output section of the half has named another last
    table since, and the version of [x] is the last one seen at every position
    from the one of [x] to the one before the last of its segment. *)
Definition repetition (out : list section) (x : section) : Prop :=
  (exists pre y post, out = pre ++ y :: post /\ same_section y x /\ last_of y = last_of x /\
     forall z, In z post -> same_half z x -> last_of z = last_of x) /\
  (forall i, sn_number x mod 8 <= i < seg_last_of x mod 8 ->
     exists y, last_covering out x i y /\ sn_version y = sn_version x).

(** * Time and the end of collect-eits *)

(** The TOTs among the deliveries. *)
Fixpoint tots (ds : list delivery) : list Z :=
  match ds with
  | [] => []
  | DTot (Some t) :: r => t :: tots r
  | _ :: r => tots r
  end.

Definition last_tot (ds : list delivery) : option Z :=
  match rev (tots ds) with [] => None | t :: _ => Some t end.

(** The stream time that has passed since the last output: the latest TOT minus
    the TOT that was the latest one at the last output.  As long as nothing has
    been output after the first TOT, that one counts.  Without any TOT no time
    has passed. *)
Inductive passed (mjd : list Z -> option Z) (o : eit_option) : list delivery -> Z -> Prop :=
| passed_none ds : tots ds = [] -> passed mjd o ds 0
| passed_output a x b sa s1 ref now :
    ec_deliver_all mjd o ec_init a = Ok sa ->
    emitted mjd o sa [DSection x] = [x] -> ec_deliver mjd o sa (DSection x) = Ok s1 ->
    emitted mjd o s1 b = [] ->
    last_tot a = Some ref -> last_tot (a ++ DSection x :: b) = Some now ->
    passed mjd o (a ++ DSection x :: b) (now - ref)
| passed_first a b s1 ref now :
    tots a = [] ->
    ec_deliver_all mjd o ec_init (a ++ [DTot (Some ref)]) = Ok s1 ->
    emitted mjd o s1 b = [] ->
    last_tot (a ++ DTot (Some ref) :: b) = Some now ->
    passed mjd o (a ++ DTot (Some ref) :: b) (now - ref).

(** [x] says that its table has no section [n]: [n] lies behind the last section
    of the table, or behind the last section of its segment of eight. *)
Definition denies (x : section) (n : Z) : Prop :=
  sn_last x / 8 < n / 8 \/ sn_number x / 8 = n / 8 /\ seg_last_of x mod 8 < n mod 8.

(** The hour of a time of day, and the segment of the first table it lies in
    (each segment covers three hours). *)
Definition segment_of (t : Z) : Z := t mod 86400000 / 3600000 / 3.

(** Everything is there: for each half of the tables of each service in [out],
    the tables up to the last one (as announced by the last output section of
    that half) are covered: each section number from 0 to 255 was output, or an
    output section of the table denies it, or it lies in a part of the first
    table that covers hours before the time of some TOT. *)
Definition all_there (out : list section) (ts : list Z) : Prop :=
  forall pre x post i n, out = pre ++ x :: post ->
    (forall y, In y post -> ~ same_half x y) ->
    0 <= i <= last_of x -> 0 <= n < 256 ->
    let tid := sn_tid x mod 16 / 8 * 8 + i in
    (exists y, In y out /\ service_of y = service_of x /\ sn_tid y mod 16 = tid /\
       (sn_number y = n \/ denies y n)) \/
    (i = 0 /\ exists t, In t ts /\ n / 8 < segment_of t).

(** * Exactly when collect-eits has everything *)

(** What has counted for the collector: the output sections and the TOTs. *)
Inductive mark := MOut (x : section) | MTot (t : Z).

Fixpoint history (mjd : list Z -> option Z) (o : eit_option) (s : eit_state) (ds : list delivery) : list mark :=
  match ds with
  | [] => []
  | d :: r =>
      match ec_deliver mjd o s d with
      | Fail _ => []
      | Ok s1 =>
          (match d with
           | DSection x => if zlen (ec_out s1) =? zlen (ec_out s) then [] else [MOut x]
           | DTot (Some t) => [MTot t]
           | DTot None => []
           end) ++ history mjd o s1 r
      end
  end.

(** With [x], the half of [x] began to name its present last table; [w] is what
    followed. *)
Definition announced (h : list mark) (x : section) (w : list mark) : Prop :=
  exists pre, h = pre ++ MOut x :: w /\
    (forall y, In (MOut y) w -> same_half y x -> last_of y = last_of x) /\
    (forall a y b, pre = a ++ MOut y :: b -> same_half y x ->
       (forall z, In (MOut z) b -> ~ same_half z x) -> last_of y <> last_of x).

(** Nothing is missing: in every half of the tables of every service, since it
    names its present last table, each section number of each table up to that
    one was output, or an output section of the table denies it, or it lies in a
    part of the first table that covers hours before the time of a TOT. *)
Definition nothing_missing (h : list mark) : Prop :=
  forall x w i n, announced h x w -> 0 <= i <= last_of x -> 0 <= n < 256 ->
    (exists y, In (MOut y) (MOut x :: w) /\ service_of y = service_of x /\
       sn_tid y mod 16 = sn_tid x mod 16 / 8 * 8 + i /\ (sn_number y = n \/ denies y n)) \/
    (i = 0 /\ exists t, In (MTot t) w /\ n / 8 < segment_of t).

(** The completion is judged with each output, and stands until the next one. *)
Definition finished (h : list mark) : Prop :=
  exists a x b, h = a ++ MOut x :: map MTot b /\ nothing_missing (a ++ [MOut x]).
