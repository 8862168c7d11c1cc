(** The format of a transport stream (ISO/IEC 13818-1, ARIB STD-B10), as far as
    sections that fit into one packet go: how the bytes of a packet are read, and
    how a PAT is written.  This is a library in the sense of Main.v that is fully
    defined; the theorems about any library apply to it.

    Left out: sections that go over several packets, tables of several sections
    (but for an EIT p/f whose sections come in one packet), NIT and SDT, logos and
    texts.  Every section is reported each time it comes. *)
From Coq Require Import ZArith List Bool String.
From Verif Require Import Base.Outcome Base.Util Model.Ts Model.Main Spec.FilterSpec Spec.PipeSpec.
From Verif Require Model.EitSection Model.EitCollector Model.Descriptors.
Import ListNotations.
Open Scope Z_scope.

Definition at_ (b : list Z) (i : nat) : Z := nth i b 0.
Definition word (b : list Z) (i : nat) : Z := at_ b i * 256 + at_ b (S i).

(** ** The header *)
Definition starts_unit (b : list Z) : bool := Z.testbit (at_ b 1) 6.
Definition adapted (b : list Z) : bool := Z.testbit (at_ b 3) 5.
Definition payload (b : list Z) : list Z :=
  if Z.testbit (at_ b 3) 4 then skipn (if adapted b then 5 + Z.to_nat (at_ b 4) else 4) b else [].
Definition pcr_bytes (b : list Z) : option Z :=
  if adapted b && (7 <=? at_ b 4) && Z.testbit (at_ b 5) 4 then
    Some ((at_ b 6 * 2 ^ 25 + at_ b 7 * 2 ^ 17 + at_ b 8 * 2 ^ 9 + at_ b 9 * 2 + at_ b 10 / 128) * 300 + (at_ b 10 mod 2) * 256 + at_ b 11)
  else None.

(** The time stamps of a PES header: two flags, then 33 bits each. *)
Definition stamp (p : list Z) (i : nat) : Z :=
  (at_ p i / 2 mod 8) * 2 ^ 30 + at_ p (1 + i) * 2 ^ 22 + (at_ p (2 + i) / 2) * 2 ^ 15 + at_ p (3 + i) * 2 ^ 7 + at_ p (4 + i) / 2.
Definition pes_header (b : list Z) : bool :=
  starts_unit b && (19 <=? zlen (payload b)) && (at_ (payload b) 0 =? 0) && (at_ (payload b) 1 =? 0) && (at_ (payload b) 2 =? 1) &&
  negb (zmem (at_ (payload b) 3) [0xBC; 0xBE; 0xBF; 0xF0; 0xF1; 0xF2; 0xF8; 0xFF]).
Definition pts_bytes (b : list Z) : option Z := if pes_header b && Z.testbit (at_ (payload b) 7) 7 then Some (stamp (payload b) 9) else None.
Definition dts_bytes (b : list Z) : option Z :=
  if pes_header b && Z.testbit (at_ (payload b) 7) 7 && Z.testbit (at_ (payload b) 7) 6 then Some (stamp (payload b) 14) else None.

(** ** Sections *)
(** CRC-32/MPEG-2: polynomial 0x04C11DB7, starting from all ones. *)
Fixpoint crc_bits (n : nat) (c : Z) : Z :=
  match n with
  | O => c
  | S n => crc_bits n (Z.lxor (Z.land (Z.shiftl c 1) 0xFFFFFFFF) (if Z.testbit c 31 then 0x04C11DB7 else 0))
  end.
Definition crc32 (l : list Z) : Z := fold_left (fun c x => crc_bits 8 (Z.lxor c (Z.shiftl x 24))) l 0xFFFFFFFF.
Definition be32 (c : Z) : list Z := [Z.shiftr c 24 mod 256; Z.shiftr c 16 mod 256; Z.shiftr c 8 mod 256; c mod 256].

(** A section is 3 bytes, the last two with the number of those that follow; stuffing begins with 0xFF. *)
Definition size_of (l : list Z) : nat := (3 + Z.to_nat (word l 1 mod 4096))%nat.
Fixpoint split_sections (fuel : nat) (l : list Z) : list (list Z) :=
  match fuel, l with
  | S fuel, x :: _ =>
      if x =? 0xFF then []
      else if Nat.ltb (List.length l) (size_of l) then []
      else firstn (size_of l) l :: split_sections fuel (skipn (size_of l) l)
  | _, _ => []
  end.
Definition intact (s : list Z) : bool :=
  Nat.leb 12 (List.length s) &&
  (if list_eq_dec Z.eq_dec (be32 (crc32 (firstn (List.length s - 4) s))) (skipn (List.length s - 4) s) then true else false).
(** The intact sections of a packet; a packet that starts a section gives the
    number of bytes before it. *)
Definition sections (b : list Z) : list (list Z) :=
  if starts_unit b then
    match payload b with
    | [] => []
    | k :: l => filter intact (split_sections 61 (skipn (Z.to_nat k) l))
    end
  else [].

(** ** Tables *)
Definition section_version (s : list Z) : Z := at_ s 5 / 2 mod 32.
Definition single (s : list Z) : bool := Z.odd (at_ s 5) && (at_ s 6 =? 0) && (at_ s 7 =? 0).
(** What comes between the first [k] bytes and the CRC. *)
Definition inside (k : nat) (s : list Z) : list Z := firstn (List.length s - 4 - k) (skipn k s).

Fixpoint pairs (l : list Z) : list (Z * Z) :=
  match l with
  | a :: b :: c :: d :: r => (a * 256 + b, (c mod 32) * 256 + d) :: pairs r
  | _ => []
  end.
Definition read_pat (s : list Z) : pat := mkPat (word s 3) (section_version s) (pairs (inside 8 s)).

(** Descriptors: tag, length, data. *)
Fixpoint descs (fuel : nat) (l : list Z) : list (Z * list Z) :=
  match fuel, l with
  | S fuel, tag :: n :: r => (tag, firstn (Z.to_nat n) r) :: descs fuel (skipn (Z.to_nat n) r)
  | _, _ => []
  end.
Definition ca_pids (l : list Z) : list Z :=
  flat_map (fun d => if (fst d =? 0x09) && (4 <=? zlen (snd d)) then [word (snd d) 2 mod 8192] else []) (descs 64 l).
Definition tag_in (l : list Z) : option Z :=
  latest (fun d => if (fst d =? 0x52) && (1 <=? zlen (snd d)) then Some (at_ (snd d) 0) else None) (descs 64 l).
Fixpoint streams_in (fuel : nat) (l : list Z) : list (Z * stream) :=
  match fuel, l with
  | S fuel, ty :: a :: b :: c :: d :: r =>
      let n := Z.to_nat ((c * 256 + d) mod 4096) in
      ((a mod 32) * 256 + b, mkStream (zmem ty [0x01; 0x02; 0x10; 0x1B; 0x24]) (zmem ty [0x03; 0x04; 0x0F; 0x11]) ty
        ((ty =? 0x06) && existsb (fun x => fst x =? 0x59) (descs 64 (firstn n r))) (tag_in (firstn n r))) :: streams_in fuel (skipn n r)
  | _, _ => []
  end.
Definition read_pmt (s : list Z) : pmt :=
  let n := Z.to_nat (word s 10 mod 4096) in
  mkPmt (word s 3) (section_version s) (word s 8 mod 8192) (ca_pids (firstn n (inside 12 s))) (streams_in 64 (skipn n (inside 12 s))).
Definition read_cat (s : list Z) : cat := mkCat (section_version s) (ca_pids (inside 8 s)).

(** A time: the Modified Julian Date, and hours, minutes and seconds in BCD. *)
Definition decimal (x : Z) : bool := (Z.shiftr x 4 <? 10) && (Z.land x 15 <? 10).
Definition bcd (x : Z) : Z := 10 * Z.shiftr x 4 + Z.land x 15.
Definition read_time (l : list Z) : option Z :=
  match l with
  | [d1; d0; h; m; s] =>
      if decimal h && decimal m && decimal s then Some (((d1 * 256 + d0) * 86400 + bcd h * 3600 + bcd m * 60 + bcd s) * 1000) else None
  | _ => None
  end.

Fixpoint events_in (fuel : nat) (l : list Z) : list event :=
  match fuel, l with
  | S fuel, a :: b :: d1 :: d0 :: h :: m :: s :: h' :: m' :: s' :: x :: y :: r =>
      let n := Z.to_nat ((x * 256 + y) mod 4096) in
      match read_time [d1; d0; h; m; s] with
      | Some t => if decimal h' && decimal m' && decimal s' then [mkEvent (a * 256 + b) t (bcd h' * 3600 + bcd m' * 60 + bcd s') 0] else []
      | None => []
      end ++ events_in fuel (skipn n r)
  | _, _ => []
  end.
(** EIT p/f of the transport stream itself, all of whose sections are given. *)
Definition read_eit (ss : list (list Z)) : list body :=
  match filter (fun s => at_ s 0 =? 0x4E) ss with
  | [] => []
  | s :: r =>
      if zlen r =? at_ s 7 then
        [TEit (Some (mkEit (word s 3) (word s 8) (word s 10) (section_version s) (flat_map (fun x => events_in 16 (inside 14 x)) (s :: r))))]
      else []
  end.

Definition read_table (s : list Z) : list body :=
  if at_ s 0 =? 0x00 then if single s then [TPat (Some (read_pat s))] else []
  else if at_ s 0 =? 0x01 then if single s then [TCat (Some (read_cat s))] else []
  else if at_ s 0 =? 0x02 then if single s then [TPmt (Some (read_pmt s))] else []
  else if at_ s 0 =? 0x73 then match read_time (firstn 5 (skipn 3 s)) with Some t => [TTot (Some t)] | None => [] end
  else [].
Definition bodies (b : list Z) : list body := flat_map read_table (sections b) ++ read_eit (sections b).

(** ** Writing *)
Definition low (v : Z) : Z := v mod 256.
Definition two (v : Z) : list Z := [low (v / 256); low v].
(** A packet on a PID that starts with the section [s] (less its CRC), stuffed. *)
Definition fit (l : list Z) : list Z := firstn 188 (l ++ repeat 0xFF 188).
Definition packet_with (pid : Z) (s : list Z) : list Z :=
  fit ([0x47; 64 + pid / 256 mod 32; low pid; 0x10; 0x00] ++ s ++ be32 (crc32 s)).
(** The section with the table id [tid] and the part [l] after the section
    numbers. *)
Definition section_with (tid ext version : Z) (l : list Z) : list Z :=
  let n := 9 + zlen l in
  [low tid; 0xB0 + n / 256 mod 16; low n] ++ two ext ++ [193 + 2 * (version mod 32); 0; 0] ++ l.
Definition pair_bytes (e : Z * Z) : list Z := two (fst e) ++ [0xE0 + snd e / 256 mod 32; low (snd e)].
Definition pat_packet (t : pat) : list Z :=
  packet_with 0 (section_with 0x00 (pat_tsid t) (pat_version t) (flat_map pair_bytes (pat_entries t))).
(** Of a PMT the streams with their tags, and the PIDs of the ECMs. *)
Definition ca_bytes (pid : Z) : list Z := [0x09; 4; 0; 5; 0xE0 + pid / 256 mod 32; low pid].
Definition stream_bytes (e : Z * stream) : list Z :=
  [low (es_type (snd e)); 0xE0 + fst e / 256 mod 32; low (fst e); 0xF0] ++
  match es_tag (snd e) with Some tag => [3; 0x52; 1; low tag] | None => [0] end.
Definition pmt_packet (pid : Z) (t : pmt) : list Z :=
  let ca := flat_map ca_bytes (pmt_ca_pids t) in
  packet_with pid (section_with 0x02 (pmt_sid t) (pmt_version t)
    ([0xE0 + pmt_pcr_pid t / 256 mod 32; low (pmt_pcr_pid t); 0xF0 + zlen ca / 256 mod 16; low (zlen ca)] ++ ca ++
     flat_map stream_bytes (pmt_entries t))).

(** ** The library *)
Definition number_of (b : list Z) : Z := fold_left (fun a x => Z.shiftl a 8 + x) b 0.
Fixpoint digits_onto (n : nat) (v : Z) (rest : list Z) : list Z :=
  match n with
  | O => rest
  | S n => digits_onto n (Z.shiftr v 8) (Z.land v 255 :: rest)
  end.
(** A packet that is just what is written for the PAT it carries is taken for
    that; any other packet is known by the number that its bytes spell. *)
Definition content_of (b : list Z) : content :=
  match bodies b with
  | [TPat (Some t)] => if list_eq_dec Z.eq_dec (pat_packet t) b then GenPat t else Raw (number_of b)
  | _ => Raw (number_of b)
  end.
Definition wire_view (h : list (list Z)) (b : list Z) : packet :=
  mkPacket (content_of b) (pid_bytes b) (starts_unit b) (pcr_bytes b) (pts_bytes b) (dts_bytes b)
    (fun _ => map (fun x => mkTable x 0) (bodies b)) (fun _ => 1%nat).
(** The same with the number of the packet at which each table starts, for
    seek-start. *)
Definition wire_at (h : list (list Z)) (b : list Z) : packet :=
  mkPacket (content_of b) (pid_bytes b) (starts_unit b) (pcr_bytes b) (pts_bytes b) (dts_bytes b)
    (fun _ => map (fun x => mkTable x (zlen h)) (bodies b)) (fun _ => 1%nat).
Definition wire_bytes (p : packet) : list Z :=
  match p_content p with
  | Raw v => digits_onto 188 v []
  | GenPat t => pat_packet t
  | GenPmt t _ => pmt_packet (p_pid p) t
  end.

Definition section_of (pid : Z) (s : list Z) : EitSection.section :=
  EitSection.mkSection true pid (at_ s 0) (word s 3) (section_version s) (negb (Z.odd (at_ s 5))) (at_ s 6) (at_ s 7) (inside 8 s) (skipn (List.length s - 4) s).
Definition event_sections (b : list Z) : list EitSection.section :=
  if pid_bytes b =? 0x12 then map (section_of 0x12) (filter (fun s => Z.testbit (at_ s 1) 7) (sections b)) else [].
Definition wire_deliveries (b : list Z) : list EitCollector.delivery :=
  map EitCollector.DSection (event_sections b) ++
  (if pid_bytes b =? 0x14 then flat_map (fun x => match x with TTot t => [EitCollector.DTot t] | _ => [] end) (bodies b) else []).

Definition wire : library :=
  mkLibrary wire_view (fun _ => wire_deliveries) (fun _ => event_sections) (fun _ _ => ([], true)) (fun _ => [])
    wire_bytes (fun _ => 1%nat) read_time (fun _ => ""%string) (fun _ => ""%string) (fun _ => (false, []))
    (Descriptors.mkParsers (fun _ => None) (fun _ => None) (fun _ => None) (fun _ => None) (fun _ => None) (fun _ => None))
    (fun _ => ([], None)) (fun _ => ""%string) ""%string.

(** A PAT whose numbers have the size of their fields, and that fits into one packet. *)
Definition fits (t : pat) : Prop :=
  0 <= pat_tsid t < 65536 /\ 0 <= pat_version t < 32 /\ (List.length (pat_entries t) <= 42)%nat /\
  Forall (fun e => 0 <= fst e < 65536 /\ 0 <= snd e < 8192) (pat_entries t).

(** A PMT whose numbers have the size of their fields, with streams known by their
    type and tag, and that fits into one packet. *)
Definition plain_stream (e : Z * stream) : Prop :=
  let s := snd e in
  0 <= fst e < 8192 /\ 0 <= es_type s < 256 /\ es_subtitles s = false /\ match es_tag s with Some tag => 0 <= tag < 256 | None => True end /\
  es_video s = zmem (es_type s) [0x01; 0x02; 0x10; 0x1B; 0x24] /\ es_audio s = zmem (es_type s) [0x03; 0x04; 0x0F; 0x11].
Definition pmt_fits (t : pmt) : Prop :=
  0 <= pmt_sid t < 65536 /\ 0 <= pmt_version t < 32 /\ 0 <= pmt_pcr_pid t < 8192 /\
  Forall (fun pid => 0 <= pid < 8192) (pmt_ca_pids t) /\ Forall plain_stream (pmt_entries t) /\
  6 * zlen (pmt_ca_pids t) + 8 * zlen (pmt_entries t) <= 167.

(** The PATs in some packets, newest first, if these are given newest first. *)
Definition tables_of (seen : list (list Z)) : list (Z * body) := flat_map (fun b => rev (map (fun x => (pid_bytes b, x)) (bodies b))) seen.

(** The output of filter-service, packet by packet, [seen] being the packets read
    before, newest first: packets are left out; those on PID 0 are replaced by a
    packet that is read as one PAT, with the service alone in it, taken from the
    latest PAT read that lists it; others are unchanged. *)
Inductive served (sid : Z) (seen : list (list Z)) : list (list Z) -> list (list Z) -> Prop :=
| Sv_end : forall bs, served sid seen bs []
| Sv_drop : forall b bs out, served sid (b :: seen) bs out -> served sid seen (b :: bs) out
| Sv_keep : forall b bs out, pid_bytes b <> 0 -> served sid (b :: seen) bs out -> served sid seen (b :: bs) (b :: out)
| Sv_pat : forall b q bs out t pid, pid_bytes b = 0 -> latest (listing sid) (tables_of (b :: seen)) = Some (t, pid) ->
    ts_packet q -> pid_bytes q = 0 -> bodies q = [TPat (Some (only_service sid t pid))] ->
    served sid (b :: seen) bs out -> served sid seen (b :: bs) (q :: out).
