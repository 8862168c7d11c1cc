(** The text of print-pes as a reader sees it. *)
From Coq Require Import ZArith Ascii String List Bool.
From Verif Require Import Base.Outcome Base.Util Model.Ts Model.PesPrinter.
Import ListNotations.
Open Scope string_scope.
Open Scope Z_scope.

(** The value of a digit 0-9 or A-F, and of a numeral to the base [b], most
    significant digit first. *)
Definition digit (c : ascii) : option Z :=
  let n := Z.of_nat (nat_of_ascii c) in
  if (48 <=? n) && (n <=? 57) then Some (n - 48)
  else if (65 <=? n) && (n <=? 70) then Some (n - 55)
  else None.
Fixpoint reading (b acc : Z) (s : string) : option Z :=
  match s with
  | EmptyString => Some acc
  | String c r => match digit c with
                  | Some d => if d <? b then reading b (b * acc + d) r else None
                  | None => None
                  end
  end.
(** [s] is the number [n] to the base [b] with at least [w] digits; there are
    leading zeros only to make them [w]. *)
Definition numeral (b : Z) (w : nat) (n : Z) (s : string) : Prop :=
  reading b 0 s = Some n /\
  (String.length s = w \/
   (w < String.length s)%nat /\ exists c r, s = String c r /\ c <> "0"%char).
Definition decimal := numeral 10 1.
Definition hex4 := numeral 16 4.
Definition hex2 := numeral 16 2.

Definition name_of (k : label) : string :=
  match k with
  | KAudio => "Audio"
  | KVideo => "Video"
  | KSubtitle => "Subtitle"
  | KAribSubtitle => "ARIB-Subtitle"
  | KAribSuperimposedText => "ARIB-SuperimposedText"
  | KOther => "Other"
  end.

(** What the line says after the columns; [show] is the text of a time. *)
Definition says (show : Z -> string) (l : pp_line) (m : string) : Prop :=
  match l with
  | LStamp SPcr pid _ _ _ => exists p, hex4 pid p /\ m = "PCR#" ++ p
  | LStamp SPts pid (Some k) _ _ => exists p, hex4 pid p /\ m = name_of k ++ "#" ++ p ++ " PTS"
  | LStamp SDts pid (Some k) _ _ => exists p, hex4 pid p /\ m = name_of k ++ "#" ++ p ++ " DTS"
  | LStamp SPts pid None _ _ => exists p, hex4 pid p /\ m = "PES#" ++ p ++ " PTS"
  | LStamp SDts pid None _ _ => exists p, hex4 pid p /\ m = "PES#" ++ p ++ " DTS"
  | LPat version pid => exists v p, decimal version v /\ hex4 pid p /\ m = "PAT: V#" ++ v ++ " PID#" ++ p
  | LPatEntry sid pid => exists i p, hex4 sid i /\ hex4 pid p /\ m = "  SID#" ++ i ++ " => PMT#" ++ p
  | LCat version => exists v, decimal version v /\ m = "CAT: V#" ++ v
  | LPmt sid pcr_pid version => exists i p v, hex4 sid i /\ hex4 pcr_pid p /\ decimal version v /\
      m = "PMT: SID#" ++ i ++ " PCR#" ++ p ++ " V#" ++ v
  | LStream pid k type => exists p t, hex4 pid p /\ hex2 type t /\ m = "  PES#" ++ p ++ " => " ++ name_of k ++ "#" ++ t
  | LEit sid version => exists i v, hex4 sid i /\ decimal version v /\ m = "EIT p/f Actual: SID#" ++ i ++ " V#" ++ v
  | LEvent index id start stop minutes => exists n i d, decimal index n /\ hex4 id i /\ decimal minutes d /\
      m = "  Event[" ++ n ++ "]: EID#" ++ i ++ " " ++ show start ++ " - " ++ show stop ++ " (" ++ d ++ "m)"
  | LTot _ => m = "TOT"
  end.

(** The first column: the time, if there is one, or else blanks. *)
Definition time_column (show : Z -> string) (l : pp_line) (c : string) : Prop :=
  match l with
  | LStamp _ _ _ (Some t) _ | LTot t => c = show t
  | _ => c = "                       "
  end.
(** The second column: the PCR as its 33-bit base and its extension. *)
Definition pcr_column (l : pp_line) (c : string) : Prop :=
  match l with
  | LStamp _ _ _ _ v => exists b e, numeral 10 10 (v / 300) b /\ numeral 10 3 (v mod 300) e /\ c = b ++ "+" ++ e
  | _ => c = "              "
  end.
Definition line_feed : ascii := ascii_of_nat 10.
Definition written (show : Z -> string) (l : pp_line) (t : string) : Prop :=
  exists c1 c2 m, time_column show l c1 /\ pcr_column l c2 /\ says show l m /\
    t = c1 ++ "|" ++ c2 ++ "|" ++ m ++ String line_feed "".

(** The times between 1858 (less a day and a half, for a clock may count
    backwards from a TOT) and the year 2900 or so. *)
Definition era (t : Z) : Prop := - 2 ^ 27 <= t < 2 ^ 45.
Fixpoint has (c : ascii) (s : string) : Prop :=
  match s with
  | EmptyString => False
  | String x r => x = c \/ has c r
  end.
(** Times are texts of 23 characters without line feed, that do not start with
    a blank; other times are other texts.  TSDuck writes
    "2023/11/16 12:34:56.789". *)
Definition legible (show : Z -> string) : Prop :=
  (forall t, era t -> String.length (show t) = 23%nat /\ ~ has line_feed (show t) /\
     exists c r, show t = String c r /\ c <> " "%char) /\
  (forall t u, era t -> era u -> show t = show u -> t = u).

(** The lines there can be: numbers are not negative and below 2^48; a PCR is
    below 300 * 2^33. *)
Definition small (n : Z) : Prop := 0 <= n < 2 ^ 48.
Definition printable (l : pp_line) : Prop :=
  match l with
  | LStamp k pid kind time v =>
      small pid /\ 0 <= v < 300 * 2 ^ 33 /\ (k = SPcr -> kind = None) /\ (forall t, time = Some t -> era t)
  | LPat version pid => small version /\ small pid
  | LPatEntry sid pid => small sid /\ small pid
  | LCat version => small version
  | LPmt sid pcr_pid version => small sid /\ small pcr_pid /\ small version
  | LStream pid _ type => small pid /\ small type
  | LEit sid version => small sid /\ small version
  | LEvent index id start stop minutes => small index /\ small id /\ era start /\ era stop /\ small minutes
  | LTot t => era t
  end.

(** The fields of tables are as wide as the standards say, or at least not
    wider than 16 bits. *)
Definition word (n : Z) : Prop := 0 <= n < 2 ^ 16.
Definition narrow (p : packet) : Prop :=
  word (p_pid p) /\
  forall x, In x (p_tabs p 0) ->
  match tb_body x with
  | TPat (Some t) => word (pat_version t) /\ forall sid pid, In (sid, pid) (pat_entries t) -> word sid /\ word pid
  | TCat (Some t) => word (cat_version t)
  | TPmt (Some m) => word (pmt_sid m) /\ word (pmt_version m) /\ word (pmt_pcr_pid m) /\
      forall pid v, In (pid, v) (pmt_entries m) -> word pid /\ word (es_type v)
  | TEit (Some e) => word (eit_sid e) /\ word (eit_version e) /\ word (Z.of_nat (List.length (eit_events e))) /\
      forall v, In v (eit_events e) -> word (ev_id v)
  | _ => True
  end.
