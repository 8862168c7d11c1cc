(** The text print-pes writes: /repo/src/pes_printer.hh, the calls of fmt::print
    and fmt::format.  [show] is the text of a ts::Time (tsduck_helper.hh:640-641:
    TSDuck's operator<<). *)
From Coq Require Import ZArith List Bool Ascii String.
From Verif Require Import Base.Outcome Base.Util Model.Pcr Model.PesPrinter.
Import ListNotations.
Open Scope string_scope.
Open Scope Z_scope.

(** fmt's "{:0WX}" for a non-negative value: hexadecimal digits, padded on the
    left with zeros to at least [w] characters; [fuel] as in [dec_digits]. *)
Fixpoint hex_digits (fuel : nat) (n : Z) : list Z :=
  match fuel with
  | O => []
  | S f => if n <? 16 then [n] else (n mod 16) :: hex_digits f (n / 16)
  end.
Definition hex_char (d : Z) : ascii := ascii_of_nat (if d <? 10 then 48 + Z.to_nat d else 55 + Z.to_nat d).
Fixpoint hex_of_rev (ds : list Z) (acc : string) : string :=
  match ds with
  | [] => acc
  | d :: r => hex_of_rev r (String (hex_char d) acc)
  end.
Definition fmt_hex (w : nat) (n : Z) : string :=
  let ds := hex_digits 16 n in hex_of_rev (ds ++ repeat 0 (w - List.length ds))%list EmptyString.
(** "{}" *)
Definition fmt_int (n : Z) : string := fmt_dec 1 n.

(** pes_printer.hh:167-184 and 46-48, 56-58 *)
Definition label_text (k : label) : string :=
  match k with
  | KAudio => "Audio"
  | KVideo => "Video"
  | KSubtitle => "Subtitle"
  | KAribSubtitle => "ARIB-Subtitle"
  | KAribSuperimposedText => "ARIB-SuperimposedText"
  | KOther => "Other"
  end.
Definition stamp_label (kind : option label) : string :=
  match kind with Some k => label_text k | None => "PES" end.

Section Show.
Variable show : Z -> string.

(** The messages: pes_printer.hh:38, 46-48, 56-58, 116, 120, 133, 146, 158,
    168-184, 201, 205-207, 218.  The versions and stream types are of type uint8_t,
    which fmt prints as numbers. *)
Definition pp_message (l : pp_line) : string :=
  match l with
  | LStamp SPcr pid _ _ _ => "PCR#" ++ fmt_hex 4 pid
  | LStamp SPts pid kind _ _ => stamp_label kind ++ "#" ++ fmt_hex 4 pid ++ " PTS"
  | LStamp SDts pid kind _ _ => stamp_label kind ++ "#" ++ fmt_hex 4 pid ++ " DTS"
  | LPat version pid => "PAT: V#" ++ fmt_int version ++ " PID#" ++ fmt_hex 4 pid
  | LPatEntry sid pid => "  SID#" ++ fmt_hex 4 sid ++ " => PMT#" ++ fmt_hex 4 pid
  | LCat version => "CAT: V#" ++ fmt_int version
  | LPmt sid pcr_pid version => "PMT: SID#" ++ fmt_hex 4 sid ++ " PCR#" ++ fmt_hex 4 pcr_pid ++ " V#" ++ fmt_int version
  | LStream pid kind type => "  PES#" ++ fmt_hex 4 pid ++ " => " ++ label_text kind ++ "#" ++ fmt_hex 2 type
  | LEit sid version => "EIT p/f Actual: SID#" ++ fmt_hex 4 sid ++ " V#" ++ fmt_int version
  | LEvent index id start stop minutes =>
      "  Event[" ++ fmt_int index ++ "]: EID#" ++ fmt_hex 4 id ++ " " ++ show start ++ " - " ++ show stop ++ " (" ++ fmt_int minutes ++ "m)"
  | LTot _ => "TOT"
  end.

(** pes_printer.hh:66-68, 70-78 and 80-82: the three Print functions, with the
    line feed.  FormatPcr does not fail on the values printed (see C56). *)
Definition pp_pcr_text (pcr : Z) : string := match FormatPcr pcr with Ok t => t | Fail _ => "" end.
Definition newline : string := String (ascii_of_nat 10) EmptyString.
Definition pp_text (l : pp_line) : string :=
  match l with
  | LStamp _ _ _ (Some time) pcr => show time ++ "|" ++ pp_pcr_text pcr ++ "|" ++ pp_message l ++ newline
  | LStamp _ _ _ None pcr => "                       |" ++ pp_pcr_text pcr ++ "|" ++ pp_message l ++ newline
  | LTot time => show time ++ "|              |" ++ pp_message l ++ newline
  | _ => "                       |              |" ++ pp_message l ++ newline
  end.
Fixpoint pp_output (ls : list pp_line) : string :=
  match ls with
  | [] => ""
  | l :: r => pp_text l ++ pp_output r
  end.
End Show.
