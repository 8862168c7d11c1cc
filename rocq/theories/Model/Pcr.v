(** PCR and time arithmetic: /repo/src/tsduck_helper.hh:19-80. *)
From Coq Require Import ZArith List Bool Ascii String.
From Verif Require Import Base.Outcome Base.Util.
Import ListNotations.
Open Scope Z_scope.

(** tsduck_helper.hh:21 kMaxPcrExt *)
Definition kMaxPcrExt : Z := 300.
(** tsduck_helper.hh:22 kMaxPcr *)
Definition kMaxPcr : Z := (Z.shiftl 1 33 - 1) * kMaxPcrExt + (kMaxPcrExt - 1).
(** tsduck_helper.hh:24 kPcrUpperBound *)
Definition kPcrUpperBound : Z := kMaxPcr + 1.
(** tsduck_helper.hh:25 kPcrTicksPerSec *)
Definition kPcrTicksPerSec : Z := 27 * 1000 * 1000.
(** ts::MilliSecPerSec, ts::MilliSecPerHour (TSDuck constants) *)
Definition MilliSecPerSec : Z := 1000.
Definition MilliSecPerHour : Z := 3600 * 1000.
(** tsduck_helper.hh:26 kPcrTicksPerMs *)
Definition kPcrTicksPerMs : Z := kPcrTicksPerSec / MilliSecPerSec.
(** tsduck_helper.hh:19 kJstTzOffset *)
Definition kJstTzOffset : Z := 9 * MilliSecPerHour.

(** ts::Time is modelled as a number of milliseconds since 1858-11-17, day 0 of the
    Modified Julian Date, and ts::Time::UnixEpoch is day 40587 of that count.  The
    code only adds, subtracts and compares times, so that the origin is a matter of
    choice.  A default constructed ts::Time is ts::Time::Epoch, whose date depends on
    the platform (1970-01-01 on Linux); no such value is ever looked at before it is
    assigned, except that two of them are compared with each other, and the model
    writes 0 for it. *)
Definition UnixEpoch : Z := 40587 * 86400 * 1000.

(** tsduck_helper.hh:28-30 ConvertUnixTimeToJstTime *)
Definition ConvertUnixTimeToJstTime (unix_time_ms : Z) : res Z :=
  let* s := i64 (kJstTzOffset + unix_time_ms) in
  i64 (UnixEpoch + s).

(** tsduck_helper.hh:32-34 ConvertJstTimeToUnixTime *)
Definition ConvertJstTimeToUnixTime (jst_time : Z) : res Z :=
  let* d := i64 (jst_time - UnixEpoch) in
  i64 (d - kJstTzOffset).

(** tsduck_helper.hh:54-56 IsValidPcr *)
Definition IsValidPcr (pcr : Z) : bool := (0 <=? pcr) && (pcr <=? kMaxPcr).

(** tsduck_helper.hh:70-80 ComparePcr.  The operands are valid PCRs, so no
    64-bit overflow is possible and the arithmetic is left unbounded. *)
Definition ComparePcr (lhs rhs : Z) : res Z :=
  assert (IsValidPcr lhs) (
  assert (IsValidPcr rhs) (
  let a := lhs - rhs in
  let b := lhs - (kPcrUpperBound + rhs) in
  if Z.abs a <? Z.abs b then Ok a else Ok b)).

(** Decimal digits of [n >= 0], least significant first; [fuel] bounds the
    number of digits (20 suffices for every 64-bit value). *)
Fixpoint dec_digits (fuel : nat) (n : Z) : list Z :=
  match fuel with
  | O => []
  | S f => if n <? 10 then [n] else (n mod 10) :: dec_digits f (n / 10)
  end.

Definition digit_char (d : Z) : ascii := ascii_of_nat (48 + Z.to_nat d).

Fixpoint string_of_rev (ds : list Z) (acc : string) : string :=
  match ds with
  | [] => acc
  | d :: r => string_of_rev r (String (digit_char d) acc)
  end.

(** fmt's "{:0Wd}" for a non-negative value: decimal digits, padded on the left
    with zeros to at least [w] characters. *)
Definition fmt_dec (w : nat) (n : Z) : string :=
  let ds := dec_digits 20 n in
  string_of_rev (ds ++ repeat 0 (w - List.length ds)) EmptyString.

(** tsduck_helper.hh:58-64 FormatPcr *)
Definition FormatPcr (pcr : Z) : res string :=
  assert (IsValidPcr pcr) (
  let base := Z.quot pcr kMaxPcrExt in
  let ext := Z.rem pcr kMaxPcrExt in
  Ok (fmt_dec 10 base ++ "+" ++ fmt_dec 3 ext)%string).
