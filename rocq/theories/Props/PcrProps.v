(** C01, C02, C03, C55: PCR and time arithmetic. *)
From Coq Require Import ZArith Lia List Bool Ascii String.
From Verif Require Import Base.Outcome Base.Util Model.Pcr Model.Clock Spec.PcrSpec Proofs.PcrProofs Proofs.PcrText.
Import ListNotations.
Open Scope Z_scope.

(** C01 in full would be: for close instants, [ComparePcr (pcr_at t1) (pcr_at t2)]
    has the sign of [t1 - t2].  It is false: the later instant may just have
    wrapped, and then it is reported as (much) earlier. *)
Theorem C01_compare_order_refuted : exists t1 t2 d,
  close t1 t2 /\ t2 < t1 /\ ComparePcr (pcr_at t1) (pcr_at t2) = Ok d /\ d < 0.
Proof. exists 2576980377601, 2576980377599, (2 - 2 * 2576980377600 + 2576980377600). vm_compute. auto. Qed.
Print Assumptions C01_compare_order_refuted.

(** What holds, with the exact set of exceptions: the result is the real
    difference unless the left operand is the later one and has wrapped while
    the right one has not. *)
Theorem C01_compare_order_partial : forall t1 t2, close t1 t2 ->
  ComparePcr (pcr_at t1) (pcr_at t2) =
    Ok (if (t2 <? t1) && (pcr_at t1 <? pcr_at t2) then t1 - t2 - pcr_cycle else t1 - t2).
Proof. exact compare_close. Qed.
Print Assumptions C01_compare_order_partial.

(** Same, for the other wrap: the earlier operand on the left. *)
Example C01_case : close 2576980377599 2576980377601 /\
  ComparePcr (pcr_at 2576980377599) (pcr_at 2576980377601) = Ok (-2).
Proof. split; vm_compute; reflexivity. Qed.

(** C02: the two conversions are inverse wherever they are defined, and are the
    constant shift from the Unix epoch (day 40587) plus nine hours. *)
Theorem C02_unix_jst_inverse : forall u j, int64_min <= u <= int64_max ->
  ConvertUnixTimeToJstTime u = Ok j -> ConvertJstTimeToUnixTime j = Ok u.
Proof. exact unix_jst_roundtrip. Qed.
Print Assumptions C02_unix_jst_inverse.

Theorem C02_jst_unix_inverse : forall j u, int64_min <= j <= int64_max ->
  ConvertJstTimeToUnixTime j = Ok u -> ConvertUnixTimeToJstTime u = Ok j.
Proof. exact jst_unix_roundtrip. Qed.
Print Assumptions C02_jst_unix_inverse.

Theorem C02_unix_jst_shift : forall u, - 2 ^ 62 <= u <= 2 ^ 62 ->
  ConvertUnixTimeToJstTime u = Ok (40587 * 86400000 + 9 * 3600000 + u).
Proof. exact unix_jst_value. Qed.
Print Assumptions C02_unix_jst_shift.

Theorem C02_jst_unix_shift : forall j, - 2 ^ 62 <= j <= 2 ^ 62 ->
  ConvertJstTimeToUnixTime j = Ok (j - 40587 * 86400000 - 9 * 3600000).
Proof. exact jst_unix_value. Qed.
Print Assumptions C02_jst_unix_shift.

Example C02_case : exists j, ConvertUnixTimeToJstTime 1600000000123 = Ok j /\
  ConvertJstTimeToUnixTime j = Ok 1600000000123.
Proof. exists 5106749200123. split; vm_compute; reflexivity. Qed.

(** C03: exact modulo the cycle; undefined only beyond about 10,800 years. *)
Theorem C03_time_to_pcr : forall b time,
  bl_IsReady b = true -> IsValidPcr (bl_pcr b) = true ->
  27000 * Z.abs (time - bl_time b) <= 2 ^ 63 - pcr_cycle ->
  bl_TimeToPcr b time = Ok ((bl_pcr b + ticks_per_ms * (time - bl_time b)) mod pcr_cycle).
Proof. exact TimeToPcr_ok. Qed.
Print Assumptions C03_time_to_pcr.

Theorem C03_time_to_pcr_overflow : forall b time,
  bl_IsReady b = true -> 2 ^ 63 < 27000 * Z.abs (time - bl_time b) ->
  bl_TimeToPcr b time = Fail Undefined.
Proof. exact TimeToPcr_overflow. Qed.
Print Assumptions C03_time_to_pcr_overflow.

Example C03_case :
  bl_TimeToPcr (mkBaseline 1000000000 5 0x100 true true) (1000000000 - 200000000) =
    Ok (pcr_at (5 - 27000 * 200000000)).
Proof. vm_compute. reflexivity. Qed.

(** C55: fixed width, determines the PCR, and textual order is PCR order. *)
Theorem C55_pcr_text : forall p, 0 <= p < pcr_cycle ->
  exists b e, FormatPcr p = Ok (b ++ "+" ++ e)%string
    /\ String.length b = 10%nat /\ String.length e = 3%nat /\ all_digits b /\ all_digits e
    /\ p = 300 * read_dec b + read_dec e /\ read_dec e < 300.
Proof. exact FormatPcr_shape. Qed.
Print Assumptions C55_pcr_text.

Theorem C55_pcr_text_order : forall p q, 0 <= p < pcr_cycle -> 0 <= q < pcr_cycle ->
  exists s t, FormatPcr p = Ok s /\ FormatPcr q = Ok t /\ String.compare s t = Z.compare p q.
Proof. exact FormatPcr_order. Qed.
Print Assumptions C55_pcr_text_order.

Theorem C55_pcr_text_invalid : forall p, ~ (0 <= p < pcr_cycle) -> FormatPcr p = Fail AssertFail.
Proof. exact FormatPcr_invalid. Qed.
Print Assumptions C55_pcr_text_invalid.

Example C55_case : FormatPcr 2576980377599 = Ok "8589934591+299"%string.
Proof. vm_compute. reflexivity. Qed.
