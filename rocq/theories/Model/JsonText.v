(** The text of documents: /repo/src/jsonl_sink.hh, and rapidjson's Writer, which
    is not in the checkout.  Of rapidjson the model assumes what its documentation
    says of Writer with the default flags: no white space, no checks of UTF-8,
    and the escapes below. *)
From Coq Require Import ZArith Ascii String List Bool.
From Verif Require Import Base.Outcome Base.Util Model.Pcr Model.PesText Model.Descriptors.
Import ListNotations.
Open Scope string_scope.
Open Scope Z_scope.

(** Writer::Int, Uint, Int64 and Uint64; the model writes integers of any size.
    A number has at most as many decimal digits as it has bits. *)
Definition natural_text (n : Z) : string := string_of_rev (dec_digits (S (Z.to_nat (Z.log2 n))) n) "".
Definition number_text (n : Z) : string := if n <? 0 then "-" ++ natural_text (- n) else natural_text n.

(** Writer::WriteString: the quotation mark, the reverse solidus and the control
    characters are escaped; all other bytes are copied. *)
Definition escape (c : ascii) : string :=
  let n := Z.of_nat (nat_of_ascii c) in
  if n =? 34 then String "\" (String """" "")
  else if n =? 92 then "\\"
  else if n =? 8 then "\b"
  else if n =? 9 then "\t"
  else if n =? 10 then "\n"
  else if n =? 12 then "\f"
  else if n =? 13 then "\r"
  else if n <? 32 then "\u00" ++ fmt_hex 2 n
  else String c "".
Fixpoint escapes (s : string) : string :=
  match s with
  | EmptyString => ""
  | String c r => escape c ++ escapes r
  end.
Definition string_text (s : string) : string := """" ++ escapes s ++ """".

Section Decode.
(** tsduck_helper.hh:162-167 DecodeAribString: the UTF-8 text of an ARIB string. *)
Variable decode : list Z -> string.

(** Value::Accept.  String.concat puts the comma between the parts. *)
Fixpoint write (j : json) : string :=
  match j with
  | JNull => "null"
  | JBool b => if b then "true" else "false"
  | JNum n => number_text n
  | JWord s => string_text s
  | JText s => string_text (decode s)
  | JArray l => "[" ++ String.concat "," (map write l) ++ "]"
  | JObject l => "{" ++ String.concat "," (map (fun m => string_text (fst m) ++ ":" ++ write (snd m)) l) ++ "}"
  end.

(** jsonl_sink.hh:25-31 HandleDocument, once for each document; std::endl is a
    line feed.  All writes succeed. *)
Fixpoint jsonl (docs : list json) : string :=
  match docs with
  | [] => ""
  | d :: r => write d ++ newline ++ jsonl r
  end.
End Decode.
