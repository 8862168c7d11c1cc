(** collect-logos: /repo/src/logo_collector.hh.  The logo downloader itself is
    LibISDB, which is not in the checkout: a logo is what LibISDB hands to
    OnLogoDownloaded. *)
From Coq Require Import ZArith List Bool.
From Verif Require Import Base.Outcome Base.Util Model.Sink.
Import ListNotations.
Open Scope Z_scope.

(** logo_collector.hh:34-80 kChunks *)
Definition kChunks : list Z :=
  [
    0x00; 0x00; 0x01; 0x83; 0x50; 0x4c; 0x54; 0x45; 0x00; 0x00; 0x00; 0xff; 0x00; 0x00; 0x00; 0xff; 0x00; 0xff;
    0xff; 0x00; 0x00; 0x00; 0xff; 0xff; 0x00; 0xff; 0x00; 0xff; 0xff; 0xff; 0xff; 0xff; 0x00; 0x00; 0x00; 0xaa;
    0x00; 0x00; 0x00; 0xaa; 0x00; 0xaa; 0xaa; 0x00; 0x00; 0x00; 0xaa; 0xaa; 0x00; 0xaa; 0x00; 0xaa; 0xaa; 0xaa;
    0xaa; 0xaa; 0x00; 0x00; 0x55; 0x00; 0x55; 0x00; 0x00; 0x55; 0x55; 0x00; 0x55; 0xaa; 0x00; 0x55; 0xff; 0x00;
    0xaa; 0x55; 0x00; 0xaa; 0xff; 0x00; 0xff; 0x55; 0x00; 0xff; 0xaa; 0x55; 0x00; 0x00; 0x55; 0x00; 0x55; 0x55;
    0x00; 0xaa; 0x55; 0x00; 0xff; 0x55; 0x55; 0x00; 0x55; 0x55; 0x55; 0x55; 0x55; 0xaa; 0x55; 0x55; 0xff; 0x55;
    0xaa; 0x00; 0x55; 0xaa; 0x55; 0x55; 0xaa; 0xaa; 0x55; 0xaa; 0xff; 0x55; 0xff; 0x00; 0x55; 0xff; 0x55; 0x55;
    0xff; 0xaa; 0x55; 0xff; 0xff; 0xaa; 0x00; 0x55; 0xaa; 0x00; 0xff; 0xaa; 0x55; 0x00; 0xaa; 0x55; 0x55; 0xaa;
    0x55; 0xaa; 0xaa; 0x55; 0xff; 0xaa; 0xaa; 0x55; 0xaa; 0xaa; 0xff; 0xaa; 0xff; 0x00; 0xaa; 0xff; 0x55; 0xaa;
    0xff; 0xaa; 0xaa; 0xff; 0xff; 0xff; 0x00; 0x55; 0xff; 0x00; 0xff; 0xff; 0x55; 0x00; 0xff; 0x55; 0x55; 0xff;
    0x55; 0xaa; 0xff; 0x55; 0xff; 0xff; 0xaa; 0x00; 0xff; 0xaa; 0x55; 0xff; 0xaa; 0xaa; 0xff; 0xaa; 0xff; 0xff;
    0xff; 0x55; 0xff; 0xff; 0xff; 0x00; 0x00; 0x00; 0xff; 0x00; 0x00; 0x00; 0xff; 0x00; 0xff; 0xff; 0x00; 0x00;
    0x00; 0xff; 0xff; 0x00; 0xff; 0x00; 0xff; 0xff; 0xff; 0xff; 0xff; 0xaa; 0x00; 0x00; 0x00; 0xaa; 0x00; 0xaa;
    0xaa; 0x00; 0x00; 0x00; 0xaa; 0xaa; 0x00; 0xaa; 0x00; 0xaa; 0xaa; 0xaa; 0xaa; 0xaa; 0x00; 0x00; 0x55; 0x00;
    0x55; 0x00; 0x00; 0x55; 0x55; 0x00; 0x55; 0xaa; 0x00; 0x55; 0xff; 0x00; 0xaa; 0x55; 0x00; 0xaa; 0xff; 0x00;
    0xff; 0x55; 0x00; 0xff; 0xaa; 0x55; 0x00; 0x00; 0x55; 0x00; 0x55; 0x55; 0x00; 0xaa; 0x55; 0x00; 0xff; 0x55;
    0x55; 0x00; 0x55; 0x55; 0x55; 0x55; 0x55; 0xaa; 0x55; 0x55; 0xff; 0x55; 0xaa; 0x00; 0x55; 0xaa; 0x55; 0x55;
    0xaa; 0xaa; 0x55; 0xaa; 0xff; 0x55; 0xff; 0x00; 0x55; 0xff; 0x55; 0x55; 0xff; 0xaa; 0x55; 0xff; 0xff; 0xaa;
    0x00; 0x55; 0xaa; 0x00; 0xff; 0xaa; 0x55; 0x00; 0xaa; 0x55; 0x55; 0xaa; 0x55; 0xaa; 0xaa; 0x55; 0xff; 0xaa;
    0xaa; 0x55; 0xaa; 0xaa; 0xff; 0xaa; 0xff; 0x00; 0xaa; 0xff; 0x55; 0xaa; 0xff; 0xaa; 0xaa; 0xff; 0xff; 0xff;
    0x00; 0x55; 0xff; 0x00; 0xff; 0xff; 0x55; 0x00; 0xff; 0x55; 0x55; 0xff; 0x55; 0xaa; 0xff; 0x55; 0xff; 0xff;
    0xaa; 0x00; 0xff; 0xaa; 0x55; 0xff; 0xaa; 0xaa; 0xff; 0xaa; 0xff; 0xff; 0xff; 0x55; 0xff; 0xff; 0xff; 0x06;
    0xdd; 0x27; 0x7b; 0x00; 0x00; 0x00; 0x81; 0x74; 0x52; 0x4e; 0x53; 0xff; 0xff; 0xff; 0xff; 0xff; 0xff; 0xff;
    0xff; 0x00; 0xff; 0xff; 0xff; 0xff; 0xff; 0xff; 0xff; 0xff; 0xff; 0xff; 0xff; 0xff; 0xff; 0xff; 0xff; 0xff;
    0xff; 0xff; 0xff; 0xff; 0xff; 0xff; 0xff; 0xff; 0xff; 0xff; 0xff; 0xff; 0xff; 0xff; 0xff; 0xff; 0xff; 0xff;
    0xff; 0xff; 0xff; 0xff; 0xff; 0xff; 0xff; 0xff; 0xff; 0xff; 0xff; 0xff; 0xff; 0xff; 0xff; 0xff; 0xff; 0xff;
    0xff; 0xff; 0xff; 0xff; 0x80; 0x80; 0x80; 0x80; 0x80; 0x80; 0x80; 0x80; 0x80; 0x80; 0x80; 0x80; 0x80; 0x80;
    0x80; 0x80; 0x80; 0x80; 0x80; 0x80; 0x80; 0x80; 0x80; 0x80; 0x80; 0x80; 0x80; 0x80; 0x80; 0x80; 0x80; 0x80;
    0x80; 0x80; 0x80; 0x80; 0x80; 0x80; 0x80; 0x80; 0x80; 0x80; 0x80; 0x80; 0x80; 0x80; 0x80; 0x80; 0x80; 0x80;
    0x80; 0x80; 0x80; 0x80; 0x80; 0x80; 0x80; 0x80; 0x80; 0x80; 0x80; 0x80; 0x80; 0x80; 0x7b; 0x70; 0xf7; 0x6f].

(** logo_collector.hh:83 *)
Definition kIdatOffset : Z := 33.

(** logo_collector.hh:26-99 InsertPngChunks *)
Definition InsertPngChunks (data : list Z) : res (list Z) :=
  assert (kIdatOffset <? zlen data)
    (Ok (ztake kIdatOffset data ++ kChunks ++ zdrop kIdatOffset data)).

(** cppcodec::base64_rfc4648::encode, which is not in /repo: the Base 64 of
    RFC 4648, section 4, with padding. *)
Definition b64_char (v : Z) : Z :=
  if v <? 26 then 65 + v else if v <? 52 then 71 + v else if v <? 62 then v - 4 else if v =? 62 then 43 else 47.
Fixpoint b64_encode (l : list Z) : list Z :=
  match l with
  | [] => []
  | [a] => [b64_char (a / 4); b64_char (a mod 4 * 16); 61; 61]
  | [a; b] => [b64_char (a / 4); b64_char (a mod 4 * 16 + b / 16); b64_char (b mod 16 * 4); 61]
  | a :: b :: c :: r =>
      b64_char (a / 4) :: b64_char (a mod 4 * 16 + b / 16) :: b64_char (b mod 16 * 4 + c / 64) :: b64_char (c mod 64) :: b64_encode r
  end.

(** logo_collector.hh:101-105 MakeBase64Png; the text before the data is
    "data:image/png;base64,". *)
Definition kDataUrl : list Z :=
  [100; 97; 116; 97; 58; 105; 109; 97; 103; 101; 47; 112; 110; 103; 59; 98; 97; 115; 101; 54; 52; 44].
Definition MakeBase64Png (data : list Z) : res (list Z) :=
  let* png := InsertPngChunks data in Ok (kDataUrl ++ b64_encode png).

(** LibISDB::LogoDownloaderFilter::LogoData; a service is (nid, tsid, sid). *)
Record logo := mkLogo {
  lg_type : Z;
  lg_id : Z;
  lg_version : Z;
  lg_nid : Z;
  lg_data : list Z;
  lg_services : list (Z * Z * Z) }.

(** logo_collector.hh:223-248 MakeJsonValue; [ld_services = None] when the member
    is left out. *)
Record logo_doc := mkLogoDoc {
  ld_type : Z;
  ld_id : Z;
  ld_version : Z;
  ld_data : list Z;
  ld_nid : Z;
  ld_services : option (list (Z * Z * Z)) }.

Definition lg_MakeJsonValue (l : logo) : res logo_doc :=
  let* data := MakeBase64Png (lg_data l) in
  Ok (mkLogoDoc (lg_type l) (lg_id l) (lg_version l) data (lg_nid l)
        (match lg_services l with [] => None | s => Some s end)).

(** logo_collector.hh:202-221 OnLogoDownloaded; the state is the list of
    documents written so far. *)
Definition OnLogoDownloaded (out : list logo_doc) (l : logo) : res (list logo_doc) :=
  if zlen (lg_data l) <=? 93 then Ok out
  else let* doc := lg_MakeJsonValue l in Ok (out ++ [doc]).

Fixpoint lg_run (out : list logo_doc) (ls : list logo) : res (list logo_doc) :=
  match ls with
  | [] => Ok out
  | l :: r => let* out1 := OnLogoDownloaded out l in lg_run out1 r
  end.

Section Collector.
(** LibISDB's engine is not in /repo.  [engine before packet]: the logos it
    reports (by calling OnLogoDownloaded) while it takes the bytes of a packet,
    given those it took before (newest first), and what OutputData returns;
    [closing before]: those it reports while it is closed. *)
Variable engine : list (list Z) -> list Z -> list logo * bool.
Variable closing : list (list Z) -> list logo.

(** logo_collector.hh:251, the bytes the engine was given, newest first, and
    the documents written.  [lc_bridge]: source_bridge_ is not null. *)
Record lc_state := mkLc {
  lc_bridge : bool;
  lc_seen : list (list Z);
  lc_out : list logo_doc }.
Definition lc_init : lc_state := mkLc false [] [].

(** logo_collector.hh:182-190 Start *)
Definition lc_Start (s : lc_state) : res (lc_state * bool) := Ok (mkLc true (lc_seen s) (lc_out s), true).
(** logo_collector.hh:192-195 End *)
Definition lc_End (s : lc_state) : res lc_state :=
  let* out := lg_run (lc_out s) (closing (lc_seen s)) in Ok (mkLc false (lc_seen s) out).
(** logo_collector.hh:197-199 HandlePacket with 138-141: a null pointer is
    undefined behaviour. *)
Definition lc_HandlePacket (s : lc_state) (b : list Z) : res (lc_state * bool) :=
  if lc_bridge s then
    let (ls, ok) := engine (lc_seen s) b in
    let* out := lg_run (lc_out s) ls in
    Ok (mkLc true (b :: lc_seen s) out, ok)
  else Fail Undefined.

(** GetExitCode is the default (packet_sink.hh:24-26). *)
Definition lc_sink : sink (list Z) := mkSink lc_state lc_Start lc_HandlePacket lc_End (fun _ => Ok EXIT_SUCCESS).
End Collector.
