(** C84: the text of the documents.  C85: the documents of the help texts. *)
From Coq Require Import ZArith Ascii String List Bool Lia.
From Verif Require Import Base.Outcome Base.Util Model.Ts Model.Sink Model.FileSource Model.Descriptors Model.EitSection Model.ServiceScanner
  Model.PcrSynchronizer Model.AirtimeTracker Model.MetadataFilter Model.ServiceRecorder Model.Logo Model.JsonText Model.Documents
  Spec.JsonSpec Spec.DocSpec Spec.DescriptorSpec Spec.DocumentsSpec Proofs.JsonTextProofs Proofs.DocumentsProofs Props.ScanProps.
Import ListNotations.
Open Scope string_scope.
Open Scope Z_scope.

(** Reading the text of a document as JSON gives the value of the document,
    whatever bytes its strings hold. *)
Theorem C84_document : forall decode j, read_json (write decode j) = Some (meaning decode j).
Proof. exact read_write. Qed.
Print Assumptions C84_document.

(** Reading the output line by line gives the documents, one for each line. *)
Theorem C84_lines : forall decode docs, read_jsonl (jsonl decode docs) = Some (map (meaning decode) docs).
Proof. exact jsonl_read. Qed.
Print Assumptions C84_lines.

Definition no_text (_ : list Z) : string := "".
Definition quoted : string := String "a" (String """" (String "\" (String (ascii_of_nat 10) (String (ascii_of_nat 1) (String (ascii_of_nat 227) "/"))))).
Example C84_case :
  jsonl (fun _ => quoted) [JObject [("x", JArray [JNum (-5); JNum 0; JNum 18446744073709551615; JNull; JBool true]); ("y", JText [1])]; JArray []] =
    "{""x"":[-5,0,18446744073709551615,null,true],""y"":""a\""\\\n\u0001" ++ String (ascii_of_nat 227) "/""}" ++ String (ascii_of_nat 10) "[]" ++
    String (ascii_of_nat 10) "" /\
  read_jsonl (jsonl (fun _ => quoted) [JObject [("x", JArray [JNum (-5); JNum 0; JNum 18446744073709551615; JNull; JBool true]); ("y", JText [1])]; JArray []]) =
    Some [VObj [("x", VArr [VNum (-5); VNum 0; VNum 18446744073709551615; VNull; VBool true]); ("y", VStr quoted)]; VArr []].
Proof. split; vm_compute; reflexivity. Qed.

(** The reader takes texts laid out differently, and no others than JSON texts. *)
Example C84_reader :
  read_json " { ""a"" : [ 1 , -20,""A\/"" ] , ""b"":{ } } " = Some (VObj [("a", VArr [VNum 1; VNum (-20); VStr "A/"]); ("b", VObj [])]) /\
  map read_json [""; "1 2"; "[1,]"; "[1"; "{""a"":1,}"; "{a:1}"; """a"; "01"; "nul"; "-"; "{""a"" 1}"; """\x""";
                 String """" (String (ascii_of_nat 10) """")] = repeat None 13.
Proof. split; vm_compute; reflexivity. Qed.

(** ** The formats *)
Theorem C85_scan_services : forall decode name out,
  lines_of (array_of (service_object name)) out (jsonl decode (map (services_json name) out)).
Proof.
  intros. apply lines. apply all. intros ds. split; [|apply once_arr_map; intros; apply service_ok].
  apply every. intros; apply service_ok.
Qed.
Print Assumptions C85_scan_services.

Theorem C85_sync_clocks : forall decode out, lines_of (array_of clock_object) out (jsonl decode (map clocks_json out)).
Proof.
  intros. apply lines. apply all. intros ds. split; [|apply once_arr_map; intros; apply clock_ok].
  apply every. intros; apply clock_ok.
Qed.
Print Assumptions C85_sync_clocks.

Theorem C85_track_airtime : forall decode out, lines_of airtime_object out (jsonl decode (map airtime_json out)).
Proof. intros. apply lines. apply all. intros; apply airtime_ok. Qed.
Print Assumptions C85_track_airtime.

(** collect-eits and collect-eitpf *)
Theorem C85_collect_eits : forall decode pr block out,
  lines_of (eit_object decode pr block) out (jsonl decode (map (eit_json pr block) out)).
Proof. intros. apply lines. apply all. intros; apply eit_ok. Qed.
Print Assumptions C85_collect_eits.

Theorem C85_filter_program_metadata : forall decode parts pr out,
  lines_of (meta_object decode parts pr) out (jsonl decode (map (meta_json parts pr) out)).
Proof. intros. apply lines. apply all. intros; apply meta_ok. Qed.
Print Assumptions C85_filter_program_metadata.

Theorem C85_collect_logos : forall decode out, Forall (fun d => Forall (fun b => 0 <= b < 256) (ld_data d)) out ->
  lines_of logo_object out (jsonl decode (map logo_json out)).
Proof.
  intros decode out H. apply lines. eapply Forall_impl; [|exact H]. intros d B. apply logo_ok. exact B.
Qed.
Print Assumptions C85_collect_logos.

(** record-service; missing: the type of the last message. *)
Theorem C85_record_service_partial : forall decode parts pr ms, Forall placed ms -> Forall timely ms ->
  exists js, messages_json parts pr ms = Ok js /\ lines_of (message_object decode parts pr "stop") ms (jsonl decode js).
Proof.
  intros decode parts pr ms P T. destruct (messages_ok decode parts pr ms P T) as (js & E & O & U). exists js. split; [exact E|].
  exists (map (meaning decode) js). split; [apply jsonl_read|]. split; assumption.
Qed.
Print Assumptions C85_record_service_partial.

(** The documented type of the last message, end, never occurs. *)
Theorem C85_end_refuted : forall decode parts pr ms js vs,
  messages_json parts pr ms = Ok js -> read_jsonl (jsonl decode js) = Some vs -> Forall (fun v => ~ typed "end" v) vs.
Proof. exact messages_no_end. Qed.
Print Assumptions C85_end_refuted.

(** The types of services that the help of scan-services and sync-clocks lists
    (main.cc:143-151, 208-216). *)
Definition documented_type (t : Z) : Prop := In t [0x01; 0x02; 0xA1; 0xA2; 0xA5; 0xA6].
Definition super_hd : list packet :=
  [ tab_packet 0 [TPat (Some (mkPat 7 0 [(1, 0x101)]))];
    tab_packet 0x11 [TSdt (Some (mkSdt 7 8 [(1, mkService 0xAD 11 None)]))];
    tab_packet 0x10 [TNit (Some (mkNit [(7, 8, Some 2)]))] ].
Theorem C85_types_refuted : exists ps s doc d,
  FeedPackets (list_source packet) (sc_sink (mkScOption [] [])) (S (List.length ps)) ps sc_init = Some (Ok (0, s)) /\
  sc_out s = [doc] /\ In d doc /\ ~ documented_type (sd_type d).
Proof.
  exists super_hd. eexists. eexists. eexists. split; [vm_compute; reflexivity|]. split; [reflexivity|]. split; [left; reflexivity|].
  vm_compute. intuition discriminate.
Qed.
Print Assumptions C85_types_refuted.

(** The help of scan-services says that logoId is always -1. *)
Theorem C85_logo_id_refuted : exists ps s doc d,
  FeedPackets (list_source packet) (sc_sink (mkScOption [] [])) (S (List.length ps)) ps sc_init = Some (Ok (0, s)) /\
  sc_out s = [doc] /\ In d doc /\ sd_logo d <> -1.
Proof.
  exists sc_case. eexists. eexists. eexists. split; [vm_compute; reflexivity|]. split; [reflexivity|]. split; [left; reflexivity|].
  vm_compute. discriminate.
Qed.
Print Assumptions C85_logo_id_refuted.

(** The samples of the help texts (without layout). *)
Example C85_scan_case : jsonl no_text (map (services_json (fun _ => "NHK")) [[mkServiceDoc 32736 32736 1024 0 1 0 (Some 1)]]) =
  "[{""nid"":32736,""tsid"":32736,""sid"":1024,""name"":""NHK"",""type"":1,""logoId"":0,""remoteControlKeyId"":1}]" ++ String (ascii_of_nat 10) "".
Proof. vm_compute. reflexivity. Qed.
Example C85_sync_case : jsonl no_text (map clocks_json [[mkClockDoc 32736 32736 1024 511 744077003262 1576398518000]]) =
  "[{""nid"":32736,""tsid"":32736,""sid"":1024,""clock"":{""pid"":511,""pcr"":744077003262,""time"":1576398518000}}]" ++ String (ascii_of_nat 10) "".
Proof. vm_compute. reflexivity. Qed.
Example C85_airtime_case : jsonl no_text (map airtime_json [mkAirtimeDoc 32736 32736 1024 31887 1581596400000 1500000]) =
  "{""nid"":32736,""tsid"":32736,""sid"":1024,""eid"":31887,""startTime"":1581596400000,""duration"":1500000}" ++ String (ascii_of_nat 10) "".
Proof. vm_compute. reflexivity. Qed.
Example C85_eits_case : write no_text (eit_json (mkParsers (fun _ => None) (fun _ => None) (fun _ => Some [(0, 1, 15, 15)]) (fun _ => None) (fun _ => None) (fun _ => None))
    (fun _ => ([[0x54; 2; 1; 255]], None)) (mkEitDoc 32736 32736 1024 80 144 248 144 6 [mkEvent 12250 (Some 1570917180000) None false [0x54; 2; 1; 255]])) =
  "{""originalNetworkId"":32736,""transportStreamId"":32736,""serviceId"":1024,""tableId"":80,""sectionNumber"":144,""lastSectionNumber"":248," ++
  """segmentLastSectionNumber"":144,""versionNumber"":6,""events"":[{""eventId"":12250,""startTime"":1570917180000,""duration"":null," ++
  """scrambled"":false,""descriptors"":[{""$type"":""Content"",""nibbles"":[[0,1,15,15]]}]}]}".
Proof. vm_compute. reflexivity. Qed.
Example C85_meta_case : write no_text (meta_json (fun _ => (true, [])) (mkParsers (fun _ => None) (fun _ => None) (fun _ => None) (fun _ => None) (fun _ => None) (fun _ => None))
    (mkMetaDoc 1 2 3 [mkMetaEvent 4 5 6 7])) =
  "{""nid"":1,""tsid"":2,""sid"":3,""events"":[{""eventId"":4,""startTime"":5,""duration"":6,""scrambled"":true,""descriptors"":[]}]}".
Proof. vm_compute. reflexivity. Qed.
Definition some_logo : logo_doc := mkLogoDoc 0 132 0 [100; 97; 116; 97; 58] 4 (Some [(4, 18258, 234)]).
Example C85_logo_case : Forall (fun d => Forall (fun b => 0 <= b < 256) (ld_data d)) [some_logo] /\
  write no_text (logo_json some_logo) =
  "{""type"":0,""id"":132,""version"":0,""data"":""data:"",""nid"":4,""services"":[{""nid"":4,""tsid"":18258,""sid"":234}]}".
Proof. split; [|vm_compute; reflexivity]. constructor; [|constructor]. cbn [some_logo ld_data]. repeat (constructor; [lia|]). constructor. Qed.
Definition some_messages : list message :=
  [MStart; MChunk 1577836800000 0; MEvent KStart 1 2 3 (Ts.mkEvent 4 5084553600000 60 7) 1577836800000 8192; MStop false].
Example C85_messages_case : Forall placed some_messages /\ Forall timely some_messages /\
  exists js, messages_json (fun _ => (false, [])) (mkParsers (fun _ => None) (fun _ => None) (fun _ => None) (fun _ => None) (fun _ => None) (fun _ => None)) some_messages = Ok js /\
  map (write no_text) js =
  ["{""type"":""start""}";
   "{""type"":""chunk"",""data"":{""chunk"":{""timestamp"":1577836800000,""pos"":0}}}";
   "{""type"":""event-start"",""data"":{""originalNetworkId"":1,""transportStreamId"":2,""serviceId"":3,""event"":{""eventId"":4,""startTime"":1577804400000,""duration"":60000,""scrambled"":false,""descriptors"":[]},""record"":{""timestamp"":1577836800000,""pos"":8192}}}";
   "{""type"":""stop"",""data"":{""reset"":false}}"].
Proof.
  split; [repeat (constructor; [cbn; lia || exact I|]); constructor|]. split; [repeat (constructor; [cbn; lia || exact I|]); constructor|].
  eexists. split; [vm_compute; reflexivity|]. vm_compute. reflexivity.
Qed.
