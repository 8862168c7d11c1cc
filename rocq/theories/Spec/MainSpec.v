(** Command lines and how they end. *)
From Coq Require Import Ascii String ZArith List Bool.
From Verif Require Model.Logo.
From Verif Require Import Base.Outcome Base.Util Model.FileSource Model.RingFileSink Model.ServiceRecorder Model.Commands Model.Main
  Spec.SourceSpec Spec.OptionSpec Spec.FileSpec Spec.JsonSpec Spec.DocSpec Spec.DescriptorSpec Spec.DocumentsSpec.
Import ListNotations.
Open Scope Z_scope.

(** Values of the C types, and times that make sense. *)
Definition in_long (v : Z) : Prop := - 2 ^ 63 <= v < 2 ^ 63.
Definition given {A} (P : A -> Prop) (v : option A) : Prop := match v with Some x => P x | None => True end.
Definition parsed (c : command) : Prop :=
  match c with
  | FilterProgram a => Z.abs (pa_clock_time a) < 2 ^ 60 /\ given (fun w => Z.abs w < 2 ^ 60) (pa_wait_until a)
  | RecordService _ _ chunk_size num_chunks start_pos => in_long chunk_size /\ in_long num_chunks /\ given (fun p => 0 <= p < 2 ^ 64) start_pos
  | _ => True
  end.

(** A list of ids with an element that does not begin with a number in the range
    of int. *)
Definition bad_ids (strs : list (list Z)) : Prop := exists s, In s strs /\ forall n, begins s n -> ~ fits_int n.
(** A list of tags with an element that is not a number in 0..255. *)
Definition bad_tags (strs : list (list Z)) : Prop := exists s, In s strs /\ forall n, OptionSpec.number s n -> ~ 0 <= n < 256.
Definition with_bad {A} (P : A -> Prop) (v : option A) : Prop := match v with Some x => P x | None => False end.

(** The command lines that are refused. *)
Definition refused (c : command) : Prop :=
  match c with
  | ScanServices sids xsids | SyncClocks sids xsids => with_bad bad_ids sids \/ with_bad bad_ids xsids
  | CollectEits sids xsids _ _ only_actual only_others =>
      with_bad bad_ids sids \/ with_bad bad_ids xsids \/ only_actual = true /\ only_others = true
  | CollectEitpf sids _ _ _ => with_bad bad_ids sids
  | FilterProgram a => with_bad bad_tags (pa_audio_tags a) \/ with_bad bad_tags (pa_video_tags a)
  | RecordService _ _ chunk_size num_chunks start_pos =>
      ~ valid_geometry chunk_size num_chunks (match start_pos with Some p => p | None => 0 end)
  | _ => False
  end.

(** seek-start without a limit: the number of packets counts modulo 2^32. *)
Definition no_limit (max_duration max_packets : option Z) : Prop :=
  (max_duration = None \/ max_duration = Some 0) /\ (max_packets = None \/ exists k, max_packets = Some (k * 2 ^ 32)).

(** The exit codes of a command.  222: the program cannot be recorded any more. *)
Definition exit_codes (c : command) : list Z :=
  match c with
  | ScanServices _ _ | SyncClocks _ _ | FilterService _ | RecordService _ _ _ _ _ | SeekStart _ _ _ => [0; 1]
  | FilterProgram _ => [0; 1; 222]
  | CollectEits _ _ _ _ _ _ | CollectEitpf _ _ _ _ | CollectLogos | FilterProgramMetadata _ | TrackAirtime _ _ | PrintPes => [0]
  end.

(** The commands that output JSON. *)
Definition outputs_json (c : command) : Prop :=
  match c with FilterService _ | FilterProgram _ | SeekStart _ _ _ | PrintPes => False | _ => True end.

(** LibISDB's logos consist of bytes. *)
Definition logo_bytes (lib : library) : Prop :=
  (forall h b l, In l (fst (li_logos lib h b)) -> Forall (fun x => 0 <= x < 256) (Logo.lg_data l)) /\
  (forall h l, In l (li_closing lib h) -> Forall (fun x => 0 <= x < 256) (Logo.lg_data l)).

(** The packets of record-service do not go to the standard output. *)
Definition has_file (c : command) : Prop := match c with RecordService _ file _ _ _ => file <> [] | _ => True end.

(** What a text consists of: the lines of the command's documents. *)
Definition documented (lib : library) (c : command) (text : string) : Prop :=
  match c with
  | ScanServices _ _ => exists docs, lines_of (array_of (service_object (li_name lib))) docs text
  | SyncClocks _ _ => exists docs, lines_of (array_of clock_object) docs text
  | CollectEits _ _ _ _ _ _ | CollectEitpf _ _ _ _ =>
      exists docs, lines_of (eit_object (li_decode lib) (li_parsers lib) (li_block lib)) docs text
  | CollectLogos => exists docs, lines_of logo_object docs text
  | FilterProgramMetadata _ => exists docs, lines_of (meta_object (li_decode lib) (li_parts lib) (li_parsers lib)) docs text
  | TrackAirtime _ _ => exists docs, lines_of airtime_object docs text
  | RecordService _ _ _ _ _ =>
      exists vs, read_jsonl text = Some vs /\
        Forall (fun v => exists t, typed t v /\ In t ["start"; "chunk"; "event-start"; "event-update"; "event-end"; "stop"]%string) vs
  | FilterService _ | FilterProgram _ | SeekStart _ _ _ | PrintPes => False
  end.

(** The bytes of the input: nothing if the file cannot be opened. *)
Definition input_bytes (sys : system) : list Z :=
  match sy_path sys with
  | [] => bytes_of (sy_reads sys)
  | _ => if sy_fd sys <? 0 then [] else bytes_of (sy_reads sys)
  end.
(** The same system with another input file. *)
Definition other_input (sys : system) (path : list Z) (fd : Z) (reads : list read_result) : system :=
  mkSystem path fd reads (sy_writes sys) (sy_flushes sys) (sy_local sys) (sy_file_fd sys) (sy_ops sys).
(** The same system with another standard output. *)
Definition other_stdout (sys : system) (flushes : list (option Z)) : system :=
  mkSystem (sy_path sys) (sy_fd sys) (sy_reads sys) (sy_writes sys) flushes (sy_local sys) (sy_file_fd sys) (sy_ops sys).

(** The input holds the packets [bs]; [n] is a bound for its length. *)
Definition has_input (sys : system) (bs : list (list Z)) (n : nat) : Prop :=
  Forall read_ok (sy_reads sys) /\ packets_of (input_bytes sys) bs /\ (List.length (input_bytes sys) < n)%nat.
(** The standard output is a text of JSON lines, one for each of [docs]. *)
Definition prints {A} (R : A -> jvalue -> Prop) (docs : list A) (e : ended) : Prop :=
  exists text, spells (en_stdout e) text /\ lines_of R docs text.

(** record-service with the standard output as its file: what shows of each
    message and of each call on the file. *)
Inductive shown : entry -> list Z -> Prop :=
| shown_data : forall bs, shown (Ring (EvWrite bs)) bs
| shown_call : forall c, (forall bs, c <> EvWrite bs) -> shown (Ring c) []
| shown_message : forall m t text v k, spells t text -> read_jsonl text = Some [v] -> typed k v ->
    In k ["start"; "chunk"; "event-start"; "event-update"; "event-end"; "stop"]%string -> shown (Msg m) t.
