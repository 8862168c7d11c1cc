(** /repo/test/cli_tests.sh on the model, except for what docopt decides (help,
    version, options that exclude each other, numbers out of range): the exit codes
    on an empty input.  134 is an abort. *)
From Coq Require Import Ascii String ZArith List Bool.
From Verif Require Import Base.Outcome Base.Util Model.Ts Model.FileSource Model.Commands Model.Descriptors Model.Main.
From Verif Require Props.MainProps Props.PipeProps.
Import ListNotations.
Open Scope Z_scope.

Definition no_library : library :=
  mkLibrary (PipeProps.demo_view []) (fun _ _ => []) (fun _ _ => []) (fun _ _ => ([], true)) (fun _ => [])
    PipeProps.demo_bytes (fun _ => 1%nat) (fun _ => None) (fun _ => ""%string) (fun _ => ""%string) (fun _ => (false, [])) MainProps.no_parsers
    (fun _ => ([], None)) (fun _ => ""%string) "help"%string.
(** </dev/null: no file name, which is the standard input. *)
Definition dev_null : system := mkSystem [] 0 [] [] [] (fun _ => 0) 3 [].
Definition run (c : command) : option Z :=
  match main no_library dev_null c 10 with
  | Some (Ok e) => Some (en_code e)
  | Some (Fail _) => Some 134
  | None => None
  end.
Notation str s := (MainProps.letters s%string).
Definition ids := Some [str "1"; str "0xFFFF"].

(** cli_tests.sh:37-41 *)
Example cli_scan : run (ScanServices None None) = Some 1 /\ run (ScanServices ids ids) = Some 1.
Proof. vm_compute. auto. Qed.
Example cli_sync : run (SyncClocks None None) = Some 1 /\ run (SyncClocks ids ids) = Some 1.
Proof. vm_compute. auto. Qed.
(** cli_tests.sh:43-52 *)
Example cli_eits : run (CollectEits None None None false false false) = Some 0 /\
  run (CollectEits ids ids (Some 0x7FFFFFFFFFFFFFFF) true false false) = Some 0.
Proof. vm_compute. auto. Qed.
Example cli_eitpf : run (CollectEitpf None false false false) = Some 0 /\ run (CollectEitpf ids true false false) = Some 0 /\
  run (CollectEitpf ids true true false) = Some 0 /\ run (CollectEitpf ids true false true) = Some 0.
Proof. vm_compute. auto. Qed.
(** cli_tests.sh:54-55 *)
Example cli_filter_service : run (FilterService 1) = Some 0 /\ run (FilterService 0xFFFF) = Some 0.
Proof. vm_compute. auto. Qed.

(** cli_tests.sh:57-66 *)
Definition one (audio video : option (list (list Z))) : program_args := mkProgramArgs 1 1 1 1 1 audio video None None None false.
Example cli_filter_program : run (FilterProgram (one None None)) = Some 0 /\
  run (FilterProgram (mkProgramArgs 0xFFFF 0xFFFF 0xFFFF 0x7FFFFFFFFFFFFFFF (-9223372036854775808) None None (Some 1) (Some 1)
    (Some (-9223372036854775808)) true)) = Some 0 /\
  run (FilterProgram (one (Some [str "0"; str "255"]) (Some [str "0"; str "255"]))) = Some 0 /\
  run (FilterProgram (one (Some [str "-1"]) None)) = Some 134 /\ run (FilterProgram (one (Some [str "256"]) None)) = Some 134 /\
  run (FilterProgram (one None (Some [str "-1"]))) = Some 134 /\ run (FilterProgram (one None (Some [str "256"]))) = Some 134.
Proof. vm_compute. auto 10. Qed.
(** cli_tests.sh:68-70 *)
Example cli_metadata : run (FilterProgramMetadata None) = Some 0 /\ run (FilterProgramMetadata (Some 1)) = Some 0 /\
  run (FilterProgramMetadata (Some 0xFFFF)) = Some 0.
Proof. vm_compute. auto. Qed.
(** cli_tests.sh:72-86.  The ftruncate and lseek of the largest ring succeed. *)
Definition record (cs nc : Z) (start : option Z) : option Z := run (RecordService 1 (str "/tmp/tmp.file") cs nc start).
Example cli_record : record 8192 1 None = Some 0 /\ record 8192 1 (Some 0) = Some 0 /\ record 8192 2 (Some 8192) = Some 0 /\
  run (RecordService 0xFFFF (str "/tmp/tmp.file") 0x7FFE0000 0x7FFFFFFF (Some 0x3FFEFFFF00040000)) = Some 0.
Proof. vm_compute. auto. Qed.
Example cli_record_refused : record 0 1 None = Some 134 /\ record 1 1 None = Some 134 /\ record 0xFFFE0000 1 None = Some 134 /\
  record 8192 0 None = Some 134 /\ record 8192 0x80000000 None = Some 134 /\ record 8192 1 (Some 1) = Some 134 /\
  record 8192 1 (Some 8192) = Some 134.
Proof. vm_compute. auto 10. Qed.
(** cli_tests.sh:88-95 *)
Example cli_airtime : run (TrackAirtime 1 1) = Some 0 /\ run (TrackAirtime 0xFFFF 0xFFFF) = Some 0.
Proof. vm_compute. auto. Qed.
Example cli_seek : run (SeekStart 1 (Some 1) None) = Some 0 /\ run (SeekStart 0xFFFF (Some 0x7FFFFFFFFFFFFFFF) (Some 0x7FFFFFFF)) = Some 0.
Proof. vm_compute. auto. Qed.
Example cli_pes : run PrintPes = Some 0.
Proof. vm_compute. reflexivity. Qed.
