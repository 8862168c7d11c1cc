(** PosixFile: /repo/src/main.cc:899-1009, and the commands on named files. *)
From Coq Require Import ZArith List Bool.
From Verif Require Import Base.Outcome Base.Util Model.Sink Model.FileSource Model.Ts Model.ServiceFilter Model.RingFileSink
  Model.ServiceRecorder Model.Commands.
Import ListNotations.
Open Scope Z_scope.

(** main.cc:1006-1009, without the path, which is used in log messages only. *)
Record posix_file := mkPosix {
  px_fd : Z;
  px_stdio : bool }.

(** main.cc:903-916 for reading ([std] = STDIN_FILENO = 0), 918-932 for writing
    ([std] = STDOUT_FILENO = 1).  [fd] is what open(2) returns, negative on
    failure; a failure is logged only.  An existing file is not truncated when
    it is opened for writing. *)
Definition px_new (std : Z) (path : list Z) (fd : Z) : posix_file :=
  match path with
  | [] => mkPosix std true
  | _ => mkPosix fd false
  end.
Definition px_open_read := px_new 0.
Definition px_open_write := px_new 1.

(** main.cc:945-951 Read; [r] is the result of read(2) on an open descriptor.  On
    a negative descriptor read(2) fails with EBADF. *)
Definition px_Read (f : posix_file) (r : read_result) : read_result :=
  if px_fd f <? 0 then ReadError else r.

(** main.cc:953-1004 Write, Sync, Trunc, Seek: the results of the calls to come,
    as in [rg_ops], given those on an open descriptor.  On a negative descriptor
    each of write(2), fsync(2), ftruncate(2) and lseek(2) fails with EBADF. *)
Definition px_ops (f : posix_file) (ops : list Z) : list Z :=
  if px_fd f <? 0 then -1 :: map (fun _ => -1) ops else ops.

(** main.cc:962, 971, 982: Sync, Trunc and Seek assert that the file is not the
    standard output. *)
Definition px_asserts (f : posix_file) (e : ring_event) : bool :=
  match e with
  | EvSync | EvSyncFail | EvTrunc _ | EvTruncFail | EvSeek _ | EvSeekFail => px_stdio f
  | EvWrite _ | EvWriteFail | EvNotify _ => false
  end.
Definition entry_asserts (f : posix_file) (x : entry) : bool :=
  match x with Ring e => px_asserts f e | Msg _ => false end.

Section Files.
Variable view : list (list Z) -> list Z -> packet.
Variable bytes : packet -> list Z.

(** main.cc:1040-1047, 1424-1449: a command with sink [k] on the file [path],
    opened as [fd]; [reads] are the results of read(2). *)
Definition run_on (k : sink packet) (path : list Z) (fd : Z) (reads : list read_result) (d : sk_state k) (fuel : nat) :=
  run_main view k (map (px_Read (px_open_read path fd)) reads) d fuel.

(** main.cc:1357-1371: record-service with --file [path], opened as [fd]; [ops]
    are the results of the calls on it.  The process aborts at the first call that
    PosixFile does not allow; what it did before is what it would have done. *)
Definition record_on (sid : Z) (o : recorder_option) (local : nat -> Z) (path : list Z) (fd : Z) (ops : list Z)
    (reads : list read_result) (fuel : nat) :=
  let f := px_open_write path fd in
  match rc_new o (px_ops f ops) with
  | Fail e => Some (Fail e)
  | Ok s0 =>
      match record_service_main view bytes sid o local s0 reads fuel with
      | Some (Ok (code, (seen, (t, s)))) =>
          if existsb (entry_asserts f) (rc_trace s) then Some (Fail AssertFail) else Some (Ok (code, (seen, (t, s))))
      | r => r
      end
  end.
End Files.
