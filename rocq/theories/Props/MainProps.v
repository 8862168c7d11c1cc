(** C87, C88: mirakc-arib as a whole, from the command line to the exit code. *)
From Coq Require Import Ascii String ZArith Lia List Bool.
From Verif Require Import Base.Outcome Base.Util Model.Pcr Model.FileSource Model.StdoutSink Model.Ts Model.Descriptors Model.StartSeeker
  Model.Commands Model.JsonText Model.Documents Model.Main
  Spec.SourceSpec Spec.StdoutSpec Spec.OptionSpec Spec.FileSpec Spec.JsonSpec Spec.DocSpec Spec.DocumentsSpec Spec.MainSpec Proofs.MainProofs.
From Verif Require Model.Logo Props.ScanProps Props.FilterProps Props.PipeProps Props.JsonProps.
Import ListNotations.
Open Scope Z_scope.

(** Every command line has an outcome, which does not depend on how long one
    waits for it. *)
Theorem C87_ends : forall lib sys c n, Forall read_ok (sy_reads sys) -> (List.length (bytes_of (sy_reads sys)) < n)%nat ->
  exists r, forall m, (n <= m)%nat -> main lib sys c m = Some r.
Proof. exact main_ends. Qed.
Print Assumptions C87_ends.

(** Refused command lines: nothing is read, and nothing else counts. *)
Theorem C87_refused : forall c, parsed c -> refused c ->
  exists f, (f = AssertFail \/ f = Uncaught) /\ forall lib sys n, main lib sys c n = Some (Fail f).
Proof. exact main_refused. Qed.
Print Assumptions C87_refused.

(** All others are accepted: on the empty input they end regularly. *)
Theorem C87_accepted : forall lib sys c n, parsed c -> ~ refused c -> has_file c -> sy_reads sys = [] -> (0 < n)%nat ->
  exists e, main lib sys c n = Some (Ok e).
Proof. exact main_accepted. Qed.
Print Assumptions C87_accepted.

Theorem C87_exit_codes : forall lib sys c n e, main lib sys c n = Some (Ok e) -> In (en_code e) (exit_codes c).
Proof. exact main_codes. Qed.
Print Assumptions C87_exit_codes.

(** seek-start without a limit shows its help. *)
Theorem C87_seek_start_help : forall lib sys sid d p n,
  (no_limit d p -> exists e, main lib sys (SeekStart sid d p) n = Some (Ok e) /\ en_code e = 1 /\ spells (en_stdout e) (li_help lib)) /\
  (~ no_limit d p -> forall e, main lib sys (SeekStart sid d p) n = Some (Ok e) -> en_code e = 0).
Proof.
  intros lib sys sid d p n. split.
  - intros H. eexists. split; [apply main_help; exact H|]. split; reflexivity.
  - intros H e M. eapply main_seeks; eauto.
Qed.
Print Assumptions C87_seek_start_help.

(** The input counts through its packets only: not where it is read from, how
    read(2) splits it, nor what is between the packets. *)
Theorem C87_input : forall lib sys path fd reads c ps n, let sys' := other_input sys path fd reads in
  Forall read_ok (sy_reads sys) -> Forall read_ok reads -> packets_of (input_bytes sys) ps -> packets_of (input_bytes sys') ps ->
  (List.length (input_bytes sys) < n)%nat -> (List.length (input_bytes sys') < n)%nat ->
  main lib sys c n = main lib sys' c n.
Proof. exact main_same. Qed.
Print Assumptions C87_input.

(** What a JSON command writes can be read back, line by line, and the lines are
    the documents of the help. *)
Theorem C87_json : forall lib sys c n e, outputs_json c -> has_file c -> logo_bytes lib -> sy_flushes sys = [] -> main lib sys c n = Some (Ok e) ->
  exists text, spells (en_stdout e) text /\ documented lib c text.
Proof. exact main_json. Qed.
Print Assumptions C87_json.

(** ** C88 *)
(** A command with a standard output that takes everything, and one that does
    not: the exit code and the calls on the recording file are the same. *)
Theorem C88_unnoticed_partial : forall lib sys flushes c n e, outputs_json c -> has_file c -> main lib (other_stdout sys []) c n = Some (Ok e) ->
  exists e', main lib (other_stdout sys flushes) c n = Some (Ok e') /\
    en_code e' = en_code e /\ is_prefix (en_stdout e') (en_stdout e) /\ en_trace e' = en_trace e.
Proof. exact main_stdout. Qed.
Print Assumptions C88_unnoticed_partial.

(** ** Cases *)
Definition letters (s : string) : list Z := text_bytes s.
Definition no_parsers : parsers :=
  mkParsers (fun _ => None) (fun _ => None) (fun _ => None) (fun _ => None) (fun _ => None) (fun _ => None).
(** The packets of [stream]; no other deliveries. *)
Definition demo_lib (stream : list packet) : library :=
  mkLibrary (JsonProps.taken stream JsonProps.nothing) (fun _ _ => []) (fun _ _ => []) (fun _ _ => ([], true)) (fun _ => [])
    PipeProps.demo_bytes (fun _ => 1%nat) (fun _ => None) (fun _ => "") (fun _ => "NHK") (fun _ => (false, [])) no_parsers
    (fun _ => ([], None)) (fun _ => "") "help"%string.
Definition demo_sys (n : nat) (flushes : list (option Z)) : system :=
  mkSystem (letters "in.ts") 3 (JsonProps.file n) [] flushes (fun _ => 0) 4 [].

(** Nothing of the document gets out; the exit code is 0. *)
Theorem C88_reported_refuted : exists lib sys c n e full, outputs_json c /\ has_file c /\ Forall read_ok (sy_reads sys) /\
  (List.length (bytes_of (sy_reads sys)) < n)%nat /\
  main lib sys c n = Some (Ok e) /\ main lib (other_stdout sys []) c n = Some (Ok full) /\
  en_code e = 0 /\ en_stdout e = [] /\ en_stdout full <> [].
Proof.
  exists (demo_lib ScanProps.sc_case), (demo_sys 6 [Some 0]), (ScanServices None None), 1200%nat. do 2 eexists.
  split; [exact I|]. split; [exact I|]. destruct (JsonProps.file_packets 6) as (R & _ & L). split; [exact R|].
  split; [cbn [demo_sys sy_reads]; rewrite L; lia|]. split; [vm_compute; reflexivity|]. split; [vm_compute; reflexivity|]. cbn [en_code en_stdout].
  split; [reflexivity|]. split; [reflexivity|]. discriminate.
Qed.
Print Assumptions C88_reported_refuted.

Example C88_case : exists e, main (demo_lib ScanProps.sc_case) (demo_sys 6 [Some 3]) (ScanServices None None) 1200 = Some (Ok e) /\
  en_code e = 0 /\ en_stdout e = letters "[{""".
Proof. eexists. split; [vm_compute; reflexivity|]. split; reflexivity. Qed.

Lemma numeral_first : forall s n, numeral s n -> exists d r, s = 48 + d :: r /\ 0 <= d <= 9.
Proof. induction 1 as [d H|s n d N (e & r & -> & E) H]; [exists d, []; auto|]. exists e, (r ++ [48 + d])%list. auto. Qed.
Lemma x1_bad : forall n, ~ begins (letters "x1") n.
Proof.
  intros n (a & b & E & (sp & ds & B & N) & _). change (letters "x1") with [120; 49] in E. destruct sp as [|x sp].
  - destruct N as [[-> N]|[[-> _]|[-> _]]]; cbn in E; [|discriminate..]. apply numeral_first in N as (d & r & -> & D). cbn in E. injection E as E _. lia.
  - inversion B; subst. assert (x = 120) by (destruct N as [[-> _]|[[-> _]|[-> _]]]; cbn in E; injection E as E _; auto). subst. unfold blank in *. lia.
Qed.
(** mirakc-arib scan-services --sids=12 --sids=x1 *)
Definition x1_ids : command := ScanServices (Some [letters "12"; letters "x1"]) None.
Example C87_refused_case : parsed x1_ids /\ refused x1_ids /\ main (demo_lib []) (demo_sys 1 []) x1_ids 9 = Some (Fail Uncaught).
Proof.
  split; [exact I|]. split; [|vm_compute; reflexivity]. left. exists (letters "x1"). split; [cbn; auto|]. intros n B. destruct (x1_bad n B).
Qed.

(** mirakc-arib record-service --sid=1 --file=rec --chunk-size=8192 --num-chunks=0 *)
Example C87_refused_record : let c := RecordService 1 (letters "rec") 8192 0 None in
  parsed c /\ refused c /\ main (demo_lib []) (demo_sys 1 []) c 9 = Some (Fail AssertFail).
Proof.
  cbv zeta. split; [unfold parsed, in_long, given; lia|]. split; [|vm_compute; reflexivity]. cbn [refused]. unfold valid_geometry. intros H. intuition lia.
Qed.

(** mirakc-arib filter-service --sid=1 </dev/null *)
Example C87_accepted_case : parsed (FilterService 1) /\ ~ refused (FilterService 1) /\ has_file (FilterService 1) /\
  exists e, main (demo_lib []) (demo_sys 0 []) (FilterService 1) 1 = Some (Ok e) /\ In (en_code e) [0; 1].
Proof. split; [exact I|]. split; [exact (fun f => f)|]. split; [exact I|]. eexists. split; [vm_compute; reflexivity|]. cbn. auto. Qed.

(** mirakc-arib scan-services in.ts *)
Definition scan_text : string :=
  "[{""nid"":8,""tsid"":7,""sid"":1,""name"":""NHK"",""type"":1,""logoId"":5,""remoteControlKeyId"":4},{""nid"":8,""tsid"":7,""sid"":3,""name"":""NHK"",""type"":1,""logoId"":-1,""remoteControlKeyId"":4}]" ++ String (ascii_of_nat 10) "".
Example C87_json_case : logo_bytes (demo_lib ScanProps.sc_case) /\
  main (demo_lib ScanProps.sc_case) (demo_sys 6 []) (ScanServices None None) 1200 = Some (Ok (mkEnded 0 (letters scan_text) [])) /\
  documented (demo_lib ScanProps.sc_case) (ScanServices None None) scan_text.
Proof.
  assert (L : logo_bytes (demo_lib ScanProps.sc_case)) by (split; [intros h b l []|intros h l []]).
  assert (M : main (demo_lib ScanProps.sc_case) (demo_sys 6 []) (ScanServices None None) 1200 = Some (Ok (mkEnded 0 (letters scan_text) []))) by (vm_compute; reflexivity).
  split; [exact L|]. split; [exact M|]. apply C87_json in M as (text & S & D); [|exact I|exact I|exact L|reflexivity].
  cbn [en_stdout] in S. unfold spells in S. apply (f_equal (fun l => string_of_list_ascii (map (fun z => ascii_of_nat (Z.to_nat z)) l))) in S.
  assert (R : forall s, string_of_list_ascii (map (fun z => ascii_of_nat (Z.to_nat z)) (letters s)) = s).
  { intros s. unfold letters, text_bytes. rewrite map_map. rewrite <- (string_of_list_ascii_of_string s) at 2. f_equal.
    rewrite <- (map_id (list_ascii_of_string s)) at 2. apply map_ext. intros c. rewrite Nat2Z.id. apply ascii_nat_embedding. }
  change (map (fun c => Z.of_nat (nat_of_ascii c)) (list_ascii_of_string text)) with (letters text) in S. rewrite !R in S. subst. exact D.
Qed.

(** The same packets on the standard input, after a byte that belongs to none. *)
Example C87_input_case : let sys := demo_sys 6 [] in let reads := ReadData [0] :: JsonProps.file 6 in let sys' := other_input sys [] 0 reads in
  Forall read_ok (sy_reads sys) /\ Forall read_ok reads /\
  (exists ps, packets_of (input_bytes sys) ps /\ packets_of (input_bytes sys') ps /\ List.length ps = 6%nat) /\
  main (demo_lib ScanProps.sc_case) sys (ScanServices None None) 1200 = main (demo_lib ScanProps.sc_case) sys' (ScanServices None None) 1200.
Proof.
  cbv zeta. destruct (JsonProps.file_packets 6) as (R & P & L).
  assert (R' : Forall read_ok (ReadData [0] :: JsonProps.file 6)) by (constructor; [vm_compute; discriminate|exact R]).
  assert (P' : packets_of (input_bytes (other_input (demo_sys 6 []) [] 0 (ReadData [0] :: JsonProps.file 6))) (repeat JsonProps.plain 6)).
  { destruct (JsonProps.file_packets 5) as (_ & P5 & _).
    apply (Pk_resync _ 1 JsonProps.plain (bytes_of (JsonProps.file 5)) (repeat JsonProps.plain 5)); [vm_compute; discriminate|vm_compute; discriminate|lia| | |reflexivity|reflexivity|exact P5].
    - split; [vm_compute; reflexivity|]. split; [vm_compute; reflexivity|]. split; vm_compute; reflexivity.
    - intros j J. assert (j = 0) by lia. subst. intros (A & _). vm_compute in A. discriminate. }
  split; [exact R|]. split; [exact R'|]. split; [exists (repeat JsonProps.plain 6); split; [exact P|]; split; [exact P'|reflexivity]|].
  apply (C87_input _ _ _ _ _ _ (repeat JsonProps.plain 6)); auto.
  - change (input_bytes (demo_sys 6 [])) with (bytes_of (JsonProps.file 6)). rewrite L. lia.
  - change (input_bytes _) with (0 :: bytes_of (JsonProps.file 6)). cbn [List.length]. rewrite L. lia.
Qed.

(** mirakc-arib seek-start --sid=1 --max-packets=4294967296 *)
Example C87_help_case : no_limit None (Some 4294967296) /\ ~ no_limit None (Some 1).
Proof.
  split; [split; [auto|]; right; exists 1; reflexivity|]. intros [_ [H|[k H]]]; [discriminate|]. injection H as H. lia.
Qed.
