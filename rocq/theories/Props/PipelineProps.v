(** C94: a command behind filter-service in a pipe. *)
From Coq Require Import String ZArith Lia List Bool.
From Verif Require Import Base.Outcome Base.Util Model.Sink Model.Ts Model.FileSource Model.Commands Model.ServiceFilter Model.Main
  Spec.SourceSpec Spec.StdoutSpec Spec.TransSpec Spec.FilterSpec Spec.PipeSpec Spec.TuneSpec Spec.TwiceSpec Spec.MainSpec Spec.PipelineSpec
  Proofs.PipeProofs Proofs.WallMain Proofs.PipelineMain.
From Verif Require Model.StdoutSink Props.FilterProps Props.MainProps Props.PipeProps Props.CommandProps.
Import ListNotations.
Open Scope Z_scope.

(** filter-service --sid=S in.ts | filter-service --sid=S: the second process ends
    well and sends what it got. *)
Theorem C94_filter_service : forall lib view, plain_bytes (li_bytes lib) ->
  forall sid sys1 bs n1 e1, has_input sys1 bs n1 -> Forall no_error (sy_writes sys1) ->
  main lib sys1 (FilterService sid) n1 = Some (Ok e1) -> pipes lib view sid bs ->
  forall sys2 n2, reads_from sys2 (en_stdout e1) n2 -> Forall no_error (sy_writes sys2) ->
  main (with_packet lib view) sys2 (FilterService sid) n2 = Some (Ok (mkEnded 0 (en_stdout e1) [])).
Proof. exact pipe_filter_service. Qed.
Print Assumptions C94_filter_service.

(** filter-service --sid=S in.ts | filter-program --sid=S ..., and filter-program
    --sid=S ... in.ts: the same bytes on the standard output. *)
Theorem C94_filter_program : forall lib view, plain_bytes (li_bytes lib) ->
  forall sid sys1 bs n1 e1, has_input sys1 bs n1 -> Forall no_error (sy_writes sys1) ->
  main lib sys1 (FilterService sid) n1 = Some (Ok e1) -> pipes lib view sid bs ->
  forall a sys n sys2 n2, pa_sid a = sid -> has_input sys bs n -> Forall no_error (sy_writes sys) ->
  reads_from sys2 (en_stdout e1) n2 -> Forall no_error (sy_writes sys2) ->
  match main lib sys (FilterProgram a) n, main (with_packet lib view) sys2 (FilterProgram a) n2 with
  | Some (Ok e), Some (Ok e') => en_stdout e = en_stdout e' /\ pipe_code (en_code e1) (en_code e') (en_code e)
  | Some (Fail f), Some (Fail g) => f = g
  | _, _ => False
  end.
Proof. exact pipe_filter_program. Qed.
Print Assumptions C94_filter_program.

(** The same for record-service: the same calls on the file with the same bytes,
    the same messages with the same times and positions, in the same order. *)
Theorem C94_record_service : forall lib view, plain_bytes (li_bytes lib) ->
  forall sid sys1 bs n1 e1, has_input sys1 bs n1 -> Forall no_error (sy_writes sys1) ->
  main lib sys1 (FilterService sid) n1 = Some (Ok e1) -> pipes lib view sid bs ->
  forall file cs nc start sys n sys2 n2, has_input sys bs n -> reads_from sys2 (en_stdout e1) n2 ->
  sy_local sys2 = sy_local sys -> sy_file_fd sys2 = sy_file_fd sys -> sy_ops sys2 = sy_ops sys -> sy_flushes sys2 = sy_flushes sys ->
  match main lib sys (RecordService sid file cs nc start) n, main (with_packet lib view) sys2 (RecordService sid file cs nc start) n2 with
  | Some (Ok e), Some (Ok e') => en_trace e = en_trace e' /\ en_stdout e = en_stdout e' /\ pipe_code (en_code e1) (en_code e') (en_code e)
  | Some (Fail f), Some (Fail g) => f = g
  | _, _ => False
  end.
Proof. exact pipe_record_service. Qed.
Print Assumptions C94_record_service.

(** ** Cases *)
(** The demultiplexers of the second process: given packets, one by one. *)
Definition told (l : list packet) (h : list (list Z)) (b : list Z) : packet := nth (List.length h) l (FilterProps.pkt 0 0 []).
Lemma told_views : forall bs h l, List.length l = (List.length h + List.length bs)%nat -> views (told l) h bs = skipn (List.length h) l.
Proof.
  induction bs as [|b bs IH]; intros h l L; cbn [views]; [rewrite skipn_all2; [reflexivity|cbn in L; lia]|].
  rewrite IH by (cbn [List.length] in *; lia). cbn [List.length] in *. unfold told.
  assert (X : forall (k : nat) (m : list packet), (k < List.length m)%nat -> nth k m (FilterProps.pkt 0 0 []) :: skipn (S k) m = skipn k m).
  { induction k as [|k IHk]; intros [|x m] Hk; cbn in Hk; try lia; [reflexivity|]. apply (IHk m). lia. }
  apply X. lia.
Qed.

Definition case_sent (stream : list packet) (sid : Z) : list packet :=
  match passed (mkSfOption sid None) 1000 (views (PipeProps.demo_view stream) [] (PipeProps.demo_packets 0 stream)) with Some m => m | None => [] end.
Definition starts_well (b : list Z) : bool := match b with x :: _ => x =? 0x47 | [] => false end.
Definition case_told (stream : list packet) (sid : Z) := told (map again (case_sent stream sid)).

Lemma regen_views : forall stream bs h, (forall p, In p stream -> p_tabs p 0 = [] \/ p_regen p 1 = 1%nat) -> (List.length h + List.length bs <= List.length stream)%nat ->
  forall p, In p (views (PipeProps.demo_view stream) h bs) -> p_tabs p 0 = [] \/ p_regen p 1 = 1%nat.
Proof.
  intros stream. induction bs as [|b bs IH]; intros h H L p I; [destruct I|]. cbn [views] in I. destruct I as [<-|I].
  - cbn. apply H. apply nth_In. cbn in L. lia.
  - apply (IH (b :: h) H); [cbn in *; lia|exact I].
Qed.
Lemma demo_count : forall stream i, List.length (PipeProps.demo_packets i stream) = List.length stream.
Proof. induction stream as [|p r IH]; intros i; cbn; auto. Qed.

Lemma case_pipes : forall stream sid, (forall p, In p stream -> 0 <= p_pid p < 8192) ->
  (forall p, In p stream -> (p_tabs p 0 = [] \/ p_regen p 1 = 1%nat) /\ p_tabs p 1 = p_tabs p 0) ->
  (forall p t, In p stream -> In t (p_tabs p 0) -> p_pid p = 0 -> match tb_body t with TCat _ | TPmt _ | TTot _ => False | _ => True end /\
    forall u q, listing (sid mod 2 ^ 16) (0, tb_body t) = Some (u, q) -> ~ In q [0; 1; 0x14; 0x1FFF]) ->
  (forall p t, In p stream -> In t (p_tabs p 0) -> p_pid p = 1 \/ p_pid p = 0x14 -> a_cat (p_pid p, tb_body t) = None /\ service_pmt (sid mod 2 ^ 16) (p_pid p, tb_body t) = None) ->
  (List.length stream < 1000)%nat ->
  match passed (mkSfOption (sid mod 2 ^ 16) None) 1000 (views (PipeProps.demo_view stream) [] (PipeProps.demo_packets 0 stream)) with
  | Some m => forallb (fun p => starts_well (PipeProps.demo_bytes p)) m = true
  | None => False
  end ->
  pipes (CommandProps.case_lib stream) (case_told stream (sid mod 2 ^ 16)) sid (PipeProps.demo_packets 0 stream).
Proof.
  intros stream sid B Hr W C L P. unfold pipes. cbv zeta. cbn [CommandProps.case_lib li_packet li_bytes].
  assert (Rg : forall p, In p (views (PipeProps.demo_view stream) [] (PipeProps.demo_packets 0 stream)) -> p_tabs p 0 = [] \/ p_regen p 1 = 1%nat).
  { apply regen_views; [intros p I; apply (Hr p I)|]. rewrite demo_count. cbn. lia. }
  split; [|split; [|split]].
  - intros p t I It E. destruct (PipeProps.demo_views stream B p I) as (q & Iq & E1 & E2 & E3). rewrite E3 in It. apply (W q t Iq It). congruence.
  - intros p I. destruct (PipeProps.demo_views stream B p I) as (q & Iq & E1 & E2 & E3). split.
    + intros _. rewrite !E3. apply (Hr q Iq).
    + intros (_ & t & It & _). destruct (Rg p I) as [E|E]; [rewrite E in It; destruct It|lia].
  - intros pre p post t E Pp It K. assert (I : In p (views (PipeProps.demo_view stream) [] (PipeProps.demo_packets 0 stream))) by (rewrite E; apply in_elt).
    destruct (PipeProps.demo_views stream B p I) as (q & Iq & E1 & E2 & E3). rewrite E3 in It. rewrite E1 in *. destruct (C q t Iq It Pp) as [C1 C2]. destruct K; contradiction.
  - intros sent e h F. pattern sent. apply (filtered_by_run (mkSfOption (sid mod 2 ^ 16) None) _ sent e h 1000) with (3 := F); cbv beta.
    + rewrite views_length, demo_count. exact L.
    + unfold case_told, case_sent. destruct (passed _ _ _) as [m|]; [|exact P]. split.
      * rewrite forallb_forall in P. apply Forall_forall. intros p I. specialize (P p I). unfold starts_well in P. destruct (PipeProps.demo_bytes p) as [|x r]; [discriminate|].
        apply Z.eqb_eq in P. subst x. reflexivity.
      * apply (told_views (map PipeProps.demo_bytes m) [] (map again m)). rewrite !map_length. reflexivity.
Qed.

Lemma case_plain : forall stream, plain_bytes (li_bytes (CommandProps.case_lib stream)).
Proof. intros stream p. split; [apply (PipeProps.demo_faithful stream)|reflexivity]. Qed.

(** The second process: it reads from the pipe, in pieces. *)
Definition piped (out : list Z) : system :=
  mkSystem [] 0 [ReadData (ztake 100 out); ReadData (ztake 9000 (zdrop 100 out)); ReadData (zdrop 9000 (zdrop 100 out))] [StdoutSink.Wrote 5] [] (fun _ => 0) 4 [].
Lemma piped_bytes : forall a r, bytes_of (ReadData a :: r) = match a with [] => [] | _ => a ++ bytes_of r end.
Proof. intros [|x a] r; reflexivity. Qed.
Lemma piped_reads : forall out n, zlen out <= 25000 -> (List.length out < n)%nat -> reads_from (piped out) out n /\ Forall no_error (sy_writes (piped out)).
Proof.
  intros out n L H. split; [|repeat constructor; cbn; lia]. split; [|split; [|exact H]].
  - repeat constructor; cbn; rewrite ?zlen_ztake, ?zlen_zdrop; lia.
  - unfold input_bytes, piped. cbn [sy_path sy_reads]. rewrite !piped_bytes.
    assert (X : forall k (l m : list Z), 0 < k -> m = zdrop k l -> match ztake k l with [] => [] | _ => ztake k l ++ m end = l).
    { intros k l m K ->. destruct l as [|x l]; [unfold ztake; rewrite firstn_nil; reflexivity|].
      pose proof (firstn_skipn (Z.to_nat k) (x :: l)) as F. change (ztake k (x :: l) ++ zdrop k (x :: l) = x :: l) in F. destruct (ztake k (x :: l)) as [|y r] eqn:E; [|exact F].
      unfold ztake in E. destruct (Z.to_nat k) eqn:Ek; [lia|discriminate E]. }
    apply X; [lia|]. apply X; [lia|]. destruct (zdrop 9000 (zdrop 100 out)) as [|y r]; [reflexivity|]. rewrite app_nil_r. reflexivity.
Qed.

(** The command by itself and behind filter-service: the three exit codes, the
    lengths of the output of filter-service and of the trace, and whether the
    standard outputs are the same. *)
Definition compared (stream : list packet) (sid : Z) (c : command) (n : nat) : option (Z * Z * Z * Z * Z * bool) :=
  let lib := CommandProps.case_lib stream in
  match main lib (CommandProps.case_sys stream) (FilterService sid) n with
  | Some (Ok e1) =>
      match main lib (CommandProps.case_sys stream) c n, main (with_packet lib (case_told stream (sid mod 2 ^ 16))) (piped (en_stdout e1)) c n with
      | Some (Ok e), Some (Ok e') =>
          Some (en_code e1, en_code e', en_code e, zlen (en_stdout e1), zlen (en_trace e'), if list_eq_dec Z.eq_dec (en_stdout e) (en_stdout e') then true else false)
      | _, _ => None
      end
  | _ => None
  end.

Ltac each Iq Ht fin := repeat (destruct Iq as [<-|Iq]; [cbn in Ht; repeat (destruct Ht as [<-|Ht]; [fin|]); destruct Ht|]); destruct Iq.
Ltac placed := intros _; cbn; split; [exact I|]; intros u q E; first [discriminate E | injection E as _ <-; cbn; lia].

(** mirakc-arib filter-program as in C90, with and without filter-service in front
    of it; the stream ends with a PAT without the service. *)
Example C94_case_program : let stream := PipeProps.stream2 in let lib := CommandProps.case_lib stream in
  pipes lib (case_told stream 101) 101 (PipeProps.demo_packets 0 stream) /\ has_input (CommandProps.case_sys stream) (PipeProps.demo_packets 0 stream) 4000 /\
  compared stream 101 (FilterProgram CommandProps.case_args) 4000 = Some (1, 0, 0, 188 * 16, 0, true).
Proof.
  intros stream lib.
  assert (B : forall p, In p stream -> 0 <= p_pid p < 8192) by (intros p H; repeat (destruct H as [<-|H]; [cbn; lia|]); destruct H).
  split; [|split].
  - apply (case_pipes stream 101 B).
    + intros p H; repeat (destruct H as [<-|H]; [split; [first [left; reflexivity|right; reflexivity]|reflexivity]|]); destruct H.
    + change (101 mod 2 ^ 16) with 101. intros p t Iq Ht. each Iq Ht ltac:(first [placed | cbn; intros X; discriminate X]).
    + change (101 mod 2 ^ 16) with 101. intros p t Iq Ht. each Iq Ht ltac:(first [intros [X|X]; discriminate X | intros _; split; reflexivity]).
    + apply Nat.ltb_lt. reflexivity.
    + vm_compute. reflexivity.
  - destruct CommandProps.C90_program_case as (_ & _ & X & _). exact X.
  - vm_compute. reflexivity.
Qed.

(** record-service: here the exit code of the command by itself is that of
    filter-service, 1, and that of the process behind it is 0. *)
Example C94_case_record : let stream := PipeProps.stream3 in let lib := CommandProps.case_lib stream in
  pipes lib (case_told stream 101) 65637 (PipeProps.demo_packets 0 stream) /\ has_input (CommandProps.case_sys stream) (PipeProps.demo_packets 0 stream) (Nat.mul 20 1000) /\
  compared stream 65637 (RecordService 65637 (MainProps.letters "rec"%string) 8192 2 (Some 8192)) (Nat.mul 20 1000) = Some (1, 0, 1, 188 * 101, 19, true).
Proof.
  intros stream lib.
  assert (B : forall p, In p stream -> 0 <= p_pid p < 8192) by (intros p H; repeat (destruct H as [<-|H]; [cbn; lia|]); destruct H).
  split; [|split].
  - apply (case_pipes stream 65637 B).
    + intros p H; repeat (destruct H as [<-|H]; [split; [first [left; reflexivity|right; reflexivity]|reflexivity]|]); destruct H.
    + change (65637 mod 2 ^ 16) with 101. intros p t Iq Ht. each Iq Ht ltac:(first [placed | cbn; intros X; discriminate X]).
    + change (65637 mod 2 ^ 16) with 101. intros p t Iq Ht. each Iq Ht ltac:(first [intros [X|X]; discriminate X | intros _; split; reflexivity]).
    + apply Nat.ltb_lt. reflexivity.
    + vm_compute. reflexivity.
  - destruct CommandProps.C90_record_case as (X & _). exact X.
  - vm_compute. reflexivity.
Qed.
