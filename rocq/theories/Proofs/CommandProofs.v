From Coq Require Import Ascii String ZArith Lia List Bool.
From Verif Require Spec.RecorderSpec Model.Logo Spec.LogoSpec.
From Verif Require Import Base.Outcome Base.Util Model.FileSource Model.JsonText Model.Commands Model.PosixFile Model.Main Model.ServiceRecorder Model.Documents Model.RecorderOption Model.Descriptors
  Spec.SourceSpec Spec.JsonSpec Spec.DocSpec Spec.DocumentsSpec Spec.MainSpec Proofs.JsonTextProofs Proofs.DocumentsProofs Proofs.MainProofs.
From Verif Require Proofs.ContinuityMain.
Import ListNotations.
Open Scope Z_scope.

Lemma input_the : forall sys bs n, has_input sys bs n ->
  Forall read_ok (the_reads sys) /\ packets_of (bytes_of (the_reads sys)) bs /\ (List.length (bytes_of (the_reads sys)) < n)%nat.
Proof. intros sys bs n (R & P & L). rewrite input_read. split; [apply reads_read; exact R|auto]. Qed.

Lemma report_ok : forall S code seen (s : S) out trace o, out s = Ok o ->
  report (Some (Ok (code, (seen, s)))) out trace = Some (Ok (mkEnded code o (trace s))).
Proof. intros S code seen s out trace o E. cbn [report bind snd]. rewrite E. reflexivity. Qed.

Lemma prints_ok : forall lib sys S code seen (s : S) A (R : A -> jvalue -> Prop) (f : A -> json) docs, sy_flushes sys = [] ->
  (forall d, In d (docs s) -> R d (meaning (li_decode lib) (f d)) /\ unambiguous (meaning (li_decode lib) (f d))) ->
  exists e, report_jsonl lib sys (Some (Ok (code, (seen, s)))) (fun s => map f (docs s)) = Some (Ok e) /\ en_code e = code /\ prints R (docs s) e.
Proof.
  intros lib sys S code seen s A R f docs F H. unfold report_jsonl. eexists. split; [apply report_ok; reflexivity|]. cbn [en_code en_stdout].
  split; [reflexivity|]. rewrite F, cout_all. eexists. split; [reflexivity|]. apply lines. apply Forall_forall. exact H.
Qed.
Lemma array_ok : forall decode A (R : A -> jvalue -> Prop) (f : A -> json), (forall d, R d (meaning decode (f d)) /\ unambiguous (meaning decode (f d))) ->
  forall ds, array_of R ds (meaning decode (JArray (map f ds))) /\ unambiguous (meaning decode (JArray (map f ds))).
Proof. intros decode A R f H ds. split; [|apply once_arr_map; intros; apply H]. apply every. intros; apply H. Qed.

(** The text of a logo consists of characters. *)
Lemma logo_chars : forall l d, LogoSpec.described l d -> Forall (fun b => 0 <= b < 256) (Logo.ld_data d).
Proof.
  intros l d (_ & _ & _ & _ & (png & text & _ & -> & B) & _). apply Forall_app. split.
  - apply Forall_forall. intros b H. vm_compute in H. repeat (destruct H as [<-|H]; [lia|]). contradiction.
  - destruct B as (digits & letters & pad & zeros & -> & A & _). apply Forall_app. split.
    + clear - A. induction A as [|d c ds cs E A IH]; constructor; [|exact IH]. apply ContinuityMain.znth_In in E.
      vm_compute in E. repeat (destruct E as [<-|E]; [lia|]). contradiction.
    + apply Forall_forall. intros b H. apply repeat_spec in H. subst. lia.
Qed.
Lemma said_messages : forall t, said t = RecorderSpec.messages t.
Proof. induction t as [|[m|r] t IH]; cbn; rewrite ?IH; reflexivity. Qed.

(** The messages of record-service. *)
Lemma trace_ok : forall lib t, Forall placed (RecorderSpec.messages t) -> Forall timely (RecorderSpec.messages t) ->
  exists js, trace_lines lib false t = Ok (map (json_line (li_decode lib)) js) /\
    Forall2 (message_object (li_decode lib) (li_parts lib) (li_parsers lib) "stop"%string) (RecorderSpec.messages t) (map (meaning (li_decode lib)) js) /\
    Forall unambiguous (map (meaning (li_decode lib)) js).
Proof.
  intros lib. induction t as [|[m|r] t IH]; cbn [trace_lines RecorderSpec.messages]; intros P T.
  - exists []. repeat split; constructor.
  - inversion P; inversion T; subst. destruct (message_ok (li_decode lib) (li_parts lib) (li_parsers lib) m) as (j & -> & A & B); auto.
    destruct IH as (js & -> & C & D); auto. exists (j :: js). cbn [bind map]. repeat split; constructor; auto.
  - destruct (IH P T) as (js & E & A). exists js. split; [|exact A]. destruct r; rewrite E; reflexivity.
Qed.

(** ** record-service with the standard output as its file *)
From Verif Require Import Model.RingFileSink Model.PesText.
From Verif Require Spec.FileSpec.
Lemma cout_cons : forall x ls, to_cout [] false (x :: ls) = (snd x ++ to_cout [] false ls)%list.
Proof. intros [[|] l] ls; reflexivity. Qed.
Lemma trace_shown : forall lib t ls, trace_lines lib true t = Ok ls ->
  exists texts, Forall2 shown t texts /\ to_cout [] false ls = concat texts.
Proof.
  intros lib t. induction t as [|e t IH]; intros ls H; cbn [trace_lines] in H.
  - injection H as <-. exists []. split; [constructor|reflexivity].
  - destruct e as [m|c].
    + apply bind_ok in H as (j & J & H). apply bind_ok in H as (r & R & H). injection H as <-. destruct (IH _ R) as (texts & F & E).
      exists (text_bytes (write (li_decode lib) j ++ newline) :: texts). split.
      * constructor; [|exact F]. destruct (message_types _ _ _ J) as (k & T & I).
        apply (shown_message m _ (write (li_decode lib) j ++ newline)%string (meaning (li_decode lib) j) k); [reflexivity| |exact T|exact I].
        pose proof (jsonl_read (li_decode lib) [j]) as Q. cbn [jsonl map] in Q. rewrite <- Q. f_equal. 
      * rewrite cout_cons, E. reflexivity.
    + destruct c; try (destruct (IH _ H) as (texts & F & E); exists ([] :: texts); split; [constructor; [constructor; discriminate|exact F]|exact E]).
      apply bind_ok in H as (r & R & H). injection H as <-. destruct (IH _ R) as (texts & F & E).
      exists (bytes :: texts). split; [constructor; [constructor|exact F]|]. rewrite cout_cons, E. reflexivity.
Qed.
Lemma trace_data : forall lib t ls f b, trace_lines lib true t = Ok ls -> b = true \/ (exists g, f = Some 0 :: g) ->
  to_cout f b ls = FileSpec.written (RecorderSpec.ring_calls t).
Proof.
  intros lib t. induction t as [|e t IH]; intros ls f b H B; cbn [trace_lines] in H.
  - injection H as <-. reflexivity.
  - destruct e as [m|c].
    + apply bind_ok in H as (j & J & H). apply bind_ok in H as (r & R & H). injection H as <-. unfold json_line. cbn [to_cout RecorderSpec.ring_calls].
      destruct b; [apply IH; auto|]. destruct B as [B|(g & ->)]; [discriminate|]. rewrite IH; auto.
    + destruct c; cbn [RecorderSpec.ring_calls FileSpec.written]; try (apply IH; auto; fail).
      apply bind_ok in H as (r & R & H). injection H as <-. cbn [to_cout]. rewrite (IH _ _ _ R B). reflexivity.
Qed.
Lemma main_shown : forall lib sys sid cs nc start n e, sy_flushes sys = [] -> main lib sys (RecordService sid [] cs nc start) n = Some (Ok e) ->
  exists texts, Forall2 shown (en_trace e) texts /\ en_stdout e = concat texts.
Proof.
  intros lib sys sid cs nc start n e F H. unfold main in H. destruct (load_recorder_option _ _ _) as [[[x y] z]|]; [|discriminate].
  apply report_inv in H as (seen & s & R & O & <-). apply bind_ok in O as (ls & T & O). injection O as <-. rewrite F. exact (trace_shown _ _ _ T).
Qed.
Lemma main_data : forall lib sys sid cs nc start n e f, sy_flushes sys = Some 0 :: f -> main lib sys (RecordService sid [] cs nc start) n = Some (Ok e) ->
  en_stdout e = FileSpec.written (RecorderSpec.ring_calls (en_trace e)).
Proof.
  intros lib sys sid cs nc start n e f F H. unfold main in H. destruct (load_recorder_option _ _ _) as [[[x y] z]|]; [|discriminate].
  apply report_inv in H as (seen & s & R & O & <-). apply bind_ok in O as (ls & T & O). injection O as <-. rewrite F. apply (trace_data _ _ _ _ _ T). eauto.
Qed.
