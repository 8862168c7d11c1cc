(** C83: the text of print-pes. *)
From Coq Require Import ZArith Ascii String List Bool Lia.
From Verif Require Import Base.Outcome Base.Util Model.Ts Model.Sink Model.FileSource Model.Pcr Model.PesPrinter Model.PesText Model.Commands.
From Verif Require Import Spec.SourceSpec Spec.PipeSpec Spec.PesSpec Spec.PesTextSpec.
From Verif Require Import Proofs.PesTextProofs Props.PesProps Props.JsonProps.
Import ListNotations.
Open Scope string_scope.
Open Scope Z_scope.

(** Every line has three columns, 23 and 14 characters wide and the rest: the
    time or blanks, the PCR or blanks, and the message. *)
Theorem C83_columns : forall show l, legible show -> printable l -> exists c1 c2 m,
  pp_text show l = c1 ++ "|" ++ c2 ++ "|" ++ m ++ String line_feed "" /\ String.length c1 = 23%nat /\ String.length c2 = 14%nat /\
  time_column show l c1 /\ pcr_column l c2 /\ says show l m.
Proof. exact text_columns. Qed.
Print Assumptions C83_columns.

(** No two lists of lines have the same text. *)
Theorem C83_read_back : forall show, legible show -> forall ls ls', Forall printable ls -> Forall printable ls' ->
  pp_output show ls = pp_output show ls' -> ls = ls'.
Proof. exact output_inj. Qed.
Print Assumptions C83_read_back.

Lemma output_texts : forall show ls, Forall printable ls ->
  pp_output show ls = String.concat "" (map (pp_text show) ls) /\ Forall2 (written show) ls (map (pp_text show) ls).
Proof.
  intros show ls F. split.
  - induction ls as [|l ls IH]; [reflexivity|]. inversion_clear F as [|? ? P F']. cbn [pp_output map]. rewrite IH by exact F'.
    destruct ls as [|l' ls]; cbn [map String.concat append]; [|reflexivity].
    clear. generalize (pp_text show l). induction s as [|c s IH]; cbn; [reflexivity|]. rewrite IH. reflexivity.
  - induction F as [|l ls P F IH]; cbn [map]; constructor; [apply text_written; exact P|exact IH].
Qed.

(** print-pes, from the bytes of the file to the text: one line of text for each
    of the lines of C76, in order, and nothing else; and the text tells which
    lines they are. *)
Theorem C83_print_pes : forall show view reads bs n, legible show ->
  Forall read_ok reads -> packets_of (bytes_of reads) bs -> (List.length (bytes_of reads) < n)%nat ->
  (forall p, In p (views view [] bs) -> proper p /\ in_range p /\ narrow p) ->
  exists seen s h texts, print_pes_main view reads n = Some (Ok (0, (seen, s))) /\
    takes (views view [] bs) h /\ pp_output show (pp_out s) = String.concat "" texts /\
    Forall2 (written show) (printed (received [] h)) texts /\
    (forall ls, Forall printable ls -> pp_output show ls = pp_output show (pp_out s) -> ls = printed (received [] h)).
Proof.
  intros show view reads bs n L R Pk Hn Pr.
  destruct (C76_print_pes view reads bs n R Pk Hn) as (seen & s & h & M & V & O).
  { intros p I. destruct (Pr p I) as (A & B & _). auto. }
  assert (F : Forall printable (printed (received [] h))).
  { apply printed_printable, received_fair; [|constructor]. intros p I. destruct (Pr p) as (_ & A & B); [|auto].
    destruct V as ((rest & V & _) & _). rewrite V. apply in_or_app. auto. }
  destruct (output_texts show _ F) as [A B].
  exists seen, s, h, (map (pp_text show) (printed (received [] h))). rewrite O.
  split; [exact M|]. split; [exact V|]. split; [exact A|]. split; [exact B|]. intros ls Pl E. exact (output_inj show L _ _ Pl F E).
Qed.
Print Assumptions C83_print_pes.

(** A way to write times: the milliseconds since the beginning of the era. *)
Definition plain (t : Z) : string := fmt_dec 23 (t + 2 ^ 27).
Example C83_legible : legible plain.
Proof.
  assert (N : forall t, era t -> numeral 10 23 (t + 2 ^ 27) (plain t)).
  { intros t E. apply fmt_dec_numeral; [lia|]. unfold era in E. unfold small. lia. }
  split.
  - intros t E. pose proof (N t E) as X. split; [|split].
    + unfold plain. rewrite dec_is. unfold numstr. rewrite str_length, app_length, repeat_length. cbn [String.length].
      assert (D : forall f n, (List.length (digits 10 f n) <= f)%nat).
      { induction f as [|f IH]; intros n; cbn [digits]; [apply le_n|]. destruct (n <? 10); cbn; [lia|]. specialize (IH (n / 10)). lia. }
      specialize (D 20%nat (t + 2 ^ 27)). lia.
    + apply (numeral_no _ _ _ _ _ X). reflexivity.
    + destruct X as [X _]. destruct (plain t) as [|c r] eqn:Ep.
      * exfalso. revert Ep. unfold plain. rewrite dec_is. unfold numstr. intros Ep. apply (f_equal String.length) in Ep.
        rewrite str_length, app_length, repeat_length in Ep. cbn [String.length] in Ep. lia.
      * exists c, r. split; [reflexivity|]. intros ->. cbn in X. discriminate X.
  - intros t u Et Eu E. pose proof (N t Et) as A. pose proof (N u Eu) as B. rewrite E in A. pose proof (numeral_inj _ _ _ _ _ A B). lia.
Qed.

(** The lines of the case of C56, with dates for the times that occur. *)
Definition dated (t : Z) : string :=
  if t =? 60287 * 86400000 then "2023/12/09 00:00:00.000"
  else if t =? 60287 * 86400000 + 500 then "2023/12/09 00:00:00.500"
  else if t =? 60287 * 86400000 + 1000 then "2023/12/09 00:00:01.000"
  else if t =? 60287 * 86400000 + 50 then "2023/12/09 00:00:00.050"
  else "2023/12/09 00:30:00.000".
Definition wordb (n : Z) : bool := (0 <=? n) && (n <? 2 ^ 16).
Definition narrowb (p : packet) : bool :=
  wordb (p_pid p) &&
  forallb (fun x =>
    match tb_body x with
    | TPat (Some t) => wordb (pat_version t) && forallb (fun e => wordb (fst e) && wordb (snd e)) (pat_entries t)
    | TCat (Some t) => wordb (cat_version t)
    | TPmt (Some m) => wordb (pmt_sid m) && wordb (pmt_version m) && wordb (pmt_pcr_pid m) &&
        forallb (fun e => wordb (fst e) && wordb (es_type (snd e))) (pmt_entries m)
    | TEit (Some e) => wordb (eit_sid e) && wordb (eit_version e) && wordb (Z.of_nat (List.length (eit_events e))) &&
        forallb (fun v => wordb (ev_id v)) (eit_events e)
    | _ => true
    end) (p_tabs p 0).
Lemma narrow_ok : forall p, narrowb p = true -> narrow p.
Proof.
  assert (W : forall n, wordb n = true -> word n).
  { intros n H. apply andb_prop in H as [H1 H2]. apply Z.leb_le in H1. apply Z.ltb_lt in H2. split; assumption. }
  intros p H. apply andb_prop in H as [H1 H2]. split; [auto|]. intros x I. apply (proj1 (forallb_forall _ _) H2) in I.
  destruct (tb_body x) as [[t|]|[t|]|[m|]|[e|]|[t|]|[d|]|[n|]|]; auto.
  - apply andb_prop in I as [A B]. split; [auto|]. intros sid pid J. apply (proj1 (forallb_forall _ _) B) in J. apply andb_prop in J as [J K]. auto.
  - apply andb_prop in I as [A B]. apply andb_prop in A as [A C]. apply andb_prop in A as [A D]. do 3 (split; [auto|]).
    intros pid v J. apply (proj1 (forallb_forall _ _) B) in J. apply andb_prop in J as [J K]. auto.
  - apply andb_prop in I as [A B]. apply andb_prop in A as [A C]. apply andb_prop in A as [A D]. do 3 (split; [auto|]).
    intros v J. apply (proj1 (forallb_forall _ _) B) in J. auto.
Qed.
Example C83_case :
  (forall p, In p pes_case -> proper p /\ in_range p /\ narrow p) /\
  exists s, FeedPackets (list_source packet) pp_sink 10 pes_case pp_init = Some (Ok (0, s)) /\
  map (pp_text dated) (pp_out s) = map (fun t => t ++ String line_feed "")
  [ "                       |0000000007+000|PES#0111 PTS";
    "                       |              |PAT: V#0 PID#0000";
    "                       |              |  SID#0001 => PMT#0100";
    "                       |              |PMT: SID#0001 PCR#0101 V#3";
    "                       |              |  PES#0111 => Video#02";
    "                       |              |  PES#0112 => Audio#0F";
    "                       |              |  PES#0130 => ARIB-Subtitle#06";
    "                       |0000090000+000|PCR#0101";
    "                       |0000090000+000|Video#0111 PTS";
    "2023/12/09 00:00:00.000|              |TOT";
    "2023/12/09 00:00:01.000|0000180000+000|Video#0111 PTS";
    "2023/12/09 00:00:00.500|0000135000+000|Video#0111 DTS";
    "                       |              |EIT p/f Actual: SID#0001 V#2";
    "                       |              |  Event[0]: EID#0009 2023/12/09 00:00:00.000 - 2023/12/09 00:30:00.000 (30m)";
    "2023/12/09 00:00:00.050|0000094500+000|PCR#0101" ].
Proof.
  split.
  - intros p I. pose proof (proj1 C56_case p I) as [A B]. split; [exact A|]. split; [exact B|].
    apply narrow_ok. revert p I A B. assert (X : forallb narrowb pes_case = true) by (vm_compute; reflexivity).
    intros p I _ _. exact (proj1 (forallb_forall _ _) X p I).
  - eexists. split; [vm_compute; reflexivity|]. vm_compute. reflexivity.
Qed.
