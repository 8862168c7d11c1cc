(** No gaps within a PID, from the input file to standard output. *)
From Coq Require Import ZArith Lia List Bool.
From Verif Require Import Base.Outcome Base.Util Model.Sink Model.FileSource Model.StdoutSink Model.Ts Model.ServiceFilter
  Model.RingFileSink Model.ServiceRecorder Model.ProgramFilter Model.StartSeeker Model.Commands
  Spec.FeedSpec Spec.SourceSpec Spec.StdoutSpec Spec.FilterSpec Spec.TuneSpec Spec.TransSpec Spec.FileSpec Spec.PipeSpec Spec.ProgramSpec Spec.ContinuitySpec
  Proofs.FilterProofs Proofs.FilterMain Proofs.ProgramMain Proofs.PipeProofs Proofs.PipeProgram Proofs.PipeRecord Proofs.PipeSeek
  Proofs.ContinuityProofs Proofs.ContinuityProgram.
From Verif Require Spec.RecorderSpec Spec.SeekSpec Props.RecorderProps Props.SeekProps Props.PipeProps.
Import ListNotations.
Open Scope Z_scope.

Lemma stretch_map : forall A B (f : A -> B) l m, stretch l m -> stretch (map f l) (map f m).
Proof. intros A B f l m (a & b & ->). exists (map f a), (map f b). rewrite !map_app. reflexivity. Qed.

Section Bytes.
Variable view : list (list Z) -> list Z -> packet.
Variable bytes : packet -> list Z.
Hypothesis F : faithful view bytes.

Lemma on_views : forall pid bs h, Forall ts_packet bs -> map bytes (on pid (views view h bs)) = on_bytes pid bs.
Proof.
  induction bs as [|b bs IH]; intros h T; [reflexivity|]. inversion T as [|? ? T1 T2]; subst. cbn [views]. rewrite on_cons, map_app, IH by exact T2.
  unfold on_bytes. cbn [filter]. destruct F as (F1 & F2 & _). rewrite (F2 h b T1). destruct (pid_bytes b =? pid); [|reflexivity].
  cbn [map]. rewrite (F1 h b T1). reflexivity.
Qed.

Lemma service_main : forall sid reads bs writes n code seen s w,
  Forall read_ok reads -> Forall is_byte (bytes_of reads) -> packets_of (bytes_of reads) bs ->
  Forall no_error writes -> (List.length (bytes_of reads) < n)%nat ->
  filter_service_main view bytes sid reads writes n = Some (Ok (code, (seen, (s, w)))) ->
  exists out, so_out w = concat (map bytes out) /\ Forall made_pat (on 0 out) /\
    forall pid, pid <> 0 -> unvarying (sid mod 2 ^ 16) pid (tables 0 (views view [] bs)) ->
      stretch (map bytes (on pid out)) (on_bytes pid bs).
Proof.
  intros sid reads bs writes n code seen s w R B Pk W Hn E. destruct F as (F1 & F2 & Fz).
  destruct (filter_service_exact view bytes Fz sid reads bs writes n R Pk W Hn) as [out [e [h [Fl A]]]].
  exists out. split; [|split; [eapply service_pats; exact Fl|]].
  - destruct e; try (destruct A as [c' [se [s' [w' [A [_ O]]]]]]; rewrite E in A; injection A as <- <- <- <-; exact O).
    rewrite E in A. discriminate.
  - intros pid N U. rewrite <- (on_views pid bs []) by (eapply packets_are; eauto). apply stretch_map.
    eapply service_stretch; [exact Fl|exact N|exact U].
Qed.

(** Tables of the packets the service filter hands on. *)
Lemma tables_mid : forall sid ps mid e h x, filtered sid None 0 anything [] tt ps mid e h tt -> In x (tables 1 mid) ->
  (In x (tables 1 ps) /\ fst x <> 0) \/
  (exists t mp y, x = (0, TPat (Some (only_service sid t mp))) /\ In y (tables 0 ps) /\ listing sid y = Some (t, mp)).
Proof.
  intros sid ps mid e h x Fl Hx. unfold tables in Hx. apply in_flat_map in Hx as (q & Hq & Hx). apply in_map_iff in Hx as (t & <- & Ht).
  destruct (filtered_origin sid None 0 (fun y => In y (tables 0 ps)) anything [] tt ps mid e h tt Fl ltac:(intros y []) ) with (q := q)
    as [[Hi N]|(p & u & mp & y & Hp & Zp & -> & Qy & L)]; [|exact Hq| |].
  - intros p u Hp Hu. unfold tables. apply in_flat_map. exists p. split; [exact Hp|]. apply in_map_iff. exists u. auto.
  - left. split; [|exact N]. unfold tables. apply in_flat_map. exists q. split; [exact Hi|]. apply in_map_iff. exists t. auto.
  - right. exists u, mp, y. cbn in Ht. apply repeat_spec in Ht. subst t. auto.
Qed.

Section Pmts.
Variable npackets : pmt -> nat.
Hypothesis some_packets : forall m, (1 <= npackets m)%nat.

Lemma program_main : forall sid o reads bs writes n code seen s t w, sane_option o -> pfo_sid o = sid mod 2 ^ 16 ->
  Forall read_ok reads -> Forall is_byte (bytes_of reads) -> packets_of (bytes_of reads) bs ->
  Forall no_error writes -> (List.length (bytes_of reads) < n)%nat -> Forall (sane_packet 1) (views view [] bs) ->
  filter_program_main view bytes npackets sid o reads writes n = Some (Ok (code, (seen, (s, (t, w))))) ->
  exists mid e h out, filtered (sid mod 2 ^ 16) None 0 anything [] tt (views view [] bs) mid e h tt /\
    so_out w = concat (map bytes out) /\
    (forall pid, pid <> 0 -> pid <> 0x1FFF -> unvarying (sid mod 2 ^ 16) pid (tables 0 (views view [] bs)) ->
      (forall x, In x (tables 0 (views view [] bs) ++ tables 1 (views view [] bs)) -> left_alone o pid x) ->
      stretch (map bytes (on pid out)) (on_bytes pid bs)) /\
    ((forall x, In x (tables 0 (views view [] bs) ++ tables 1 (views view [] bs)) -> left_alone o 0 x) ->
      Forall made_pat (on 0 out) /\ stretch (on 0 out) (on 0 mid)) /\
    (forall mpid, mpid <> 0 ->
      (forall x, In x (tables 0 (views view [] bs)) -> forall u q, listing (sid mod 2 ^ 16) x = Some (u, q) -> q = mpid) ->
      (forall x, In x (tables 1 (views view [] bs)) -> forall m, service_pmt (sid mod 2 ^ 16) x = Some m -> fst x = mpid /\ pmt_pcr_pid m <> mpid) ->
      Forall made_pmt (on mpid out) /\ in_turn (pmt_order npackets) (on mpid out)).
Proof.
  intros sid o reads bs writes n code seen s t w So Es R B Pk W Hn Sn E. pose proof (proj2 (proj2 F)) as Fz.
  destruct (filter_program_exact view bytes Fz npackets some_packets sid o reads bs writes n So R Pk W Hn Sn) as (mid & e & h & out & e' & h' & Fl & T & A).
  exists mid, e, h, out. split; [exact Fl|]. split.
  { assert (G : (exists code seen s t w, filter_program_main view bytes npackets sid o reads writes n = Some (Ok (code, (seen, (s, (t, w))))) /\ so_out w = concat (map bytes out)) ->
      so_out w = concat (map bytes out)).
    { intros (c & se & s' & t' & w' & A' & O). rewrite E in A'. injection A' as <- <- <- <- <-. exact O. }
    destruct e' as [| | |f]; [destruct e as [| | |f]| | |]; try (rewrite E in A; discriminate A);
      destruct A as (c & se & s' & t' & w' & A' & O & _); apply G; eauto 10. }
  assert (La : forall pid, (forall x, In x (tables 0 (views view [] bs) ++ tables 1 (views view [] bs)) -> left_alone o pid x) ->
    forall x, In x (tables 1 mid) -> left_alone o pid x).
  { intros pid L x Hx. destruct (tables_mid _ _ _ _ _ _ Fl Hx) as [[Hi _]|(u & mp & y & -> & Hy & Ly)]; [apply L; apply in_or_app; auto|].
    destruct (L y) as (L1 & _ & _); [apply in_or_app; auto|]. rewrite Es in L1. destruct (only_service_lists _ _ _ _ Ly) as [U P].
    split; [|split; [intros m C; cbn in C; discriminate|intros _ m C; cbn in C; discriminate]].
    intros v q C. rewrite Es in C. unfold listing in C. rewrite U, P in C. injection C as _ <-. apply (L1 u). exact Ly. }
  split; [|split].
  - intros pid N Nn U L. rewrite <- (on_views pid bs []) by (eapply packets_are; eauto). apply stretch_map.
    eapply stretch_trans; [eapply program_stretch; [exact T|exact Nn|apply La; exact L]|]. eapply service_stretch; [exact Fl|exact N|exact U].
  - intros L. assert (S : stretch (on 0 out) (on 0 mid)) by (eapply program_stretch; [exact T|discriminate|apply La; exact L]).
    split; [|exact S]. pose proof (service_pats _ _ _ _ _ _ _ _ _ _ _ Fl) as M. destruct S as (a & b & Em). rewrite Em in M.
    apply Forall_app in M as [_ M]. apply Forall_app in M as [M _]. exact M.
  - intros mpid N0 L0 L1. eapply program_pmts; [exact some_packets|exact N0|exact T|]. intros x Hx. rewrite Es.
    destruct (tables_mid _ _ _ _ _ _ Fl Hx) as [[Hi Nx]|(u & mp & y & -> & Hy & Ly)].
    + split; [|intros m; apply (L1 x Hi)]. intros v q C. exfalso. destruct x as [xp xb]. cbn [fst] in Nx.
      unfold listing, usable_pat in C. destruct xb as [[v0|]| | | | | | |]; try discriminate. destruct (Z.eqb_spec xp 0); [contradiction|discriminate].
    + destruct (only_service_lists _ _ _ _ Ly) as [U P]. split; [|intros m C; cbn in C; discriminate].
      intros v q C. unfold listing in C. rewrite U, P in C. injection C as _ <-. eapply L0; eauto.
Qed.
End Pmts.

(** record-service *)
Lemma record_stretch : forall sid stage local h ops ps r, RecorderSpec.record sid stage local h ops ps r ->
  forall l, r = Some l -> exists a, ps = a ++ l.
Proof.
  induction 1 as [|h ops p ps ts h' ops'|h ops p ps ts h' ops' r A N Nr R IH]; intros l E; [discriminate| |].
  - injection E as <-. exists [p]. reflexivity.
  - destruct (IH l E) as [a ->]. exists (p :: a). reflexivity.
Qed.

Lemma record_main : forall local sid o ops s0 reads bs n code seen t s,
  valid_geometry (rco_chunk_size o) (rco_num_chunks o) (rco_start_pos o) -> rc_new o ops = Ok s0 ->
  Forall read_ok reads -> Forall is_byte (bytes_of reads) -> packets_of (bytes_of reads) bs -> (List.length (bytes_of reads) < n)%nat ->
  record_service_main view bytes sid o local s0 reads n = Some (Ok (code, (seen, (t, s)))) ->
  (rco_start_pos o <> 0 /\ RecorderSpec.ring_calls (rc_trace s) = [EvSeekFail]) \/
  exists out ok, rg_session (rco_chunk_size o) (rco_num_chunks o) (rco_start_pos o) ops (map bytes out)
      = Ok (rc_ring s, RecorderSpec.ring_calls (rc_trace s), ok) /\ Forall made_pat (on 0 out) /\
    forall pid, pid <> 0 -> unvarying (sid mod 2 ^ 16) pid (tables 0 (views view [] bs)) ->
      stretch (map bytes (on pid out)) (on_bytes pid bs).
Proof.
  intros local sid o ops s0 reads bs n code seen t s V N R B Pk Hn E.
  destruct (PipeProps.C63_record_service view bytes local sid o ops s0 reads bs n code seen t s V N R Pk Hn E) as (mid & e & h & c & Fl & Rn & _).
  destruct (RecorderProps.C36_records _ _ _ _ _ _ _ _ Rn) as [K|(r & Rc & Sn & _)]; [left; exact K|]. right.
  set (out := match r with Some l => l | None => [] end) in *.
  assert (Sf : exists a b, mid = a ++ out ++ b).
  { destruct r as [l|]; [|exists mid, []; unfold out; rewrite app_nil_r; reflexivity]. destruct (record_stretch _ _ _ _ _ _ _ Rc l eq_refl) as [a ->].
    exists a, []. unfold out. rewrite app_nil_r. reflexivity. }
  exists out, (c =? 0). split; [exact Sn|]. destruct Sf as (a & b & Em). split.
  - pose proof (service_pats _ _ _ _ _ _ _ _ _ _ _ Fl) as M. rewrite Em, !on_app in M. apply Forall_app in M as [_ M]. apply Forall_app in M as [M _]. exact M.
  - intros pid N0 U. rewrite <- (on_views pid bs []) by (eapply packets_are; eauto). apply stretch_map.
    eapply stretch_trans; [|eapply service_stretch; [exact Fl|exact N0|exact U]]. rewrite Em, !on_app. eexists. eexists. reflexivity.
Qed.

(** seek-start *)
Lemma transition_new : forall o ts pid h j, SeekSpec.transition o (rev (map (fun t => (pid, t)) ts) ++ h) j -> (forall i, ~ SeekSpec.transition o h i) ->
  exists t, In t ts /\ tb_first t = j /\ service_pmt (sso_sid o) (pid, tb_body t) <> None.
Proof.
  intros o ts pid h j. rewrite <- map_rev. assert (I : forall t, In t (rev ts) -> In t ts) by (intros t; rewrite <- in_rev; auto). revert I.
  generalize (rev ts). intros us. induction us as [|t us IH]; cbn [map app]; intros I T N; [exfalso; eapply N; exact T|].
  inversion T as [x r C Ex Ej|x r i C T' Ex Ej]; subst.
  - exists t. split; [apply I; cbn; auto|]. split; [reflexivity|]. destruct C as (m0 & m & _ & S & _). cbn [fst snd] in S. congruence.
  - apply IH; [intros u Hu; apply I; cbn; auto|exact T'|exact N].
Qed.

Lemma znth_In : forall A (l : list A) i x, znth i l = Some x -> In x l.
Proof. intros A l i x E. unfold znth in E. destruct (i <? 0); [discriminate|]. eapply nth_error_In. exact E. Qed.

Lemma zdrop_suffix : forall A (l : list A) j, exists a, l = a ++ zdrop j l.
Proof. intros A l j. exists (ztake j l). symmetry. apply ztake_zdrop. Qed.

Lemma seek_stretch : forall o stage ps r pid, SeekSpec.orderly o stage ps -> SeekSpec.seek o stage [] None 0 ps r -> pid <> 0 ->
  (forall x, In x (tables stage ps) -> service_pmt (sso_sid o) x <> None -> fst x <> 0) ->
  stretch (on pid (SeekSpec.seek_output ps r)) (on pid ps).
Proof.
  intros o stage ps r pid Od Sk N T. destruct r as [m|i j m]; cbn [SeekSpec.seek_output].
  - exists [], []. rewrite app_nil_r. reflexivity.
  - destruct (SeekProps.C30_cut o stage ps i j m Od Sk) as (p & ts & ha & Zp & He & Nt & Tr & Lj & Li & q & Zq & C).
    destruct (transition_new o ts (p_pid p) ha j Tr Nt) as (t & Ht & Ej & Sp).
    assert (Hp : In t (p_tabs p stage)).
    { destruct He as [[_ ->]|[_ ->]]; [exact Ht|destruct Ht]. }
    pose proof (znth_In _ _ _ _ Zp) as Ip.
    destruct (Od (m - 1) p Zp) as [_ Q]. destruct (Q t Hp) as (_ & _ & (q' & Zq' & Eq) & _). rewrite Ej, Zq in Zq'. injection Zq' as <-.
    destruct C as (a & Za & Pa).
    { rewrite Eq. apply (T (p_pid p, tb_body t)); [|exact Sp]. unfold tables. apply in_flat_map. exists p. split; [exact Ip|]. apply in_map_iff. exists t. auto. }
    rewrite Za, on_app, (on_none pid [a]); [|intros x [<-|[]]; congruence]. cbn [app].
    destruct (zdrop_suffix _ ps j) as [b Eb]. rewrite Eb at 2. rewrite on_app. exists (on pid b), []. rewrite app_nil_r. reflexivity.
Qed.

Lemma seek_main : forall o reads bs writes n, Forall read_ok reads -> Forall is_byte (bytes_of reads) -> packets_of (bytes_of reads) bs -> Forall no_error writes ->
  (List.length (bytes_of reads) < n)%nat -> SeekSpec.orderly o 0 (views view [] bs) -> SeekSpec.sane_seek o ->
  (forall x, In x (tables 0 (views view [] bs)) -> service_pmt (sso_sid o) x <> None -> fst x <> 0) ->
  exists out seen s w, seek_start_main view bytes o reads writes n = Some (Ok (0, (seen, (s, w)))) /\ so_out w = concat (map bytes out) /\
    forall pid, pid <> 0 -> stretch (map bytes (on pid out)) (on_bytes pid bs).
Proof.
  intros o reads bs writes n R B Pk W Hn Od Sn T. pose proof (proj2 (proj2 F)) as Fz.
  destruct (PipeProps.C64_seek_start view bytes Fz o reads bs writes n R Pk W Hn Od Sn) as (r & seen & s & w & Sk & E & O).
  exists (SeekSpec.seek_output (views view [] bs) r), seen, s, w. split; [exact E|]. split; [exact O|].
  intros pid N. rewrite <- (on_views pid bs []) by (eapply packets_are; eauto). apply stretch_map. eapply seek_stretch; eauto.
Qed.
End Bytes.
