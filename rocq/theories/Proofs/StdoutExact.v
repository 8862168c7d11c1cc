(** Exactly what reaches standard output. *)
From Coq Require Import ZArith Lia List Bool ZifyBool.
From Verif Require Import Base.Outcome Base.Util Model.Sink Model.FileSource Model.StdoutSink Spec.SourceSpec Spec.StdoutSpec Proofs.SourceProofs Proofs.StdoutProofs.
Import ListNotations.
Open Scope Z_scope.

Lemma zlen_0 : forall A (l : list A), zlen l = 0 <-> l = [].
Proof. intros A [|a l]; [split; reflexivity|]. rewrite zlen_cons. pose proof (zlen_nonneg _ l). split; [lia|discriminate]. Qed.

Lemma flush_puts : forall writes buf rest out s ok, so_flush buf rest writes out = (s, ok) ->
  exists o, puts writes rest o ok (so_writes s) /\ so_out s = out ++ o /\ so_buf s = if ok then [] else buf.
Proof.
  induction writes as [|w writes IH]; intros buf rest out s ok H; cbn [so_flush] in H; destruct (Z.eqb_spec (zlen rest) 0) as [E|E].
  - apply zlen_0 in E as ->. injection H as <- <-. exists []. rewrite app_nil_r. split; [constructor|auto].
  - injection H as <- <-. exists rest. split; [constructor; rewrite <- zlen_0; exact E|auto].
  - apply zlen_0 in E as ->. injection H as <- <-. exists []. rewrite app_nil_r. split; [constructor|auto].
  - rewrite zlen_0 in E. destruct w as [n|].
    + apply IH in H as [o [P [O B]]]. exists (ztake n rest ++ o). split; [constructor; auto|]. rewrite app_assoc. auto.
    + injection H as <- <-. exists []. rewrite app_nil_r. split; [constructor; auto|auto].
Qed.

Lemma run_copies : forall ps s, zlen (so_buf s) < 16384 -> Forall is_packet ps ->
  exists s' ok o, so_run s ps = Ok (s', ok) /\ so_out (so_End s') = so_out s ++ o /\ copies (so_writes s) (so_buf s ++ concat ps) o.
Proof.
  induction ps as [|p ps IH]; intros s Hb Hp; cbn [so_run concat].
  - destruct (so_Flush s) as [s2 ok] eqn:E. assert (E' : so_End s = s2) by (unfold so_End; rewrite E; reflexivity).
    apply flush_puts in E as [o [P [O _]]]. exists s, true, o. split; [reflexivity|]. rewrite app_nil_r, E'. split; [exact O|eapply copies_last; eauto].
  - inversion Hp as [|? ? P1 P2]; subst. unfold so_HandlePacket, is_packet in *. szs. pose proof (zlen_nonneg _ (so_buf s)) as Hb0.
    destruct (Z.ltb_spec (zlen (so_buf s) + 188) 16384) as [H|H].
    + cbn [bind]. destruct (IH (mkStdout (so_buf s ++ p) (so_writes s) (so_out s))) as [s' [ok [o [R [O C]]]]]; [cbn [so_buf]; rewrite zlen_app; lia|exact P2|].
      exists s', ok, o. split; [exact R|]. split; [exact O|]. cbn [so_buf so_writes] in C. rewrite <- app_assoc in C. exact C.
    + destruct (Z.ltb_spec (16384 - zlen (so_buf s)) 0) as [H'|H']; [lia|]. cbn [so_buf].
      set (r := 16384 - zlen (so_buf s)) in *.
      assert (Hl : zlen (so_buf s ++ ztake r p) = 16384) by (rewrite zlen_app, zlen_ztake; unfold r; lia).
      assert (Hs : so_buf s ++ p ++ concat ps = (so_buf s ++ ztake r p) ++ zdrop r p ++ concat ps)
        by (rewrite <- app_assoc; f_equal; rewrite app_assoc, ztake_zdrop; reflexivity).
      assert (Tk : ztake 16384 (so_buf s ++ p ++ concat ps) = so_buf s ++ ztake r p) by (rewrite Hs, ztake_app_le by lia; apply ztake_all; lia).
      assert (Dr : zdrop 16384 (so_buf s ++ p ++ concat ps) = zdrop r p ++ concat ps) by (rewrite Hs, zdrop_app_ge, Hl by lia; reflexivity).
      assert (Ln : 16384 <= zlen (so_buf s ++ p ++ concat ps)) by (rewrite Hs, zlen_app, Hl; pose proof (zlen_nonneg _ (zdrop r p ++ concat ps)); lia).
      rewrite Hl. cbn [assert Z.eqb Pos.eqb]. unfold so_Flush. cbn [so_buf so_writes so_out].
      destruct (so_flush (so_buf s ++ ztake r p) (so_buf s ++ ztake r p) (so_writes s) (so_out s)) as [s2 ok] eqn:E.
      apply flush_puts in E as [o [Pt [O B]]]. destruct ok; cbn [negb].
      * assert (X : exists s3, (if r <? 188 then assert (zlen (so_buf s2) =? 0) (Ok (mkStdout (zdrop r p) (so_writes s2) (so_out s2), true)) else Ok (s2, true))
             = Ok (s3, true) /\ so_buf s3 = zdrop r p /\ so_writes s3 = so_writes s2 /\ so_out s3 = so_out s2).
        { rewrite B. destruct (Z.ltb_spec r 188) as [L|L]; [eexists; split; [reflexivity|auto]|].
          exists s2. split; [reflexivity|]. split; [|auto]. rewrite B. symmetry. apply zlen_0. rewrite zlen_zdrop; lia. }
        destruct X as [s3 [-> [B3 [W3 O3]]]]. cbn [bind].
        destruct (IH s3) as [s' [ok [o1 [R [O1 C]]]]]; [rewrite B3, zlen_zdrop; unfold r in *; lia|exact P2|].
        exists s', ok, (o ++ o1). split; [exact R|]. rewrite O1, O3, O, <- app_assoc. split; [reflexivity|].
        eapply copies_block; [exact Ln|rewrite Tk; exact Pt|]. rewrite Dr, <- W3, <- B3. exact C.
      * cbn [bind]. exists s2, false. unfold so_End, so_Flush.
        destruct (so_flush (so_buf s2) (so_buf s2) (so_writes s2) (so_out s2)) as [s4 ok4] eqn:E4.
        apply flush_puts in E4 as [o1 [Pt1 [O1 _]]]. exists (o ++ o1). split; [reflexivity|]. cbn [fst]. rewrite O1, O, <- app_assoc. split; [reflexivity|].
        eapply copies_failed; [exact Ln|rewrite Tk; exact Pt|]. rewrite Tk. rewrite B in Pt1. exact Pt1.
Qed.

Lemma stdout_copies : forall ps writes n, (List.length ps < n)%nat -> Forall is_packet ps ->
  exists s, FeedPackets (list_source (list Z)) stdout_sink n ps (so_init writes) = Some (Ok (0, s)) /\ copies writes (concat ps) (so_out s).
Proof.
  intros ps writes n Hn Hp. rewrite stdout_feed by exact Hn.
  destruct (run_copies ps (so_init writes)) as [s [ok [o [R [O C]]]]]; [reflexivity|exact Hp|]. rewrite R. cbn [bind].
  exists (so_End s). split; [reflexivity|]. rewrite O. exact C.
Qed.

Lemma puts_det : forall w b o ok w', puts w b o ok w' -> forall o2 ok2 w2, puts w b o2 ok2 w2 -> o2 = o /\ ok2 = ok /\ w2 = w'.
Proof.
  induction 1 as [w|b Hb|w b Hb|n w b o ok w' Hb P IH]; intros o2 ok2 w2 P2; inversion P2; subst; auto; try congruence.
  match goal with X : puts w (zdrop n b) _ _ _ |- _ => destruct (IH _ _ _ X) as [-> [-> ->]] end. auto.
Qed.
Lemma copies_det : forall w bs o, copies w bs o -> forall o', copies w bs o' -> o' = o.
Proof.
  induction 1 as [w bs o ok w' L P|w bs o w1 o1 L P C IH|w bs o w1 o1 ok w2 L P P2]; intros o' C'; inversion C'; subst; try lia;
    match goal with X : puts w ?b _ _ _, Y : puts w ?b _ _ _ |- _ => destruct (puts_det _ _ _ _ _ X _ _ _ Y) as [E1 [E2 E3]]; subst end; try discriminate; auto;
    f_equal.
  - apply IH. assumption.
  - match goal with X : puts w1 ?b _ _ _, Y : puts w1 ?b _ _ _ |- _ => destruct (puts_det _ _ _ _ _ X _ _ _ Y) as [E1 [E2' E3]]; subst end; auto.
Qed.

Lemma puts_whole : forall w b o w', puts w b o true w' -> o = b.
Proof.
  intros w b o w' P. remember true as ok eqn:E. revert E. induction P; intros E; auto; try discriminate. rewrite (IHP E). apply ztake_zdrop.
Qed.
Lemma puts_len : forall w b o ok w', puts w b o ok w' -> zlen o <= zlen b.
Proof.
  induction 1 as [w|b Hb|w b Hb|n w b o ok w' Hb P IH]; try lia; [rewrite zlen_nil; apply zlen_nonneg|].
  rewrite zlen_app. rewrite <- (ztake_zdrop _ n b) at 2. rewrite zlen_app. lia.
Qed.

(** Without an error among the results nothing is lost. *)
Lemma puts_error_used : forall w b o w', puts w b o false w' -> In WriteError w.
Proof.
  intros w b o w' P. remember false as ok eqn:E. revert E. induction P; intros E; try discriminate; [left; reflexivity|right; auto].
Qed.
Lemma puts_left : forall w b o ok w', puts w b o ok w' -> forall x, In x w' -> In x w.
Proof. induction 1; intros x Hx; auto; right; auto. Qed.
Lemma copies_complete : forall w bs o, copies w bs o -> o = bs \/ In WriteError w.
Proof.
  induction 1 as [w bs o ok w' L P|w bs o w1 o1 L P C IH|w bs o w1 o1 ok w2 L P P2].
  - destruct ok; [left; exact (puts_whole _ _ _ _ P)|right; exact (puts_error_used _ _ _ _ P)].
  - destruct IH as [-> |I]; [left; rewrite (puts_whole _ _ _ _ P); apply ztake_zdrop|right; exact (puts_left _ _ _ _ _ P _ I)].
  - right. exact (puts_error_used _ _ _ _ P).
Qed.
