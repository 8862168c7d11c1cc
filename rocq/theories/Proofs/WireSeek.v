(** seek-start behind filter-service, on bytes. *)
From Coq Require Import ZArith Lia List Bool.
From Verif Require Import Base.Outcome Base.Util Model.Sink Model.Ts Model.FileSource Model.StartSeeker Model.Main
  Spec.PcrSpec Spec.SourceSpec Spec.StdoutSpec Spec.TransSpec Spec.FilterSpec Spec.PipeSpec Spec.TuneSpec Spec.TwiceSpec Spec.SeekSpec Spec.MainSpec Spec.PipelineSpec Spec.BehindSpec Spec.SeekBehindSpec
  Spec.WireSpec Proofs.SeekBehindProofs Proofs.WireProofs.
Import ListNotations.
Open Scope Z_scope.

Lemma at_faithful : faithful wire_at wire_bytes.
Proof. split; [intros h b T; exact (wire_own h b T)|]. split; [reflexivity|exact wire_size]. Qed.

Lemma at_seen : forall mid h h', views wire_view h (map wire_bytes mid) = map again mid -> Forall2 seen_as mid (views wire_at h' (map wire_bytes mid)).
Proof.
  induction mid as [|p mid IH]; intros h h' E; [constructor|]. cbn [map views] in E. pose proof (f_equal (@tl packet) E) as R. cbn [tl] in R. pose proof (f_equal (fun l => hd p l) E) as E'. cbn [hd] in E'. clear E. rename E' into E. cbn [map views]. constructor; [|exact (IH _ _ R)].
  assert (A : p_pid (wire_view h (wire_bytes p)) = p_pid (again p)) by (rewrite E; reflexivity).
  assert (B : p_pcr (wire_view h (wire_bytes p)) = p_pcr (again p)) by (rewrite E; reflexivity).
  assert (C : p_tabs (wire_view h (wire_bytes p)) 0 = p_tabs (again p) 0) by (rewrite E; reflexivity).
  cbn [wire_view again p_pid p_pcr p_tabs] in A, B, C. unfold seen_as. cbn [wire_at p_pid p_pcr p_tabs]. split; [exact A|]. split; [exact B|].
  rewrite <- C, !map_map. reflexivity.
Qed.

Lemma at_number : forall bs h n p, znth n (views wire_at h bs) = Some p -> exists b h', p = wire_at h' b /\ zlen h' = zlen h + n.
Proof.
  induction bs as [|b bs IH]; intros h n p E; cbn [views] in E; [rewrite znth_none in E by (rewrite zlen_nil; lia); discriminate E|].
  pose proof (znth_range _ _ _ _ E) as Rn. destruct (Z.eq_dec n 0) as [->|N].
  - injection E as <-. exists b, h. split; [reflexivity|lia].
  - change (wire_at h b :: views wire_at (b :: h) bs) with ([wire_at h b] ++ views wire_at (b :: h) bs) in E. rewrite znth_app_r in E by (change (zlen [wire_at h b]) with 1; lia).
    change (zlen [wire_at h b]) with 1 in E. destruct (IH _ _ _ E) as (c & h' & -> & L). exists c, h'. split; [reflexivity|]. rewrite zlen_cons in L. lia.
Qed.
Lemma at_right : forall bs, starts_right (views wire_at [] bs).
Proof.
  intros bs n p t E I. pose proof (znth_range _ _ _ _ E) as R. destruct (at_number _ _ _ _ E) as (b & h & -> & L). rewrite zlen_nil in L.
  cbn [wire_at p_tabs] in I. apply in_map_iff in I as (x & <- & _). cbn [tb_first]. rewrite L. split; [lia|]. exists (wire_at h b). split; [exact E|reflexivity].
Qed.

Lemma pcr_positive : forall b v, ts_packet b -> pcr_bytes b = Some v -> 0 <= v.
Proof.
  intros b v [_ B] E. unfold pcr_bytes in E. destruct (_ && _ && _); [|discriminate E]. injection E as <-.
  assert (P : forall i, 0 <= at_ b i).
  { intros i. unfold at_. destruct (nth_in_or_default i b 0) as [I|D]; [|rewrite D; lia]. rewrite Forall_forall in B. apply B in I. unfold is_byte in I. lia. }
  pose proof (P 6%nat). pose proof (P 7%nat). pose proof (P 8%nat). pose proof (P 9%nat). pose proof (P 11%nat).
  pose proof (Z.div_pos (at_ b 10) 128 (P 10%nat) ltac:(lia)). pose proof (Z.mod_pos_bound (at_ b 10) 2 ltac:(lia)). lia.
Qed.

Lemma wire_seek : forall sid sys1 bs n1 e1, has_input sys1 bs n1 -> Forall is_byte (input_bytes sys1) -> Forall no_error (sy_writes sys1) ->
  main wire sys1 (FilterService sid) n1 = Some (Ok e1) ->
  well_placed (sid mod 2 ^ 16) (views wire_view [] bs) -> pat_first (sid mod 2 ^ 16) (views wire_view [] bs) ->
  (forall b v, In b bs -> pcr_bytes b = Some v -> v < pcr_cycle) ->
  forall d p sys2 n2, ~ no_limit d p -> reads_from sys2 (en_stdout e1) n2 -> Forall no_error (sy_writes sys2) ->
  let o := mkSsOption (sid mod 2 ^ 16) (match d with Some v => v | None => 0 end) (match p with Some v => v mod 2 ^ 32 | None => 0 end) in
  sane_seek o ->
  exists out e r, packets_of (en_stdout e1) out /\ main (with_packet wire wire_at) sys2 (SeekStart sid d p) n2 = Some (Ok e) /\ en_code e = 0 /\
    seek o 0 [] None 0 (views wire_at [] out) r /\
    match r with
    | Whole _ => en_stdout e = en_stdout e1
    | Cut i j _ => exists a, znth i out = Some a /\ pid_bytes a = 0 /\ 0 < j < zlen out /\ en_stdout e = a ++ concat (zdrop j out)
    end.
Proof.
  intros sid sys1 bs n1 e1 I B W M P F C. apply (seek_behind wire wire_at wire_faithful at_faithful wire_pats sid sys1 bs n1 e1 I B W M).
  pose proof (wire_ts sys1 bs n1 I B) as T. split; [exact P|]. split; [exact F|]. split.
  - intros p v Ip Ev. assert (X : exists h b, In b bs /\ p = wire_view h b).
    { clear - Ip. cbn [wire li_packet] in Ip. revert Ip. generalize (@nil (list Z)). induction bs as [|b r IH]; intros h Ip; [destruct Ip|]. cbn [views] in Ip.
      destruct Ip as [<-|Ip]; [exists h, b; split; [left|]; reflexivity|]. destruct (IH _ Ip) as (h' & c & Ic & E). exists h', c. split; [right; exact Ic|exact E]. }
    destruct X as (h & b & Ib & ->). cbn [wire_view p_pcr] in Ev. rewrite Forall_forall in T. split; [exact (pcr_positive b v (T b Ib) Ev)|exact (C b v Ib Ev)].
  - intros mid e h Fl. cbn [wire li_packet li_bytes] in *. destruct (wire_sent sid sys1 bs n1 I B P mid e h Fl) as (_ & V & _ & _).
    split; [exact (at_seen mid [] [] V)|apply at_right].
Qed.
