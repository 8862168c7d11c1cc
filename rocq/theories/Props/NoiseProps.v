(** C97: bytes in the input that do not belong to any packet. *)
From Coq Require Import ZArith Lia List Bool.
From Verif Require Import Base.Outcome Base.Util Model.FileSource Model.Main Spec.SourceSpec Spec.MainSpec Spec.NoiseSpec Proofs.NoiseProofs.
From Verif Require Props.PipeProps Props.CommandProps.
Import ListNotations.
Open Scope Z_scope.

(** Every command does with a noisy input what it does with the packets alone. *)
Theorem C97_noise : forall lib sys path fd reads c ps n, let sys' := other_input sys path fd reads in
  Forall read_ok (sy_reads sys) -> Forall read_ok reads -> noisy (input_bytes sys) ps -> input_bytes sys' = concat ps ->
  (List.length (input_bytes sys) < n)%nat -> (List.length (input_bytes sys') < n)%nat -> main lib sys c n = main lib sys' c n.
Proof. exact main_noisy. Qed.
Print Assumptions C97_noise.

(** One piece of noise between packets, say a packet that lost its sync byte: only
    that is lost, if four packets come after it (five if it is shorter than a
    packet). *)
Theorem C97_once : forall lib sys path fd reads c a g b tail n, let sys' := other_input sys path fd reads in
  Forall read_ok (sy_reads sys) -> Forall read_ok reads -> Forall whole a -> Forall whole b ->
  input_bytes sys = concat a ++ g ++ concat b ++ tail -> input_bytes sys' = concat (a ++ b) -> zlen tail < 188 ->
  0 < zlen g < 376 -> no_packets_in g (concat b ++ tail) -> (if (zlen g <? 188)%Z then 5 <= List.length b else 4 <= List.length b)%nat ->
  (List.length (input_bytes sys) < n)%nat -> (List.length (input_bytes sys') < n)%nat -> main lib sys c n = main lib sys' c n.
Proof. exact main_noise_once. Qed.
Print Assumptions C97_once.

(** Bytes lost from a packet or put into one: what starts with the sync byte and is
    longer than a packet counts as a packet, made of its first 188 bytes; the rest
    is noise. *)
Theorem C97_mangled : forall lib sys path fd reads c a p g b tail n, let sys' := other_input sys path fd reads in
  Forall read_ok (sy_reads sys) -> Forall read_ok reads -> Forall whole a -> whole p -> Forall whole b ->
  input_bytes sys = concat a ++ p ++ g ++ concat b ++ tail -> input_bytes sys' = concat (a ++ [p] ++ b) -> zlen tail < 188 ->
  0 < zlen g < 376 -> no_packets_in g (concat b ++ tail) -> (if (zlen g <? 188)%Z then 5 <= List.length b else 4 <= List.length b)%nat ->
  (List.length (input_bytes sys) < n)%nat -> (List.length (input_bytes sys') < n)%nat -> main lib sys c n = main lib sys' c n.
Proof. exact main_mangled. Qed.
Print Assumptions C97_mangled.

(** Otherwise everything after the noise is lost: if there are less than 940 bytes
    from its start to the end, or it goes on for 376 bytes. *)
Theorem C97_lost : forall lib sys path fd reads c a g n, let sys' := other_input sys path fd reads in
  Forall read_ok (sy_reads sys) -> Forall read_ok reads -> Forall whole a -> input_bytes sys = concat a ++ g -> input_bytes sys' = concat a ->
  ~ sync_at g 0 -> (zlen g < 940 \/ forall j, 0 <= j < 376 -> ~ synced_at g j) ->
  (List.length (input_bytes sys) < n)%nat -> (List.length (input_bytes sys') < n)%nat -> main lib sys c n = main lib sys' c n.
Proof. exact main_lost. Qed.
Print Assumptions C97_lost.

(** ** Cases *)
Lemma quiet : forall g bs, g <> [] -> forallb (fun x => negb (x =? 0x47)) g = true -> no_packets_in g bs.
Proof.
  intros g bs N H. rewrite forallb_forall in H.
  assert (X : forall j, 0 <= j < zlen g -> ~ sync_at (g ++ bs) j).
  { intros j J S. apply sync_app_l in S; [|lia]. unfold sync_at, znth in S. destruct (j <? 0); [discriminate|]. apply nth_error_In in S. specialize (H _ S). discriminate H. }
  split.
  - intros S. destruct g as [|x g]; [contradiction|]. injection S as ->. specialize (H _ (or_introl eq_refl)). discriminate H.
  - intros j J (S & _). exact (X j J S).
Qed.
Lemma demo_whole : forall stream i, Forall whole (PipeProps.demo_packets i stream).
Proof. induction stream as [|p r IH]; intros i; constructor; [split; reflexivity|apply IH]. Qed.

Definition stream := PipeProps.stream2.
Definition lib := CommandProps.case_lib stream.
Definition packets := PipeProps.demo_packets 0 stream.
Definition clean := CommandProps.case_sys stream.
Definition dirty (bs : list Z) : system := other_input clean [] 0 [ReadData bs].

(** filter-program as in C90: with three bytes (one of them the sync byte) between
    the 5th and the 6th packet and 300 bytes after the 8th, and without them. *)
Definition noise1 : list Z := [1; 0x47; 3].
Definition noise2 : list Z := repeat 9 300.
Definition pieces : list Z :=
  concat (firstn 5 packets) ++ noise1 ++ concat (firstn 4 (skipn 5 packets)) ++ noise2 ++ concat (skipn 9 packets).
Example C97_noise_case : noisy (input_bytes (dirty pieces)) packets /\ input_bytes clean = concat packets /\
  exists e, main lib (dirty pieces) (FilterProgram CommandProps.case_args) 4500 = Some (Ok e) /\ en_code e = 0 /\ zlen (en_stdout e) = 188 * 11.
Proof.
  assert (W : forall k j, Forall whole (firstn k (skipn j packets))).
  { intros k j. apply Forall_forall. intros p I. pose proof (demo_whole stream 0) as H. rewrite Forall_forall in H. apply H.
    assert (X : forall A m (l : list A) y, In y (firstn m l) -> In y l) by (induction m as [|m IH]; intros [|z l] y Y; cbn in *; tauto || (destruct Y; auto)).
    assert (Y : forall A m (l : list A) y, In y (skipn m l) -> In y l) by (induction m as [|m IH]; intros [|z l] y Y; cbn in *; auto).
    eapply Y. eapply X. exact I. }
  split; [|split].
  - change (input_bytes (dirty pieces)) with (pieces ++ []). rewrite app_nil_r. unfold pieces.
    assert (E : packets = firstn 5 packets ++ (firstn 4 (skipn 5 packets) ++ skipn 9 packets)) by reflexivity.
    rewrite E at 4. apply noisy_app; [apply (W 5%nat O)|].
    assert (T : noisy (concat (firstn 4 (skipn 5 packets)) ++ noise2 ++ concat (skipn 9 packets)) (firstn 4 (skipn 5 packets) ++ skipn 9 packets)).
    { apply noisy_app; [apply W|]. rewrite <- (app_nil_r (concat (skipn 9 packets))). apply noise_once; try (vm_compute; intuition discriminate).
      - apply Forall_forall. intros p I. specialize (W 100%nat 9%nat). rewrite Forall_forall in W. apply W. exact I.
      - vm_compute. lia.
      - apply quiet; [discriminate|vm_compute; reflexivity]. }
    remember (firstn 4 (skipn 5 packets)) as four eqn:Ef. pose proof (W 4%nat 5%nat) as W4. rewrite <- Ef in W4.
    assert (L4 : exists p1 p2 p3 p4, four = [p1; p2; p3; p4]) by (rewrite Ef; do 4 eexists; reflexivity). destruct L4 as (p1 & p2 & p3 & p4 & E4).
    assert (C : concat four ++ noise2 ++ concat (skipn 9 packets) = p1 ++ p2 ++ p3 ++ p4 ++ (noise2 ++ concat (skipn 9 packets)))
      by (rewrite E4; cbn [concat]; rewrite app_nil_r, <- !app_assoc; reflexivity).
    rewrite C in T |- *. apply Noisy_noise; [vm_compute; auto|rewrite <- E4; exact W4| | |exact T].
    + rewrite <- C, Ef. split; [discriminate|]. intros j J. change (zlen noise1) with 3 in J. assert (j = 0 \/ j = 1 \/ j = 2) as [->|[->| ->]] by lia; intros (S0 & S1 & S2 & S3);
        vm_compute in S0, S1; discriminate.
    + rewrite <- C, Ef. vm_compute. discriminate.
  - vm_compute. reflexivity.
  - eexists. split; [vm_compute; reflexivity|]. split; vm_compute; reflexivity.
Qed.

(** A packet whose sync byte is 0 (the null packet in front would not be missed). *)
Definition broken : list Z := 0 :: repeat 1 187.
Example C97_once_case : let bs := concat (firstn 3 packets) ++ broken ++ concat (skipn 3 packets) in
  no_packets_in broken (concat (skipn 3 packets) ++ []) /\ (4 <= List.length (skipn 3 packets))%nat /\
  main lib (dirty bs) (FilterProgram CommandProps.case_args) 4500 = main lib clean (FilterProgram CommandProps.case_args) 4500.
Proof. split; [apply quiet; [discriminate|vm_compute; reflexivity]|]. split; [vm_compute; lia|vm_compute; reflexivity]. Qed.

(** A packet of which the last 88 bytes are missing, in front of another: they
    count as one packet, made of 100 bytes of the one and 88 of the other. *)
Definition cut : list Z := 0x47 :: repeat 1 99.
Definition next : list Z := 0x47 :: repeat 2 187.
Example C97_mangled_case : let bs := cut ++ next ++ concat packets in
  let p := ztake 188 (cut ++ next) in let g := zdrop 188 (cut ++ next) in
  bs = concat [] ++ p ++ g ++ concat packets /\ whole p /\ zlen g = 100 /\ no_packets_in g (concat packets ++ []) /\
  fs_all 4500 (fs_init [ReadData bs]) = Some (Ok (p :: packets)).
Proof. cbv zeta. split; [reflexivity|]. split; [split; reflexivity|]. split; [reflexivity|]. split; [apply quiet; [discriminate|vm_compute; reflexivity]|vm_compute; reflexivity]. Qed.

(** The broken packet with three packets after it: all of them are lost. *)
Example C97_lost_case : let g := broken ++ concat (firstn 3 packets) in ~ sync_at g 0 /\ zlen g < 940 /\
  fs_all 4500 (fs_init [ReadData (concat packets ++ g)]) = Some (Ok packets).
Proof. cbv zeta. split; [discriminate|]. split; vm_compute; reflexivity. Qed.
