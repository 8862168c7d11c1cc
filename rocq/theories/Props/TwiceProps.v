(** C80: a filtered stream filtered again. *)
From Coq Require Import ZArith Lia List Bool.
From Verif Require Import Base.Outcome Base.Util Model.Sink Model.Ts Model.ServiceFilter Spec.FilterSpec Spec.TwiceSpec Proofs.TwiceProofs.
From Verif Require Props.FilterProps.
Import ListNotations.
Open Scope Z_scope.

(** The full claim: a second service filter, for the same service, between the
    first one and any sink changes nothing.  It holds if no CAT is heard before the
    first PAT. *)
Theorem C80_twice_partial : forall opt k ps n d, (List.length ps < n)%nat ->
  well_placed (sfo_sid opt) ps -> hears_again (sfo_sid opt) ps -> pat_first (sfo_sid opt) ps ->
  match FeedPackets (list_source packet) (service_filter 0 opt k) n ps (sf_init opt, d) with
  | None => False
  | Some (Fail f) => FeedPackets (list_source packet) (service_filter 0 opt (service_filter 1 opt k)) n ps (sf_init opt, (sf_init opt, d)) = Some (Fail f)
  | Some (Ok (c, (s, d'))) => exists s', FeedPackets (list_source packet) (service_filter 0 opt (service_filter 1 opt k)) n ps (sf_init opt, (sf_init opt, d)) = Some (Ok (c, (s, (s', d'))))
  end.
Proof. exact twice_feed. Qed.
Print Assumptions C80_twice_partial.

(** Without that it is false: a CAT that comes before the PAT is heard by the first
    filter but not sent on.  The first filter sends the EMM packets, the second one
    drops them (until it hears the CAT again). *)
Definition cat_before : list packet :=
  [ FilterProps.pkt 1 1 [TCat (Some FilterProps.cat1)]; FilterProps.pkt 2 0 [TPat (Some FilterProps.pat1)]; FilterProps.pkt 3 0x900 [] ].
Theorem C80_cat_refuted : exists ps s s' s2, well_placed 101 ps /\ hears_again 101 ps /\
  let pat := gen_pat (FilterProps.pkt 2 0 [TPat (Some FilterProps.pat1)]) (mkPat 7 0 [(0, 0x10); (101, 0x1F0)]) in
  FeedPackets (list_source packet) (service_filter 0 FilterProps.opt1 FilterProps.keep) 20 ps (sf_init FilterProps.opt1, []) =
    Some (Ok (0, (s, [pat; FilterProps.pkt 3 0x900 []]))) /\
  FeedPackets (list_source packet) (service_filter 0 FilterProps.opt1 (service_filter 1 FilterProps.opt1 FilterProps.keep)) 20 ps
    (sf_init FilterProps.opt1, (sf_init FilterProps.opt1, [])) = Some (Ok (0, (s', (s2, [pat])))).
Proof.
  exists cat_before. do 3 eexists. split; [|split; [|split; vm_compute; reflexivity]].
  - intros p t I It P. repeat (destruct I as [<- |I]; [cbn in P; first [discriminate P | cbn in It; destruct It as [<- |[]]; cbn [tb_body]; split; [exact Logic.I|];
      intros u q L; vm_compute in L; injection L as <- <-; cbn [In]; lia]|]). destruct I.
  - intros p I. repeat (destruct I as [<- |I]; [split; [reflexivity|intros _; cbn; lia]|]). destruct I.
Qed.
Print Assumptions C80_cat_refuted.

Example C80_case : well_placed 101 FilterProps.stream1 /\ hears_again 101 FilterProps.stream1 /\ pat_first 101 FilterProps.stream1 /\
  exists s s', FeedPackets (list_source packet) (service_filter 0 FilterProps.opt1 (service_filter 1 FilterProps.opt1 FilterProps.keep)) 20 FilterProps.stream1
      (sf_init FilterProps.opt1, (sf_init FilterProps.opt1, [])) =
    Some (Ok (0, (s, (s',
     [ gen_pat (FilterProps.pkt 1 0 [TPat (Some FilterProps.pat1)]) (mkPat 7 0 [(0, 0x10); (101, 0x1F0)]);
       FilterProps.pkt 3 0x1F0 [TPmt (Some FilterProps.pmt1)]; FilterProps.pkt 4 0x100 []; FilterProps.pkt 6 0x700 []; FilterProps.pkt 8 1 [TCat (Some FilterProps.cat1)];
       FilterProps.pkt 9 0x900 []; FilterProps.pkt 10 0x14 [TTot (Some 50)] ])))).
Proof.
  split; [|split; [|split]].
  - intros p t I It P. repeat (destruct I as [<- |I]; [cbn in P; first [discriminate P | cbn in It; destruct It as [<- |[]]; cbn [tb_body]; split; [exact Logic.I|];
      intros u q L; vm_compute in L; injection L as <- <-; cbn [In]; lia]|]). destruct I.
  - intros p I. repeat (destruct I as [<- |I]; [split; [reflexivity|intros _; cbn; lia]|]). destruct I.
  - intros pre p post t E P I C. destruct pre as [|x0 [|x1 pre]]; cbn in E.
    + injection E as <- _. cbn in P. lia.
    + injection E as _ <- _. cbn in P. lia.
    + injection E as _ <- _. exists (FilterProps.pkt 1 0 [TPat (Some FilterProps.pat1)]). split; [right; left; reflexivity|].
      split; [reflexivity|]. eexists. split; [left; reflexivity|]. vm_compute. discriminate.
  - do 2 eexists. vm_compute. reflexivity.
Qed.
