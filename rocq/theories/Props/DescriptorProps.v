(** C67 and C68: descriptors of events. *)
From Coq Require Import String ZArith Lia List Bool.
From Verif Require Import Base.Outcome Base.Util Model.Descriptors Spec.DescriptorSpec Proofs.DescriptorProofs.
Import ListNotations.
Local Open Scope list_scope.
Local Open Scope Z_scope.

(** * C67 *)

(** However the items of an event are broken into fragments and the fragments
    distributed over descriptors, with other descriptors in between: the items
    come out whole and in order.  Text that comes before any description is put in
    front of the text of the first item. *)
Theorem C67_items : forall ds lead fs items,
  carries ds (lead ++ fs) -> Forall (fun f => fst f = []) lead -> joined fs items ->
  ExtendedEventItems ds = Ok (put_in_front (concat (map snd lead)) items).
Proof. exact items_all. Qed.
Print Assumptions C67_items.

(** The object has these items. *)
Theorem C67_object : forall ds items, ExtendedEventItems ds = Ok items ->
  exists j, MakeExtendedEventJsonValue ds = Ok j /\ describes_extended items j.
Proof. intros ds items H. unfold MakeExtendedEventJsonValue. rewrite H. eexists. split; [reflexivity|apply extended_is]. Qed.
Print Assumptions C67_object.

(** Nothing outside the descriptors is read as long as length_of_items stays
    inside them, whatever the lengths of the fragments say. *)
Theorem C67_safe_partial : forall ds, Forall bytes_ok ds -> Forall consistent ds -> exists items, ExtendedEventItems ds = Ok items.
Proof. exact items_safe. Qed.
Print Assumptions C67_safe_partial.

(** A larger length_of_items is always followed out of the descriptor. *)
Theorem C67_overread_refuted : forall ds d rest, Forall bytes_ok ds -> Forall consistent ds -> bytes_ok d -> overlong d ->
  ExtendedEventItems (ds ++ d :: rest) = Fail Undefined.
Proof. exact items_overread. Qed.
Print Assumptions C67_overread_refuted.

(** Two items, the text of the first one broken over two descriptors, with a
    component descriptor in between. *)
Definition ext_case : list descriptor :=
  [ ext_descriptor [0x01; 106; 112; 110] [([65; 66], [1; 2; 3])] [0];
    mkDesc [0x50; 1; 9];
    ext_descriptor [0x11; 106; 112; 110] [([], [4; 5]); ([67], [6])] [2; 7; 7] ].
Example C67_case : carries ext_case [([65; 66], [1; 2; 3]); ([], [4; 5]); ([67], [6])] /\
  joined [([65; 66], [1; 2; 3]); ([], [4; 5]); ([67], [6])] [([65; 66], [1; 2; 3; 4; 5]); ([67], [6])] /\
  ExtendedEventItems ext_case = Ok [([65; 66], [1; 2; 3; 4; 5]); ([67], [6])] /\
  Forall bytes_ok ext_case /\ Forall consistent ext_case.
Proof.
  split.
  { apply (carries_ext [0x01; 106; 112; 110] [([65; 66], [1; 2; 3])] [0]); [reflexivity|repeat constructor|].
    apply carries_other; [left; intros n payload H; discriminate H|].
    apply (carries_ext [0x11; 106; 112; 110] [([], [4; 5]); ([67], [6])] [2; 7; 7]); [reflexivity|repeat constructor|constructor]. }
  split.
  { apply (joined_item [65; 66] [1; 2; 3] [([], [4; 5])]); [discriminate|repeat constructor|].
    apply (joined_item [67] [6] []); [discriminate|constructor|constructor]. }
  split; [vm_compute; reflexivity|]. split.
  { apply Forall_forall. intros d [<- | [<- | [<- | []]]]; apply bytes_ok_b; vm_compute; reflexivity. }
  assert (C : forall d, In d ext_case -> consistent d).
  { intros d [<- | [<- | [<- | []]]] head n rest L E;
      (destruct head as [|h0 [|h1 [|h2 [|h3 [|h4 head]]]]]; try (cbn in L; lia); cbn in E; inversion E; subst; cbn;
       try (unfold zlen in *; cbn [List.length] in *; lia); discriminate). }
  apply Forall_forall. exact C.
Qed.

Example C67_overlong : bytes_ok (mkDesc [0x4E; 6; 0x01; 106; 112; 110; 200; 0]) /\ overlong (mkDesc [0x4E; 6; 0x01; 106; 112; 110; 200; 0]).
Proof.
  split; [apply bytes_ok_b; vm_compute; reflexivity|]. exists [0x01; 106; 112; 110], 200, [0]. split; [reflexivity|]. split; [reflexivity|].
  vm_compute. reflexivity.
Qed.

(** * C68 *)

(** record-service and filter-program-metadata: the "descriptors" of an event. *)
Theorem C68_descriptors : forall pr ds, described pr (tagged ds) (DescriptorsJson pr ds).
Proof. exact descriptors_json. Qed.
Print Assumptions C68_descriptors.

(** They never include the extended event. *)
Theorem C68_no_extended : forall pr ds j, In j (DescriptorsJson pr ds) -> ~ type_is j "ExtendedEvent".
Proof.
  intros pr ds j H. unfold DescriptorsJson in H. apply in_flat_map in H. destruct H as (d & _ & H). unfold type_is.
  destruct (ds_isValid d); [|contradiction]. apply (switch_type _ _ _ _ H).
Qed.
Print Assumptions C68_no_extended.

(** collect-eits and collect-eitpfs: the same, and the extended event last if
    LibISDB finds one. *)
Theorem C68_eits : forall pr mems ext, exists js more,
  EitDescriptorsJson pr mems ext = js ++ more /\
  described pr (map (fun m => (match m with t :: _ => t | [] => 0 end, m)) mems) js /\
  match ext with None => more = [] | Some items => exists j, more = [j] /\ describes_extended items j end.
Proof. exact eit_descriptors_json. Qed.
Print Assumptions C68_eits.

(** Parsers that read some fields. *)
Definition some_parsers : parsers :=
  mkParsers (fun m => match m with [_; _; n] => Some (mkShort (Some [n]) None) | _ => None end)
    (fun m => match m with [_; _; a; b; c; l] => Some (mkComponent a b c l None) | _ => None end)
    (fun _ => Some []) (fun _ => None) (fun _ => None)
    (fun m => match m with [_; _; t; n; s; v; e] => Some (mkEventGroup t [mkGroupEvent n s v e]) | _ => None end).
Example C68_case : DescriptorsJson some_parsers
    [mkDesc [0x4D; 1; 65]; mkDesc [0x4E; 0]; mkDesc [0x50; 4; 1; 2; 3; 4]; mkDesc [0xC4; 0]; mkDesc [0xD6; 5; 4; 11; 12; 13; 14];
     mkDesc [0xD6; 5; 1; 11; 12; 13; 14]; mkDesc [0x4D; 2; 65]] =
  [JObject [("$type"%string, JWord "ShortEvent"); ("eventName"%string, JText [65])];
   JObject [("$type"%string, JWord "Component"); ("streamContent"%string, JNum 1); ("componentType"%string, JNum 2);
            ("componentTag"%string, JNum 3); ("languageCode"%string, JNum 4)];
   JObject [("$type"%string, JWord "EventGroup"); ("groupType"%string, JNum 4);
            ("events"%string, JArray [JObject [("originalNetworkId"%string, JNum 11); ("transportStreamId"%string, JNum 12);
                                               ("serviceId"%string, JNum 13); ("eventId"%string, JNum 14)]])];
   JObject [("$type"%string, JWord "EventGroup"); ("groupType"%string, JNum 1);
            ("events"%string, JArray [JObject [("serviceId"%string, JNum 13); ("eventId"%string, JNum 14)]])]].
Proof. vm_compute. reflexivity. Qed.
