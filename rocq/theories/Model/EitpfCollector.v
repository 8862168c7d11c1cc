(** collect-eitpfs: /repo/src/eitpf_collector.hh. *)
From Coq Require Import ZArith List Bool.
From Verif Require Import Base.Outcome Base.Util Model.Sink Model.EitSection.
Import ListNotations.
Open Scope Z_scope.

(** eitpf_collector.hh:19-24.  [po_sids] lists the elements of the SidSet, each
    once. *)
Record pf_option := mkPfOption {
  po_sids : list Z;
  po_streaming : bool;
  po_present : bool;
  po_following : bool }.

(** eitpf_collector.hh:141-142, and the documents written so far *)
Record pf_state := mkPf {
  pf_present : list (Z * Z);
  pf_following : list (Z * Z);
  pf_out : list eit_doc }.

Definition pf_init : pf_state := mkPf [] [] [].

(** eitpf_collector.hh:47-53 *)
Definition pf_IsCollected (e : eit_section) (versions : list (Z * Z)) : bool :=
  match mfind (service_triple e) versions with
  | None => false
  | Some v => v =? ei_version e
  end.

(** eitpf_collector.hh:67-71: [at] throws std::out_of_range, which nothing
    catches, when the key is missing. *)
Fixpoint pf_same (present following : list (Z * Z)) : res bool :=
  match present with
  | [] => Ok true
  | (k, v) :: r =>
      match mfind k following with
      | None => Fail Uncaught
      | Some w => if negb (w =? v) then Ok false else pf_same r following
      end
  end.

Section Pf.
Variable mjd : list Z -> option Z.
Variable o : pf_option.

(** eitpf_collector.hh:55-75 *)
Definition pf_Done (s : pf_state) : res bool :=
  if po_streaming o then Ok false
  else if po_present o && negb (zlen (pf_present s) =? zlen (po_sids o)) then Ok false
  else if po_following o && negb (zlen (pf_following s) =? zlen (po_sids o)) then Ok false
  else if po_present o && po_following o then pf_same (pf_present s) (pf_following s)
  else Ok true.

(** eitpf_collector.hh:134-136 *)
Definition pf_write (out : list eit_doc) (e : eit_section) (selected : bool) : res (list eit_doc) :=
  if selected then let* doc := MakeEitJson mjd e in Ok (out ++ [doc]) else Ok out.

(** eitpf_collector.hh:77-132.  TSDuck: TID_EIT_PF_ACT is 0x4E. *)
Definition pf_handleSection (s : pf_state) (sec : section) : res pf_state :=
  if negb (sn_valid sec) then Ok s
  else if negb (sn_tid sec =? 0x4E) then Ok s
  else if zlen (sn_payload sec) <? EIT_PAYLOAD_FIXED_SIZE then Ok s
  else if sn_next sec then Ok s
  else
    let* e := EitSection sec in
    if negb (ss_IsEmpty (po_sids o)) && negb (ss_Contain (po_sids o) (ei_sid e)) then Ok s
    else if ei_number e =? 0 then
      if pf_IsCollected e (pf_present s) then Ok s
      else
        let* out := pf_write (pf_out s) e (po_present o) in
        Ok (mkPf (minsert (service_triple e) (ei_version e) (pf_present s)) (pf_following s) out)
    else if ei_number e =? 1 then
      if pf_IsCollected e (pf_following s) then Ok s
      else
        let* out := pf_write (pf_out s) e (po_following o) in
        Ok (mkPf (pf_present s) (minsert (service_triple e) (ei_version e) (pf_following s)) out)
    else Ok s.

Fixpoint pf_handle_all (s : pf_state) (ss : list section) : res pf_state :=
  match ss with
  | [] => Ok s
  | x :: r => let* s1 := pf_handleSection s x in pf_handle_all s1 r
  end.

(** eitpf_collector.hh:38-44.  A packet is the list of the sections the
    demultiplexer delivers while it is fed. *)
Definition pf_HandlePacket (s : pf_state) (p : list section) : res (pf_state * bool) :=
  let* s1 := pf_handle_all s p in
  let* done := pf_Done s1 in
  Ok (s1, negb done).

Definition pf_sink : sink (list section) :=
  mkSink pf_state (fun s => Ok (s, true)) pf_HandlePacket (fun s => Ok s) (fun _ => Ok EXIT_SUCCESS).

End Pf.
