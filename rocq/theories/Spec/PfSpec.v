(** What collect-eitpf does. *)
From Coq Require Import ZArith List Bool Sorted.
From Verif Require Import Base.Outcome Base.Util Model.EitSection Model.EitpfCollector Spec.EitSpec.
Import ListNotations.
Open Scope Z_scope.

(** Every section comes from the wire. *)
Definition pf_wires (xs : list section) : Prop := forall x, In x xs -> wire x.

(** A present (section 0) or following (section 1) section of this transport
    stream, in force now, of a selected service. *)
Definition pf_counts (o : pf_option) (x : section) : Prop :=
  sn_valid x = true /\ sn_next x = false /\ sn_tid x = 0x4E /\ 6 <= zlen (sn_payload x) /\
  (sn_number x = 0 \/ sn_number x = 1) /\
  (po_sids o = [] \/ In (sid_of x) (po_sids o)).

(** The kind of the section is asked for. *)
Definition pf_selected (o : pf_option) (x : section) : Prop :=
  sn_number x = 0 /\ po_present o = true \/ sn_number x = 1 /\ po_following o = true.

Definition same_kind (a b : section) : Prop :=
  service_of a = service_of b /\ sn_number a = sn_number b.

(** [y] is the last section among [xs] that counts for service [svc] and kind
    [n]. *)
Definition last_for (o : pf_option) (xs : list section) (svc : Z * Z * Z) (n : Z) (y : section) : Prop :=
  exists pre post, xs = pre ++ y :: post /\ pf_counts o y /\ service_of y = svc /\ sn_number y = n /\
    forall z, In z post -> pf_counts o z -> service_of z = svc -> sn_number z <> n.

(** A section of another version than the last one received, or the first one. *)
Definition changed (o : pf_option) (xs : list section) (x : section) : Prop :=
  forall y, last_for o xs (service_of x) (sn_number x) y -> sn_version y <> sn_version x.

(** The present/following sections of one service id all belong to one service
    of one transport stream. *)
Definition one_stream (o : pf_option) (xs : list section) : Prop :=
  forall x y, In x xs -> In y xs -> pf_counts o x -> pf_counts o y -> sid_of x = sid_of y ->
    service_of x = service_of y.

(** The selected kinds of the service with id [sid] have arrived, in the same
    version if both are selected. *)
Definition complete (o : pf_option) (xs : list section) (sid : Z) : Prop :=
  exists nid tsid,
    (po_present o = true -> exists y, last_for o xs (nid, tsid, sid) 0 y) /\
    (po_following o = true -> exists y, last_for o xs (nid, tsid, sid) 1 y) /\
    (forall y z, po_present o = true -> po_following o = true ->
       last_for o xs (nid, tsid, sid) 0 y -> last_for o xs (nid, tsid, sid) 1 z ->
       sn_version y = sn_version z).

(** Of the sections [xs], those that are output, in order. *)
Inductive news (o : pf_option) : list section -> list section -> Prop :=
| N_nil : news o [] []
| N_new : forall xs ys x, news o xs ys -> pf_counts o x -> changed o xs x -> pf_selected o x ->
    news o (xs ++ [x]) (ys ++ [x])
| N_old : forall xs ys x, news o xs ys -> ~ (pf_counts o x /\ changed o xs x /\ pf_selected o x) ->
    news o (xs ++ [x]) ys.

(** The order of services: by network, transport stream and service id. *)
Definition before (a b : Z * Z * Z) : Prop :=
  match a, b with
  | (n1, t1, s1), (n2, t2, s2) => n1 < n2 \/ n1 = n2 /\ (t1 < t2 \/ t1 = t2 /\ s1 < s2)
  end.

(** The services of which a section of kind [n] has arrived, in order. *)
Definition arrived (o : pf_option) (xs : list section) (n : Z) (svcs : list (Z * Z * Z)) : Prop :=
  StronglySorted before svcs /\ forall svc, In svc svcs <-> exists y, last_for o xs svc n y.

(** Not all has arrived, going by the number of services. *)
Definition short (o : pf_option) (present following : list (Z * Z * Z)) : Prop :=
  po_streaming o = true \/
  (po_present o = true /\ List.length present <> List.length (po_sids o)) \/
  (po_following o = true /\ List.length following <> List.length (po_sids o)).

(** The comparison of the versions of present and following sections, service by
    service; it stops at the first difference. *)
Inductive verdict := Same | Differ | Lost.
Inductive compared (o : pf_option) (xs : list section) : list (Z * Z * Z) -> verdict -> Prop :=
| Cmp_end : compared o xs [] Same
| Cmp_same : forall svc r v y z, last_for o xs svc 0 y -> last_for o xs svc 1 z -> sn_version y = sn_version z ->
    compared o xs r v -> compared o xs (svc :: r) v
| Cmp_differ : forall svc r y z, last_for o xs svc 0 y -> last_for o xs svc 1 z -> sn_version y <> sn_version z ->
    compared o xs (svc :: r) Differ
| Cmp_lost : forall svc r, (forall z, ~ last_for o xs svc 1 z) -> compared o xs (svc :: r) Lost.
