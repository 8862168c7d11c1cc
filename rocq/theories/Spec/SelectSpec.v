(** Selections of services. *)
From Coq Require Import ZArith List Bool.
From Verif Require Import Base.Outcome Base.Util Model.EitSection Model.EitCollector Spec.EitSpec.
Import ListNotations.
Open Scope Z_scope.

(** Identity of the service a document is about. *)
Definition doc_service (d : eit_doc) : Z * Z * Z := (ed_nid d, ed_tsid d, ed_sid d).

(** The service id is among [ns], if any are given, and not among [xs]. *)
Definition picked (ns xs : list Z) (sid : Z) : bool :=
  (match ns with [] => true | _ => existsb (Z.eqb sid) ns end) && negb (existsb (Z.eqb sid) xs).

(** The broadcast with the schedules of some services only; the time tables stay. *)
Definition of_services (K : Z * Z * Z -> bool) (ds : list delivery) : list delivery :=
  filter (fun d => match d with DSection x => K (service_of x) | DTot _ => true end) ds.

(** One of the lists starts with the other. *)
Definition one_starts {A} (a b : list A) : Prop := exists r, b = a ++ r \/ a = b ++ r.

(** The documents [b] are those of the documents [a] that are about selected
    services. *)
Definition only {A} (K : A -> bool) (a b : list A) : Prop := b = filter K a.
