(** A steady broadcast of schedule tables: the same sections come again and again,
    in any order and any number of times. *)
From Coq Require Import ZArith List Bool.
From Verif Require Import Base.Outcome Base.Util Model.EitSection Model.EitCollector Spec.EitSpec.
Import ListNotations.
Open Scope Z_scope.

(** A section that came and that collect-eits was asked for. *)
Definition came (o : eit_option) (ds : list delivery) (x : section) : Prop := In (DSection x) ds /\ schedule o x.

(** Nothing changes meanwhile: the lengths in the sections fit; each table has one
    version, each half of the tables of a service one last table, and a section
    is the same each time it comes. *)
Definition steady (o : eit_option) (ds : list delivery) : Prop :=
  (forall x, came o ds x -> consistent x) /\
  forall x y, came o ds x -> came o ds y ->
    (same_half x y -> last_of x = last_of y) /\
    (same_table x y -> sn_version x = sn_version y) /\
    (same_section x y -> x = y).

(** The sections asked for, each one where it came first. *)
Inductive first_seen (o : eit_option) : list delivery -> list section -> Prop :=
| seen_none : first_seen o [] []
| seen_new ds out x : first_seen o ds out -> schedule o x -> ~ In x out ->
    first_seen o (ds ++ [DSection x]) (out ++ [x])
| seen_again ds out x : first_seen o ds out -> In x out -> first_seen o (ds ++ [DSection x]) out
| seen_other ds out d : first_seen o ds out -> (forall x, d = DSection x -> ~ schedule o x) ->
    first_seen o (ds ++ [d]) out.

(** The section [n] of the table [i] of the half of [x] came, or a section of that
    table says that there is none. *)
Definition accounted (o : eit_option) (ds : list delivery) (x : section) (i n : Z) : Prop :=
  exists y, came o ds y /\ service_of y = service_of x /\
    sn_tid y mod 16 = sn_tid x mod 16 / 8 * 8 + i /\ (sn_number y = n \/ denies y n).

(** Something came, and of every half of the tables of every service of which
    something came, everything came. *)
Definition complete (o : eit_option) (ds : list delivery) : Prop :=
  (exists x, came o ds x) /\
  forall x i n, came o ds x -> 0 <= i <= last_of x -> 0 <= n < 256 -> accounted o ds x i n.

(** The same, save for parts of first tables about hours before a TOT. *)
Definition complete_but_past (o : eit_option) (ds : list delivery) : Prop :=
  forall x i n, came o ds x -> 0 <= i <= last_of x -> 0 <= n < 256 ->
    accounted o ds x i n \/ (i = 0 /\ exists t, In t (tots ds) /\ n / 8 < segment_of t).

(** The sections tell the truth: no table lies behind the last one of its half, and
    no section says of another one that there is none. *)
Definition truthful (o : eit_option) (ds : list delivery) : Prop :=
  forall x, came o ds x -> sn_tid x mod 8 <= last_of x /\
    forall y, came o ds y -> same_table x y -> ~ denies y (sn_number x).
