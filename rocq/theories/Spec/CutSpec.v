(** A stream cut short. *)
From Coq Require Import ZArith List Bool.
From Verif Require Import Base.Util Model.FileSource Spec.SourceSpec Spec.StdoutSpec.
Import ListNotations.
Open Scope Z_scope.

(** The first file is the second one cut short. *)
Definition cut_short (reads reads' : list read_result) : Prop :=
  Forall read_ok reads /\ Forall read_ok reads' /\ is_prefix (bytes_of reads) (bytes_of reads').
