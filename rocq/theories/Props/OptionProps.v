(** C54, C58: numbers in option values. *)
From Coq Require Import ZArith Lia List Bool Ascii String.
From Verif Require Import Base.Outcome Base.Util Model.Options Proofs.OptionProofs Spec.OptionSpec.
Import ListNotations.
Open Scope Z_scope.

Definition codes (s : string) : list Z := map (fun c => Z.of_nat (nat_of_ascii c)) (list_ascii_of_string s).

(** * C54: lists of service ids *)

(** Decimal service ids up to 65535: the set has exactly these elements. *)
Theorem C54_partial : forall strs ns, Forall2 numeral strs ns -> Forall (fun n => n <= 65535) ns ->
  exists set, LoadSidSet (Some strs) = Ok set /\ forall x, In x set <-> In x ns.
Proof. exact sids_exact. Qed.
Print Assumptions C54_partial.

(** For any strings: if one of them does not begin with a number in the range of
    int the program ends with an exception; otherwise exactly the strings that
    are numbers count, modulo 65536. *)
Theorem C54_exact : forall strs,
  ((exists s, In s strs /\ forall n, begins s n -> ~ fits_int n) -> LoadSidSet (Some strs) = Fail Uncaught) /\
  ((forall s, In s strs -> exists n, begins s n /\ fits_int n) ->
   exists set, LoadSidSet (Some strs) = Ok set /\
     forall x, In x set <-> exists s n, In s strs /\ number s n /\ fits_int n /\ x = n mod 65536).
Proof.
  intros strs. split; [exact (add_throws strs [])|]. intros H. destruct (add_ok strs [] H) as (set & E & M).
  exists set. split; [exact E|]. intros x. rewrite M. split; [intros [[]|G]; exact G|auto].
Qed.
Print Assumptions C54_exact.

Lemma numeral_1024 : numeral (codes "1024") 1024.
Proof.
  change (numeral ((([48 + 1] ++ [48 + 0]) ++ [48 + 2]) ++ [48 + 4]) (((1 * 10 + 0) * 10 + 2) * 10 + 4)).
  repeat (apply numeral_more; [|lia]). apply numeral_one. lia.
Qed.
Example C54_case : exists set, Forall2 numeral [codes "1024"] [1024] /\ LoadSidSet (Some [codes "1024"]) = Ok set /\ set = [1024].
Proof. eexists. split; [constructor; [exact numeral_1024|constructor]|]. split; vm_compute; reflexivity. Qed.

(** A list whose only element is a hexadecimal id is taken as an empty list,
    which selects every service. *)
Theorem C54_hex_refuted : exists strs, strs <> [] /\ LoadSidSet (Some strs) = Ok [].
Proof. exists [codes "0x400"]. split; [discriminate|vm_compute; reflexivity]. Qed.
Print Assumptions C54_hex_refuted.

(** Ids out of range select other services. *)
Theorem C54_range_refuted : exists set, LoadSidSet (Some [codes "70000"; codes "-1"]) = Ok set /\
  In 4464 set /\ In 65535 set.
Proof. eexists. split; [vm_compute; reflexivity|]. cbn. auto. Qed.
Print Assumptions C54_range_refuted.

(** * C58: lists of component tags *)

(** The list is accepted exactly if every element is a number in 0..255, and then
    the tags are these numbers. *)
Theorem C58_tags : forall strs,
  ((exists tags, LoadComponentTags (Some strs) = Ok (Some tags)) <->
   forall s, In s strs -> exists n, number s n /\ 0 <= n < 256) /\
  forall tags, LoadComponentTags (Some strs) = Ok (Some tags) ->
    forall x, In x tags <-> exists s, In s strs /\ number s x /\ 0 <= x < 256.
Proof.
  intros strs. split; [split|].
  - intros [tags H]. exact (proj1 (tags_some strs [] tags H)).
  - exact (tags_ok strs []).
  - intros tags H x. rewrite (proj2 (tags_some strs [] tags H) x). split; [intros [[]|G]; exact G|auto].
Qed.
Print Assumptions C58_tags.

Example C58_case : LoadComponentTags (Some [codes "0"; codes "16"]) = Ok (Some [0; 16]) \/
  LoadComponentTags (Some [codes "0"; codes "16"]) = Ok (Some [16; 0]).
Proof. vm_compute. auto. Qed.
Example C58_case_rejected : LoadComponentTags (Some [codes "0"; codes "256"]) = Ok None /\
  LoadComponentTags (Some [codes "-1"]) = Ok None /\ LoadComponentTags (Some [codes "1x"]) = Ok None /\
  LoadComponentTags (Some [codes ""]) = Fail Uncaught.
Proof. vm_compute. auto. Qed.
