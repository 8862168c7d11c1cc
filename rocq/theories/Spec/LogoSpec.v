(** What collect-logos puts out. *)
From Coq Require Import ZArith String Ascii List Bool.
From Verif Require Import Base.Util Model.Logo.
Import ListNotations.
Open Scope Z_scope.

Fixpoint codes (s : string) : list Z :=
  match s with
  | EmptyString => []
  | String c r => Z.of_nat (nat_of_ascii c) :: codes r
  end.

(** Base 64 (RFC 4648, section 4): the bits of the bytes, highest first and
    filled up with zeros, are those of the digits, six each; the text is filled
    up with "=" to a multiple of four characters. *)
Fixpoint bits (n : nat) (v : Z) : list bool :=
  match n with O => [] | S m => Z.testbit v (Z.of_nat m) :: bits m v end.
Definition alphabet : list Z := codes "ABCDEFGHIJKLMNOPQRSTUVWXYZabcdefghijklmnopqrstuvwxyz0123456789+/".
Definition base64 (bytes text : list Z) : Prop :=
  exists digits letters pad zeros,
    text = letters ++ repeat 61 pad /\ Forall2 (fun d c => znth d alphabet = Some c) digits letters /\
    (pad < 3)%nat /\ zlen text mod 4 = 0 /\
    flat_map (bits 6) digits = flat_map (bits 8) bytes ++ repeat false zeros /\ (zeros < 6)%nat.

(** What LibISDB takes of the packets [ps], and the logos it reports meanwhile:
    it takes them one after the other until it refuses one. *)
Section Engine.
Variable engine : list (list Z) -> list Z -> list logo * bool.
Inductive taken : list (list Z) -> list (list Z) -> list (list Z) -> list logo -> Prop :=
| Tk_end : forall before, taken before [] [] []
| Tk_refused : forall before p ps ls, engine before p = (ls, false) -> taken before (p :: ps) [p] ls
| Tk_more : forall before p ps ls qs ms, engine before p = (ls, true) -> taken (p :: before) ps qs ms ->
    taken before (p :: ps) (p :: qs) (ls ++ ms).
End Engine.

(** The document of a logo: a data URL with the PNG, in which the two chunks of
    the palette are inserted (see C53). *)
Definition described (l : logo) (d : logo_doc) : Prop :=
  ld_type d = lg_type l /\ ld_id d = lg_id l /\ ld_version d = lg_version l /\ ld_nid d = lg_nid l /\
  (exists png text, InsertPngChunks (lg_data l) = Outcome.Ok png /\ ld_data d = codes "data:image/png;base64," ++ text /\ base64 png text) /\
  (lg_services l = [] /\ ld_services d = None \/ lg_services l <> [] /\ ld_services d = Some (lg_services l)).
(** Logos of 93 bytes or fewer are transparent. *)
Definition visible (ls : list logo) : list logo := filter (fun l => 93 <? zlen (lg_data l)) ls.
Definition bytes_only (l : logo) : Prop := Forall (fun b => 0 <= b < 256) (lg_data l).
