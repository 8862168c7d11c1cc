(** Decimal numbers. *)
From Coq Require Import ZArith List Bool.
From Verif Require Import Base.Util.
Import ListNotations.
Open Scope Z_scope.

(** [s] is a non-empty sequence of decimal digits with value [n]. *)
Inductive numeral : list Z -> Z -> Prop :=
| numeral_one : forall d, 0 <= d <= 9 -> numeral [48 + d] d
| numeral_more : forall s n d, numeral s n -> 0 <= d <= 9 -> numeral (s ++ [48 + d]) (n * 10 + d).

Definition blank (c : Z) : Prop := c = 32 \/ 9 <= c <= 13.

(** White space, an optional sign (43 is +, 45 is -) and a numeral. *)
Definition number (s : list Z) (n : Z) : Prop :=
  exists sp ds, Forall blank sp /\
    (s = sp ++ ds /\ numeral ds n \/ s = sp ++ 43 :: ds /\ numeral ds n \/ s = sp ++ 45 :: ds /\ numeral ds (- n)).

(** [s] begins with a number, which is not continued by a further digit. *)
Definition begins (s : list Z) (n : Z) : Prop :=
  exists a b, s = a ++ b /\ number a n /\ forall c r, b = c :: r -> ~ 48 <= c <= 57.

Definition fits_int (n : Z) : Prop := - 2 ^ 31 <= n < 2 ^ 31.
