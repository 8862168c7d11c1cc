(** Numbers in option values: SidSet::Add (/repo/src/base.hh:27-66), LoadSidSet
    and LoadComponentTags (/repo/src/main.cc:1049-1055, 1075-1108).  A string is
    the list of its character codes (ASCII). *)
From Coq Require Import ZArith List Bool.
From Verif Require Import Base.Outcome Base.Util.
Import ListNotations.
Open Scope Z_scope.

(** isspace and isdigit of the C locale *)
Definition is_space (c : Z) : bool := (c =? 32) || ((9 <=? c) && (c <=? 13)).
Definition is_digit (c : Z) : bool := (48 <=? c) && (c <=? 57).

Fixpoint skip_space (s : list Z) : list Z :=
  match s with
  | c :: r => if is_space c then skip_space r else s
  | [] => []
  end.

(** The digits at the beginning of [s]: their value appended to [acc], and the
    rest of the string. *)
Fixpoint scan_digits (acc : Z) (s : list Z) : Z * list Z :=
  match s with
  | c :: r => if is_digit c then scan_digits (acc * 10 + (c - 48)) r else (acc, s)
  | [] => (acc, [])
  end.

(** std::stoi(str, &pos) (C++ standard, by strtol in base 10): white space, an
    optional sign, digits.  Without a digit std::invalid_argument and outside of
    int std::out_of_range are thrown; nothing in the program catches them.  The
    result is the value and [pos]. *)
Definition stoi (s : list Z) : res (Z * Z) :=
  let s1 := skip_space s in
  let (neg, s2) :=
    match s1 with
    | 43 :: r => (false, r)
    | 45 :: r => (true, r)
    | _ => (false, s1)
    end in
  match s2 with
  | c :: _ =>
      if is_digit c then
        let (n, rest) := scan_digits 0 s2 in
        let v := if neg : bool then - n else n in
        if (- 2 ^ 31 <=? v) && (v <? 2 ^ 31) then Ok (v, zlen s - zlen rest) else Fail Uncaught
      else Fail Uncaught
  | [] => Fail Uncaught
  end.

(** base.hh:38-54 SidSet::Add; the set is the list of its elements. *)
Fixpoint SidSet_Add (set : list Z) (strs : list (list Z)) : res (list Z) :=
  match strs with
  | [] => Ok set
  | str :: r =>
      let* (v, pos) := stoi str in
      if negb (pos =? zlen str) then SidSet_Add set r
      else SidSet_Add (zadd (v mod 2 ^ 16) set) r
  end.

(** main.cc:1049-1055 LoadSidSet; [None]: the option was not given. *)
Definition LoadSidSet (arg : option (list (list Z))) : res (list Z) :=
  match arg with
  | None => Ok []
  | Some strs => SidSet_Add [] strs
  end.

(** main.cc:1083-1105.  The result [None] is std::abort after an error message. *)
Fixpoint add_tags (tags : list Z) (strs : list (list Z)) : res (option (list Z)) :=
  match strs with
  | [] => Ok (Some tags)
  | str :: r =>
      let* (v, pos) := stoi str in
      if negb (pos =? zlen str) then Ok None
      else if v <? 0 then Ok None
      else if 256 <=? v then Ok None
      else add_tags (zadd v tags) r
  end.

(** main.cc:1075-1108 LoadComponentTags *)
Definition LoadComponentTags (arg : option (list (list Z))) : res (option (list Z)) :=
  match arg with
  | None => Ok (Some [])
  | Some strs => add_tags [] strs
  end.
