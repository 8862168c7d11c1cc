(** A reader of JSON texts (RFC 8259).  It does without fractions, exponents and
    [\u] escapes above 007F. *)
From Coq Require Import ZArith Ascii String List Bool.
From Verif Require Import Spec.PesTextSpec.
Import ListNotations.
Open Scope string_scope.
Open Scope Z_scope.

Inductive jvalue : Type :=
| VNull
| VBool (b : bool)
| VNum (n : Z)
| VStr (s : string)
| VArr (l : list jvalue)
| VObj (l : list (string * jvalue)).

(** ** White space *)
Definition is_space (c : ascii) : bool :=
  let n := Z.of_nat (nat_of_ascii c) in (n =? 32) || (n =? 9) || (n =? 10) || (n =? 13).
Fixpoint skip (s : string) : string :=
  match s with
  | String c r => if is_space c then skip r else s
  | EmptyString => s
  end.

(** ** Strings, after the opening quotation mark *)
Definition unescape (c : ascii) : option ascii :=
  match Z.of_nat (nat_of_ascii c) with
  | 34 => Some c                       (* quotation mark *)
  | 92 => Some c                       (* reverse solidus *)
  | 47 => Some c                       (* solidus *)
  | 98 => Some (ascii_of_nat 8)        (* b: backspace *)
  | 102 => Some (ascii_of_nat 12)      (* f: form feed *)
  | 110 => Some (ascii_of_nat 10)      (* n: line feed *)
  | 114 => Some (ascii_of_nat 13)      (* r: carriage return *)
  | 116 => Some (ascii_of_nat 9)       (* t: tab *)
  | _ => None
  end.
Definition hex_digit (c : ascii) : option Z :=
  let n := Z.of_nat (nat_of_ascii c) in
  if (97 <=? n) && (n <=? 102) then Some (n - 87) else digit c.
Definition four (a b c d : ascii) : option Z :=
  match hex_digit a, hex_digit b, hex_digit c, hex_digit d with
  | Some x, Some y, Some z, Some w => Some (4096 * x + 256 * y + 16 * z + w)
  | _, _, _, _ => None
  end.
Definition then_more (c : ascii) (m : option (string * string)) : option (string * string) :=
  match m with Some (t, rest) => Some (String c t, rest) | None => None end.
Fixpoint chars (s : string) : option (string * string) :=
  match s with
  | EmptyString => None
  | String c r =>
      let n := Z.of_nat (nat_of_ascii c) in
      if n =? 34 then Some ("", r)
      else if n =? 92 then
        match r with
        | EmptyString => None
        | String e r1 =>
            match unescape e with
            | Some x => then_more x (chars r1)
            | None =>
                if Z.of_nat (nat_of_ascii e) =? 117 then
                  match r1 with
                  | String a (String b (String c (String d r5))) =>
                      match four a b c d with
                      | Some u => if u <? 128 then then_more (ascii_of_nat (Z.to_nat u)) (chars r5) else None
                      | None => None
                      end
                  | _ => None
                  end
                else None
            end
        end
      else if n <? 32 then None
      else then_more c (chars r)
  end.

(** ** Numbers: the longest run of digits, without superfluous zeros *)
Definition dec_digit (c : ascii) : option Z :=
  match digit c with Some d => if d <? 10 then Some d else None | None => None end.
Fixpoint more_digits (acc : Z) (s : string) : Z * string :=
  match s with
  | EmptyString => (acc, s)
  | String c r => match dec_digit c with Some d => more_digits (10 * acc + d) r | None => (acc, s) end
  end.
Definition natural (s : string) : option (Z * string) :=
  match s with
  | EmptyString => None
  | String c r => match dec_digit c with
                  | Some d => if d =? 0 then Some (0, r) else Some (more_digits d r)
                  | None => None
                  end
  end.
Definition number (s : string) : option (jvalue * string) :=
  match s with
  | String "-" r => match natural r with Some (n, rest) => Some (VNum (- n), rest) | None => None end
  | _ => match natural s with Some (n, rest) => Some (VNum n, rest) | None => None end
  end.

(** ** Values; [fuel] bounds the depth of the recursion. *)
Fixpoint value (fuel : nat) (s : string) : option (jvalue * string) :=
  match fuel with
  | O => None
  | S f =>
      match skip s with
      | String "n" (String "u" (String "l" (String "l" r))) => Some (VNull, r)
      | String "t" (String "r" (String "u" (String "e" r))) => Some (VBool true, r)
      | String "f" (String "a" (String "l" (String "s" (String "e" r)))) => Some (VBool false, r)
      | String """" r => match chars r with Some (t, rest) => Some (VStr t, rest) | None => None end
      | String "[" r =>
          match skip r with
          | String "]" rest => Some (VArr [], rest)
          | _ => match elements f r with Some (l, rest) => Some (VArr l, rest) | None => None end
          end
      | String "{" r =>
          match skip r with
          | String "}" rest => Some (VObj [], rest)
          | _ => match members f r with Some (l, rest) => Some (VObj l, rest) | None => None end
          end
      | r => number r
      end
  end
(** Elements of an array up to the closing bracket. *)
with elements (fuel : nat) (s : string) : option (list jvalue * string) :=
  match fuel with
  | O => None
  | S f =>
      match value f s with
      | Some (v, r) =>
          match skip r with
          | String "," r1 => match elements f r1 with Some (l, rest) => Some (v :: l, rest) | None => None end
          | String "]" rest => Some ([v], rest)
          | _ => None
          end
      | None => None
      end
  end
(** Members of an object up to the closing brace. *)
with members (fuel : nat) (s : string) : option (list (string * jvalue) * string) :=
  match fuel with
  | O => None
  | S f =>
      match skip s with
      | String """" r =>
          match chars r with
          | Some (k, r1) =>
              match skip r1 with
              | String ":" r2 =>
                  match value f r2 with
                  | Some (v, r3) =>
                      match skip r3 with
                      | String "," r4 => match members f r4 with Some (l, rest) => Some ((k, v) :: l, rest) | None => None end
                      | String "}" rest => Some ([(k, v)], rest)
                      | _ => None
                      end
                  | None => None
                  end
              | _ => None
              end
          | None => None
          end
      | _ => None
      end
  end.

(** A whole text is one value. *)
Definition read_json (s : string) : option jvalue :=
  match value (S (String.length s)) s with
  | Some (v, r) => match skip r with EmptyString => Some v | _ => None end
  | None => None
  end.

(** The lines of a text; each ends with a line feed. *)
Fixpoint text_lines (s : string) : option (list string) :=
  match s with
  | EmptyString => Some []
  | String c r =>
      if Ascii.eqb c line_feed then match text_lines r with Some l => Some ("" :: l) | None => None end
      else match text_lines r with
           | Some (l :: ls) => Some (String c l :: ls)
           | _ => None
           end
  end.
Fixpoint all_some {A B} (f : A -> option B) (l : list A) : option (list B) :=
  match l with
  | [] => Some []
  | x :: r => match f x, all_some f r with Some y, Some t => Some (y :: t) | _, _ => None end
  end.
(** One document per line. *)
Definition read_jsonl (s : string) : option (list jvalue) :=
  match text_lines s with
  | Some ls => all_some read_json ls
  | None => None
  end.
