(** Outcomes of a modelled C++ function.

    A function either returns normally, or it ends the process in one of three
    distinguishable ways.  [AssertFail] is MIRAKC_ARIB_ASSERT failing
    (/repo/src/logging.hh:41-52: log and abort; the macro is empty only when the
    program is built with MIRAKC_ARIB_DISABLE_LOGGING, lines 54-73, a build that
    is not modelled).  [Uncaught] is a C++ exception that no code catches.
    [Undefined] is undefined behaviour: an access outside an object or a signed
    overflow. *)

Inductive fault : Type :=
| AssertFail
| Uncaught
| Undefined.

Inductive res (A : Type) : Type :=
| Ok (a : A)
| Fail (f : fault).

Arguments Ok {A} a.
Arguments Fail {A} f.

Definition bind {A B : Type} (m : res A) (k : A -> res B) : res B :=
  match m with
  | Ok a => k a
  | Fail f => Fail f
  end.

Notation "'let*' x ':=' m 'in' k" := (bind m (fun x => k))
  (at level 200, x pattern, m at level 100, k at level 200, right associativity).

(** MIRAKC_ARIB_ASSERT(b); k *)
Definition assert {A : Type} (b : bool) (k : res A) : res A :=
  if b then k else Fail AssertFail.

Definition is_ok {A : Type} (m : res A) : Prop := exists a, m = Ok a.

Lemma bind_ok : forall A B (m : res A) (k : A -> res B) b,
  bind m k = Ok b -> exists a, m = Ok a /\ k a = Ok b.
Proof. intros A B [a|f] k b H; cbn in H; [eauto | discriminate]. Qed.

Lemma assert_ok : forall A b (k : res A) a,
  assert b k = Ok a -> b = true /\ k = Ok a.
Proof. intros A [|] k a H; cbn in H; [auto | discriminate]. Qed.
