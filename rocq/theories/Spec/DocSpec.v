(** What the documents are as JSON values. *)
From Coq Require Import ZArith Ascii String List Bool.
From Verif Require Import Base.Util Model.Descriptors Spec.JsonSpec.
Import ListNotations.
Open Scope string_scope.
Open Scope Z_scope.

(** The JSON value a document stands for; [decode] gives the text of an ARIB
    string. *)
Fixpoint meaning (decode : list Z -> string) (j : json) : jvalue :=
  match j with
  | JNull => VNull
  | JBool b => VBool b
  | JNum n => VNum n
  | JWord s => VStr s
  | JText s => VStr (decode s)
  | JArray l => VArr (map (meaning decode) l)
  | JObject l => VObj (map (fun m => (fst m, meaning decode (snd m))) l)
  end.
