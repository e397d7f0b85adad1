(** * Which strings of a JSON value are UTF-8. *)
From Coq Require Import List NArith Bool.
From Verif Require Import Base Json SpecProto.
Import ListNotations.

(** every string in it, names of members included *)
Fixpoint strings_utf8 (j : json) : Prop :=
  match j with
  | JStr t => utf8 t
  | JArr l => fold_right (fun j P => strings_utf8 j /\ P) True l
  | JObj l => fold_right (fun p P => utf8 (fst p) /\ strings_utf8 (snd p) /\ P) True l
  | _ => True
  end.
