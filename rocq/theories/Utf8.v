(** * The reader of texts with its check of strings.

    [from_json] takes bytes and checks every string in them with
    [core::str::from_utf8] (serde-json-wasm 0.5, behind
    /repo/packages/interface/src/macros.rs:14-17).  Json.v leaves the check out. *)
From Coq Require Import List NArith Bool.
From Verif Require Import Base Json Proto.
Import ListNotations.

(** all strings in it, names of members included, pass the check; behind
    /repo/packages/interface/src/macros.rs:17 *)
Fixpoint strings_ok (j : json) : bool :=
  match j with
  | JStr t => valid_utf8 t
  | JArr l => forallb strings_ok l
  | JObj l => forallb (fun p => valid_utf8 (fst p) && strings_ok (snd p))%bool l
  | _ => true
  end.
(** [from_json], e.g. /repo/packages/interface/src/macros.rs:17 *)
Definition parse_checked (t : str) : option json :=
  match parse t with Some j => if strings_ok j then Some j else None | None => None end.
