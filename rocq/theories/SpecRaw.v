(** * The entry points on the raw database: what the theorems say.

    [Raw] has the entry points as the sources write them, reading and writing
    texts under keys; the other files have them on records.  The theorems say that
    the two are the same: from the database that stands for a record, the one
    yields the database that stands for the record the other yields, with the same
    messages, or the same error. *)
From Coq Require Import List NArith Bool.
From Verif Require Import Base Chain Utils Contracts Store SpecStore Raw.
Import ListNotations.

(** the database that stands for a result, e.g. of
    /repo/contracts/core/mailbox/src/contract.rs:51-70 *)
Definition kept_as (v : cw2) (r : res (cstate * response)) : res (db * response) :=
  match r with
  | Ok (st, o) => Ok (storage v st, o)
  | Err e => Err e
  | Panic => Panic
  end.

(** a call of an entry point as the records have it, e.g. of /repo/contracts/core/mailbox/src/contract.rs:51-102; the
    version record is all that [migrate] touches: /repo/packages/utils/src/lib.rs:20-45 *)
Definition record_step (A : api) (vs : cw2 * cstate) (ev : raw_event) : cw2 * cstate :=
  let '(v, st) := vs in
  match ev with
  | RwExec e i m Q => (v, c_step A st (EvExec e i m (fun y => Q (storage v y))))
  | RwReply id r => (v, c_step A st (EvReply id r))
  | RwMigrate name ver => (match migrate (Some v) name ver with Ok v' => v' | _ => v end, st)
  end.
(** a history of such calls, e.g. of /repo/contracts/core/mailbox/src/contract.rs:51-102 *)
Definition record_run (A : api) (vs : cw2 * cstate) (h : list raw_event) : cw2 * cstate := fold_left (record_step A) h vs.
(** block heights are 64-bit numbers: /repo/contracts/core/mailbox/src/state.rs:50-53 *)
Definition raw_timely (ev : raw_event) : Prop :=
  match ev with RwExec e _ _ _ => e_height e < 2 ^ 64 | _ => True end.
