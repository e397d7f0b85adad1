(** * The chain with migrations: what the theorems say. *)
From Coq Require Import List NArith Bool.
From Verif Require Import Base OMap Chain Utils Contracts Wire Store RawWorld TextWorld SpecTextWorld Upgrade SpecVersion.
Import ListNotations.

(** what is left of a history when the migrations are taken out; [execute] and [instantiate] of
    /repo/contracts/*/*/src/{contract,lib}.rs *)
Definition calls (l : list utx) : list (nat * ttx) :=
  flat_map (fun t => match t with UTx k t => [(k, t)] | UUpgrade _ _ _ => [] end) l.
(** block heights are 64-bit numbers: /repo/contracts/core/mailbox/src/state.rs:50-53 *)
Definition utx_timely (t : utx) : Prop := match t with UTx k t => ttx_timely (k, t) | UUpgrade _ _ _ => True end.
(** every program records its own name, e.g. /repo/contracts/core/mailbox/src/lib.rs:13 *)
Definition named (ver : addr -> program -> cw2) : Prop :=
  forall a p n, program_name p = Some n -> cv_contract (ver a p) = n.
(** two databases that differ in the version record at most *)
Definition same_but_version (d d' : db) : Prop :=
  forall k, k <> s "contract_info" -> om_get k d = om_get k d'.
(** the version record of a database: cw2's [CONTRACT], /repo/packages/utils/src/lib.rs:26 *)
Definition recorded (d : db) : res cw2 := load version_c (s "contract_info") d.
(** [c'] is [c] or a later version of the same program *)
Definition upgraded_from (c c' : cw2) : Prop := c' = c \/ (cv_contract c' = cv_contract c /\ supersedes c' c).
