(** * Vocabulary: what a limit on nested calls and queries may change.

    Independent of the proofs: when a chain answers at least what another answers, when two
    chains hold the same, and what is asked of programs that are not in /repo. *)
From Coq Require Import List NArith Bool.
From Verif Require Import Base OMap Chain Contracts World.
Import ListNotations.

(** [r2] succeeds as [r1] does, if [r1] does; a failing query is an error to the contracts of
    /repo, e.g. /repo/packages/interface/src/hook/mod.rs:93-107 *)
Definition at_least {X} (r1 r2 : res X) : Prop := forall v, r1 = Ok v -> r2 = Ok v.

(** [q2] answers whatever [q1] answers, and the same; queries as made by
    /repo/packages/interface/src/ism/mod.rs:93-117 *)
Definition knows_more (q1 q2 : querier) : Prop :=
  (forall a m, at_least (q_smart q1 a m) (q_smart q2 a m)) /\
  (forall a d, q_balance q1 a d = q_balance q2 a d) /\ (forall a, q_all_balances q1 a = q_all_balances q2 a).

(** the submessage asks for no reply should it fail; every submessage of /repo is such, e.g.
    /repo/contracts/warp/native/src/contract.rs:52-61 *)
Definition not_caught (x : submsg) : bool :=
  match sm_reply x with RpError _ | RpAlways _ => false | _ => true end.

(** a program that treats a failing query as a failure and does not catch failing
    submessages, as those of /repo/contracts/*/*/src/*.rs do *)
Definition steady (X : ext) : Prop :=
  (forall e i m q1 q2 st, knows_more q1 q2 -> at_least (x_exec X e i m q1 st) (x_exec X e i m q2 st)) /\
  (forall e m q1 q2 st, knows_more q1 q2 -> at_least (x_query X e m q1 st) (x_query X e m q2 st)) /\
  (forall e id rr q1 q2 st, knows_more q1 q2 -> at_least (x_reply X e id rr q1 st) (x_reply X e id rr q2 st)) /\
  (forall e i m q st st' r, x_exec X e i m q st = Ok (st', r) -> forallb not_caught (r_msgs r) = true) /\
  (forall e id rr q st st' r, x_reply X e id rr q st = Ok (st', r) -> forallb not_caught (r_msgs r) = true).

(** the same contracts in the same states, the same coins, administrators, height and next
    address: all that the chain holds (what is left out is the log kept for statements about
    /repo/contracts/*/*/src/*.rs) *)
Definition same_chain (w1 w2 : world) : Prop :=
  w_inst w1 = w_inst w2 /\ w_bank w1 = w_bank w2 /\ w_admin w1 = w_admin w2 /\
  w_height w1 = w_height w2 /\ w_next w1 = w_next w2.

(** every transaction of the history succeeds; transactions that call
    /repo/contracts/*/*/src/*.rs *)
Fixpoint all_succeed (C : chain) (w : world) (l : list (nat * tx)) : Prop :=
  match l with
  | [] => True
  | t :: l' => exists w', tx_run C (fst t) (snd t) w = Ok w' /\ all_succeed C w' l'
  end.

(** the same transactions, each with at least the limit it had; transactions that call
    /repo/contracts/*/*/src/*.rs *)
Definition more_generous (l1 l2 : list (nat * tx)) : Prop :=
  Forall2 (fun t1 t2 => snd t1 = snd t2 /\ (fst t1 <= fst t2)%nat) l1 l2.
