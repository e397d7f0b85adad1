(** * The chain on texts and databases: what the theorems say. *)
From Coq Require Import List NArith Bool.
From Verif Require Import Base OMap Chain Contracts World SpecWorld Wire WireInit RawWorld SpecRawWorld TextWorld.
Import ListNotations.

(** what a transaction with texts asks of the chain of World.v: the message that the contract it is addressed to
    reads in its text (C72, C73), the birth that the program it names reads (C84); nothing if it reads none.
    [execute] and [instantiate] of /repo/contracts/*/*/src/{contract,lib}.rs *)
Definition heard (w : world) (t : ttx) : option tx :=
  match t with
  | Write s a t f =>
      match om_get a (w_inst w) with
      | Some (IC st) => match read_exec (program_of st) t with Some m => Some (TExec s a m f) | None => None end
      | _ => None
      end
  | Make s p t f => match read_init p t with Some b => Some (TDeploy s (meant b) f) | None => None end
  | Plain t => Some t
  end.
(** the history of World.v that a history with texts asks for, from the world [w] on *)
Fixpoint history_heard (C : chain) (w : world) (l : list (nat * ttx)) : list (nat * tx) :=
  match l with
  | [] => []
  | (k, t) :: l' =>
      match heard w t with
      | Some t' => (k, t') :: history_heard C (tx_step C w (k, t')) l'
      | None => history_heard C w l'
      end
  end.
(** block heights are 64-bit numbers: /repo/contracts/core/mailbox/src/state.rs:50-53 *)
Definition ttx_timely (t : nat * ttx) : Prop :=
  match snd t with Plain t' => tx_timely (fst t, t') | _ => True end.
