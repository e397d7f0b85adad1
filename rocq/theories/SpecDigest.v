(** * Hashes and accounts of Cosmos keys: what the theorems say. *)
From Coq Require Import List NArith Bool.
From Verif Require Import Base Digest.
Import ListNotations.

(** the states and blocks that a compression function is given when [l] is hashed;
    behind /repo/packages/interface/src/types/crypto.rs:33-59 *)
Fixpoint inputs {St} (f : St -> bytes -> St) (fuel : nat) (st : St) (l : bytes) : list (St * bytes) :=
  match fuel with
  | O => []
  | S n => match l with [] => [] | _ => (st, firstn 64 l) :: inputs f n (f st (firstn 64 l)) (skipn 64 l) end
  end.
(** hashing [p] and [q], the function is given two different inputs that it maps to one state *)
Definition collide {St} (f : St -> bytes -> St) (st : St) (p q : bytes) : Prop :=
  exists u v, In u (inputs f (length p) st p) /\ In v (inputs f (length q) st q) /\ u <> v /\ f (fst u) (snd u) = f (fst v) (snd v).
(** SHA-256 collides on its way: /repo/packages/interface/src/types/crypto.rs:33-45 *)
Definition sha_collision (a b : bytes) : Prop := collide sha_block sha_init (md_pad (be 8) a) (md_pad (be 8) b).
(** RIPEMD-160 collides on its way: /repo/packages/interface/src/types/crypto.rs:47-59 *)
Definition rmd_collision (a b : bytes) : Prop := collide rmd_block rmd_init (md_pad (le 8) a) (md_pad (le 8) b).
(** inputs whose length in bits is a 64-bit number *)
Definition short (l : bytes) : Prop := N.of_nat (length l) < 2 ^ 61.
