(** * Vocabulary: what depends on who relays a message, and when.

    Independent of the proofs: chains that differ in the relayers and heights noted beside
    delivered messages only, and histories told again with other relayers and other blocks. *)
From Coq Require Import List NArith Bool.
From Verif Require Import Base OMap Chain Mailbox Contracts World SpecRawWorld.
Import ListNotations.

(** a mailbox without the relayers and heights it noted:
    /repo/contracts/core/mailbox/src/state.rs:50-53, 64-65 *)
Definition unsigned_mb (x : mb) : mb :=
  mkMb (mb_own x) (mb_hrp x) (mb_domain x) (mb_ism x) (mb_hook x) (mb_required x) (mb_nonce x) (mb_latest x)
       (map (fun p => (fst p, mkDelivery [] 0)) (mb_deliveries x)).
(** only mailboxes note relayers: /repo/contracts/core/mailbox/src/execute.rs:191-199 *)
Definition unsigned_state (st : cstate) : cstate :=
  match st with SMailbox x => SMailbox (unsigned_mb x) | _ => st end.
(** what an address holds, without what mailboxes noted of relayers:
    /repo/contracts/core/mailbox/src/execute.rs:191-199 *)
Definition unsigned_inst (x : inst) : inst :=
  match x with IC st => IC (unsigned_state st) | IX st => IX st end.

(** heights that count as the same: all if [free], otherwise equal ones;
    [block_number] of /repo/contracts/core/mailbox/src/execute.rs:196 *)
Definition same_time (free : bool) (h1 h2 : N) : Prop := free = false -> h1 = h2.

(** all that the chain holds is the same, but for what mailboxes noted of relayers
    (/repo/contracts/core/mailbox/src/state.rs:50-53) and, if [free], the height *)
Definition same_but_relayers (free : bool) (w1 w2 : world) : Prop :=
  map (fun p => (fst p, unsigned_inst (snd p))) (w_inst w1) = map (fun p => (fst p, unsigned_inst (snd p))) (w_inst w2) /\
  w_bank w1 = w_bank w2 /\ w_admin w1 = w_admin w2 /\ same_time free (w_height w1) (w_height w2) /\ w_next w1 = w_next w2.

(** programs that are not in /repo/contracts/*/*/src/*.rs learn about the chain by asking only;
    if [free], they do not look at the height either, as those of /repo do not but for the note at
    /repo/contracts/core/mailbox/src/execute.rs:191-199 *)
Definition asks_only_at (free : bool) (X : ext) : Prop :=
  (forall a h1 h2 i m q1 q2 st, same_time free h1 h2 -> alike q1 q2 -> x_exec X (mkEnv a h1) i m q1 st = x_exec X (mkEnv a h2) i m q2 st) /\
  (forall a h1 h2 n r q1 q2 st, same_time free h1 h2 -> alike q1 q2 -> x_reply X (mkEnv a h1) n r q1 st = x_reply X (mkEnv a h2) n r q2 st) /\
  (forall a h1 h2 m q1 q2 st, same_time free h1 h2 -> alike q1 q2 -> x_query X (mkEnv a h1) m q1 st = x_query X (mkEnv a h2) m q2 st).

(** both fail alike or both succeed, with what is related; entry points return such results, e.g.
    /repo/contracts/core/mailbox/src/contract.rs:51-70 *)
Definition matched {X Y} (R : X -> Y -> Prop) (r1 : res X) (r2 : res Y) : Prop :=
  match r1, r2 with Ok a, Ok b => R a b | Err e, Err f => e = f | Panic, Panic => True | _, _ => False end.

(** calls that anybody may make: a relayer's, /repo/contracts/core/mailbox/src/execute.rs:156-226, and
    a validator's, /repo/contracts/core/va/src/contract.rs:153-216 *)
Definition relayable (m : emsg) : bool :=
  match m with MProcess _ _ | MAnnounce _ _ _ => true | _ => false end.

(** [a] holds no program from outside /repo/contracts/*/*/src/*.rs *)
Definition not_foreign (w : world) (a : addr) : Prop := forall st, om_get a (w_inst w) <> Some (IX st).

(** the same history, told from [w] on, with other accounts making the calls that anybody may
    make (without coins) and, if [free], with blocks ending elsewhere; the calls of
    /repo/contracts/*/*/src/*.rs *)
Inductive retold (C : chain) (free : bool) : world -> list (nat * tx) -> list (nat * tx) -> Prop :=
| rt_end w : retold C free w [] []
| rt_same w t l1 l2 : retold C free (tx_step C w t) l1 l2 -> retold C free w (t :: l1) (t :: l2)
| rt_relayer w k u v a m l1 l2 : relayable m = true -> ch_account C u = true -> ch_account C v = true -> not_foreign w a ->
    retold C free (tx_step C w (k, TExec u a m [])) l1 l2 ->
    retold C free w ((k, TExec u a m []) :: l1) ((k, TExec v a m []) :: l2)
| rt_block_more w k h l1 l2 : free = true -> retold C free w l1 l2 -> retold C free w l1 ((k, TBlock h) :: l2)
| rt_block_less w k h l1 l2 : free = true -> retold C free (tx_step C w (k, TBlock h)) l1 l2 ->
    retold C free w ((k, TBlock h) :: l1) l2.
