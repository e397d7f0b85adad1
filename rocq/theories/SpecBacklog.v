(** * Vocabulary: many deliveries, one after the other.

    Independent of the proofs: messages that wait at a mailbox, what they are worth, and what is to have happened once all
    of them are delivered. *)
From Coq Require Import List NArith Bool.
From Verif Require Import Base OMap Crypto Bech32 Message Coins Chain Contracts Spec SpecModules MailboxConfFacts World
  SpecWorld SpecBridge SpecLive.
Import ListNotations.

(** a message, the metadata and the account to submit it with, and what it is for: so much for somebody from a route;
    /repo/contracts/core/mailbox/src/execute.rs:156-226, /repo/contracts/warp/native/src/contract.rs:146-195 *)
Record parcel : Type := mkParcel {
  pc_metadata : bytes; pc_raw : bytes; pc_relayer : addr; pc_route : addr; pc_to : addr; pc_amount : N }.

(** delivering all of them, in this order: calls of /repo/contracts/core/mailbox/src/execute.rs:156-226 *)
Fixpoint deliver_all (C : chain) (k : nat) (mb : addr) (l : list parcel) (w : world) : res world :=
  match l with
  | [] => Ok w
  | p :: l =>
      w1 <- tx_run C k (TExec (pc_relayer p) mb (MProcess (pc_metadata p) (pc_raw p)) []) w ;;
      deliver_all C k mb l w1
  end.

(** what a route deals in: coins of the chain (/repo/contracts/warp/native/src/lib.rs:17-23) or a token contract
    (/repo/contracts/warp/cw20/src/lib.rs:16-22) *)
Inductive asset : Type := ACoin (denom : str) | AToken (token : addr).
(** the asset of the route in state [st]; as above *)
Definition asset_of (st : cstate) : option asset :=
  match st with
  | SWarpNative _ => option_map ACoin (reported_token st)
  | SWarpCw20 _ => option_map AToken (reported_token st)
  | _ => None
  end.
(** what account [a] has of an asset: bank balance, or balance in the token contract *)
Definition wealth (w : world) (x : asset) (a : addr) : N :=
  match x with
  | ACoin d => balance w a d
  | AToken t => match om_get t (w_inst w) with Some (IC st) => cw_holding st a | _ => 0 end
  end.

(** the route at [r] deals in [x]; /repo/contracts/warp/native/src/lib.rs:17-23, cw20/src/lib.rs:16-22 *)
Definition deals_in (w : world) (x : asset) (r : addr) : bool :=
  match om_get r (w_inst w) with
  | Some (IC st) =>
      match asset_of st, x with
      | Some (ACoin d), ACoin d' => bytes_eqb d d'
      | Some (AToken t), AToken t' => bytes_eqb t t'
      | _, _ => false
      end
  | _ => false
  end.
(** the route at [r] pays out of what it holds; /repo/contracts/warp/native/src/contract.rs:170-188 *)
Definition locks_up (w : world) (r : addr) : bool :=
  match om_get r (w_inst w) with Some (IC st) => mode_eqb (reported_mode st) Collateral | _ => false end.

(** the amounts of those parcels that satisfy [f], summed; calls of /repo/contracts/core/mailbox/src/execute.rs:156-226 *)
Definition sum_of (f : parcel -> bool) (l : list parcel) : N :=
  fold_right (fun p acc => (if f p then pc_amount p else 0) + acc) 0 l.

(** parcel [p] can be delivered: the message is for a warp route and was not delivered; security modules of
    /repo/contracts/isms/*/src/*.rs accept it with the metadata; it bids the route pay *)
Definition due (C : chain) (n : nat) (w : world) (mb : addr) (p : parcel) : Prop :=
  exists mbst st m, contract_at w mb mbst /\ is_mailbox mbst /\ contract_at w (pc_route p) st /\ is_warp st /\
  msg_decode (pc_raw p) = Ok m /\ m_version m = 3 /\ reported_domain mbst = Some (m_dest m) /\
  (exists hrp, reported_hrp mbst = Some hrp /\ bech32_encode hrp (m_recipient m) = Ok (pc_route p)) /\
  reported_delivered mbst (keccak256_hash (pc_raw p)) = Some false /\
  (exists x, consulted st mbst x /\
     answers (ch_api C) (contract_at w) (fun _ _ _ _ _ => False) n x (pc_metadata p) (pc_raw p) true) /\
  warp_delivery st (mkInfo mb []) (m_origin m) (m_sender m) (m_body m) (pc_to p) (pc_amount p) /\
  pc_amount p <> 0 /\ api_valid (ch_api C) (pc_to p) = true /\ ch_account C (pc_relayer p) = true /\
  exists held, holds w st (pc_route p) held.

(** the routes that lock hold enough for all parcels, and the token contracts of those that issue have room for them;
    /repo/contracts/warp/native/src/contract.rs:170-188, cw20/src/contract.rs:165-175 *)
Definition affordable (w : world) (l : list parcel) : Prop :=
  forall p x, In p l -> deals_in w x (pc_route p) = true ->
    (locks_up w (pc_route p) = true ->
       sum_of (fun q => bytes_eqb (pc_route q) (pc_route p)) l <= wealth w x (pc_route p)) /\
    (locks_up w (pc_route p) = false -> forall t tst, x = AToken t -> contract_at w t tst ->
       cw_total tst + sum_of (fun q => (deals_in w x (pc_route q) && negb (locks_up w (pc_route q)))%bool) l < 2 ^ 128).

(** the chain [w'] is [w] after all of [l] arrived: recipients have their amounts, routes that lock paid them, the mailbox at [mb]
    reports them delivered; nothing else changed.  Calls of /repo/contracts/core/mailbox/src/execute.rs:156-226 *)
Definition all_arrived (w w' : world) (mb : addr) (l : list parcel) : Prop :=
  (forall x a, wealth w' x a
     + sum_of (fun p => (deals_in w x (pc_route p) && locks_up w (pc_route p) && bytes_eqb (pc_route p) a)%bool) l
     = wealth w x a + sum_of (fun p => (deals_in w x (pc_route p) && bytes_eqb (pc_to p) a)%bool) l) /\
  (forall mbst, contract_at w mb mbst -> exists mbst', contract_at w' mb mbst' /\
     (forall id, reported_delivered mbst' id
        = if existsb (fun p => bytes_eqb (keccak256_hash (pc_raw p)) id) l then Some true else reported_delivered mbst id) /\
     (forall A q m, (forall id, m <> QDelivered id) -> c_query A q m mbst' = c_query A q m mbst)) /\
  (forall y : addr, y <> mb -> existsb (fun p => deals_in w (AToken y) (pc_route p)) l = false ->
     om_get y (w_inst w') = om_get y (w_inst w)).
