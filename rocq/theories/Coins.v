(** * Coins: [cosmwasm_std::{Coin, Coins}] 1.5.0 and [cw_utils::must_pay]. *)
From Coq Require Import List NArith Bool.
From Verif Require Import Base OMap.
Import ListNotations.

(** [cosmwasm_std::Coin] (/repo/Cargo.toml:45) as in
    /repo/packages/interface/src/hook/fee.rs:10-14 *)
Record coin : Type := mkCoin { c_denom : str; c_amount : N }.

(** [Coins]: BTreeMap from denomination to a non-zero amount:
    /repo/contracts/core/mailbox/src/execute.rs:123-131 *)
Definition coins : Type := omap str N.

(** [Coins::try_from(Vec<Coin>)]: zero coins are skipped, a repeated denomination is
    an error: /repo/contracts/core/mailbox/src/execute.rs:123-131 *)
Definition coins_try_from (l : list coin) : res coins :=
  foldM (fun (m : coins) c =>
    if c_amount c =? 0 then Ok m
    else match om_get (c_denom c) m with
         | Some _ => Err EStd
         | None => Ok (om_set (c_denom c) (c_amount c) m)
         end) l [].

(** [Coins::to_vec]: /repo/contracts/core/mailbox/src/execute.rs:123-147 *)
Definition coins_to_vec (m : coins) : list coin :=
  map (fun p => mkCoin (fst p) (snd p)) m.

(** [Coins::add]: /repo/contracts/hooks/aggregate/src/lib.rs:167-176 *)
Definition coins_add (m : coins) (c : coin) : res coins :=
  if c_amount c =? 0 then Ok m
  else match om_get (c_denom c) m with
       | Some a => if a + c_amount c <? u128_max
                   then Ok (om_set (c_denom c) (a + c_amount c) m) else Err EStd
       | None => Ok (om_set (c_denom c) (c_amount c) m)
       end.

(** [Coins::sub]: /repo/contracts/core/mailbox/src/execute.rs:123-131 *)
Definition coins_sub (m : coins) (c : coin) : res coins :=
  match om_get (c_denom c) m with
  | Some a =>
      if a <? c_amount c then Err EStd
      else if a =? c_amount c then Ok (om_del (c_denom c) m)
      else Ok (om_set (c_denom c) (a - c_amount c) m)
  | None => if c_amount c =? 0 then Ok m else Err EStd
  end.

(** Total amount of a denomination in a list of coins (specification side). Not in
    /repo; e.g. for the funds of /repo/contracts/warp/native/src/contract.rs:212-224. *)
Definition amount_of (d : str) (l : list coin) : N :=
  fold_right (fun c acc => (if bytes_eqb d (c_denom c) then c_amount c else 0) + acc) 0 l.

(** [cw_utils::must_pay] 1.0.3 ([one_coin] then the denomination check):
    /repo/contracts/hooks/fee/src/lib.rs:116,
    /repo/contracts/igps/core/src/execute.rs:152 *)
Definition must_pay (funds : list coin) (d : str) : res N :=
  match funds with
  | [] => Err EPaymentNoFunds
  | [c] => if c_amount c =? 0 then Err EPaymentNoFunds
           else if bytes_eqb (c_denom c) d then Ok (c_amount c)
           else Err EPaymentMissingDenom
  | _ => Err EPaymentMultiple
  end.
