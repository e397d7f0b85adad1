(** * People's money: the words used in C101. *)
From Coq Require Import List NArith Bool.
From Verif Require Import Base OMap Coins Chain Contracts World Spec SpecModules SpecWorld.
Import ListNotations.

(** the coins of denomination [d] that account [p] sends along with a transaction it signs, to
    /repo/contracts/*/*/src/{contract,lib}.rs or to anybody *)
Definition attached (d : str) (p : addr) (t : tx) : N :=
  match t with
  | TExec s _ _ f | TSend s _ f | TDeploy s _ f | TDeployExt s _ f => if bytes_eqb p s then amount_of d f else 0
  | TBlock _ => 0
  end.
(** in a whole history *)
Definition spent (d : str) (p : addr) (l : list (nat * tx)) : N := total (fun t => attached d p (snd t)) l.

(** [p] neither calls the token contract [tk] nor asks any contract for a remote transfer
    (/repo/contracts/warp/cw20/src/contract.rs:185-255); all else it may do *)
Definition hands_off (tk : addr) (l : list (nat * tx)) (p : addr) : Prop :=
  forall k a m f, In (k, TExec p a m f) l ->
    a <> tk /\ (forall dest to n h md, m <> MTransferRemote dest to n h md).

(** what an accepted call of a token contract takes from [p] on the strength of an allowance
    (crate cw20-base 1.1.2, /repo/Cargo.toml:55; called at /repo/contracts/warp/cw20/src/contract.rs:211-222) *)
Definition draw (p : addr) (x : event * response) : N :=
  match ev_msg (fst x) with
  | Some (MCw20TransferFrom o _ n) | Some (MCw20BurnFrom o n) => if bytes_eqb p o then n else 0
  | _ => 0
  end.
Definition draw_by (p sp : addr) (x : event * response) : N :=
  match ev_sender (fst x) with Some c => if bytes_eqb sp c then draw p x else 0 | None => 0 end.
Definition drawn (p : addr) (h : list (event * response)) : N := total (draw p) h.
Definition drawn_by (p sp : addr) (h : list (event * response)) : N := total (draw_by p sp) h.

(** what a call adds to the allowance [p] gives [sp] (crate cw20-base 1.1.2, /repo/Cargo.toml:55) *)
Definition grant (p sp : addr) (ev : event) : N :=
  match ev with
  | EvExec _ i (MCw20IncreaseAllowance x n) _ => if (bytes_eqb p (i_sender i) && bytes_eqb sp x)%bool then n else 0
  | _ => 0
  end.
