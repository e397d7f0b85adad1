(** * The chain with migrations.

    TextWorld.v with one more kind of transaction: the code behind an address is
    replaced by a version of one of the programs of /repo and its [migrate] runs on
    the database that is there.  Whoever the chain lets order this may: the rule on
    admins is left out, so the theorems hold whatever it is.  Every version of a
    program is taken to behave as the program of this commit does.  Replacing the code
    by a program that is not in /repo, and migrating contracts that are not of /repo,
    are left out. *)
From Coq Require Import List NArith Bool.
From Verif Require Import Base OMap Chain Utils Contracts World Wire Store Raw RawWorld TextWorld.
Import ListNotations.

(** [CARGO_PKG_NAME]: line 2 of the Cargo.toml of each directory of
    /repo/contracts/{core,isms,hooks,igps,warp}; the cw20 token is not in /repo *)
Definition program_name (p : program) : option str :=
  match p with
  | PMailbox => Some (s "hpl-mailbox")
  | PVa => Some (s "hpl-validator-announce")
  | PMultisig => Some (s "hpl-ism-multisig")
  | PAggIsm => Some (s "hpl-ism-aggregate")
  | PRoutingIsm => Some (s "hpl-ism-routing")
  | PPausableIsm => Some (s "hpl-ism-pausable")
  | PMerkle => Some (s "hpl-hook-merkle")
  | PAggHook => Some (s "hpl-hook-aggregate")
  | PPausableHook => Some (s "hpl-hook-pausable")
  | PRoutingHook => Some (s "hpl-hook-routing")
  | PCustomHook => Some (s "hpl-hook-routing-custom")
  | PFallbackHook => Some (s "hpl-hook-routing-fallback")
  | PFeeHook => Some (s "hpl-hook-fee")
  | POracle => Some (s "hpl-igp-oracle")
  | PIgp => Some (s "hpl-igp")
  | PWarpNative => Some (s "hpl-warp-native")
  | PWarpCw20 => Some (s "hpl-warp-cw20")
  | PCw20 => None
  end.

(** the code at [a] becomes version [v] of program [p], whose [migrate] runs:
    - core: mailbox/src/contract.rs:98-102, va/src/contract.rs:218-222
    - isms: multisig/src/contract.rs:136-140, aggregate/src/lib.rs:173-177,
      routing/src/contract.rs:154-158, pausable/src/lib.rs:96-100
    - hooks: merkle/src/lib.rs:196-200, aggregate/src/lib.rs:197-201,
      pausable/src/lib.rs:105-109, routing/src/lib.rs:141-145,
      routing-custom/src/lib.rs:318-322, routing-fallback/src/lib.rs:160-164,
      fee/src/lib.rs:156-160
    - igps: core/src/contract.rs:137-141, oracle/src/contract.rs:102-106
    - warp: native/src/contract.rs:304-308, cw20/src/contract.rs:291-295
    (all in /repo/contracts) *)
Definition upgrade (a : addr) (p : program) (v : str) (w : rworld) : res rworld :=
  match om_get a (rw_inst w), program_name p with
  | Some (RC _ d), Some n => d' <- raw_migrate n v d ;; Ok (rset_inst a (RC p d') w)
  | _, _ => Err EMigration
  end.

(** a transaction: one of TextWorld.v or a migration; used by every entry point of
    /repo/contracts/*/*/src/{contract,lib}.rs *)
Inductive utx := UTx (k : nat) (t : ttx) | UUpgrade (a : addr) (p : program) (v : str).
(** the versions in use: from now on the code at [a] is version [v];
    [CONTRACT_VERSION], e.g. /repo/contracts/core/mailbox/src/lib.rs:14 *)
Definition install (a : addr) (v : str) (ver : addr -> program -> cw2) (b : addr) (q : program) : cw2 :=
  if bytes_eqb b a then match program_name q with Some n => mkCw2 n v | None => ver b q end else ver b q.
(** the chain and the versions in use; a failed transaction changes nothing; runtime rule (DESIGN.md,
    "Runtime rules"); used by every entry point of /repo/contracts/*/*/src/{contract,lib}.rs *)
Definition ustep (C : chain) (x : (addr -> program -> cw2) * rworld) (t : utx) : (addr -> program -> cw2) * rworld :=
  let '(ver, w) := x in
  match t with
  | UTx k t => (ver, ttx_step C ver w (k, t))
  | UUpgrade a p v => match upgrade a p v w with Ok w' => (install a v ver, w') | _ => (ver, w) end
  end.
(** a history of transactions calling /repo/contracts/*/*/src/{contract,lib}.rs *)
Definition urun (C : chain) (x : (addr -> program -> cw2) * rworld) (l : list utx) : (addr -> program -> cw2) * rworld :=
  fold_left (ustep C) l x.
