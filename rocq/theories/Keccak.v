(** * Executable Keccak-256.

    Models [sha3::Keccak256] as used by
    /repo/packages/interface/src/types/crypto.rs:5-13 ([keccak256_hash]):
    Keccak-f[1600], rate 136, original padding 0x01 .. 0x80, 32 output bytes.
    Lanes are [N] below 2^64, the state a list of 25 lanes, index x + 5y. *)

From Coq Require Import List NArith Bool.
From Verif Require Import Base.
Import ListNotations.

(** crate sha3 0.10.8 (/repo/Cargo.toml:77) behind
    /repo/packages/interface/src/types/crypto.rs:5-13: 64-bit words *)
Definition mask64 : N := 18446744073709551615.
(** crate sha3 0.10.8 (/repo/Cargo.toml:77) behind
    /repo/packages/interface/src/types/crypto.rs:5-13: rotation of a word *)
Definition rotl64 (n k : N) : N :=
  N.land (N.lor (N.shiftl n k) (N.shiftr n (64 - k))) mask64.
(** crate sha3 0.10.8 (/repo/Cargo.toml:77) behind
    /repo/packages/interface/src/types/crypto.rs:5-13: one of 25 lanes *)
Definition lane (st : list N) (i : nat) : N := nth i st 0.

(** iota constants: crate sha3 0.10.8 (/repo/Cargo.toml:77) behind
    /repo/packages/interface/src/types/crypto.rs:5-13 *)
Definition round_constants : list N :=
  [0x0000000000000001; 0x0000000000008082; 0x800000000000808a; 0x8000000080008000;
   0x000000000000808b; 0x0000000080000001; 0x8000000080008081; 0x8000000000008009;
   0x000000000000008a; 0x0000000000000088; 0x0000000080008009; 0x000000008000000a;
   0x000000008000808b; 0x800000000000008b; 0x8000000000008089; 0x8000000000008003;
   0x8000000000008002; 0x8000000000000080; 0x000000000000800a; 0x800000008000000a;
   0x8000000080008081; 0x8000000000008080; 0x0000000080000001; 0x8000000080008008].

(** rho offsets, index x + 5y: crate sha3 0.10.8 (/repo/Cargo.toml:77) behind
    /repo/packages/interface/src/types/crypto.rs:5-13 *)
Definition rho : list N :=
  [0; 1; 62; 28; 27;
   36; 44; 6; 55; 20;
   3; 10; 43; 25; 39;
   41; 45; 15; 21; 8;
   18; 2; 61; 56; 14].

(** crate sha3 0.10.8 (/repo/Cargo.toml:77) behind
    /repo/packages/interface/src/types/crypto.rs:5-13: index of lane (x, y) *)
Definition idx : list nat :=
  [0;1;2;3;4;5;6;7;8;9;10;11;12;13;14;15;16;17;18;19;20;21;22;23;24]%nat.

(** crate sha3 0.10.8 (/repo/Cargo.toml:77) behind
    /repo/packages/interface/src/types/crypto.rs:5-13: step theta *)
Definition theta (st : list N) : list N :=
  let c := map (fun x => N.lxor (lane st x) (N.lxor (lane st (x + 5))
             (N.lxor (lane st (x + 10)) (N.lxor (lane st (x + 15)) (lane st (x + 20))))))
             [0;1;2;3;4]%nat in
  let d := map (fun x => N.lxor (nth (Nat.modulo (x + 4) 5) c 0)
                                (rotl64 (nth (Nat.modulo (x + 1) 5) c 0) 1))
             [0;1;2;3;4]%nat in
  map (fun i => N.lxor (lane st i) (nth (Nat.modulo i 5) d 0)) idx.

(** B[y, 2x+3y] = rot(A[x,y], r[x,y]); written as a gather: B[X,Y] takes A[x,y] with y
    = X and 2x+3y = Y (mod 5), i.e. x = X + 3Y: crate sha3 0.10.8
    (/repo/Cargo.toml:77) behind /repo/packages/interface/src/types/crypto.rs:5-13 *)
Definition rho_pi (st : list N) : list N :=
  map (fun i =>
         let X := Nat.modulo i 5 in let Y := Nat.div i 5 in
         let x := Nat.modulo (X + 3 * Y) 5 in
         let src := (x + 5 * X)%nat in
         rotl64 (lane st src) (nth src rho 0)) idx.

(** crate sha3 0.10.8 (/repo/Cargo.toml:77) behind
    /repo/packages/interface/src/types/crypto.rs:5-13: step chi *)
Definition chi (st : list N) : list N :=
  map (fun i =>
         let x := Nat.modulo i 5 in let y5 := (i - x)%nat in
         N.lxor (lane st i)
           (N.land (N.lxor (lane st (y5 + Nat.modulo (x + 1) 5)) mask64)
                   (lane st (y5 + Nat.modulo (x + 2) 5)))) idx.

(** crate sha3 0.10.8 (/repo/Cargo.toml:77) behind
    /repo/packages/interface/src/types/crypto.rs:5-13: step iota *)
Definition iota (rc : N) (st : list N) : list N :=
  match st with a :: st' => N.lxor a rc :: st' | [] => [] end.

(** crate sha3 0.10.8 (/repo/Cargo.toml:77) behind
    /repo/packages/interface/src/types/crypto.rs:5-13: Keccak-f[1600] *)
Definition keccak_f (st : list N) : list N :=
  fold_left (fun st rc => iota rc (chi (rho_pi (theta st)))) round_constants st.

(** little-endian lanes: crate sha3 0.10.8 (/repo/Cargo.toml:77) behind
    /repo/packages/interface/src/types/crypto.rs:5-13 *)
Definition of_le (l : bytes) : N := of_be (rev l).
(** crate sha3 0.10.8 (/repo/Cargo.toml:77) behind
    /repo/packages/interface/src/types/crypto.rs:5-13: a lane as bytes *)
Definition le8 (n : N) : bytes := rev (be 8 n).

(** crate sha3 0.10.8 (/repo/Cargo.toml:77) behind
    /repo/packages/interface/src/types/crypto.rs:5-13: bytes as lanes *)
Fixpoint lanes_of (n : nat) (block : bytes) : list N :=
  match n with
  | O => []
  | S n' => of_le (firstn 8 block) :: lanes_of n' (skipn 8 block)
  end.

(** crate sha3 0.10.8 (/repo/Cargo.toml:77) behind
    /repo/packages/interface/src/types/crypto.rs:5-13: absorbing one block *)
Fixpoint xor_lanes (st block : list N) : list N :=
  match st, block with
  | a :: st', b :: block' => N.lxor a b :: xor_lanes st' block'
  | _, _ => st
  end.

(** crate sha3 0.10.8 (/repo/Cargo.toml:77) behind
    /repo/packages/interface/src/types/crypto.rs:5-13: rate of 136 bytes *)
Definition rate : nat := 136.

(** 0x01, zeros, 0x80 up to a multiple of the rate (0x81 if one byte): crate sha3
    0.10.8 (/repo/Cargo.toml:77) behind
    /repo/packages/interface/src/types/crypto.rs:5-13 *)
Definition keccak_pad (l : bytes) : bytes :=
  let q := (rate - Nat.modulo (List.length l) rate)%nat in
  match q with
  | 1%nat => l ++ [x81]
  | _ => l ++ [x01] ++ repeat x00 (q - 2) ++ [x80]
  end.

(** crate sha3 0.10.8 (/repo/Cargo.toml:77) behind
    /repo/packages/interface/src/types/crypto.rs:5-13: absorbing all blocks *)
Fixpoint absorb (fuel : nat) (st : list N) (l : bytes) : list N :=
  match fuel with
  | O => st
  | S f =>
      match l with
      | [] => st
      | _ => absorb f (keccak_f (xor_lanes st (lanes_of 17 (firstn rate l)))) (skipn rate l)
      end
  end.

(** crate sha3 0.10.8 (/repo/Cargo.toml:77) behind
    /repo/packages/interface/src/types/crypto.rs:5-13 *)
Definition keccak256 (l : bytes) : bytes :=
  let p := keccak_pad l in
  let st := absorb (S (Nat.div (List.length l) rate)) (repeat 0 25) p in
  le8 (lane st 0) ++ le8 (lane st 1) ++ le8 (lane st 2) ++ le8 (lane st 3).

Lemma keccak256_length l : length (keccak256 l) = 32%nat.
Proof. reflexivity. Qed.

(** Published test vectors (tests of the transcription, not proofs). *)
Example keccak256_empty :
  keccak256 [] = hx "c5d2460186f7233c927e7db2dcc703c0e500b653ca82273b7bfad8045d85a470".
Proof. vm_compute. reflexivity. Qed.
Example keccak256_abc :
  keccak256 (s "abc") = hx "4e03657aea45a94fc7d47ba826c8d667c0d1e6e33a64a036ec44f58fa12d6c45".
Proof. vm_compute. reflexivity. Qed.

Global Opaque keccak256.
