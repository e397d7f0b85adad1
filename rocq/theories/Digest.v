(** * Executable SHA-256 and RIPEMD-160; the account of a Cosmos key.

    Models [sha2::Sha256] and [ripemd::Ripemd160] as used by
    /repo/packages/interface/src/types/crypto.rs:33-66. Words are [N] below 2^32. *)
From Coq Require Import List NArith Bool.
From Verif Require Import Base.
Import ListNotations.

(** crates sha2 0.10.6 and ripemd 0.1.3 (/repo/Cargo.toml:78-79) behind
    /repo/packages/interface/src/types/crypto.rs:33-59: 32-bit words *)
Definition mask32 : N := 4294967295.
(** the same: addition of words *)
Definition add32 (a b : N) : N := N.land (a + b) mask32.
(** the same: rotation of a word to the left; the message lengths of
    /repo/packages/interface/src/types/crypto.rs:33-59 do not enter *)
Definition rotl32 (n k : N) : N := N.land (N.lor (N.shiftl n k) (N.shiftr n (32 - k))) mask32.
(** the same: complement of a word; crates sha2 and ripemd, /repo/Cargo.toml:78-79 *)
Definition not32 (n : N) : N := N.lxor n mask32.

(** a block of 64 bytes as 16 words, read with [rd] (big-endian: crate sha2 0.10.6 (/repo/Cargo.toml:78) behind
    /repo/packages/interface/src/types/crypto.rs:33-45;
    little-endian: crate ripemd 0.1.3 (/repo/Cargo.toml:79) behind
    /repo/packages/interface/src/types/crypto.rs:47-59) *)
Fixpoint words_of (rd : bytes -> N) (n : nat) (block : bytes) : list N :=
  match n with
  | O => []
  | S n' => rd (firstn 4 block) :: words_of rd n' (skipn 4 block)
  end.
(** 0x80, zeros up to 8 bytes before the end of a block, and the length in bits written with [wr] in 8 bytes;
    crates sha2 0.10.6 and ripemd 0.1.3 (/repo/Cargo.toml:78-79) behind
    /repo/packages/interface/src/types/crypto.rs:33-59 *)
Definition md_pad (wr : N -> bytes) (l : bytes) : bytes :=
  l ++ x80 :: repeat x00 (N.to_nat ((119 - N.of_nat (List.length l) mod 64) mod 64)) ++ wr (8 * N.of_nat (List.length l)).
(** all blocks one after the other; crates sha2 0.10.6 and ripemd 0.1.3 (/repo/Cargo.toml:78-79) behind
    /repo/packages/interface/src/types/crypto.rs:33-59 *)
Fixpoint md_run {St} (f : St -> bytes -> St) (fuel : nat) (st : St) (l : bytes) : St :=
  match fuel with
  | O => st
  | S n => match l with [] => st | _ => md_run f n (f st (firstn 64 l)) (skipn 64 l) end
  end.

(** ** SHA-256 *)
(** crate sha2 0.10.6 (/repo/Cargo.toml:78) behind
    /repo/packages/interface/src/types/crypto.rs:33-45: rotation to the right *)
Definition rotr32 (n k : N) : N := rotl32 n (32 - k).
(** crate sha2 0.10.6 (/repo/Cargo.toml:78) behind
    /repo/packages/interface/src/types/crypto.rs:33-45: the round constants *)
Definition sha_k : list N :=
  [0x428a2f98; 0x71374491; 0xb5c0fbcf; 0xe9b5dba5; 0x3956c25b; 0x59f111f1; 0x923f82a4; 0xab1c5ed5;
   0xd807aa98; 0x12835b01; 0x243185be; 0x550c7dc3; 0x72be5d74; 0x80deb1fe; 0x9bdc06a7; 0xc19bf174;
   0xe49b69c1; 0xefbe4786; 0x0fc19dc6; 0x240ca1cc; 0x2de92c6f; 0x4a7484aa; 0x5cb0a9dc; 0x76f988da;
   0x983e5152; 0xa831c66d; 0xb00327c8; 0xbf597fc7; 0xc6e00bf3; 0xd5a79147; 0x06ca6351; 0x14292967;
   0x27b70a85; 0x2e1b2138; 0x4d2c6dfc; 0x53380d13; 0x650a7354; 0x766a0abb; 0x81c2c92e; 0x92722c85;
   0xa2bfe8a1; 0xa81a664b; 0xc24b8b70; 0xc76c51a3; 0xd192e819; 0xd6990624; 0xf40e3585; 0x106aa070;
   0x19a4c116; 0x1e376c08; 0x2748774c; 0x34b0bcb5; 0x391c0cb3; 0x4ed8aa4a; 0x5b9cca4f; 0x682e6ff3;
   0x748f82ee; 0x78a5636f; 0x84c87814; 0x8cc70208; 0x90befffa; 0xa4506ceb; 0xbef9a3f7; 0xc67178f2].
(** crate sha2 0.10.6 (/repo/Cargo.toml:78) behind
    /repo/packages/interface/src/types/crypto.rs:33-45: the eight words of the state *)
Record sha_state : Type := mkSha { sA : N; sB : N; sC : N; sD : N; sE : N; sF : N; sG : N; sH : N }.
(** crate sha2 0.10.6 (/repo/Cargo.toml:78) behind
    /repo/packages/interface/src/types/crypto.rs:33-45: the initial state *)
Definition sha_init : sha_state :=
  mkSha 0x6a09e667 0xbb67ae85 0x3c6ef372 0xa54ff53a 0x510e527f 0x9b05688c 0x1f83d9ab 0x5be0cd19.
(** crate sha2 0.10.6 (/repo/Cargo.toml:78) behind
    /repo/packages/interface/src/types/crypto.rs:33-45: one round *)
Definition sha_round (st : sha_state) (kw : N) : sha_state :=
  let s1 := N.lxor (rotr32 (sE st) 6) (N.lxor (rotr32 (sE st) 11) (rotr32 (sE st) 25)) in
  let ch := N.lxor (N.land (sE st) (sF st)) (N.land (not32 (sE st)) (sG st)) in
  let t1 := add32 (sH st) (add32 s1 (add32 ch kw)) in
  let s0 := N.lxor (rotr32 (sA st) 2) (N.lxor (rotr32 (sA st) 13) (rotr32 (sA st) 22)) in
  let mj := N.lxor (N.land (sA st) (sB st)) (N.lxor (N.land (sA st) (sC st)) (N.land (sB st) (sC st))) in
  mkSha (add32 t1 (add32 s0 mj)) (sA st) (sB st) (sC st) (add32 (sD st) t1) (sE st) (sF st) (sG st).
(** crate sha2 0.10.6 (/repo/Cargo.toml:78) behind
    /repo/packages/interface/src/types/crypto.rs:33-45: the message schedule; [w] are the last 16 words *)
Fixpoint sha_rounds (ks w : list N) (st : sha_state) : sha_state :=
  match ks, w with
  | k :: ks', x :: w' =>
      let s0 := let y := nth 1 w 0 in N.lxor (rotr32 y 7) (N.lxor (rotr32 y 18) (N.shiftr y 3)) in
      let s1 := let y := nth 14 w 0 in N.lxor (rotr32 y 17) (N.lxor (rotr32 y 19) (N.shiftr y 10)) in
      sha_rounds ks' (w' ++ [add32 x (add32 s0 (add32 (nth 9 w 0) s1))]) (sha_round st (add32 k x))
  | _, _ => st
  end.
(** crate sha2 0.10.6 (/repo/Cargo.toml:78) behind
    /repo/packages/interface/src/types/crypto.rs:33-45: one block *)
Definition sha_block (st : sha_state) (block : bytes) : sha_state :=
  let r := sha_rounds sha_k (words_of of_be 16 block) st in
  mkSha (add32 (sA st) (sA r)) (add32 (sB st) (sB r)) (add32 (sC st) (sC r)) (add32 (sD st) (sD r))
        (add32 (sE st) (sE r)) (add32 (sF st) (sF r)) (add32 (sG st) (sG r)) (add32 (sH st) (sH r)).
(** crate sha2 0.10.6 (/repo/Cargo.toml:78) behind
    /repo/packages/interface/src/types/crypto.rs:33-45 *)
Definition sha256 (l : bytes) : bytes :=
  let p := md_pad (be 8) l in
  let r := md_run sha_block (List.length p) sha_init p in
  be 4 (sA r) ++ be 4 (sB r) ++ be 4 (sC r) ++ be 4 (sD r) ++ be 4 (sE r) ++ be 4 (sF r) ++ be 4 (sG r) ++ be 4 (sH r).

(** ** RIPEMD-160 *)
(** crate ripemd 0.1.3 (/repo/Cargo.toml:79) behind
    /repo/packages/interface/src/types/crypto.rs:47-59: little-endian words *)
Definition le (k : nat) (n : N) : bytes := rev (be k n).
(** crate ripemd 0.1.3 (/repo/Cargo.toml:79) behind
    /repo/packages/interface/src/types/crypto.rs:47-59: the five words of the state *)
Record rmd_state : Type := mkRmd { rA : N; rB : N; rC : N; rD : N; rE : N }.
(** crate ripemd 0.1.3 (/repo/Cargo.toml:79) behind
    /repo/packages/interface/src/types/crypto.rs:47-59: the initial state *)
Definition rmd_init : rmd_state := mkRmd 0x67452301 0xefcdab89 0x98badcfe 0x10325476 0xc3d2e1f0.
(** crate ripemd 0.1.3 (/repo/Cargo.toml:79) behind
    /repo/packages/interface/src/types/crypto.rs:47-59: the five functions *)
Definition rmd_f (i : nat) (x y z : N) : N :=
  match i with
  | 0 => N.lxor x (N.lxor y z)
  | 1 => N.lor (N.land x y) (N.land (not32 x) z)
  | 2 => N.lxor (N.lor x (not32 y)) z
  | 3 => N.lor (N.land x z) (N.land y (not32 z))
  | _ => N.lxor x (N.lor y (not32 z))
  end%nat.
(** crate ripemd 0.1.3 (/repo/Cargo.toml:79) behind
    /repo/packages/interface/src/types/crypto.rs:47-59: which word of the block each step of the left line takes *)
Definition rmd_r : list nat :=
  [0; 1; 2; 3; 4; 5; 6; 7; 8; 9; 10; 11; 12; 13; 14; 15;
   7; 4; 13; 1; 10; 6; 15; 3; 12; 0; 9; 5; 2; 14; 11; 8;
   3; 10; 14; 4; 9; 15; 8; 1; 2; 7; 0; 6; 13; 11; 5; 12;
   1; 9; 11; 10; 0; 8; 12; 4; 13; 3; 7; 15; 14; 5; 6; 2;
   4; 0; 5; 9; 7; 12; 2; 10; 14; 1; 3; 8; 11; 6; 15; 13]%nat.
(** crate ripemd 0.1.3 (/repo/Cargo.toml:79) behind
    /repo/packages/interface/src/types/crypto.rs:47-59: the same for the right line *)
Definition rmd_r' : list nat :=
  [5; 14; 7; 0; 9; 2; 11; 4; 13; 6; 15; 8; 1; 10; 3; 12;
   6; 11; 3; 7; 0; 13; 5; 10; 14; 15; 8; 12; 4; 9; 1; 2;
   15; 5; 1; 3; 7; 14; 6; 9; 11; 8; 12; 2; 10; 0; 4; 13;
   8; 6; 4; 1; 3; 11; 15; 0; 5; 12; 2; 13; 9; 7; 10; 14;
   12; 15; 10; 4; 1; 5; 8; 7; 6; 2; 13; 14; 0; 3; 9; 11]%nat.
(** crate ripemd 0.1.3 (/repo/Cargo.toml:79) behind
    /repo/packages/interface/src/types/crypto.rs:47-59: by how much each step of the left line rotates *)
Definition rmd_s : list N :=
  [11; 14; 15; 12; 5; 8; 7; 9; 11; 13; 14; 15; 6; 7; 9; 8;
   7; 6; 8; 13; 11; 9; 7; 15; 7; 12; 15; 9; 11; 7; 13; 12;
   11; 13; 6; 7; 14; 9; 13; 15; 14; 8; 13; 6; 5; 12; 7; 5;
   11; 12; 14; 15; 14; 15; 9; 8; 9; 14; 5; 6; 8; 6; 5; 12;
   9; 15; 5; 11; 6; 8; 13; 12; 5; 12; 13; 14; 11; 8; 5; 6].
(** crate ripemd 0.1.3 (/repo/Cargo.toml:79) behind
    /repo/packages/interface/src/types/crypto.rs:47-59: the same for the right line *)
Definition rmd_s' : list N :=
  [8; 9; 9; 11; 13; 15; 15; 5; 7; 7; 8; 11; 14; 14; 12; 6;
   9; 13; 15; 7; 12; 8; 9; 11; 7; 7; 12; 7; 6; 15; 13; 11;
   9; 7; 15; 11; 8; 6; 6; 14; 12; 13; 5; 14; 13; 13; 7; 5;
   15; 5; 8; 11; 14; 14; 6; 14; 6; 9; 12; 9; 12; 5; 15; 8;
   8; 5; 12; 9; 12; 5; 14; 6; 8; 13; 6; 5; 15; 13; 11; 11].
(** crate ripemd 0.1.3 (/repo/Cargo.toml:79) behind
    /repo/packages/interface/src/types/crypto.rs:47-59: constants of the left line *)
Definition rmd_k : list N := [0x00000000; 0x5a827999; 0x6ed9eba1; 0x8f1bbcdc; 0xa953fd4e].
(** crate ripemd 0.1.3 (/repo/Cargo.toml:79) behind
    /repo/packages/interface/src/types/crypto.rs:47-59: constants of the right line *)
Definition rmd_k' : list N := [0x50a28be6; 0x5c4dd124; 0x6d703ef3; 0x7a6d76e9; 0x00000000].
(** crate ripemd 0.1.3 (/repo/Cargo.toml:79) behind
    /repo/packages/interface/src/types/crypto.rs:47-59: one step, with function [f], constant [k], word [x] and rotation [t] *)
Definition rmd_step (f : N -> N -> N -> N) (k x t : N) (st : rmd_state) : rmd_state :=
  mkRmd (rE st) (add32 (rotl32 (add32 (rA st) (add32 (f (rB st) (rC st) (rD st)) (add32 x k))) t) (rE st))
        (rB st) (rotl32 (rC st) 10) (rD st).
(** crate ripemd 0.1.3 (/repo/Cargo.toml:79) behind
    /repo/packages/interface/src/types/crypto.rs:47-59: a line of 80 steps; [fi] chooses the function of a round *)
Fixpoint rmd_line (fi : nat -> nat) (ks w : list N) (j : nat) (rs : list nat) (ts : list N) (st : rmd_state) : rmd_state :=
  match rs, ts with
  | r :: rs', t :: ts' =>
      let q := Nat.div j 16 in
      rmd_line fi ks w (S j) rs' ts' (rmd_step (rmd_f (fi q)) (nth q ks 0) (nth r w 0) t st)
  | _, _ => st
  end.
(** crate ripemd 0.1.3 (/repo/Cargo.toml:79) behind
    /repo/packages/interface/src/types/crypto.rs:47-59: one block *)
Definition rmd_block (st : rmd_state) (block : bytes) : rmd_state :=
  let w := words_of (fun b => of_be (rev b)) 16 block in
  let l := rmd_line (fun q => q) rmd_k w 0 rmd_r rmd_s st in
  let r := rmd_line (fun q => (4 - q)%nat) rmd_k' w 0 rmd_r' rmd_s' st in
  mkRmd (add32 (rB st) (add32 (rC l) (rD r))) (add32 (rC st) (add32 (rD l) (rE r))) (add32 (rD st) (add32 (rE l) (rA r)))
        (add32 (rE st) (add32 (rA l) (rB r))) (add32 (rA st) (add32 (rB l) (rC r))).
(** crate ripemd 0.1.3 (/repo/Cargo.toml:79) behind
    /repo/packages/interface/src/types/crypto.rs:47-59 *)
Definition ripemd160 (l : bytes) : bytes :=
  let p := md_pad (le 8) l in
  let r := md_run rmd_block (List.length p) rmd_init p in
  le 4 (rA r) ++ le 4 (rB r) ++ le 4 (rC r) ++ le 4 (rD r) ++ le 4 (rE r).

(** Published test vectors (tests of the transcription, not proofs). *)
Example sha256_empty : sha256 [] = hx "e3b0c44298fc1c149afbf4c8996fb92427ae41e4649b934ca495991b7852b855".
Proof. vm_compute. reflexivity. Qed.
Example sha256_abc : sha256 (s "abc") = hx "ba7816bf8f01cfea414140de5dae2223b00361a396177a9cb410ff61f20015ad".
Proof. vm_compute. reflexivity. Qed.
Example sha256_two_blocks : sha256 (s "abcdbcdecdefdefgefghfghighijhijkijkljklmklmnlmnomnopnopq") = hx "248d6a61d20638b8e5c026930c3e6039a33ce45964ff2167f6ecedd419db06c1".
Proof. vm_compute. reflexivity. Qed.
Example sha256_zeros : sha256 (repeat x00 200) = hx "6d9c54dee5660c46886f32d80e57e9dd0ffa57ee0cd2a762b036d9c8e0c3a33a".
Proof. vm_compute. reflexivity. Qed.
Example ripemd160_empty : ripemd160 [] = hx "9c1185a5c5e9fc54612808977ee8f548b2258d31".
Proof. vm_compute. reflexivity. Qed.
Example ripemd160_abc : ripemd160 (s "abc") = hx "8eb208f7e05d987a9b044a8e98c6b087f15a0bfc".
Proof. vm_compute. reflexivity. Qed.
Example ripemd160_two_blocks : ripemd160 (s "abcdbcdecdefdefgefghfghighijhijkijkljklmklmnlmnomnopnopq") = hx "12a053384a9c0c88e405a06c27dcf49ada62eb2b".
Proof. vm_compute. reflexivity. Qed.
Example ripemd160_zeros : ripemd160 (repeat x00 200) = hx "c5f27a97fdbac67c665b74394e9b8d0e98e0b4a1".
Proof. vm_compute. reflexivity. Qed.

Global Opaque sha256 ripemd160.

(** ** /repo/packages/interface/src/types/crypto.rs *)
(** [try_into] a fixed number of bytes: crypto.rs:40-44, 54-58 *)
Definition exactly (n : nat) (l : bytes) : res bytes := if Nat.eqb (List.length l) n then Ok l else Err EStd.
(** crypto.rs:33-45 *)
Definition sha256_digest (bz : bytes) : res bytes := exactly 32 (sha256 bz).
(** crypto.rs:47-59 *)
Definition ripemd160_digest (bz : bytes) : res bytes := exactly 20 (ripemd160 bz).
(** crypto.rs:61-66 *)
Definition pub_to_addr (pub_key : bytes) : res bytes :=
  sha_hash <- sha256_digest pub_key ;;
  rip_hash <- ripemd160_digest sha_hash ;;
  Ok rip_hash.
