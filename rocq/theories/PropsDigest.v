(** * Accounts of Cosmos keys: C91 *)
From Coq Require Import List NArith Bool.
From Verif Require Import Base BaseFacts Bech32 Crypto Mailbox Digest SpecDigest DigestFacts.
Import ListNotations.

(** ** C91: every key has an account of 20 bytes, two keys share one only if a hash collides *)
Theorem C91_account pk : exists a, pub_to_addr pk = Ok a /\ length a = 20%nat.
Proof. exact (ex_intro _ _ (key_account pk)). Qed.
Print Assumptions C91_account.

Theorem C91_digests l : exists h r,
  sha256_digest l = Ok h /\ length h = 32%nat /\ ripemd160_digest l = Ok r /\ length r = 20%nat.
Proof. exact (digests_length l). Qed.
Print Assumptions C91_digests.

(** its address is a text from which the account is read back, and which a message's 32 bytes hold *)
Theorem C91_address hrp pk a : (1 <= length hrp <= 83)%nat -> forallb is_lower hrp = true -> pub_to_addr pk = Ok a ->
  exists e, bech32_encode hrp a = Ok e /\ bech32_decode e = Ok a /\ bech32_to_h256 e = Ok (zeros 12 ++ a).
Proof. exact (key_text hrp pk a). Qed.
Print Assumptions C91_address.

(** keys with one account: hashing them meets two different inputs of a compression function with one output *)
Theorem C91_keys_apart a b : short a -> short b -> pub_to_addr a = pub_to_addr b ->
  a = b \/ sha_collision a b \/ rmd_collision (sha256 a) (sha256 b).
Proof. exact (key_collide a b). Qed.
Print Assumptions C91_keys_apart.

(** which is so for any compression function under this padding *)
Theorem C91_padding {St} (f : St -> bytes -> St) (dec : forall x y : St, {x = y} + {x <> y}) (wr : N -> bytes) i a b :
  (forall n, length (wr n) = 8%nat) -> (forall m n, m < 2 ^ 64 -> n < 2 ^ 64 -> wr m = wr n -> m = n) ->
  short a -> short b ->
  md_run f (length (md_pad wr a)) i (md_pad wr a) = md_run f (length (md_pad wr b)) i (md_pad wr b) ->
  a = b \/ collide f i (md_pad wr a) (md_pad wr b).
Proof. exact (fun H1 H2 => md_collide f dec wr H1 H2 i a b). Qed.
Print Assumptions C91_padding.

(** the three hashes are the published ones on their test vectors: no byte, one block, several blocks, and lengths
    at which padding takes the last byte or another block *)
Theorem C91_published :
  let two := s "abcdbcdecdefdefgefghfghighijhijkijkljklmklmnlmnomnopnopq" in
  sha256_digest [] = Ok (hx "e3b0c44298fc1c149afbf4c8996fb92427ae41e4649b934ca495991b7852b855") /\
  sha256_digest (s "abc") = Ok (hx "ba7816bf8f01cfea414140de5dae2223b00361a396177a9cb410ff61f20015ad") /\
  sha256_digest two = Ok (hx "248d6a61d20638b8e5c026930c3e6039a33ce45964ff2167f6ecedd419db06c1") /\
  sha256_digest (repeat x61 119) = Ok (hx "31eba51c313a5c08226adf18d4a359cfdfd8d2e816b13f4af952f7ea6584dcfb") /\
  ripemd160_digest [] = Ok (hx "9c1185a5c5e9fc54612808977ee8f548b2258d31") /\
  ripemd160_digest (s "abc") = Ok (hx "8eb208f7e05d987a9b044a8e98c6b087f15a0bfc") /\
  ripemd160_digest two = Ok (hx "12a053384a9c0c88e405a06c27dcf49ada62eb2b") /\
  ripemd160_digest (repeat x61 119) = Ok (hx "23e398ff2bac815aa1bbb57ca2a669c841872919") /\
  keccak256_hash [] = hx "c5d2460186f7233c927e7db2dcc703c0e500b653ca82273b7bfad8045d85a470" /\
  keccak256_hash (s "abc") = hx "4e03657aea45a94fc7d47ba826c8d667c0d1e6e33a64a036ec44f58fa12d6c45" /\
  keccak256_hash (repeat x00 135) = hx "29e3704feeca7fb9ba229f0fa04d9b36449cf3ad6e1d85d9cfff3a10df9abc3e" /\
  keccak256_hash (repeat x00 200) = hx "e1bb54e1bc3af48d01e5dbfc81015c98152a574f6428c6948aa4837c9c0baad9".
Proof. intros two. repeat (split; [vm_compute; reflexivity|]). vm_compute. reflexivity. Qed.
Print Assumptions C91_published.

(** The key of BIP-173's example and of the number 1: its account and addresses; its Ethereum address is another. *)
Definition ex_key : bytes := hx "0279be667ef9dcbbac55a06295ce870b07029bfcdb2dce28d959f2815b16f81798".
Definition ex_key_long : bytes :=
  hx "0479be667ef9dcbbac55a06295ce870b07029bfcdb2dce28d959f2815b16f81798483ada7726a3c4655da4fbfc0e1108a8fd17b448a68554199c47d08ffb10d4b8".
(** a compression function that forgets the block's second byte *)
Definition ex_forget (st : N) (x : bytes) : N :=
  match x with b :: _ :: x' => 7 * st + bN b + fold_left (fun n c => n + bN c) x' 0 | _ => st end.
Example C91_example :
  pub_to_addr ex_key = Ok (hx "751e76e8199196d454941c45d1b3a323f1433bd6") /\
  eth_addr ex_key_long = Ok (hx "7e5f4552091a69125d5dfcb7b8c2659029395bdf") /\
  pub_to_addr (hx "0250863ad64a87ae8a2fe83c1af1a8403cb53f53e486d8511dad8a04887e5b2352") = Ok (hx "f54a5851e9372b87810a8e60cdd2e7cfd80b6e31") /\
  bech32_encode (s "osmo") (hx "751e76e8199196d454941c45d1b3a323f1433bd6") = Ok (s "osmo1w508d6qejxtdg4y5r3zarvary0c5xw7kjxy2e2") /\
  short ex_key /\
  md_run ex_forget 64 0 (md_pad (be 8) (s "key")) = md_run ex_forget 64 0 (md_pad (be 8) (s "kxy")) /\
  md_run ex_forget 64 0 (md_pad (be 8) (s "key")) <> md_run ex_forget 64 0 (md_pad (be 8) (s "xey")).
Proof.
  split; [vm_compute; reflexivity|]. split; [vm_compute; reflexivity|]. split; [vm_compute; reflexivity|]. split; [vm_compute; reflexivity|].
  split; [vm_compute; reflexivity|]. split; [vm_compute; reflexivity|]. vm_compute. discriminate.
Qed.
