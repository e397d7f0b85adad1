(** * Token-factory messages on the wire (C53). *)
From Coq Require Import List NArith.
From Verif Require Import Base Chain Warp Proto SpecVersion SpecProto ProtoFacts.
Import ListNotations.

(** bytes have at most one reading *)
Theorem C53_reading_is_unique b fs fs' : says b fs -> says b fs' -> fs = fs'.
Proof. intros H. exact (says_unique b fs H fs'). Qed.
Print Assumptions C53_reading_is_unique.

(** the bytes handed to the chain ask for exactly this creation, mint, burn or
    metadata *)
Theorem C53_bytes_ask_for_the_message m :
  factory_message m -> exists url b, stargate m = Some (url, b) /\ requests m url b.
Proof. exact (stargate_requests m). Qed.
Print Assumptions C53_bytes_ask_for_the_message.

(** and for nothing else *)
Theorem C53_bytes_ask_for_one_message m m' url b : requests m url b -> requests m' url b -> m = m'.
Proof. exact (requests_one m m' url b). Qed.
Print Assumptions C53_bytes_ask_for_one_message.

Example C53_example :
  factory_message (CMint (s "osmo1route") (2 ^ 130) (s "factory/osmo1route/wtia")) /\
  stargate (CBurn (s "c") 1203 (s "d")) =
    Some (s "/osmosis.tokenfactory.v1beta1.MsgBurn",
          [x0a; x01] ++ s "c" ++ [x12; x09; x0a; x01] ++ s "d" ++ [x12; x04] ++ s "1203").
Proof. split; reflexivity. Qed.

(** the reply: the route takes the denomination the chain's answer names *)
Theorem C53_reply_is_read id r x x' m :
  wn_reply_bytes id r x = Ok (x', m) ->
  exists data fs, r = Ok (Some data) /\ says data fs /\ utf8 (the_text 1 fs) /\
    x' = wp_set_token x (the_text 1 fs) /\ m = resp0.
Proof. exact (reply_bytes_sound id r x x' m). Qed.
Print Assumptions C53_reply_is_read.

(** the chain's answer is read as the model of the chain assumes *)
Theorem C53_answer_is_accepted id d x :
  utf8 d -> N.of_nat (length d) < 2 ^ 64 ->
  wn_reply_bytes id (Ok (Some (create_denom_response_bytes d))) x = wn_reply id (Ok (RrDenom d)) x.
Proof. exact (reply_bytes_complete id d x). Qed.
Print Assumptions C53_answer_is_accepted.

Example C53_reply_example :
  (* fields 3 (a number) and 1 twice: the last denomination counts *)
  create_denom_response ([x18; xac; x02; x0a; x01] ++ s "a" ++ [x0a; x09] ++ s "factory/b") =
    Ok (s "factory/b") /\
  create_denom_response [x0a; x05; x61] = Err EStd /\
  create_denom_response [x0a; x02; xc0; x80] = Err EStd /\
  utf8 [xe2; x82; xac].
Proof.
  repeat split; try reflexivity.
  apply (utf8_cons 8364 [xe2; x82; xac] []); [left; reflexivity| |constructor].
  apply u8_3; try reflexivity. split; [discriminate|reflexivity].
Qed.
