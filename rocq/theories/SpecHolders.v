(* nacl/box between the holders of two key pairs, as in signify/key_test.go. *)
From Verif Require Export Crypto.

(* box.Seal(nil, message, nonce, peer, secret) and box.Open(nil, box, nonce, peer, secret) *)
Definition box_to (C : Crypto) (m n peer secret : bytes) : bytes := box_seal C m n (box_precompute C peer secret).
Definition box_from (C : Crypto) (b n peer secret : bytes) : option bytes := box_open C b n (box_precompute C peer secret).
