(* Layout of key bags and packed key objects, and what the keys in them are, independent of
   the code. *)
From Verif Require Import Base KeyBag CryptSpec.

(* Entries: identifier, type, size, 4 bytes, the data, padding to a multiple of 16. *)
Definition entry_ok (e : bag_entry) : Prop :=
  len (be_id e) = 16 /\ 0 <= be_type e < 2 ^ 16 /\ 1 <= len (be_data e) < 2 ^ 16.
Definition entry_image (e : bag_entry) (u pad : list Z) : list Z :=
  be_id e ++ le_enc 2 (be_type e) ++ le_enc 2 (len (be_data e)) ++ u ++ be_data e ++ pad.
Inductive bag_layout : list bag_entry -> list Z -> Prop :=
| bag_nil : bag_layout [] []
| bag_cons e u pad l b : entry_ok e -> len u = 4 -> 0 <= len pad < 16 -> (24 + len (be_data e) + len pad) mod 16 = 0 ->
    bag_layout l b -> bag_layout (e :: l) (entry_image e u pad ++ b).

(* Object header (checksum, identifiers, type, subtype 0), version 2, number of entries, size
   of the bag, 8 bytes, the entries, the rest of the blocks. *)
Definition bag_image (sum ids : list Z) (ty n size : Z) (u body rest : list Z) : list Z :=
  sum ++ ids ++ le_enc 4 ty ++ le_enc 4 0 ++ le_enc 2 2 ++ le_enc 2 n ++ le_enc 4 size ++ u ++ body ++ rest.

(* DER values: tag, size in the short form or in the form 0x81, content. *)
Definition tlv (tag : Z) (v : list Z) : list Z :=
  if len v <? 128 then [tag; len v] ++ v else [tag; 0x81; len v] ++ v.

(* The packed key object of a key bag entry. *)
Definition key_object (k : kek) (iterations extra : list Z) : list Z :=
  tlv 0x80 [0] ++ tlv 0x81 (k_id k) ++ tlv 0x82 (le_enc 4 (k_method k) ++ extra) ++ tlv 0x83 (k_wrapped k) ++
  tlv 0x84 iterations ++ tlv 0x85 (k_salt k).
Definition packed_key (k : kek) (iterations extra salt : list Z) : list Z :=
  tlv 0x30 (tlv 0x80 [0] ++ tlv 0x81 (k_hmac k) ++ tlv 0x82 salt ++ tlv 0xa3 (key_object k iterations extra)).
Definition kek_ok (k : kek) (iterations extra salt : list Z) : Prop :=
  len (k_hmac k) = 32 /\ len (k_id k) = 16 /\ 0 <= k_method k < 2 ^ 32 /\ len (k_wrapped k) = 40 /\ len (k_salt k) = 16 /\
  1 <= len iterations <= 8 /\ bytes iterations /\ be_val iterations = k_iterations k /\ len extra = 4 /\ len salt = 8.

Fixpoint words8 (n : nat) (l : list Z) : list (list Z) :=
  match n with
  | O => []
  | S n => firstn 8 l :: words8 n (skipn 8 l)
  end.
(* RFC 3394 2.2.3.1 *)
Definition default_iv : list Z := repeat 0xa6 8.
(* w starts with the wrapping of key under the key-encryption key of cipher enc *)
Definition wraps (enc : list Z -> list Z) (key w : list Z) : Prop :=
  exists rest, w = key_wrap enc default_iv (words8 (Nat.div (length key) 8) key) ++ rest.
