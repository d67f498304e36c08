(* When a password opens a key bag record, independent of the code. *)
From Verif Require Import Base CryptSpec KeyBag KeyBagSpec.

Section Spec.
  (* block encryption under a key, SHA-256, HMAC-SHA256 *)
  Variable enc : list Z -> list Z -> list Z.
  Variable sha : list Z -> list Z.
  Variable hmac : list Z -> list Z -> list Z.

  (* A record of the volume key bag: its key is wrapped under the key derived from the
     password. Methods 0 and 16 are of 256 bits, method 2 is of 128 bits. *)
  Definition method_size (m : Z) : Z := if m =? 2 then 16 else 32.
  Definition password_opens (k : kek) (p key : list Z) : Prop :=
    bytes key /\ len key = method_size (k_method k) /\
    wraps (enc (dk hmac p (k_salt k) (k_iterations k) (method_size (k_method k)))) key (k_wrapped k).
  Definition record (methods : list Z) (e : bag_entry) (k : kek) : Prop :=
    (exists iterations extra salt, be_data e = packed_key k iterations extra salt /\ kek_ok k iterations extra salt) /\
    In (k_method k) methods /\ bytes (k_wrapped k).
  Definition password_record (e : bag_entry) (k : kek) : Prop :=
    be_type e = 3 /\ record [0; 2; 16] e k /\ 1 <= k_iterations k < 2 ^ 32.

  (* The key of a record by the user password or else by the recovery password. *)
  Definition closed_for (k : kek) (p : option (list Z)) : Prop :=
    match p with Some p => forall key, ~ password_opens k p key | None => True end.
  Definition opened_by (k : kek) (user recovery : option (list Z)) (key : list Z) : Prop :=
    (exists p, user = Some p /\ password_opens k p key) \/
    (closed_for k user /\ exists p, recovery = Some p /\ password_opens k p key).

  (* A record of the container key bag: the volume encryption key is wrapped under the key of
     the volume key bag. With 128 bits the second half is derived. *)
  Definition key_opens (k : kek) (key master : list Z) : Prop :=
    exists m, bytes m /\ len m = method_size (k_method k) /\
    wraps (enc (firstn (Z.to_nat (method_size (k_method k))) key)) m (k_wrapped k) /\
    master = if k_method k =? 2 then m ++ firstn 16 (sha (m ++ k_id k)) else m.
  Definition key_record (id : list Z) (e : bag_entry) (k : kek) : Prop :=
    be_type e = 2 /\ be_id e = id /\ record [0; 2] e k.
End Spec.

Section Bags.
  Variable enc : list Z -> list Z -> list Z.
  Variable sha : list Z -> list Z.
  Variable hmac : list Z -> list Z -> list Z.
  (* entries that do not concern the passwords: of another type, or a record that neither of
     them opens *)
  Definition entry_closed (user recovery : option (list Z)) (e : bag_entry) : Prop :=
    be_type e <> 3 \/ exists k, password_record e k /\ closed_for enc hmac k user /\ closed_for enc hmac k recovery.
  Definition entry_opens (user recovery : option (list Z)) (e : bag_entry) (key : list Z) : Prop :=
    exists k, password_record e k /\ opened_by enc hmac k user recovery key.
  (* the same for the container key bag and the key of the volume key bag *)
  Definition key_entry_closed (id key : list Z) (e : bag_entry) : Prop :=
    be_type e <> 2 \/ be_id e <> id \/
    exists k, key_record id e k /\ method_size (k_method k) <= len key /\ forall master, ~ key_opens enc sha k key master.
  Definition key_entry_opens (id key : list Z) (e : bag_entry) (master : list Z) : Prop :=
    exists k, key_record id e k /\ method_size (k_method k) <= len key /\ key_opens enc sha k key master.
End Bags.

(* The cryptographic functions: AES with keys of 128 and 256 bits is a block cipher, hashes
   are of 32 bytes. *)
Definition primitives (enc dec : list Z -> list Z -> list Z) (sha : list Z -> list Z) (hmac : list Z -> list Z -> list Z) : Prop :=
  (forall key, bytes key -> len key = 16 \/ len key = 32 -> block_cipher (enc key) (dec key)) /\
  (forall k d, bytes (hmac k d) /\ len (hmac k d) = 32) /\ (forall d, len (sha d) = 32).
