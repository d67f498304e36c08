(* Model of the key bags: libfsapfs_key_bag_header.c, libfsapfs_key_bag_entry.c,
   libfsapfs_key_encrypted_key.c, libfsapfs_container_key_bag.c, libfsapfs_volume_key_bag.c.
   AES, SHA-256 and HMAC are parameters. Allocation failure and sizes above SSIZE_MAX are not
   modelled. *)
From Verif Require Import Base Checksum Crypt.

(* libfsapfs_key_bag_header.c 141-256: number of entries and size; [data] from the header on *)
Definition bag_header (data : list Z) (off : Z) : res (Z * Z) :=
  let! _ := check (16 <=? len data - off) in
  let! version := rd_le 2 data off in
  let! n := rd_le 2 data (off + 2) in
  let! size := rd_le 4 data (off + 4) in
  let! _ := check (version =? 2) in
  Ok (n, size).

Record bag_entry := { be_id : list Z; be_type : Z; be_data : list Z }.

(* libfsapfs_key_bag_entry.c 146-346: an entry at off *)
Definition bag_entry_read (data : list Z) (off : Z) : res bag_entry :=
  let! _ := check (24 <=? len data - off) in
  let! id := rd data off 16 in
  let! ty := rd_le 2 data (off + 16) in
  let! ds := rd_le 2 data (off + 18) in
  let! _ := check (negb (ds =? 0) && (ds <=? len data - off - 24)) in
  let! d := rd data (off + 24) ds in
  Ok {| be_id := id; be_type := ty; be_data := d |}.

(* libfsapfs_container_key_bag.c 646-732, libfsapfs_volume_key_bag.c 609-695: n entries.
   data_size - data_offset is computed in size_t; data_offset never exceeds data_size. *)
Fixpoint bag_entries (data : list Z) (n : nat) (off : Z) : res (list bag_entry) :=
  match n with
  | O => Ok []
  | S n =>
    let! e := bag_entry_read data off in
    let off := off + (24 + len (be_data e)) in
    let p := off mod 16 in
    let! off :=
      if p =? 0 then Ok off
      else let! _ := check ((16 - p <=? len data) && (off <=? len data - (16 - p))) in Ok (off + (16 - p)) in
    let! l := bag_entries data n off in
    Ok (e :: l)
  end.

(* the common part of the two readers: header at 32, entries from 48 *)
Definition bag_body (data : list Z) : res (list bag_entry) :=
  let! (n, size) := bag_header data 32 in
  let! _ := check (size <=? len data - 32) in
  bag_entries data (Z.to_nat n) 48.

(* libfsapfs_container_key_bag.c 428-762: read_data; None: the object type does not match *)
Definition container_bag (data : list Z) : res (option (list bag_entry)) :=
  let! _ := check (32 <=? len data) in
  let! stored := rd_le 8 data 0 in
  let! ty := rd_le 4 data 24 in
  if negb (ty =? 0x6b657973) then Ok None else
  let! sub := rd_le 4 data 28 in
  let! _ := check (sub =? 0) in
  let! rest := rd data 8 (len data - 8) in
  let! sum := calculate_fletcher64 rest 0 in
  let! _ := check (stored =? sum) in
  let! l := bag_body data in
  Ok (Some l).

(* libfsapfs_volume_key_bag.c 424-725: read_data; the checksum is not verified *)
Definition volume_bag (data : list Z) : res (list bag_entry) :=
  let! _ := check (32 <=? len data) in
  let! ty := rd_le 4 data 24 in
  let! _ := check (ty =? 0x72656373) in
  let! sub := rd_le 4 data 28 in
  let! _ := check (sub =? 0) in
  bag_body data.

Record kek := { k_hmac : list Z; k_id : list Z; k_method : Z; k_wrapped : list Z; k_iterations : Z; k_salt : list Z }.

(* libfsapfs_key_encrypted_key.c 68-104: cleared on creation *)
Definition kek0 : kek :=
  {| k_hmac := zeros 32; k_id := zeros 16; k_method := 0; k_wrapped := zeros 40; k_iterations := 0; k_salt := zeros 16 |}.

(* libfsapfs_key_encrypted_key.c 201-232, 295-326, 455-481, 544-570: the size of a value at
   off, and the offset after it. The form 0x81 is not accepted inside of the key object. *)
Definition der_size (form81 : bool) (data : list Z) (off : Z) : res (Z * Z) :=
  let! b := getb data off in
  if b <? 128 then Ok (b, off + 1)
  else if (b =? 0x81) && form81 then let! v := getb data (off + 1) in Ok (v, off + 2)
  else if b =? 0x82 then let! v := rd_le 2 data (off + 1) in Ok (v, off + 3)
  else Fail.

(* libfsapfs_key_encrypted_key.c 292-440: the values of the object; gives the HMAC and the
   position and size of the key object. [data] is the memory from the payload on, [size] the
   size of the payload: accesses are checked against the memory, decisions use the size. *)
Fixpoint kek_outer (fuel : nat) (data : list Z) (size off : Z) (hmac : list Z) (obj : option (Z * Z)) : res (list Z * option (Z * Z)) :=
  if negb (off <? size) then Ok (hmac, obj) else
  match fuel with
  | O => Fuel
  | S fuel =>
    let! tag := getb data off in
    let! (vs, off) := der_size true data (off + 1) in
    if (tag =? 0) && (vs =? 0) then Ok (hmac, obj) else
    let! _ := check ((off <? size) && (vs <=? size - off)) in
    if tag =? 0x81 then
      let! _ := check (vs =? 32) in
      let! h := rd data off 32 in
      kek_outer fuel data size (off + vs) h obj
    else if tag =? 0x82 then
      let! _ := check (vs =? 8) in
      kek_outer fuel data size (off + vs) hmac obj
    else if tag =? 0xa3 then
      let! _ := check (negb (vs =? 0)) in
      kek_outer fuel data size (off + vs) hmac (Some (off - 2, w16 (vs + 2)))
    else kek_outer fuel data size (off + vs) hmac obj
  end.

(* libfsapfs_key_encrypted_key.c 617-825: one value of the key object, data at off *)
Definition kek_value (data : list Z) (off tag vs : Z) (k : kek) : res kek :=
  if tag =? 0x81 then
    let! _ := check (vs =? 16) in let! x := rd data off 16 in
    Ok {| k_hmac := k_hmac k; k_id := x; k_method := k_method k; k_wrapped := k_wrapped k; k_iterations := k_iterations k; k_salt := k_salt k |}
  else if tag =? 0x82 then
    let! _ := check (vs =? 8) in let! x := rd_le 4 data off in
    Ok {| k_hmac := k_hmac k; k_id := k_id k; k_method := x; k_wrapped := k_wrapped k; k_iterations := k_iterations k; k_salt := k_salt k |}
  else if tag =? 0x83 then
    let! _ := check (vs =? 40) in let! x := rd data off 40 in
    Ok {| k_hmac := k_hmac k; k_id := k_id k; k_method := k_method k; k_wrapped := x; k_iterations := k_iterations k; k_salt := k_salt k |}
  else if tag =? 0x84 then
    let! _ := check (negb (vs =? 0) && (vs <=? 8)) in let! x := rd_be vs data off in
    Ok {| k_hmac := k_hmac k; k_id := k_id k; k_method := k_method k; k_wrapped := k_wrapped k; k_iterations := x; k_salt := k_salt k |}
  else if tag =? 0x85 then
    let! _ := check (vs =? 16) in let! x := rd data off 16 in
    Ok {| k_hmac := k_hmac k; k_id := k_id k; k_method := k_method k; k_wrapped := k_wrapped k; k_iterations := k_iterations k; k_salt := x |}
  else Ok k.

(* libfsapfs_key_encrypted_key.c 541-827: the values of the key object of osize bytes at base.
   Accesses are checked against the data, of which the object is a part. *)
Fixpoint kek_inner (fuel : nat) (data : list Z) (base osize off : Z) (k : kek) : res kek :=
  if negb (off <? osize) then Ok k else
  match fuel with
  | O => Fuel
  | S fuel =>
    let! tag := getb data (base + off) in
    let! (vs, next) := der_size false data (base + (off + 1)) in
    let off := next - base in
    if (tag =? 0) && (vs =? 0) then Ok k else
    let! _ := check ((off <? osize) && (vs <=? osize - off)) in
    let! k := kek_value data (base + off) tag vs k in
    kek_inner fuel data base osize (off + vs) k
  end.

(* libfsapfs_key_encrypted_key.c 147-829: read_data *)
Definition kek_read_mem (data : list Z) (size : Z) : res kek :=
  let! _ := check (2 <=? size) in
  let! tag := getb data 0 in
  let! (vs, off) := der_size true data 1 in
  let! _ := check (tag =? 0x30) in
  let! _ := check (vs <=? size - 2) in
  let! (hmac, obj) := kek_outer (Z.to_nat size) data size off (k_hmac kek0) None in
  match obj with
  | None => Fail
  | Some (base, osize) =>
    let! tag := getb data base in
    let! (vs, next) := der_size false data (base + 1) in
    let! _ := check (tag =? 0xa3) in
    let! _ := check (vs <=? osize - 2) in
    kek_inner (Z.to_nat size) data base osize (next - base)
      {| k_hmac := hmac; k_id := k_id kek0; k_method := k_method kek0; k_wrapped := k_wrapped kek0; k_iterations := k_iterations kek0; k_salt := k_salt kek0 |}
  end.
Definition kek_read (data : list Z) : res kek := kek_read_mem data (len data).

(* libfsapfs_key_encrypted_key.c 38-39 *)
Definition kek_iv : list Z := [0xa6; 0xa6; 0xa6; 0xa6; 0xa6; 0xa6; 0xa6; 0xa6].
Fixpoint list_eqb (a b : list Z) : bool :=
  match a, b with
  | [], [] => true
  | x :: a, y :: b => (x =? y) && list_eqb a b
  | _, _ => false
  end.

Section Unlock.
  (* AES decryption of a block under a key, SHA-256, HMAC-SHA256 *)
  Variable aes : list Z -> list Z -> list Z.
  Variable sha : list Z -> list Z.
  Variable hmac : list Z -> list Z -> list Z.

  (* libfsapfs_key_encrypted_key.c 834-1059: unlock_with_key; [key] is the buffer of 32 bytes,
     [out] the output buffer before the call. None: the key does not match. *)
  Definition unlock_with_key (k : kek) (key out : list Z) : res (option (list Z)) :=
    let! (data_size, key_size) :=
      if k_method k =? 0 then Ok (40, 32) else if k_method k =? 2 then Ok (24, 16) else Fail in
    let! w := rd (k_wrapped k) 0 data_size in
    let! used := rd key 0 key_size in
    let! u := key_unwrap (aes used) (key_size * 8) w in
    let! head := rd u 0 8 in
    if negb (list_eqb head kek_iv) then Ok None else
    let! x := rd u 8 key_size in
    let! out := wr out 0 x in
    if k_method k =? 2 then
      let! out := wr out 16 (k_id k) in
      let! h := rd out 0 32 in
      let! out := wr out 16 (slice (sha h) 0 16) in
      Ok (Some out)
    else Ok (Some out).

  (* libfsapfs_key_encrypted_key.c 1064-1241: unlock_with_password *)
  Definition unlock_with_password (k : kek) (password out : list Z) : res (option (list Z)) :=
    let! (data_size, key_size) :=
      if (k_method k =? 0) || (k_method k =? 16) then Ok (40, 32) else if k_method k =? 2 then Ok (24, 16) else Fail in
    let! used := pbkdf2 hmac password (k_salt k) (w32 (k_iterations k)) key_size in
    let! w := rd (k_wrapped k) 0 data_size in
    let! u := key_unwrap (aes used) (key_size * 8) w in
    let! head := rd u 0 8 in
    if negb (list_eqb head kek_iv) then Ok None else
    let! x := rd u 8 key_size in
    let! out := wr out 0 x in
    Ok (Some out).

  Definition try_password (k : kek) (password : option (list Z)) (out : list Z) : res (option (list Z)) :=
    match password with
    | None => Ok None
    | Some p => unlock_with_password k p out
    end.

  (* libfsapfs_volume_key_bag.c 730-909: get_volume_key *)
  Fixpoint get_volume_key (l : list bag_entry) (user recovery : option (list Z)) (out : list Z) : res (option (list Z)) :=
    match l with
    | [] => Ok None
    | e :: l =>
      if negb (be_type e =? 3) then get_volume_key l user recovery out else
      let! k := kek_read (be_data e) in
      let! r := try_password k user out in
      let! r := match r with Some x => Ok (Some x) | None => try_password k recovery out end in
      match r with
      | Some x => Ok (Some x)
      | None => get_volume_key l user recovery out
      end
    end.

  (* libfsapfs_container_key_bag.c 943-1113: get_volume_master_key_by_identifier *)
  Fixpoint get_master_key (l : list bag_entry) (id key out : list Z) : res (option (list Z)) :=
    match l with
    | [] => Ok None
    | e :: l =>
      if negb (be_type e =? 2) || negb (list_eqb (be_id e) id) then get_master_key l id key out else
      let! k := kek_read (be_data e) in
      let! r := unlock_with_key k key out in
      match r with
      | Some x => Ok (Some x)
      | None => get_master_key l id key out
      end
    end.
End Unlock.

(* libfsapfs_container_key_bag.c 767-938: get_volume_key_bag_extent_by_identifier *)
Fixpoint get_extent (l : list bag_entry) (id : list Z) : res (option (Z * Z)) :=
  match l with
  | [] => Ok None
  | e :: l =>
    if negb (be_type e =? 3) || negb (list_eqb (be_id e) id) then get_extent l id else
    let! _ := check (len (be_data e) =? 16) in
    let! block := rd_le 8 (be_data e) 0 in
    let! blocks := rd_le 8 (be_data e) 8 in
    Ok (Some (block, blocks))
  end.
