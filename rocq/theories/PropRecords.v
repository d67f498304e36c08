(* C29-C32, C55: record parsing. *)
From Verif Require Import Base BaseLemmas BTreeProofs Records RecordsSpec RecordsProofs.

(* C29: whatever the bytes of a key or a value, each parser ends with a result or
   an error: no access outside the buffer, no endless loop. *)
Theorem C29_record_parsers_safe : forall data, bytes data ->
  fine (inode_key data) /\ fine (inode_value data) /\
  fine (dir_key data) /\ fine (dir_value data) /\
  fine (attr_key data) /\ fine (attr_value data) /\
  fine (extent_key data) /\ fine (extent_value data) /\
  fine (snap_key data) /\ fine (snap_value data).
Proof.
  intros data H. repeat split.
  - apply inode_key_safe.
  - apply inode_value_safe; auto.
  - apply dir_key_safe; auto.
  - apply dir_value_safe; auto.
  - apply attr_key_safe; auto.
  - apply attr_value_safe; auto.
  - apply extent_key_safe.
  - apply extent_value_safe.
  - apply snap_key_safe.
  - apply snap_value_safe; auto.
Qed.
Print Assumptions C29_record_parsers_safe.

(* a record that claims 65535 extended fields, one that ends inside a descriptor,
   and one that is read: all three end without leaving the buffer *)
Example C29_ex :
  inode_value (zeros 92 ++ [255; 255; 0; 0]) = Fail /\
  inode_value (zeros 92 ++ [1; 0]) = Fail /\
  inode_value (zeros 92 ++ [1; 0; 0; 0; 4; 0; 3; 0; 97; 98; 0]) =
    Ok {| in_parent := 0; in_stream := 0; in_mtime := 0; in_created := 0; in_changed := 0;
          in_access := 0; in_flags := 0; in_links := 0; in_owner := 0; in_group := 0;
          in_mode := 0; in_name := Some [97; 98; 0]; in_size := 0; in_device := 0 |}.
Proof. vm_compute. auto. Qed.

(* C30 *)
Theorem C30_directory_key_round_trip : forall id hash name,
  1 <= len name <= 1023 -> 0 <= hash < 2 ^ 22 ->
  dir_key (dir_key_plain id name) = Ok (name, 0) /\
  dir_key (dir_key_hashed id hash name) = Ok (name, hash).
Proof.
  intros id hash name Hn Hh. split; [apply dir_key_plain_ok; auto|apply dir_key_hashed_ok; auto].
Qed.
Print Assumptions C30_directory_key_round_trip.

Example C30_ex :
  dir_key_hashed 2 3735928 [108; 105; 98; 0] = [2; 0; 0; 0; 0; 0; 0; 144; 4; 224; 5; 228; 108; 105; 98; 0] /\
  dir_key (dir_key_hashed 2 3735928 [108; 105; 98; 0]) = Ok ([108; 105; 98; 0], 3735928) /\
  dir_key (dir_key_plain 2 [108; 105; 98; 0]) = Ok ([108; 105; 98; 0], 0).
Proof. vm_compute. auto. Qed.

(* C31: false as stated.  The reported creation time is the stored modification
   time and the other way round (fsapfs_file_system.h declares the two 8-byte fields
   in the opposite order of j_inode_val_t and of the format documentation); and an
   inode with an extended field of the documented type 16 is rejected. *)
Theorem C31_inode_times_refuted : exists s i,
  stored_ok s /\ inode_value (inode_value_bytes s 0 true []) = Ok i /\
  in_created i <> st_create_time s /\ in_mtime i <> st_mod_time s.
Proof.
  exists {| st_parent_id := 2; st_private_id := 20; st_create_time := 1000; st_mod_time := 2000;
     st_change_time := 3000; st_access_time := 4000; st_internal_flags := 32768; st_nlink := 1;
     st_protection_class := 0; st_write_generation := 1; st_bsd_flags := 0; st_uid := 501; st_gid := 20;
     st_mode := 33188; st_pad1 := 0; st_pad2 := 0 |}.
  eexists. split; [unfold stored_ok; cbn [st_parent_id st_private_id st_create_time st_mod_time
     st_change_time st_access_time st_internal_flags st_nlink st_uid st_gid st_mode]; lia|].
  split; [vm_compute; reflexivity|]. split; cbn; lia.
Qed.
Print Assumptions C31_inode_times_refuted.

Theorem C31_inode_fields_refuted : exists s xs,
  stored_ok s /\ Forall xf_ok xs /\ inode_value (inode_value_bytes s 8 true xs) = Fail.
Proof.
  exists {| st_parent_id := 2; st_private_id := 20; st_create_time := 1000; st_mod_time := 2000;
     st_change_time := 3000; st_access_time := 4000; st_internal_flags := 32768; st_nlink := 1;
     st_protection_class := 0; st_write_generation := 1; st_bsd_flags := 0; st_uid := 501; st_gid := 20;
     st_mode := 33188; st_pad1 := 0; st_pad2 := 0 |}, [(16, 0, le_enc 8 77)].
  split; [unfold stored_ok; cbn [st_parent_id st_private_id st_create_time st_mod_time
     st_change_time st_access_time st_internal_flags st_nlink st_uid st_gid st_mode]; lia|].
  split; [|vm_compute; reflexivity].
  constructor; [|constructor]. unfold xf_ok, is_byte, xf_type, xf_flags, xf_data. cbn [fst snd].
  rewrite le_enc_len. lia.
Qed.
Print Assumptions C31_inode_fields_refuted.

(* All the other values are those stored, for every record whose extended fields
   have a type the library knows, each type at most once. *)
Theorem C31_inode_round_trip_partial : forall id s used full xs,
  0 <= id < 2 ^ 60 -> stored_ok s -> len xs < 2 ^ 16 ->
  Forall xf_ok xs -> Forall inode_xf_ok xs -> NoDup (map xf_type xs) ->
  inode_key (key_head 3 id) = Ok id /\
  exists i, inode_value (inode_value_bytes s used full xs) = Ok i /\
    in_parent i = st_parent_id s /\ in_stream i = st_private_id s /\
    in_changed i = st_change_time s /\ in_access i = st_access_time s /\
    in_flags i = st_internal_flags s /\ in_links i = st_nlink s /\
    in_owner i = st_uid s /\ in_group i = st_gid s /\ in_mode i = st_mode s /\
    in_name i = xf_find 4 xs /\ in_size i = stored_size xs /\ in_device i = stored_device xs /\
    in_created i = st_mod_time s /\ in_mtime i = st_create_time s.
Proof.
  intros id s used full xs Hi Hs Hn H1 H2 H3. split.
  - pose proof (inode_key_ok 3 id [] ltac:(lia) Hi) as X. rewrite app_nil_r in X. exact X.
  - eexists. split; [apply inode_value_ok; auto|]. cbn. repeat split; reflexivity.
Qed.
Print Assumptions C31_inode_round_trip_partial.

Theorem C31_extent_round_trip_partial : forall id off flags size block crypto,
  0 <= off < 2 ^ 64 -> 0 <= flags < 2 ^ 8 -> 0 <= size < 2 ^ 56 -> 0 <= block < 2 ^ 64 -> 0 <= crypto < 2 ^ 64 ->
  extent_key (extent_key_bytes id off) = Ok off /\
  extent_value (extent_value_bytes flags size block crypto) = Ok (size, block, crypto).
Proof.
  intros. split; [apply extent_key_ok; auto|apply extent_value_ok; auto].
Qed.
Print Assumptions C31_extent_round_trip_partial.

Example C31_ex :
  let s := {| st_parent_id := 2; st_private_id := 20; st_create_time := 1000; st_mod_time := 2000;
     st_change_time := 3000; st_access_time := 4000; st_internal_flags := 32768; st_nlink := 1;
     st_protection_class := 0; st_write_generation := 1; st_bsd_flags := 0; st_uid := 501; st_gid := 20;
     st_mode := 33188; st_pad1 := 0; st_pad2 := 0 |} in
  inode_value (inode_value_bytes s 56 true
    [(4, 2, [97; 46; 116; 120; 116; 0]); (14, 0, le_enc 4 66051); (8, 32, le_enc 8 123456 ++ zeros 32); (13, 8, le_enc 8 4096)]) =
  Ok {| in_parent := 2; in_stream := 20; in_mtime := 1000; in_created := 2000; in_changed := 3000;
        in_access := 4000; in_flags := 32768; in_links := 1; in_owner := 501; in_group := 20;
        in_mode := 33188; in_name := Some [97; 46; 116; 120; 116; 0]; in_size := 123456; in_device := 66051 |}.
Proof. vm_compute. reflexivity. Qed.

(* C32: a device number is reported exactly when the file is a character or block
   device (file types 2 and 6) and its identifier is in one of the two encodings. *)
Theorem C32_device_number : forall i major minor, 0 <= in_device i < 2 ^ 32 ->
  inode_device_number i = Some (major, minor) <->
  (file_type (in_mode i) = 2 \/ file_type (in_mode i) = 6) /\
  0 <= major < 256 /\ 0 <= minor < 256 /\
  (in_device i = dev_16 major minor \/ in_device i = dev_native major minor).
Proof. exact device_number_iff. Qed.
Print Assumptions C32_device_number.

Example C32_ex :
  let i := fun mode dev => {| in_parent := 0; in_stream := 0; in_mtime := 0; in_created := 0; in_changed := 0;
          in_access := 0; in_flags := 0; in_links := 0; in_owner := 0; in_group := 0;
          in_mode := mode; in_name := None; in_size := 0; in_device := dev |} in
  inode_device_number (i 8612 (dev_native 16 2)) = Some (16, 2) /\
  inode_device_number (i 25008 (dev_16 8 1)) = Some (8, 1) /\
  inode_device_number (i 33188 (dev_16 8 1)) = None /\
  (* a native identifier with a minor number above 255 is not reported, or reported wrongly *)
  inode_device_number (i 8612 (dev_native 16 300)) = None /\
  inode_device_number (i 8612 (dev_native 0 300)) = Some (1, 44).
Proof. vm_compute. auto 10. Qed.

(* C55 *)
Theorem C55_entry_and_attribute_round_trip : forall id added flags used full xs name v sid size alloc crypto wr re,
  0 <= id < 2 ^ 64 -> 0 <= added < 2 ^ 64 -> len xs < 2 ^ 16 -> Forall xf_ok xs -> Forall (fun x => xf_type x = 1) xs ->
  1 <= len name < 2 ^ 16 -> 1 <= len v < 2 ^ 16 -> 0 <= sid < 2 ^ 64 -> 0 <= size < 2 ^ 64 ->
  dir_value (dir_value_bytes id added flags used full xs) = Ok (id, added) /\
  attr_key (attr_key_bytes id name) = Ok name /\
  attr_value (attr_inline_bytes v) = Ok (2, AInline v) /\
  attr_value (attr_stream_bytes sid size alloc crypto wr re) = Ok (1, AStream sid size).
Proof.
  intros. split; [apply dir_value_ok; auto|]. split; [apply attr_key_ok; auto|].
  split; [apply attr_inline_ok; auto|apply attr_stream_ok; auto].
Qed.
Print Assumptions C55_entry_and_attribute_round_trip.

Example C55_ex :
  dir_value (dir_value_bytes 17 1234 8 8 true [(1, 0, le_enc 8 99)]) = Ok (17, 1234) /\
  attr_value (attr_inline_bytes [1; 2; 3]) = Ok (2, AInline [1; 2; 3]) /\
  attr_value (attr_stream_bytes 33 5000000 5001216 0 0 0) = Ok (1, AStream 33 5000000).
Proof. vm_compute. auto. Qed.
