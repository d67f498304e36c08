(* Properties C39-C41, C57. *)
From Coq Require Import Lia.
From Verif Require Import Base BaseLemmas BTreeProofs Checksum ChecksumSpec Checksummed Crypt CryptSpec KeyBag KeyBagSpec KeyBagProofs KekProofs.

(* C39 *)
Theorem C39_container_bag_safe : forall data, bytes data ->
  (container_bag data = Fail \/ exists o, container_bag data = Ok o) /\
  forall l, container_bag data = Ok (Some l) -> Forall (entry_inside data) l.
Proof.
  intros data H. destruct (container_bag_fine data H) as (F & G). split; [|exact G]. destruct (container_bag data); try contradiction; eauto.
Qed.
Print Assumptions C39_container_bag_safe.
Theorem C39_volume_bag_safe : forall data, bytes data ->
  (volume_bag data = Fail \/ exists l, volume_bag data = Ok l) /\
  forall l, volume_bag data = Ok l -> Forall (entry_inside data) l.
Proof.
  intros data H. destruct (volume_bag_fine data H) as (F & G). split; [|exact G]. destruct (volume_bag data); try contradiction; eauto.
Qed.
Print Assumptions C39_volume_bag_safe.

(* C40: full statement is false: an entry without data makes the whole key bag unreadable. *)
Theorem C40_entries_round_trip_refuted : exists e u pad e' u' pad',
  len (be_id e) = 16 /\ len u = 4 /\ len pad = 8 /\ be_data e = [] /\ entry_ok e' /\ len u' = 4 /\
  bag_layout [e'] (entry_image e' u' pad') /\
  volume_bag (bag_image (zeros 8) (zeros 16) 0x72656373 1 48 (zeros 8) (entry_image e' u' pad') []) = Ok [e'] /\
  volume_bag (bag_image (zeros 8) (zeros 16) 0x72656373 2 80 (zeros 8) (entry_image e' u' pad' ++ entry_image e u pad) []) = Fail.
Proof.
  exists {| be_id := zeros 16; be_type := 4; be_data := [] |}, (zeros 4), (zeros 8),
    {| be_id := zeros 16; be_type := 3; be_data := [1; 2; 3] |}, (zeros 4), (zeros 5).
  assert (K : entry_ok {| be_id := zeros 16; be_type := 3; be_data := [1; 2; 3] |}) by (split; [reflexivity|]; split; cbn; lia).
  split; [reflexivity|]. split; [reflexivity|]. split; [reflexivity|]. split; [reflexivity|]. split; [exact K|]. split; [reflexivity|].
  split; [|split; vm_compute; reflexivity].
  rewrite <- (app_nil_r (entry_image _ _ _)). constructor; [exact K|reflexivity|vm_compute; split; congruence|reflexivity|constructor].
Qed.
Print Assumptions C40_entries_round_trip_refuted.

(* What holds: key bags of entries with data are read back. *)
Theorem C40_container_bag_partial : forall sum ids size u body rest l,
  len sum = 8 -> len ids = 16 -> len u = 8 -> bag_layout l body -> len l < 2 ^ 16 -> 0 <= size < 2 ^ 32 -> size <= 16 + len body + len rest ->
  checksummed (bag_image sum ids 0x6b657973 (len l) size u body rest) ->
  container_bag (bag_image sum ids 0x6b657973 (len l) size u body rest) = Ok (Some l).
Proof.
  intros sum ids size u body rest l H1 H2 H3 HL Hn Hs Hs2 HC.
  destruct (bag_body_ok sum ids 0x6b657973 (len l) size u body rest l H1 H2 H3 HL eq_refl Hn Hs Hs2) as (B & T & S & R & L).
  destruct (checksummed_ok _ HC) as (s & b & C1 & C2 & C3 & C4).
  unfold container_bag. rewrite C2, T, S, B, C3. replace (32 <=? len (bag_image sum ids 0x6b657973 (len l) size u body rest)) with true by lia.
  cbn [check bind]. change (negb (0x6b657973 mod 2 ^ 32 =? 0x6b657973)) with false. cbn [check bind]. rewrite C4. cbn [check bind]. rewrite !Z.eqb_refl. reflexivity.
Qed.
Print Assumptions C40_container_bag_partial.
Theorem C40_volume_bag_partial : forall sum ids size u body rest l,
  len sum = 8 -> len ids = 16 -> len u = 8 -> bag_layout l body -> len l < 2 ^ 16 -> 0 <= size < 2 ^ 32 -> size <= 16 + len body + len rest ->
  volume_bag (bag_image sum ids 0x72656373 (len l) size u body rest) = Ok l.
Proof.
  intros sum ids size u body rest l H1 H2 H3 HL Hn Hs Hs2.
  destruct (bag_body_ok sum ids 0x72656373 (len l) size u body rest l H1 H2 H3 HL eq_refl Hn Hs Hs2) as (B & T & S & R & L).
  unfold volume_bag. rewrite T, S, B. replace (32 <=? len (bag_image sum ids 0x72656373 (len l) size u body rest)) with true by lia. reflexivity.
Qed.
Print Assumptions C40_volume_bag_partial.

(* a container key bag with a volume key and the place of a volume key bag *)
Example C40_example :
  let e1 := {| be_id := repeat 7 16; be_type := 2; be_data := repeat 9 20 |} in
  let e2 := {| be_id := repeat 7 16; be_type := 3; be_data := le_enc 8 1234 ++ le_enc 8 1 |} in
  let data := bag_image [0xce; 0x10; 0x65; 0xf2; 0x9f; 0x7d; 0x51; 0x4f] (zeros 16) 0x6b657973 2 128 (zeros 8)
    (entry_image e1 (zeros 4) (zeros 4) ++ entry_image e2 (zeros 4) (zeros 8)) (zeros 16) in
  match calculate_fletcher64 (skipn 8 data) 0 with
  | Ok s => let data := le_enc 8 s ++ skipn 8 data in
      container_bag data = Ok (Some [e1; e2]) /\ get_extent [e1; e2] (repeat 7 16) = Ok (Some (1234, 1))
  | _ => False
  end.
Proof. vm_compute. auto. Qed.

(* C41: full statement is false: size bytes at the end of the payload are read without a check *)
Theorem C41_packed_key_safe_refuted : exists data, bytes data /\ kek_read data = Oob.
Proof. exists [0x30; 0x81]. split; [repeat constructor; lia|reflexivity]. Qed.
Print Assumptions C41_packed_key_safe_refuted.
(* also inside of the object: a tag as last byte *)
Example C41_tag_at_end : kek_read [0x30; 1; 0x81] = Oob.
Proof. reflexivity. Qed.
(* What holds: nothing beyond 3 bytes after the payload is read. *)
Theorem C41_packed_key_overread_partial : forall data after, bytes data -> bytes after -> len after = 3 ->
  kek_read_mem (data ++ after) (len data) = Fail \/ exists k, kek_read_mem (data ++ after) (len data) = Ok k.
Proof.
  intros data after H1 H2 H3. assert (B : bytes (data ++ after)) by (apply bytes_app; auto).
  pose proof (kek_read_mem_fine (data ++ after) (len data) B ltac:(rewrite len_app; lia)) as F.
  destruct (kek_read_mem (data ++ after) (len data)); try contradiction; eauto.
Qed.
Print Assumptions C41_packed_key_overread_partial.

(* C57 *)
Theorem C57_packed_key_round_trip : forall k iterations extra salt, kek_ok k iterations extra salt ->
  kek_read (packed_key k iterations extra salt) = Ok k.
Proof. exact kek_read_ok. Qed.
Print Assumptions C57_packed_key_round_trip.
Example C57_example :
  let k := {| k_hmac := repeat 1 32; k_id := repeat 2 16; k_method := 2; k_wrapped := repeat 3 40; k_iterations := 0x18a92; k_salt := repeat 4 16 |} in
  len (packed_key k [1; 0x8a; 0x92] (zeros 4) (repeat 5 8)) = 148 /\ kek_read (packed_key k [1; 0x8a; 0x92] (zeros 4) (repeat 5 8)) = Ok k.
Proof. vm_compute. auto. Qed.
