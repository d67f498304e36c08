(* Model of what passwords and keys leave behind in memory: libfsapfs_password.c,
   libfsapfs_encryption_context.c, libfsapfs_key_encrypted_key.c, libfsapfs_volume_key_bag.c,
   libfsapfs_container_key_bag.c and libfsapfs_volume.c, as in Crypt.v, KeyBag.v and Volume.v, with
   the contents of every array at the moment it is given back: an array of a function when the
   function returns, a password when it is freed. Of the buffers of the key bags and of key
   encrypted keys the contents are on the medium and are not recorded. What libcaes, libhmac and
   libuna leave behind is not modelled, neither are registers and what a compiler removes. *)
From Verif Require Import Base Crypt KeyBag Volume Walk FileEntry.

(* The arrays. *)
Inductive array :=
| PasswordKey    (* password_key, libfsapfs_key_encrypted_key.c 1072 *)
| Wrapped        (* wrapped_kek, libfsapfs_key_encrypted_key.c 843, 1073 *)
| Digest         (* hash_buffer, libfsapfs_key_encrypted_key.c 842 *)
| VolumeKey      (* volume_key, libfsapfs_volume.c 1121 *)
| MasterKey      (* volume_master_key, libfsapfs_volume.c 1122 *)
| UserPassword   (* user_password of the volume *)
| RecoveryPassword (* recovery_password of the volume *)
| Iterate        (* hash_buffer, libfsapfs_password.c 46 *)
| Salt           (* data_buffer, libfsapfs_password.c 48 *)
| Block          (* block_data, libfsapfs_encryption_context.c 470 *)
| Vector.        (* vector_data, libfsapfs_encryption_context.c 471 *)

Definition leftovers := list (array * list Z).
Definition give_back (a : array) (c : list Z) : M leftovers unit := fun s => (Ok tt, (a, c) :: s).

(* memory_set( buffer, 0, n ) *)
Definition wipe (buf : list Z) (n : Z) : list Z := zeros n ++ skipn (Z.to_nat n) buf.

(* m, and then e when m failed *)
Definition on_error {A} (m : M leftovers A) (e : M leftovers unit) : M leftovers A :=
  fun s => match m s with (Fail, s) => (Fail, snd (e s)) | r => r end.

Section Unwrap.
  Variable dec : list Z -> list Z.

  (* libfsapfs_encryption_context.c 656-744: one step, with vector_data and block_data after it *)
  Definition unwrap_step_l (n round i : Z) (buf : list Z) : res (list Z * list Z * list Z) :=
    let! iv := rd buf 0 8 in
    let v := xor (be_enc 8 (w64 (round * (n - 1) + i))) iv in
    let! r := rd buf (i * 8) 8 in
    let b := dec (v ++ r) in
    let! buf := wr buf 0 (slice b 0 8) in
    let! buf := wr buf (i * 8) (slice b 8 8) in
    Ok (buf, v, b).

  (* libfsapfs_encryption_context.c 652-745 *)
  Fixpoint unwrap_blocks_l (n round : Z) (i : nat) (x : list Z * list Z * list Z) : res (list Z * list Z * list Z) :=
    match i with
    | O => Ok x
    | S j => let! x := unwrap_step_l n round (Z.of_nat i) (fst (fst x)) in unwrap_blocks_l n round j x
    end.

  (* libfsapfs_encryption_context.c 648-746 *)
  Fixpoint unwrap_rounds_l (n : Z) (r : nat) (x : list Z * list Z * list Z) : res (list Z * list Z * list Z) :=
    match r with
    | O => Ok x
    | S q => let! x := unwrap_blocks_l n (Z.of_nat q) (Z.to_nat (n - 1)) x in unwrap_rounds_l n q x
    end.

  (* libfsapfs_encryption_context.c 461-782: aes_key_unwrap; [v], [b] are the contents of the two
     arrays before. They are not cleared (747-781). *)
  Definition key_unwrap_l (key_bits : Z) (wrapped v b : list Z) : M leftovers (list Z) :=
    onM (let! _ := check ((key_bits =? 128) || (key_bits =? 192) || (key_bits =? 256)) in
         let! _ := check (8 <? len wrapped) in
         let! _ := check (len wrapped mod 8 =? 0) in
         unwrap_rounds_l (len wrapped / 8) 6 (wrapped, v, b)) (fun x =>
    bindM (give_back Block (snd x)) (fun _ =>
    bindM (give_back Vector (snd (fst x))) (fun _ =>
    retM (Ok (fst (fst x)))))).
End Unwrap.

Section Password.
  Variable hmac : list Z -> list Z -> list Z.

  (* libfsapfs_password.c 293-324, 370-401: the output and the hash buffer *)
  Fixpoint iterate_l (password : list Z) (k : nat) (h out : list Z) : list Z * list Z :=
    match k with
    | O => (out, h)
    | S k => let h := hmac password h in iterate_l password k h (xor out h)
    end.

  (* libfsapfs_password.c 252-325 (327-402) *)
  Definition block_l (password salt : list Z) (iterations i size : Z) : list Z * list Z :=
    let h := hmac password (salt ++ be_enc 4 (w32 (i + 1))) in
    iterate_l password (Z.to_nat (w32 (iterations - 1))) h (slice h 0 size).
  Fixpoint blocks_l (password salt : list Z) (iterations i : Z) (n : nat) (h : list Z) : list Z * list Z :=
    match n with
    | O => ([], h)
    | S n => let (out, h) := block_l password salt iterations i 32 in
      let (outs, h) := blocks_l password salt iterations (i + 1) n h in (out ++ outs, h)
    end.

  (* libfsapfs_password.c 36-417: pbkdf2; [h] is the content of hash_buffer before. The hash buffer
     and the salt with the number of the block are not cleared (403-408). *)
  Definition pbkdf2_l (password salt : list Z) (iterations size : Z) (h : list Z) : M leftovers (list Z) :=
    onM (check (negb (iterations =? 0))) (fun _ =>
    let n := w32 (size / 32) in
    let r := size - n * 32 in
    let (full, h) := blocks_l password salt iterations 0 (Z.to_nat n) h in
    let last := salt ++ be_enc 4 (w32 (if r =? 0 then n else n + 1)) in
    if 32 <? r then retM Oob else
    let (out, h) := if r =? 0 then ([], h) else block_l password salt iterations n r in
    bindM (give_back Iterate h) (fun _ =>
    bindM (give_back Salt last) (fun _ =>
    retM (Ok (full ++ out))))).
End Password.

Section Unlock.
  Variable aes : list Z -> list Z -> list Z.
  Variable sha : list Z -> list Z.
  Variable hmac : list Z -> list Z -> list Z.
  (* what is in the memory of an array before the function writes to it *)
  Variable before : array -> list Z.

  (* libfsapfs_key_encrypted_key.c 834-1059: unlock_with_key *)
  Definition unlock_with_key_l (k : kek) (key out : list Z) : M leftovers (option (list Z)) :=
    let wk := before Wrapped in
    let dg := before Digest in
    let done := fun (wk dg : list Z) => bindM (give_back Wrapped wk) (fun _ => give_back Digest dg) in
    bindM (on_error (retM (if k_method k =? 0 then Ok (40, 32) else if k_method k =? 2 then Ok (24, 16) else Fail)) (done wk dg)) (fun p =>
    let (data_size, key_size) := p : Z * Z in
    let cleared := fun (wk dg : list Z) => done (wipe wk 40) (wipe dg 32) in
    bindM (on_error (onM (let! w := rd (k_wrapped k) 0 data_size in let! used := rd key 0 key_size in Ok (w, used)) (fun p =>
      key_unwrap_l (aes (snd p)) (key_size * 8) (fst p) (before Vector) (before Block))) (cleared wk dg)) (fun u =>
    onM (let! wk := wr wk 0 u in let! head := rd wk 0 8 in Ok (wk, head)) (fun p =>
    let (wk, head) := p : list Z * list Z in
    if negb (list_eqb head kek_iv) then bindM (done (wipe wk 40) dg) (fun _ => retM (Ok None)) else
    onM (let! x := rd wk 8 key_size in wr out 0 x) (fun out =>
    if k_method k =? 2 then
      onM (let! out := wr out 16 (k_id k) in
           let! h := rd out 0 32 in
           let dg := sha h in
           let! out := wr out 16 (slice dg 0 16) in
           Ok (out, dg)) (fun p =>
      let (out, dg) := p : list Z * list Z in
      bindM (done (wipe wk 40) (wipe dg 32)) (fun _ => retM (Ok (Some out))))
    else bindM (done (wipe wk 40) dg) (fun _ => retM (Ok (Some out))))))).

  (* libfsapfs_key_encrypted_key.c 1064-1241: unlock_with_password *)
  Definition unlock_with_password_l (k : kek) (password out : list Z) : M leftovers (option (list Z)) :=
    let pk := before PasswordKey in
    let wk := before Wrapped in
    let done := fun (pk wk : list Z) => bindM (give_back PasswordKey pk) (fun _ => give_back Wrapped wk) in
    bindM (on_error (retM (if (k_method k =? 0) || (k_method k =? 16) then Ok (40, 32) else if k_method k =? 2 then Ok (24, 16) else Fail)) (done pk wk)) (fun p =>
    let (data_size, key_size) := p : Z * Z in
    let cleared := fun (pk wk : list Z) => done (wipe pk 32) (wipe wk 40) in
    bindM (on_error (pbkdf2_l hmac password (k_salt k) (w32 (k_iterations k)) key_size (before Iterate)) (cleared pk wk)) (fun used =>
    onM (wr pk 0 used) (fun pk =>
    bindM (on_error (onM (let! w := rd (k_wrapped k) 0 data_size in let! used := rd pk 0 key_size in Ok (w, used)) (fun p =>
      key_unwrap_l (aes (snd p)) (key_size * 8) (fst p) (before Vector) (before Block))) (cleared pk wk)) (fun u =>
    onM (wr wk 0 u) (fun wk =>
    let pk := wipe pk 32 in
    onM (rd wk 0 8) (fun head =>
    if negb (list_eqb head kek_iv) then bindM (done pk (wipe wk 40)) (fun _ => retM (Ok None)) else
    onM (let! x := rd wk 8 key_size in wr out 0 x) (fun out =>
    bindM (done pk (wipe wk 40)) (fun _ => retM (Ok (Some out)))))))))).

  Definition try_password_l (k : kek) (password : option (list Z)) (out : list Z) : M leftovers (option (list Z)) :=
    match password with
    | None => retM (Ok None)
    | Some p => unlock_with_password_l k p out
    end.

  (* libfsapfs_volume_key_bag.c 730-909: get_volume_key *)
  Fixpoint get_volume_key_l (l : list bag_entry) (user recovery : option (list Z)) (out : list Z) : M leftovers (option (list Z)) :=
    match l with
    | [] => retM (Ok None)
    | e :: l =>
      if negb (be_type e =? 3) then get_volume_key_l l user recovery out else
      onM (kek_read (be_data e)) (fun k =>
      bindM (try_password_l k user out) (fun r =>
      bindM (match r with Some x => retM (Ok (Some x)) | None => try_password_l k recovery out end) (fun r =>
      match r with
      | Some x => retM (Ok (Some x))
      | None => get_volume_key_l l user recovery out
      end)))
    end.

  (* libfsapfs_container_key_bag.c 943-1113: get_volume_master_key_by_identifier *)
  Fixpoint get_master_key_l (l : list bag_entry) (id key out : list Z) : M leftovers (option (list Z)) :=
    match l with
    | [] => retM (Ok None)
    | e :: l =>
      if negb (be_type e =? 2) || negb (list_eqb (be_id e) id) then get_master_key_l l id key out else
      onM (kek_read (be_data e)) (fun k =>
      bindM (unlock_with_key_l k key out) (fun r =>
      match r with
      | Some x => retM (Ok (Some x))
      | None => get_master_key_l l id key out
      end))
    end.

  (* libfsapfs_volume.c 1117-1317: volume_unlock with internal_volume_unlock *)
  Definition unlock_l (b : bags) (v : volume) : M leftovers (Z * volume) :=
    let done := fun (vk mk : list Z) => bindM (give_back VolumeKey vk) (fun _ => give_back MasterKey mk) in
    let vk := before VolumeKey in
    let mk := before MasterKey in
    if negb (v_locked v) then retM (Ok (1, v)) else
    match b_volume b with
    | None => bindM (done vk mk) (fun _ =>
      retM (Ok (1, {| v_locked := false; v_user := v_user v; v_recovery := v_recovery v; v_keys := v_keys v |})))
    | Some l => fun s =>
      match get_volume_key_l l (v_user v) (v_recovery v) vk s with
      | (Ok None, s) => bindM (done vk mk) (fun _ => retM (Ok (0, v))) s
      | (Ok (Some vk), s) =>
        match get_master_key_l (b_container b) (b_id b) vk mk s with
        | (Ok (Some mk), s) =>
          let vk := wipe vk 32 in
          onM (let! k1 := rd mk 0 16 in let! k2 := rd mk 16 16 in Ok (k1, k2)) (fun p =>
          bindM (done vk (wipe mk 32)) (fun _ =>
          retM (Ok (1, {| v_locked := false; v_user := v_user v; v_recovery := v_recovery v; v_keys := Some p |})))) s
        | (Ok None, s) | (Fail, s) => bindM (done (wipe vk 32) (wipe mk 32)) (fun _ => retM (Ok (-1, v))) s
        | (Oob, s) => (Oob, s)
        | (Fuel, s) => (Fuel, s)
        end
      | (Fail, s) => bindM (done (wipe vk 32) (wipe mk 32)) (fun _ => retM (Ok (-1, v))) s
      | (Oob, s) => (Oob, s)
      | (Fuel, s) => (Fuel, s)
      end
    end.

  (* libfsapfs_volume.c 2001-2022 (2159-2180, 2331-2352, 2489-2510), 928-971: a password that is
     set is cleared and freed; its buffer has one byte more than the password *)
  Definition free_password (a : array) (p : option (list Z)) : M leftovers unit :=
    match p with
    | None => retM (Ok tt)
    | Some p => give_back a (wipe (p ++ [0]) (len p + 1))
    end.

  (* the calls of Volume.v; the contents of the arrays are those of [before] *)
  Definition step_l (b : bags) (v : volume) (c : call) : M leftovers (Z * volume) :=
    match c with
    | SetUser p => bindM (free_password UserPassword (v_user v)) (fun _ =>
        retM (Ok (match p with Some _ => 1 | None => -1 end,
        {| v_locked := v_locked v; v_user := p; v_recovery := v_recovery v; v_keys := v_keys v |})))
    | SetRecovery p => bindM (free_password RecoveryPassword (v_recovery v)) (fun _ =>
        retM (Ok (match p with Some _ => 1 | None => -1 end,
        {| v_locked := v_locked v; v_user := v_user v; v_recovery := p; v_keys := v_keys v |})))
    | Unlock _ _ => unlock_l b v
    end.
  Fixpoint run_l (b : bags) (v : volume) (cs : list call) : M leftovers (list Z * volume) :=
    match cs with
    | [] => retM (Ok ([], v))
    | c :: cs => bindM (step_l b v c) (fun p => bindM (run_l b (snd p) cs) (fun q => retM (Ok (fst p :: fst q, snd q))))
    end.

  (* libfsapfs_volume.c 179-238 with 896-971: volume_free of an open volume *)
  Definition free_l (v : volume) : M leftovers unit :=
    bindM (free_password UserPassword (v_user v)) (fun _ => free_password RecoveryPassword (v_recovery v)).

  (* calls on a volume, and then it is freed *)
  Definition session_l (b : bags) (v : volume) (cs : list call) : M leftovers (list Z) :=
    bindM (run_l b v cs) (fun p => bindM (free_l (snd p)) (fun _ => retM (Ok (fst p)))).
End Unlock.
