(* Model of what fsapfsinfo prints about files: fsapfstools/info_handle.c 63-168 (numbers in
   options), 1075-1300, 1769-2237 (one line of a bodyfile), 2628-2970 (the hierarchy), 3420-3560
   (an entry by its path); fsapfstools/digest_hash.c 31-128. System characters are bytes. The
   MD5 of libhmac is a parameter. The texts that are printed before an error are not kept.
   Not modelled: allocation failures, errors of fprintf. *)
From Verif Require Import Base NameSpec Walk Omap Records FsTree Name FsName Snapshot DataRead FileEntry EntryName ToolPath.

(* ---- numbers ---- *)
(* "%" PRIu64: at most 20 digits *)
Fixpoint dec_loop (fuel : nat) (v : Z) (acc : list Z) : list Z :=
  match fuel with
  | O => acc
  | S fuel => if v <? 10 then 48 + v :: acc else dec_loop fuel (v / 10) (48 + v mod 10 :: acc)
  end.
Definition dec (v : Z) : list Z := dec_loop 20 v [].
(* "%" PRIi64 *)
Definition dec_signed (v : Z) : list Z := if v <? 0 then 45 :: dec (- v) else dec v.
(* "%09" PRIi64: zeros up to a width of 9, the sign included *)
Definition pad (n : Z) (l : list Z) : list Z := repeat 48 (Z.to_nat (n - len l)) ++ l.
Definition dec_nine (v : Z) : list Z := if v <? 0 then 45 :: pad 8 (dec (- v)) else pad 9 (dec v).
(* int64_t *)
Definition s64 (x : Z) : Z := if x <? 2 ^ 63 then x else x - 2 ^ 64.

(* info_handle.c 2223-2236: the quotients of C are rounded towards zero *)
Definition time_text (stored : Z) : list Z :=
  let t := s64 stored in
  dec_signed (Z.quot t 1000000000) ++ [46] ++ dec_nine (t - Z.quot t 1000000000 * 1000000000).

(* info_handle.c 63-168, of the characters before the end of the string; max: the highest index
   of a digit (20, or 21 after a sign) *)
Fixpoint option_loop (max i : Z) (l : list Z) (v : Z) : res Z :=
  match l with
  | [] => Ok v
  | c :: l =>
    let! _ := check (i <=? max) in
    let! _ := check ((48 <=? c) && (c <=? 57)) in
    option_loop max (i + 1) l (w64 (w64 (v * 10) + (c - 48)))
  end.
Definition option_value (l : list Z) : res Z :=
  match l with
  | c :: r =>
    if c =? 45 then let! v := option_loop 21 1 r 0 in Ok (w64 (v * (2 ^ 64 - 1)))
    else if c =? 43 then option_loop 21 1 r 0
    else option_loop 20 0 l 0
  | [] => Ok 0
  end.

(* info_handle.c 1853, 2001-2066 *)
Definition mode_char (m : Z) (k : Z) (c : Z) : Z := if Z.testbit m k then c else 45.
Definition mode_type (m : Z) : Z :=
  let t := Z.land m 0xf000 in
  if t =? 0x1000 then 112 else if t =? 0x2000 then 99 else if t =? 0x4000 then 100 else if t =? 0x6000 then 98
  else if t =? 0xa000 then 108 else if t =? 0xc000 then 115 else 45.
Definition mode_text (m : Z) : list Z :=
  [mode_type m; mode_char m 8 114; mode_char m 7 119; mode_char m 6 120; mode_char m 5 114; mode_char m 4 119; mode_char m 3 120;
   mode_char m 2 114; mode_char m 1 119; mode_char m 0 120].

(* digest_hash.c 31-128 *)
Definition digest_text (digest : list Z) (size : Z) : res (list Z) :=
  let! _ := check (2 * len digest + 1 <=? size) in
  Ok (concat (map (fun b => [hex_digit (b / 16); hex_digit (b mod 16)]) digest)).

Section Info.
  Variable lzvn : list Z -> Z -> res (list Z).
  Variable junk : list Z -> list Z -> list Z.
  Variable md5 : list Z -> list Z.

  (* ---- info_handle.c 1075-1241 ---- *)
  Fixpoint md5_loop (e : fentry) (fuel : nat) (size : Z) (data : list Z) (st : fstate) : res (list Z * fstate) :=
    match fuel with
    | O => Fuel
    | S fuel =>
      if size <=? 0 then Ok (data, st)
      else
        let n := Z.min 4096 size in
        let! (a, st) := entry_call lzvn junk e (CRead n) st in
        match a with
        | RBytes d => let! _ := check (len d =? n) in md5_loop e fuel (size - n) (data ++ d) st
        | _ => Fail
        end
    end.
  Definition md5_text (e : fentry) (st : fstate) : res (list Z * fstate) :=
    let! (a, st) := entry_call lzvn junk e CSize st in
    match a with
    | RSize size =>
      let! (b, st) := entry_call lzvn junk e (CSeek 0 0) st in
      match b with
      | RPos _ =>
        let! (d, st) := md5_loop e (S (Z.to_nat ((size + 4095) / 4096))) size [] st in
        let! t := digest_text (md5 d) 33 in
        Ok (t, st)
      | _ => Fail
      end
    | _ => Fail
    end.

  (* ---- info_handle.c 1839-2237: a line of a bodyfile, without the end of line; calc:
     calculate_md5. The target of a symbolic link is printed as it is. ---- *)
  Definition body_line (calc : bool) (e : fentry) (path name : list Z) (st : fstate) : res (list Z * fstate) :=
    let i := fe_inode e in
    let! (k, st) := entry_call lzvn junk e CLink st in
    let! target :=
      match k with
      | RLink None => Ok None
      | RLink (Some v) => let! s := stream_text v (len v) in Ok (Some (c_string (utf8 s)))
      | _ => Fail
      end in
    let! (z, st) := entry_call lzvn junk e CSize st in
    match z with
    | RSize size =>
      let! (sum, st) :=
        if negb calc then Ok ([48], st)
        else if Z.land (in_mode i) 0xf000 =? 0x8000 then md5_text e st
        else Ok (repeat 48 32, st) in
      let! p := bodyfile_from path in
      let! n := if fe_id e =? 2 then Ok [] else bodyfile_from name in
      Ok (sum ++ [124] ++ p ++ n ++ (match target with Some t => [32; 45; 62; 32] ++ t | None => [] end) ++
          [124] ++ dec (fe_id e) ++ [124] ++ mode_text (in_mode i) ++ [124] ++ dec (in_owner i) ++ [124] ++ dec (in_group i) ++ [124] ++ dec size ++
          [124] ++ time_text (in_access i) ++ [124] ++ time_text (in_mtime i) ++ [124] ++ time_text (in_changed i) ++ [124] ++ time_text (in_created i), st)
    | _ => Fail
    end.
  (* info_handle.c 2786-2825: a line of the hierarchy *)
  Definition path_line (e : fentry) (path name : list Z) (st : fstate) : res (list Z * fstate) :=
    let! p := path_from path in
    let! n := if fe_id e =? 2 then Ok [] else path_from name in
    Ok (p ++ n, st).

  (* ---- info_handle.c 2628-2970. The function calls itself for every sub entry; Fuel: it does
     not come back. ---- *)
  Section Hierarchy.
    Variable line : fentry -> list Z -> list Z -> fstate -> res (list Z * fstate).
    Fixpoint hierarchy (fuel : nat) (e : fentry) (path : list Z) : res (list (list Z)) :=
      match fuel with
      | O => Fuel
      | S fuel =>
        let (n, st) := entry_subs e f_init in
        let! n := n in
        let path := c_string path in
        let! size := entry_name_size utf8 e in
        let! name := entry_name utf8 e size in
        let name := slice name 0 (size - 1) in
        let! (l, st) := line e path name st in
        let sub := path ++ (if fe_id e =? 2 then [] else name ++ [47]) in
        let! ls := (fix each (k : nat) (i : Z) (st : fstate) : res (list (list Z)) :=
          match k with
          | O => Ok []
          | S k =>
            let (x, st) := entry_sub e i st in
            let! x := x in
            let! l := hierarchy fuel x sub in
            let! ls := each k (i + 1) st in
            Ok (l ++ ls)
          end) (Z.to_nat n) 0 st in
        Ok (l :: ls)
      end.
    (* info_handle.c 3149-3182 with libfsapfs_volume_get_root_directory: the lines of a volume;
       prefix: its identifier between separators *)
    Definition volume_lines (fuel : nat) (t : fs) (img : image) (ctx : option (list Z -> list Z -> list Z)) (prefix : list Z) : res (list (list Z)) :=
      let! r := fs_inode t 2 in
      match r with
      | None => Ok []
      | Some (id, v) => hierarchy fuel (mk_fe t img ctx id v None) prefix
      end.
  End Hierarchy.
End Info.

(* info_handle.c 3509-3560: the entry of a path in an option *)
Definition info_open (bad : Z -> option (list Z)) (t : fs) (fold : bool) (p : list Z) : res (option (Z * inode * option dentry)) :=
  let! q := path_to bad 47 p in
  fs_by_path t utf8_next fold 2 (c_string q).
