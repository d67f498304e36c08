(* Common definitions: bytes, outcomes of C functions, checked buffer access,
   little/big-endian integers. No proofs about the code here. *)
From Coq Require Export List ZArith Lia Bool Arith.
From Coq Require Export ZifyBool ZifyNat.
Export ListNotations.
Open Scope Z_scope.

(* Outcome of a C function: normal return, error return (-1), undefined behaviour
   (access outside a buffer), model recursion budget exhausted. *)
Inductive res (A : Type) : Type :=
| Ok (a : A)
| Fail
| Oob
| Fuel.
Arguments Ok {A} a.
Arguments Fail {A}.
Arguments Oob {A}.
Arguments Fuel {A}.

Definition bind {A B : Type} (r : res A) (f : A -> res B) : res B :=
  match r with
  | Ok a => f a
  | Fail => Fail
  | Oob => Oob
  | Fuel => Fuel
  end.

Notation "'let!' x ':=' r 'in' k" := (bind r (fun x => k))
  (at level 200, x pattern, right associativity).

(* [check b] is the C pattern  if( !b ) { error; return( -1 ); } *)
Definition check (b : bool) : res unit := if b then Ok tt else Fail.

Definition len {A : Type} (l : list A) : Z := Z.of_nat (length l).

Definition is_byte (b : Z) : Prop := 0 <= b < 256.
Definition bytes (l : list Z) : Prop := Forall is_byte l.

(* Checked access to element [i] of a buffer: Oob is undefined behaviour. *)
Definition getb {A : Type} (l : list A) (i : Z) : res A :=
  if (0 <=? i) && (i <? len l) then
    match nth_error l (Z.to_nat i) with
    | Some x => Ok x
    | None => Oob
    end
  else Oob.

(* The sub-range [off, off+n). *)
Definition slice {A : Type} (l : list A) (off n : Z) : list A :=
  firstn (Z.to_nat n) (skipn (Z.to_nat off) l).

(* Checked copy of n elements starting at off (memory_copy source side). *)
Definition rd {A : Type} (l : list A) (off n : Z) : res (list A) :=
  if (0 <=? off) && (0 <=? n) && (off + n <=? len l) then Ok (slice l off n) else Oob.

(* Value of a little-endian / big-endian byte string. *)
Fixpoint le_val (l : list Z) : Z :=
  match l with
  | [] => 0
  | b :: r => b + 256 * le_val r
  end.

Fixpoint be_val_acc (acc : Z) (l : list Z) : Z :=
  match l with
  | [] => acc
  | b :: r => be_val_acc (256 * acc + b) r
  end.
Definition be_val (l : list Z) : Z := be_val_acc 0 l.

(* Little-endian / big-endian encoding on n bytes. *)
Fixpoint le_enc (n : nat) (v : Z) : list Z :=
  match n with
  | O => []
  | S m => (v mod 256) :: le_enc m (v / 256)
  end.

Definition be_enc (n : nat) (v : Z) : list Z := rev (le_enc n v).

(* byte_stream_copy_to_uintN_little_endian at an offset (checked). *)
Definition rd_le (n : Z) (l : list Z) (off : Z) : res Z :=
  let! s := rd l off n in Ok (le_val s).
Definition rd_be (n : Z) (l : list Z) (off : Z) : res Z :=
  let! s := rd l off n in Ok (be_val s).

Definition zeros (n : Z) : list Z := repeat 0 (Z.to_nat n).

Definition w8  (x : Z) : Z := x mod 2 ^ 8.
Definition w16 (x : Z) : Z := x mod 2 ^ 16.
Definition w32 (x : Z) : Z := x mod 2 ^ 32.
Definition w64 (x : Z) : Z := x mod 2 ^ 64.

Definition is_ok {A} (r : res A) : bool := match r with Ok _ => true | _ => false end.
