(* Byte buffers holding packed little-endian structs (message payloads, config space). *)
From Verif Require Import Base.
From Coq Require Import NArith ZArith List Bool.
Import ListNotations.
Open Scope N_scope.

(* n little-endian bytes of x: what storing a uint8_t/16/32/64 field leaves in memory. *)
Fixpoint le_bytes (n : nat) (x : N) : list N :=
  match n with
  | O => []
  | S n' => x mod 256 :: le_bytes n' (x / 256)
  end.

(* The value read back from little-endian bytes. *)
Fixpoint le_val (l : list N) : N :=
  match l with
  | [] => 0
  | b :: l' => b + 256 * le_val l'
  end.

(* The bytes [off, off+n) of a buffer; None is an access outside the buffer. *)
Definition slice (l : list N) (off n : nat) : option (list N) :=
  if Nat.leb (off + n) (length l) then Some (firstn n (skipn off l)) else None.

(* Reading an n-byte field at byte offset off of a packed struct. *)
Definition rd (l : list N) (off n : nat) : option N :=
  match slice l off n with
  | Some s => Some (le_val s)
  | None => None
  end.

(* Overwriting length new bytes at offset off (memcpy into a buffer); None is out of bounds. *)
Definition put_slice (l : list N) (off : nat) (new : list N) : option (list N) :=
  if Nat.leb (off + length new) (length l)
  then Some (firstn off l ++ new ++ skipn (off + length new) l)
  else None.

(* A buffer holds bytes. *)
Definition is_byte (b : N) : Prop := b < 256.
Definition bytes (l : list N) : Prop := Forall is_byte l.

(* A zero-filled buffer (calloc). *)
Definition zeros (n : nat) : list N := repeat 0 n.

(* Read a field and continue, or crash when it lies outside the buffer. *)
Definition need {A B : Type} (o : option A) (bad : B) (k : A -> B) : B :=
  match o with Some a => k a | None => bad end.
